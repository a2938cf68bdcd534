(** When Generate returns. *)
From Coq Require Import ZArith String Ascii List Bool Lia SpecFloat Relations.
From Verif Require Import GoBase Utf8 Unicode Tokens Ast GoAst Codegen CodegenSpec CodegenFacts CodegenInv CodegenDecl.
Import ListNotations.
Local Open Scope string_scope.
Local Open Scope Z_scope.

Definition is_ok {A} (r : res A) : Prop := exists a, r = Ok a.

Lemma is_ok_bind : forall A B (m : res A) (f : A -> res B), is_ok m -> (forall a, m = Ok a -> is_ok (f a)) -> is_ok (rbind m f).
Proof. intros A B m f [a Ha] Hf. rewrite Ha. cbn. now apply Hf. Qed.

Definition no_panic {A} (r : res A) : Prop := forall w, r <> Panic w.

Lemma no_panic_bind : forall A B (m : res A) (f : A -> res B), no_panic m -> (forall a, no_panic (f a)) -> no_panic (rbind m f).
Proof. intros A B m f Hm Hf w H. destruct m; cbn in H; [exact (Hf _ _ H)|exact (Hm _ eq_refl)|discriminate]. Qed.

Section Term.
  Context (U : unicode_tables) (fmt : spec_float -> string).
  Context (params : GenParams) (tagDefault : Z) (asg : list Assignment_) (fuel : nat).

  Notation gen := (generateTypeBody U params tagDefault asg fuel).

  (** * No panic *)

  Lemma np_ok : forall A (a : A), no_panic (Ok a).
  Proof. intros A a w H. discriminate. Qed.

  Lemma np_resolve : forall n s, no_panic (resolveTypeReference asg fuel n s).
  Proof.
    intros n s. apply no_panic_bind; [intro w; apply unwrap_no_panic|]. intros [m t].
    destruct t; try apply np_ok. destruct (lookupUsefulType m); apply np_ok.
  Qed.

  Lemma np_tagged : forall hops t s, no_panic (taggedChoiceTypeAlternative asg hops fuel t s).
  Proof.
    induction hops as [|h IHh]; intro t; induction t using atype_ind'; intro s0; try apply np_ok.
    - cbn. destruct (_ || _); [apply np_ok|]. apply no_panic_bind; [apply np_resolve|].
      intros [[[m t]|] s1]; [intros w H; discriminate|apply np_ok].
    - apply IHt.
    - cbn. destruct (_ || _); [apply np_ok|]. apply no_panic_bind; [apply np_resolve|].
      intros [[[m t]|] s1]; [apply IHh|apply np_ok].
    - apply IHt.
  Qed.

  Lemma np_has : forall l s, no_panic (hasTaggedAlternatives asg fuel l s).
  Proof.
    induction l as [|[n t] l IH]; intro s; [apply np_ok|]. cbn. apply no_panic_bind; [apply np_tagged|].
    intros [b s1]. destruct b; [apply np_ok|apply IH].
  Qed.

  Lemma np_tag : forall f t o d s, no_panic (asn1TagFromType tagDefault asg fuel f t o d s).
  Proof.
    intros f t o d s. unfold asn1TagFromType.
    destruct (unwrapTags tagDefault f t (defaultComponents o d) s) as [[cs leaf] s1].
    apply no_panic_bind; [|intro; apply np_ok].
    destruct leaf; try apply np_ok. cbn. apply no_panic_bind; [intro w; apply unwrap_no_panic|].
    intros [m u]. apply np_ok.
  Qed.

  Lemma np_fields : forall l,
    Forall (comp_P (fun t => forall b s, no_panic (gen t b s))) l ->
    forall s, no_panic (genFields U params tagDefault asg fuel l s).
  Proof.
    induction 1 as [|c l Hc Hl IH]; intro s; cbn [genFields]; [apply np_ok|].
    destruct c as [|[n t] o d|t]; [apply IH| |apply IH].
    apply no_panic_bind; [apply Hc|]. intros [[e b] s1]. apply no_panic_bind; [apply np_tag|].
    intros [tag s2]. apply no_panic_bind; [apply IH|]. intros [fs s3]. apply np_ok.
  Qed.

  Lemma np_gen : forall t b s, no_panic (gen t b s).
  Proof.
    induction t using atype_ind'; intros b0 s0; try apply np_ok.
    - cbn [generateTypeBody]. apply no_panic_bind; [apply np_resolve|].
      intros [[[m t]|] s1]; [|apply np_ok]. destruct (generateSpecialCase m t s1) as [[e|] s2]; apply np_ok.
    - cbn [generateTypeBody]. destruct (String.eqb _ _); [apply np_ok|]. destruct (String.eqb _ _); apply np_ok.
    - cbn [generateTypeBody]. apply no_panic_bind; [apply np_has|]. intros [tg s1].
      destruct tg; [apply np_ok|]. destruct a as [|[n t] [|? ?]]; try apply np_ok. inv H. apply H2.
    - rewrite gen_sequence. apply no_panic_bind; [now apply np_fields|]. intros [fs1 s1].
      apply no_panic_bind; [now apply np_fields|]. intros [fs2 s2]. apply np_ok.
    - rewrite gen_set. apply no_panic_bind; [now apply np_fields|]. intros [fs1 s1].
      apply no_panic_bind; [now apply np_fields|]. intros [fs2 s2]. apply np_ok.
    - apply IHt.
    - cbn [generateTypeBody]. apply no_panic_bind; [apply IHt|]. intros [[e b] s1]. apply np_ok.
    - cbn [generateTypeBody]. apply no_panic_bind; [apply IHt|]. intros [[e b] s1]. apply np_ok.
    - apply IHt.
  Qed.

  Lemma np_decls : forall l s, no_panic (generateDeclarations U fmt params tagDefault asg fuel l s).
  Proof.
    induction l as [|[|n t|n t v] l IH]; intro s; cbn [generateDeclarations]; [apply np_ok|apply IH| |].
    - apply no_panic_bind.
      + apply no_panic_bind; [apply np_gen|]. intros [[e b] s1]. destruct b; apply np_ok.
      + intros [d s1]. destruct (generateAssociatedValuesIfNeeded U params n t s1) as [o s2].
        apply no_panic_bind; [apply IH|]. intros [ds s3]. apply np_ok.
    - apply no_panic_bind.
      + unfold tryGenerateValueAssignment. destruct (valueExpr fmt params v); [|apply np_ok].
        apply no_panic_bind; [apply np_gen|]. intros [[e b] s1]. apply np_ok.
      + intros [o s1]. apply no_panic_bind; [apply IH|]. intros [ds s2]. apply np_ok.
  Qed.

  (** * Termination when every chain of references ends *)

  Section Ends.
    Hypothesis Hends : forall n, is_ok (unwrapToLeafType asg fuel n).

    Lemma ok_ok : forall A (a : A), is_ok (Ok a).
    Proof. intros A a. now exists a. Qed.

    Lemma ok_resolve : forall n s, is_ok (resolveTypeReference asg fuel n s).
    Proof.
      intros n s. apply is_ok_bind; [apply Hends|]. intros [m t] _.
      destruct t; try apply ok_ok. destruct (lookupUsefulType m); apply ok_ok.
    Qed.

    Lemma ok_tagged_leaf : forall hops t s, (forall n, strip t <> TReference n) ->
      is_ok (taggedChoiceTypeAlternative asg hops fuel t s).
    Proof.
      intros hops t. destruct hops; induction t using atype_ind'; intros s0 Hs; try apply ok_ok;
        try (exfalso; exact (Hs _ eq_refl)); apply IHt; exact Hs.
    Qed.

    Lemma stands_for_leaf : forall n m t, stands_for asg n m t -> forall k, strip t <> TReference k.
    Proof.
      intros n m t (o & Hl & Ho) k. destruct Ho as [[-> _]|(_ & _ & ->)]; [|discriminate].
      remember (Some t) as ot. induction Hl; inv Heqot; auto.
    Qed.

    Lemma ok_tagged : forall hops, (0 < hops)%nat ->
      forall t s, is_ok (taggedChoiceTypeAlternative asg hops fuel t s).
    Proof.
      intros hops Hf. destruct hops as [|f]; [lia|].
      induction t using atype_ind'; intro s0; try apply ok_ok; [|apply IHt].
      cbn. destruct (_ || _); [apply ok_ok|]. apply is_ok_bind; [apply ok_resolve|].
      intros [[[m t]|] s1] Hr; [|apply ok_ok]. apply ok_tagged_leaf.
      apply resolve_some in Hr as [_ Hr]. eapply stands_for_leaf; eassumption.
    Qed.

    Lemma ok_has : (0 < fuel)%nat -> forall l s, is_ok (hasTaggedAlternatives asg fuel l s).
    Proof.
      intros Hf. induction l as [|[n t] l IH]; intro s; [apply ok_ok|]. cbn.
      apply is_ok_bind; [now apply ok_tagged|]. intros [b s1] _. destruct b; [apply ok_ok|apply IH].
    Qed.

    Lemma ok_tag : forall f t o d s, is_ok (asn1TagFromType tagDefault asg fuel f t o d s).
    Proof.
      intros f t o d s. unfold asn1TagFromType.
      destruct (unwrapTags tagDefault f t (defaultComponents o d) s) as [[cs leaf] s1].
      apply is_ok_bind; [|intros; apply ok_ok].
      destruct leaf; try apply ok_ok. cbn. apply is_ok_bind; [apply Hends|].
      intros [m u] _. apply ok_ok.
    Qed.

    Lemma ok_fields : forall l,
      Forall (comp_P (fun t => forall b s, is_ok (gen t b s))) l ->
      forall s, is_ok (genFields U params tagDefault asg fuel l s).
    Proof.
      induction 1 as [|c l Hc Hl IH]; intro s; cbn [genFields]; [apply ok_ok|].
      destruct c as [|[n t] o d|t]; [apply IH| |apply IH].
      apply is_ok_bind; [apply Hc|]. intros [[e b] s1] _. apply is_ok_bind; [apply ok_tag|].
      intros [tag s2] _. apply is_ok_bind; [apply IH|]. intros [fs s3] _. apply ok_ok.
    Qed.

    Lemma ok_gen : (0 < fuel)%nat -> forall t b s, is_ok (gen t b s).
    Proof.
      intro Hf. induction t using atype_ind'; intros b0 s0; try apply ok_ok.
      - cbn [generateTypeBody]. apply is_ok_bind; [apply ok_resolve|].
        intros [[[m t]|] s1] _; [|apply ok_ok]. destruct (generateSpecialCase m t s1) as [[e|] s2]; apply ok_ok.
      - cbn [generateTypeBody]. destruct (String.eqb _ _); [apply ok_ok|]. destruct (String.eqb _ _); apply ok_ok.
      - cbn [generateTypeBody]. apply is_ok_bind; [now apply ok_has|]. intros [tg s1] _.
        destruct tg; [apply ok_ok|]. destruct a as [|[n t] [|? ?]]; try apply ok_ok. inv H. apply H2.
      - rewrite gen_sequence. apply is_ok_bind; [now apply ok_fields|]. intros [fs1 s1] _.
        apply is_ok_bind; [now apply ok_fields|]. intros [fs2 s2] _. apply ok_ok.
      - rewrite gen_set. apply is_ok_bind; [now apply ok_fields|]. intros [fs1 s1] _.
        apply is_ok_bind; [now apply ok_fields|]. intros [fs2 s2] _. apply ok_ok.
      - apply IHt.
      - cbn [generateTypeBody]. apply is_ok_bind; [apply IHt|]. intros [[e b] s1] _. apply ok_ok.
      - cbn [generateTypeBody]. apply is_ok_bind; [apply IHt|]. intros [[e b] s1] _. apply ok_ok.
      - apply IHt.
    Qed.

    Lemma ok_decls : (0 < fuel)%nat -> forall l s, is_ok (generateDeclarations U fmt params tagDefault asg fuel l s).
    Proof.
      intro Hf. induction l as [|[|n t|n t v] l IH]; intro s; cbn [generateDeclarations]; [apply ok_ok|apply IH| |].
      - apply is_ok_bind.
        + apply is_ok_bind; [now apply ok_gen|]. intros [[e b] s1] _. destruct b; apply ok_ok.
        + intros [d s1] _. destruct (generateAssociatedValuesIfNeeded U params n t s1) as [o s2].
          apply is_ok_bind; [apply IH|]. intros [ds s3] _. apply ok_ok.
      - apply is_ok_bind.
        + unfold tryGenerateValueAssignment. destruct (valueExpr fmt params v); [|apply ok_ok].
          apply is_ok_bind; [now apply ok_gen|]. intros [[e b] s1] _. apply ok_ok.
        + intros [o s1] _. apply is_ok_bind; [apply IH|]. intros [ds s2] _. apply ok_ok.
    Qed.
  End Ends.

  (** * A type whose references lead nowhere stops the generator *)

  Lemma gens_strip_ref : forall t b s e b' s', gens U params tagDefault asg fuel t b s e b' s' ->
    forall n, strip t = TReference n -> is_ok (unwrapToLeafType asg fuel n).
  Proof.
    assert (R : forall n s r, resolveTypeReference asg fuel n s = Ok r -> is_ok (unwrapToLeafType asg fuel n)).
    { intros n s r H. unfold resolveTypeReference in H. bind1 H. exists (x, y). reflexivity. }
    induction 1; intros k Hk; cbn [strip] in Hk; auto;
      try (destruct t; try contradiction; discriminate); try discriminate;
      injection Hk as <-; eauto.
  Qed.

  Lemma gendecls_types : forall l s ds s', gendecls U fmt params tagDefault asg fuel l s ds s' ->
    forall n t, In (AType n t) l -> exists b s e b' s', gens U params tagDefault asg fuel t b s e b' s'.
  Proof.
    induction 1; intros n0 t0 Hi; [contradiction| | | |]; destruct Hi as [Hi|Hi]; try discriminate; eauto.
    injection Hi as <- <-. eauto 8.
  Qed.
End Term.

(** * Chains of references *)

Definition type_names (asg : list Assignment_) : list string :=
  flat_map (fun a => match a with AType n _ => [n] | _ => [] end) asg.

Lemma type_names_length : forall asg, (length (type_names asg) <= length asg)%nat.
Proof. unfold type_names. induction asg as [|[] l IH]; cbn in *; lia. Qed.

Lemma defines_in : forall asg n t, defines asg n t -> In n (type_names asg).
Proof.
  intros asg n t H. apply first_named_in in H. unfold type_names. apply in_flat_map.
  exists (AType n t). cbn. auto.
Qed.

(** A path of references. *)
Inductive path (asg : list Assignment_) : list string -> string -> Prop :=
| path_nil n : path asg [] n
| path_cons n m l : refers asg n m -> path asg l m -> path asg (n :: l) n.

Lemma unwrap_path : forall asg fuel n, unwrapToLeafType asg fuel n = OutOfFuel ->
  exists l, length l = fuel /\ path asg l n.
Proof.
  induction fuel as [|f IH]; intros n H.
  - exists []. split; [reflexivity|constructor].
  - cbn in H. destruct (al_GetType asg n) as [[s u]|] eqn:E; [|discriminate].
    apply GetType_defines in E as (t & Ep & D). injection Ep as -> ->.
    rewrite removeWrapperTypes_strip in H. destruct (strip t) eqn:Es; try discriminate.
    destruct (IH _ H) as (l & Hl & Hp). exists (n :: l). split; [cbn; now rewrite Hl|].
    econstructor; [|eassumption]. exists t. auto.
Qed.

Lemma path_names : forall asg l n, path asg l n -> incl l (type_names asg).
Proof.
  induction 1 as [n|n m l (t & D & _) Hp IH]; [intros x []|].
  intros x [<-|Hx]; [eapply defines_in; eassumption|auto].
Qed.

Lemma path_head : forall asg x l n, path asg (x :: l) n -> x = n.
Proof. intros asg x l n H. now inv H. Qed.

Lemma path_reach : forall asg l n, path asg l n -> forall x, In x l -> x = n \/ clos_trans _ (refers asg) n x.
Proof.
  induction 1 as [n|n m l Hr Hp IH]; intros x Hx; [contradiction|].
  destruct Hx as [<-|Hx]; [now left|]. right. destruct (IH _ Hx) as [->|Hc].
  - now apply t_step.
  - eapply t_trans; [apply t_step; exact Hr|exact Hc].
Qed.

Lemma path_dup : forall asg l n, path asg l n -> ~ NoDup l -> circular asg.
Proof.
  induction 1 as [n|n m l Hr Hp IH]; intro Hd; [exfalso; apply Hd; constructor|].
  destruct (in_dec string_dec n l) as [Hi|Hi].
  - exists n. destruct (path_reach _ _ _ Hp _ Hi) as [->|Hc].
    + now apply t_step.
    + eapply t_trans; [apply t_step; exact Hr|exact Hc].
  - apply IH. intro Hn. apply Hd. now constructor.
Qed.

Lemma acyclic_ends : forall asg fuel, ~ circular asg -> (length asg < fuel)%nat ->
  forall n, is_ok (unwrapToLeafType asg fuel n).
Proof.
  intros asg fuel Hc Hf n. destruct (unwrapToLeafType asg fuel n) as [r|w|] eqn:E.
  - now exists r.
  - now apply unwrap_no_panic in E.
  - exfalso. apply unwrap_path in E as (l & Hl & Hp). apply Hc. eapply path_dup; [eassumption|].
    intro Hd. pose proof (NoDup_incl_length Hd (path_names _ _ _ Hp)). pose proof (type_names_length asg). lia.
Qed.

Lemma refers_leaf : forall asg n m l o, refers asg n m -> leaf_of asg n l o -> leaf_of asg m l o.
Proof.
  intros asg n m l o (t & D & Hs) Hl. inv Hl.
  - exfalso. eapply H; eassumption.
  - rewrite (defines_unique _ _ _ _ D H) in Hs. exfalso. eapply H0; eassumption.
  - rewrite (defines_unique _ _ _ _ D H) in Hs. congruence.
Qed.

(** The number of steps to the leaf. *)
Inductive depth (asg : list Assignment_) : nat -> string -> Prop :=
| dp_undef n : (forall t, ~ defines asg n t) -> depth asg 0 n
| dp_here n t : defines asg n t -> (forall m, strip t <> TReference m) -> depth asg 0 n
| dp_step n m k : refers asg n m -> depth asg k m -> depth asg (S k) n.

Lemma leaf_depth : forall asg n l o, leaf_of asg n l o -> exists k, depth asg k n.
Proof.
  induction 1 as [n H|n t D H|n t m l o D Hs Hl [k Hk]].
  - exists 0%nat. now constructor.
  - exists 0%nat. eapply dp_here; eassumption.
  - exists (S k). eapply dp_step; [|eassumption]. exists t. auto.
Qed.

Lemma refers_det : forall asg n m m', refers asg n m -> refers asg n m' -> m = m'.
Proof.
  intros asg n m m' (t & D & Hs) (t' & D' & Hs'). rewrite (defines_unique _ _ _ _ D D') in Hs. congruence.
Qed.

Lemma depth_step : forall asg n m k, refers asg n m -> depth asg k n -> exists j, (j < k)%nat /\ depth asg j m.
Proof.
  intros asg n m k Hr Hd. inv Hd.
  - destruct Hr as (t & D & _). exfalso. eapply H; eassumption.
  - destruct Hr as (t' & D & Hs). rewrite (defines_unique _ _ _ _ D H) in Hs. exfalso. eapply H0; eassumption.
  - rewrite (refers_det _ _ _ _ Hr H). exists k0. split; [lia|assumption].
Qed.

Lemma depth_trans : forall asg n m, clos_trans _ (refers asg) n m -> forall k, depth asg k n ->
  exists j, (j < k)%nat /\ depth asg j m.
Proof.
  induction 1 as [n m Hr|n m p H1 IH1 H2 IH2]; intros k Hd.
  - eapply depth_step; eassumption.
  - destruct (IH1 _ Hd) as (j & Hj & Hdj). destruct (IH2 _ Hdj) as (i & Hi & Hdi). exists i. split; [lia|assumption].
Qed.

Lemma no_depth_cycle : forall asg n, clos_trans _ (refers asg) n n -> forall k, ~ depth asg k n.
Proof.
  intros asg n Hc. intro k. induction k as [k IH] using lt_wf_ind. intro Hd.
  destruct (depth_trans _ _ _ Hc _ Hd) as (j & Hj & Hdj). exact (IH j Hj Hdj).
Qed.

Lemma clos_first : forall asg n m, clos_trans _ (refers asg) n m -> exists p, refers asg n p.
Proof. induction 1; eauto. Qed.

(** * Generate *)

Lemma Generate_ok_any : forall U fmt p fuel m, md_TagDefault m <> TAGS_AUTOMATIC ->
  is_ok (generateDeclarations U fmt (NewCodeGenerator p) (md_TagDefault m)
    (mb_AssignmentList (md_ModuleBody m)) fuel (mb_AssignmentList (md_ModuleBody m)) init_state) <->
  is_ok (Generate U fmt p fuel m).
Proof.
  intros U fmt p fuel m Ht. unfold Generate, GenerateWith.
  destruct (Z.eqb_spec (md_TagDefault m) TAGS_AUTOMATIC); [contradiction|].
  fold init_state.
  destruct (generateDeclarations _ _ _ _ _ _ _ _) as [[ds s]| |] eqn:E; cbn [rbind].
  - split; intros _; [|eexists; reflexivity]. destruct (gs_errors s); eexists; reflexivity.
  - split; intros [x Hx]; discriminate.
  - split; intros [x Hx]; discriminate.
Qed.

Lemma Generate_terminates : forall U fmt p fuel m,
  ~ circular (mb_AssignmentList (md_ModuleBody m)) ->
  (length (mb_AssignmentList (md_ModuleBody m)) < fuel)%nat ->
  is_ok (Generate U fmt p fuel m).
Proof.
  intros U fmt p fuel m Hc Hf.
  destruct (Z.eq_dec (md_TagDefault m) TAGS_AUTOMATIC) as [Ha|Ha].
  - unfold Generate, GenerateWith. rewrite Ha. eexists. reflexivity.
  - apply Generate_ok_any; [assumption|]. apply ok_decls; [|lia]. now apply acyclic_ends.
Qed.

Lemma Generate_no_panic : forall U fmt p fuel m, no_panic (Generate U fmt p fuel m).
Proof.
  intros U fmt p fuel m. unfold Generate, GenerateWith. destruct (_ =? _); [apply np_ok|].
  apply no_panic_bind; [apply np_decls|]. intros [ds s]. destruct (gs_errors s); apply np_ok.
Qed.

Lemma Generate_diverges : forall U fmt p fuel m, md_TagDefault m <> TAGS_AUTOMATIC ->
  circular (mb_AssignmentList (md_ModuleBody m)) -> Generate U fmt p fuel m = OutOfFuel.
Proof.
  intros U fmt p fuel m Ha [n Hc].
  destruct (Generate U fmt p fuel m) as [r|w|] eqn:E; [|exfalso; exact (Generate_no_panic _ _ _ _ _ _ E)|reflexivity].
  exfalso. assert (Hok : is_ok (Generate U fmt p fuel m)) by (now exists r).
  apply Generate_ok_any in Hok as [[ds s] Hd]; [|assumption]. apply decls_gendecls in Hd.
  destruct (clos_first _ _ _ Hc) as (k & t & D & Hs).
  pose proof (first_named_in _ _ _ D) as Hi.
  destruct (gendecls_types _ _ _ _ _ _ _ _ _ _ Hd _ _ Hi) as (b & s1 & e & b' & s2 & Hg).
  destruct (gens_strip_ref _ _ _ _ _ _ _ _ _ _ _ Hg _ Hs) as [[x y] Hu].
  apply unwrap_leaf in Hu as (o & Hl & _). apply leaf_depth in Hl as [j Hj].
  apply (no_depth_cycle _ _ Hc (S j)). eapply dp_step; [|exact Hj]. exists t. auto.
Qed.
