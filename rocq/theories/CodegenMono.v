(** More fuel does not change a result of Generate. *)
From Coq Require Import ZArith String Ascii List Bool Lia SpecFloat.
From Verif Require Import GoBase Utf8 Unicode Tokens Ast GoAst Codegen CodegenSpec CodegenFacts CodegenInv CodegenDecl
  CodegenTag CodegenTerm CodegenSupp GoifyFacts CodegenShape.
Import ListNotations.
Local Open Scope string_scope.
Local Open Scope Z_scope.

Definition le_res {A} (r r' : res A) : Prop := forall x, r = Ok x -> r' = Ok x.

Lemma le_refl : forall A (r : res A), le_res r r.
Proof. intros A r x H. exact H. Qed.

Lemma le_bind : forall A B (m m' : res A) (k k' : A -> res B), le_res m m' -> (forall x, le_res (k x) (k' x)) ->
  le_res (rbind m k) (rbind m' k').
Proof.
  intros A B m m' k k' Hm Hk x H. destruct m as [y| |]; try discriminate. rewrite (Hm y eq_refl). cbn in *. now apply Hk.
Qed.

Section Mono.
  Context (U : unicode_tables) (fmt : spec_float -> string).
  Context (params : GenParams) (tagDefault : Z) (asg : list Assignment_) (f g : nat).
  Hypothesis Hfg : (f <= g)%nat.

  Notation gen := (generateTypeBody U params tagDefault asg).

  Lemma le_unwrap : forall n, le_res (unwrapToLeafType asg f n) (unwrapToLeafType asg g n).
  Proof. intros n x H. eapply unwrap_mono; eassumption. Qed.

  Lemma le_resolve : forall n s, le_res (resolveTypeReference asg f n s) (resolveTypeReference asg g n s).
  Proof. intros n s. unfold resolveTypeReference. apply le_bind; [apply le_unwrap|]. intros [x t]. apply le_refl. Qed.

  Lemma le_tagged : forall h h', (h <= h')%nat -> forall t s,
    le_res (taggedChoiceTypeAlternative asg h f t s) (taggedChoiceTypeAlternative asg h' g t s).
  Proof.
    induction h as [|h IH]; intros h' Hh t; induction t using atype_ind'; intros s0;
      try (destruct h'; apply le_refl).
    - assert (E : forall h0 g0, taggedChoiceTypeAlternative asg h0 g0 (TReference n) s0 =
        if String.eqb n GeneralizedTimeName || String.eqb n UTCTimeName then Ok (false, s0)
        else do (o, s1) <- resolveTypeReference asg g0 n s0;
             match o with None => Ok (false, s1) | Some (_, t') =>
               match h0 with O => OutOfFuel | S h1 => taggedChoiceTypeAlternative asg h1 g0 t' s1 end end)
        by (intros [|] ?; reflexivity).
      rewrite !E. destruct (_ || _); [apply le_refl|]. apply le_bind; [apply le_resolve|].
      intros [[[m t']|] s1]; [|apply le_refl]. intros x Hx. discriminate.
    - destruct h'; apply IHt.
    - assert (E : forall h0 g0, taggedChoiceTypeAlternative asg h0 g0 (TReference n) s0 =
        if String.eqb n GeneralizedTimeName || String.eqb n UTCTimeName then Ok (false, s0)
        else do (o, s1) <- resolveTypeReference asg g0 n s0;
             match o with None => Ok (false, s1) | Some (_, t') =>
               match h0 with O => OutOfFuel | S h1 => taggedChoiceTypeAlternative asg h1 g0 t' s1 end end)
        by (intros [|] ?; reflexivity).
      rewrite !E. destruct (_ || _); [apply le_refl|]. apply le_bind; [apply le_resolve|].
      intros [[[m t']|] s1]; [|apply le_refl]. destruct h' as [|h']; [lia|]. apply IH. lia.
    - destruct h'; [lia|]. apply IHt.
  Qed.

  Lemma le_has : forall l s, le_res (hasTaggedAlternatives asg f l s) (hasTaggedAlternatives asg g l s).
  Proof.
    induction l as [|[n t] l IH]; intro s; cbn [hasTaggedAlternatives]; [apply le_refl|].
    apply le_bind; [apply le_tagged; assumption|]. intros [[] s1]; [apply le_refl|apply IH].
  Qed.

  Lemma le_tagOf : forall field t o d s,
    le_res (asn1TagFromType tagDefault asg f field t o d s) (asn1TagFromType tagDefault asg g field t o d s).
  Proof.
    intros field t o d s. unfold asn1TagFromType. destruct (unwrapTags _ _ _ _ _) as [[cs leaf] s1].
    apply le_bind; [|intro; apply le_refl].
    destruct leaf; try apply le_refl. cbn. apply le_bind; [apply le_unwrap|]. intros [x y]. apply le_refl.
  Qed.

  Lemma le_fields : forall l, Forall (comp_P (fun t => forall b s, le_res (gen f t b s) (gen g t b s))) l ->
    forall s, le_res (genFields U params tagDefault asg f l s) (genFields U params tagDefault asg g l s).
  Proof.
    induction 1 as [|c l Hc Hl IH]; intro s; cbn [genFields]; [apply le_refl|].
    destruct c as [|[n t] o d|t]; [apply IH| |apply IH].
    apply le_bind; [apply Hc|]. intros [[e b] s1]. apply le_bind; [apply le_tagOf|]. intros [tag s2].
    apply le_bind; [apply IH|]. intros [fs s3]. apply le_refl.
  Qed.

  Lemma le_gen : forall t b s, le_res (gen f t b s) (gen g t b s).
  Proof.
    induction t using atype_ind'; intros b0 s0; try apply le_refl.
    - cbn [generateTypeBody]. apply le_bind; [apply le_resolve|]. intros [[[m t]|] s1]; apply le_refl.
    - cbn [generateTypeBody]. apply le_bind; [apply le_has|]. intros [[] s1]; [apply le_refl|].
      destruct a as [|[n t] [|? ?]]; try apply le_refl. inv H. apply H2.
    - rewrite !gen_sequence. apply le_bind; [now apply le_fields|]. intros [fs1 s1].
      apply le_bind; [now apply le_fields|]. intros [fs2 s2]. apply le_refl.
    - rewrite !gen_set. apply le_bind; [now apply le_fields|]. intros [fs1 s1].
      apply le_bind; [now apply le_fields|]. intros [fs2 s2]. apply le_refl.
    - apply IHt.
    - cbn [generateTypeBody]. apply le_bind; [apply IHt|]. intros [[e b] s1]. apply le_refl.
    - cbn [generateTypeBody]. apply le_bind; [apply IHt|]. intros [[e b] s1]. apply le_refl.
    - apply IHt.
  Qed.

  Lemma le_decls : forall l s, le_res (generateDeclarations U fmt params tagDefault asg f l s)
    (generateDeclarations U fmt params tagDefault asg g l s).
  Proof.
    induction l as [|[|n t|n t v] l IH]; intro s; cbn [generateDeclarations]; [apply le_refl|apply IH| |].
    - apply le_bind.
      + unfold generateTypeDecl. apply le_bind; [apply le_gen|]. intros [[e b] s1]. apply le_refl.
      + intros [d s1]. destruct (generateAssociatedValuesIfNeeded U params n t s1) as [o s2].
        apply le_bind; [apply IH|]. intros [ds s3]. apply le_refl.
    - apply le_bind.
      + unfold tryGenerateValueAssignment. destruct (valueExpr fmt params v); [|apply le_refl].
        apply le_bind; [apply le_gen|]. intros [[e b] s1]. apply le_refl.
      + intros [o s1]. apply le_bind; [apply IH|]. intros [ds s2]. apply le_refl.
  Qed.
End Mono.

Lemma Generate_mono : forall U fmt p f g m r, (f <= g)%nat ->
  Generate U fmt p f m = Ok r -> Generate U fmt p g m = Ok r.
Proof.
  intros U fmt p f g m r Hfg. unfold Generate, GenerateWith. destruct (_ =? _); [auto|].
  apply le_bind; [now apply le_decls|]. intros [ds s]. apply le_refl.
Qed.

(** * When Generate succeeds *)

Lemma Generate_returns : forall U fmt p m, ~ circular (mb_AssignmentList (md_ModuleBody m)) ->
  exists r, forall fuel, (length (mb_AssignmentList (md_ModuleBody m)) < fuel)%nat -> Generate U fmt p fuel m = Ok r.
Proof.
  intros U fmt p m Hc.
  destruct (Generate_terminates U fmt p (S (length (mb_AssignmentList (md_ModuleBody m)))) m Hc (le_n _)) as [r Hr].
  exists r. intros fuel Hf. eapply Generate_mono; [|exact Hr]. exact Hf.
Qed.

Lemma Generate_success : forall U fmt p fuel m r, Generate U fmt p fuel m = Ok r ->
  ((exists f, r = GenOk f) <->
   md_TagDefault m <> TAGS_AUTOMATIC /\
   Forall (assignment_ok (md_TagDefault m) (mb_AssignmentList (md_ModuleBody m)) (integer_repr p))
     (mb_AssignmentList (md_ModuleBody m))).
Proof.
  intros U fmt p fuel m r H. unfold Generate, GenerateWith in H.
  destruct (Z.eqb_spec (md_TagDefault m) TAGS_AUTOMATIC) as [E|E].
  { injection H as <-. split; [intros [f Hf]; discriminate|tauto]. }
  bind1 H. apply decls_gendecls in E0. apply gendecls_same in E0. rewrite params_repr in E0. rewrite <- E0.
  unfold same. cbn [gs_errors]. destruct (gs_errors y); injection H as <-.
  - split; [auto|]. intros _. eexists. reflexivity.
  - split; [intros [f Hf]; discriminate|]. intros [_ H]. discriminate.
Qed.

Section Visible.
  Context (td : Z) (asg : list Assignment_) (repr : string).

  Lemma comps_in : forall l, comps_ok td asg repr l -> forall n t o d, In (CNamed (Named n t) o d) l ->
    supported td asg repr t /\ tags_ok td t.
  Proof.
    induction l as [|c l IH]; intros H n t o d Hi; [contradiction|].
    destruct Hi as [->|Hi]; [inv H; auto|]. inv H; eauto.
  Qed.

  Lemma comps_no_of : forall l, comps_ok td asg repr l -> forall t, ~ In (CComponentsOf t) l.
  Proof.
    induction l as [|c l IH]; intros H t Hi; [contradiction|].
    destruct Hi as [->|Hi]; [inv H|]. inv H; eapply IH; eauto.
  Qed.

  Lemma visible_supported : forall t u, visible asg t u -> supported td asg repr t -> supported td asg repr u.
  Proof.
    induction 1; intro Hs; auto; inv Hs; auto.
    - eapply IHvisible, comps_in; eassumption.
    - eapply IHvisible, comps_in; eassumption.
    - apply IHvisible. eapply H4; [reflexivity|assumption].
  Qed.
End Visible.
