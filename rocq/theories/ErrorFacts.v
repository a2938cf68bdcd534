(** The errors Generate collects are the problems of the module. *)
From Coq Require Import ZArith String Ascii List Bool Lia SpecFloat.
From Verif Require Import GoBase Utf8 Unicode Tokens Ast GoAst Codegen CodegenSpec CodegenFacts CodegenInv CodegenDecl
  CodegenTag CodegenTerm CodegenSupp GoifyFacts CodegenShape CodegenMono GenText ErrorSpec.
Import ListNotations.
Local Open Scope string_scope.
Local Open Scope list_scope.
Local Open Scope Z_scope.

Section Errors.
  Context (st : AType_ -> string) (sv : Value -> string).
  Context (U : unicode_tables) (fmt : spec_float -> string).
  Context (params : GenParams) (td : Z) (asg : list Assignment_) (fuel : nat).
  Notation repr := (gp_IntegerRepr params).
  Notation flaw := (flaw st sv td asg repr).

  (** From [s] to [s'] the errors added have the texts in [P]. *)
  Definition adds (s s' : gstate) (P : string -> Prop) : Prop :=
    exists es, gs_errors s' = gs_errors s ++ es /\ forall x, In x (map (error_text st sv) es) <-> P x.

  Lemma adds_nothing : forall s s' P, gs_errors s' = gs_errors s -> (forall x, ~ P x) -> adds s s' P.
  Proof. intros s s' P E H. exists []. rewrite app_nil_r. split; [exact E|]. intro x. split; [intros []|intro Hx; now apply H in Hx]. Qed.

  Lemma adds_one : forall s e P, (forall x, P x <-> x = error_text st sv e) -> adds s (appendError e s) P.
  Proof. intros s e P H. exists [e]. split; [reflexivity|]. intro x. rewrite H. cbn. split; [intros [<-|[]]; reflexivity|auto]. Qed.

  Lemma adds_trans : forall a b c P Q R, adds a b P -> adds b c Q -> (forall x, R x <-> P x \/ Q x) -> adds a c R.
  Proof.
    intros a b c P Q R (e1 & E1 & H1) (e2 & E2 & H2) H. exists (e1 ++ e2). split; [now rewrite E2, E1, app_assoc|].
    intro x. rewrite map_app, in_app_iff, H1, H2, H. reflexivity.
  Qed.

  Lemma adds_iff : forall a b P Q, adds a b P -> (forall x, Q x <-> P x) -> adds a b Q.
  Proof. intros a b P Q (es & E & H) HQ. exists es. split; [exact E|]. intro x. now rewrite H, HQ. Qed.

  Lemma adds_or : forall a b c P Q, adds a b P -> adds b c Q -> adds a c (fun x => P x \/ Q x).
  Proof. intros a b c P Q H1 H2. eapply adds_trans; [exact H1|exact H2|]. reflexivity. Qed.

  Lemma resolve_adds : forall n s o s', resolveTypeReference asg fuel n s = Ok (o, s') ->
    adds s s' (fun x => ~ resolvable asg n /\ x = ("can not resolve TypeReference " ++ n)%string).
  Proof.
    intros n s o s' H. pose proof (resolve_iff asg fuel _ _ _ _ H) as Hi. destruct o as [[m t]|].
    - apply resolve_some in H as [-> Hs]. apply adds_nothing; [reflexivity|]. intros x [Hx _]. apply Hx. exists m, t. assumption.
    - apply resolve_none in H as (-> & _). apply adds_one. intro x. cbn [error_text]. split; [tauto|].
      intros ->. split; [|reflexivity]. rewrite <- Hi. apply same_append.
  Qed.

  Definition alt_problem (t : AType_) (x : string) : Prop :=
    exists r, unconstrained t = TReference r /\ ~ time_name r /\ ~ resolvable asg r /\
              x = ("can not resolve TypeReference " ++ r)%string.

  Lemma tagged_adds : forall hops t s b s', taggedChoiceTypeAlternative asg hops fuel t s = Ok (b, s') ->
    adds s s' (alt_problem t).
  Proof.
    induction hops as [|h IHh]; intro t; induction t using atype_ind'; intros s1 b1 s1' Hg;
      try (cbn in Hg; injection Hg as <- <-; apply adds_nothing; [reflexivity|]; intros ? (r & Hr & _); discriminate).
    all: try (cbn in Hg; destruct (time_name_dec n) as [[E Ht]|[E Ht]]; rewrite E in Hg;
      [injection Hg as <- <-; apply adds_nothing; [reflexivity|];
       intros ? (r & Hr & Hx & _); cbn in Hr; injection Hr as <-; contradiction|]).
    - bind1 Hg. destruct x as [[m t]|]; [discriminate|]. injection Hg as <- <-.
      eapply adds_iff; [eapply resolve_adds; exact E0|]. intro x. unfold alt_problem. cbn [unconstrained]. split.
      + intros (r & Hr & _ & Hx & ->). injection Hr as <-. auto.
      + intros [Hx ->]. exists n. auto.
    - cbn in Hg. apply IHt in Hg. exact Hg.
    - bind1 Hg. pose proof (resolve_adds _ _ _ _ E0) as Ha.
      assert (Hb : adds s1 y (alt_problem (TReference n))).
      { eapply adds_iff; [exact Ha|]. intro z. unfold alt_problem. cbn [unconstrained]. split.
        - intros (r & Hr & _ & Hx & ->). injection Hr as <-. auto.
        - intros [Hx ->]. exists n. auto. }
      destruct x as [[m t]|]; [|injection Hg as <- <-; exact Hb].
      apply resolve_some in E0 as [_ Hs]. apply IHh in Hg.
      eapply adds_trans; [exact Hb|exact Hg|]. intro x. split; [auto|]. intros [Hx|(r & Hx & _)]; [exact Hx|]. exfalso.
      assert (Hu : strip t = TReference r).
      { clear -Hx. revert Hx. induction t using atype_ind'; intro Hx; try discriminate; auto. }
      eapply stands_for_leaf; eassumption.
    - assert (Hg' : taggedChoiceTypeAlternative asg (S h) fuel t s1 = Ok (b1, s1')) by exact Hg.
      apply IHt in Hg'. exact Hg'.
  Qed.

  Definition alts_problem (alts : list (NamedType Value DefinedValue)) (x : string) : Prop :=
    exists before n t after, alts = before ++ Named n t :: after /\ ~ tagged_choice asg before /\ alt_problem t x.

  Lemma alt_untagged : forall t x, alt_problem t x -> ~ tagged_alt asg t.
  Proof.
    induction t using atype_ind'; intros z0 (r & Hr & Ht & Hx & ->); try discriminate; intro Ha; inv Ha.
    - cbn in Hr. injection Hr as <-. apply Hx. eexists _, _. eassumption.
    - eapply IHt; [|eassumption]. exists r. eauto.
  Qed.

  Lemma has_adds : forall l s b s', hasTaggedAlternatives asg fuel l s = Ok (b, s') -> adds s s' (alts_problem l).
  Proof.
    induction l as [|[n t] l IH]; intros s b s' H; cbn in H.
    - injection H as <- <-. apply adds_nothing; [reflexivity|]. intros x (before & n & t & after & E & _). destruct before; discriminate.
    - bind1 H. pose proof (tagged_adds _ _ _ _ _ E) as Ha. pose proof (tagged_alt_iff _ _ _ _ _ _ _ E) as Ht.
      assert (Hd : forall z, alts_problem (Named n t :: l) z <-> alt_problem t z \/ (x = false /\ alts_problem l z)).
      { intro z. split.
        - intros ([|[n0 t0] before] & n' & t' & after & El & Hb & Hp).
          + injection El as <- <- <-. now left.
          + injection El as <- <- ->. right. split.
            * destruct x; [|reflexivity]. exfalso. apply Hb. constructor. now apply Ht.
            * exists before, n', t', after. split; [reflexivity|split; [|exact Hp]]. intro Hc. apply Hb. now constructor 2.
        - intros [Hp|[-> (before & n' & t' & after & -> & Hb & Hp)]].
          + exists [], n, t, l. split; [reflexivity|split; [|exact Hp]]. intro Hc. inv Hc.
          + exists (Named n t :: before), n', t', after. split; [reflexivity|split; [|exact Hp]].
            intro Hc. inv Hc; [|contradiction]. assert (false = true) by (now apply Ht). discriminate. }
      destruct x.
      + injection H as <- <-. eapply adds_iff; [exact Ha|]. intro z. rewrite Hd. split; [intros [?|[? _]]; [assumption|discriminate]|auto].
      + eapply adds_trans; [exact Ha|eapply IH; exact H|]. intro z. rewrite Hd. tauto.
  Qed.

  Definition tag_problem (n : string) (t : AType_) (x : string) : Prop :=
    exists tag mode, In (tag, mode) (tags_of t) /\
      ((match mode with Some z => z | None => td end = TAGS_AUTOMATIC /\
        x = ("type " ++ n ++ ": AUTOMATIC tags are not supported")%string) \/
       ((forall k, tag_ClassNumber tag <> VNumber k) /\
        x = ("tag value should be Number, got " ++ sv (tag_ClassNumber tag))%string)).

  Lemma tagComponents_adds : forall field tag z h cs s cs' s',
    tagComponents td field tag z h cs s = (cs', s') ->
    adds s s' (fun x => (match (if h then Some z else None) with Some z => z | None => td end = TAGS_AUTOMATIC /\
        x = ("type " ++ field ++ ": AUTOMATIC tags are not supported")%string) \/
       ((forall k, tag_ClassNumber tag <> VNumber k) /\
        x = ("tag value should be Number, got " ++ sv (tag_ClassNumber tag))%string)).
  Proof.
    intros field tag z h cs s cs' s' H. unfold tagComponents in H.
    replace (match (if h then Some z else None) with Some z => z | None => td end) with (if h then z else td) by (destruct h; reflexivity).
    set (m := if h then z else td) in *. clearbody m.
    assert (HN : forall s1 c, match lookupValue (tag_ClassNumber tag) with
        | VNumber n => (app c [("tag:" ++ sprint_int n)%string], s1)
        | v => (c, appendError (ErrTagNumber v) s1) end = (cs', s') ->
        adds s1 s' (fun x => (forall k, tag_ClassNumber tag <> VNumber k) /\
        x = ("tag value should be Number, got " ++ sv (tag_ClassNumber tag))%string)).
    { intros s1 c Hx. unfold lookupValue in Hx.
      destruct (tag_ClassNumber tag) as [|k| | | | |]; injection Hx as <- <-;
        try (apply adds_one; intro x; cbn [error_text]; split; [tauto|intros ->; split; [discriminate|reflexivity]]).
      apply adds_nothing; [reflexivity|]. intros x [Hx _]. now apply (Hx k). }
    assert (HM : forall s1 c, m <> TAGS_AUTOMATIC -> s1 = s -> match lookupValue (tag_ClassNumber tag) with
        | VNumber n => (app c [("tag:" ++ sprint_int n)%string], s1)
        | v => (c, appendError (ErrTagNumber v) s1) end = (cs', s') -> 
        adds s s' (fun x => (m = TAGS_AUTOMATIC /\
        x = ("type " ++ field ++ ": AUTOMATIC tags are not supported")%string) \/
       ((forall k, tag_ClassNumber tag <> VNumber k) /\
        x = ("tag value should be Number, got " ++ sv (tag_ClassNumber tag))%string))).
    { intros s1 c Hm -> Hx. eapply adds_iff; [eapply HN; exact Hx|]. cbv beta. intro x. tauto. }
    destruct (Z.eqb_spec m TAGS_EXPLICIT) as [E1|E1].
    { eapply HM; [subst m; discriminate|reflexivity|exact H]. }
    destruct (Z.eqb_spec m TAGS_IMPLICIT) as [E2|E2].
    { eapply HM; [subst m; discriminate|reflexivity|exact H]. }
    destruct (Z.eqb_spec m TAGS_AUTOMATIC) as [E3|E3].
    { eapply adds_trans; [|eapply HN; exact H|].
      - apply (adds_one s (ErrAutomaticTag field) (fun x => x = error_text st sv (ErrAutomaticTag field))). reflexivity.
      - cbv beta. cbn [error_text]. intro x. tauto. }
    eapply HM; [exact E3|reflexivity|exact H].
  Qed.

  Lemma unwrapTags_adds : forall field t cs s cs' t' s',
    unwrapTags td field t cs s = (cs', t', s') -> adds s s' (tag_problem field t).
  Proof.
    induction t using atype_ind'; intros cs s1 cs' t' s1' H1; cbn in H1;
      try (injection H1 as <- <- <-; apply adds_nothing; [reflexivity|]; intros ? (tag & mode & [] & _)).
    - destruct (tagComponents td field g z b cs s1) as [cs1 s2] eqn:E.
      apply tagComponents_adds in E. apply IHt in H1. eapply adds_trans; [exact E|exact H1|].
      intro x. unfold tag_problem. cbn [tags_of]. split.
      + intros (tag & mode & [Hi|Hi] & Hp); [injection Hi as <- <-; left; exact Hp|]. right. eauto.
      + intros [Hp|(tag & mode & Hi & Hp)]; [|exists tag, mode; split; [now right|exact Hp]].
        exists g, (if b then Some z else None). split; [now left|exact Hp].
    - eapply adds_iff; [eapply IHt; exact H1|]. reflexivity.
  Qed.

  Lemma tagOf_adds : forall field t o d s tag s',
    asn1TagFromType td asg fuel field t o d s = Ok (tag, s') -> adds s s' (tag_problem field t).
  Proof.
    intros field t o d s tag s' H. unfold asn1TagFromType in H.
    destruct (unwrapTags td field t (defaultComponents o d) s) as [[cs leaf] s1] eqn:E.
    bind1 H. injection H as <- <-. eapply unwrapTags_adds; eassumption.
  Qed.

  Definition found (t : AType_) (x : string) : Prop := exists u, visible asg t u /\ flaw u x.

  Definition comps_problem (l : list (component Value DefinedValue)) (x : string) : Prop :=
    (exists n t o d, In (CNamed (Named n t) o d) l /\ (found t x \/ tag_problem n t x)) \/
    (x = "COMPONENTS OF is not supported" /\ exists t, In (CComponentsOf t) l).

  (** What the definition of [found] amounts to, type by type. *)
  Ltac no_comps := match goal with H : has_components _ _ |- _ => let c := fresh in let x := fresh in
    destruct H as (c & x & ? & [H|H]); discriminate end.
  Ltac bad := match goal with H : _ \/ _ \/ _ |- _ => destruct H as [H|[H|[? H]]]; discriminate end.

  Lemma found_struct : forall t c x, t = TSequence c x \/ t = TSet c x -> forall z, found t z <-> comps_problem (c ++ x) z.
  Proof.
    intros t c x Ht z. split.
    - intros (u & Hv & Hf). destruct Hv; try (destruct Ht; discriminate).
      + assert (Hc : forall l, has_components t l -> l = c ++ x).
        { intros l (c' & x' & -> & H). destruct Ht as [-> | ->], H as [H|H]; try discriminate; injection H as -> ->; reflexivity. }
        inv Hf; try (destruct Ht; discriminate).
        * destruct H as [H|[H|[? H]]]; destruct Ht; congruence.
        * apply Hc in H as ->. right. eauto.
        * apply Hc in H as ->. left. exists n, u, o, d. split; [assumption|]. right. exists tag, mode. auto.
        * apply Hc in H as ->. left. exists n, u, o, d. split; [assumption|]. right. exists tag, mode. auto.
      + destruct Ht as [Ht|Ht]; [|discriminate]. injection Ht as -> ->. left. exists n, t, o, d. split; [assumption|]. left. exists u. auto.
      + destruct Ht as [Ht|Ht]; [discriminate|]. injection Ht as -> ->. left. exists n, t, o, d. split; [assumption|]. left. exists u. auto.
    - assert (Hh : has_components t (c ++ x)) by (exists c, x; auto).
      intros [(n & t' & o & d & Hi & [(u & Hv & Hf)|(tag & mode & Ht' & [(Hm & ->)|(Hm & ->)])])|(-> & t' & Hi)].
      + exists u. split; [|assumption]. destruct Ht as [-> | ->]; [eapply vi_sequence|eapply vi_set]; eassumption.
      + exists t. split; [constructor|]. eapply fl_automatic; eassumption.
      + exists t. split; [constructor|]. eapply fl_number; eassumption.
      + exists t. split; [constructor|]. eapply fl_components_of; eassumption.
  Qed.

  Lemma found_choice : forall alts x z, found (TChoice alts x) z <->
    alts_problem alts z \/ (exists n t, alts = [Named n t] /\ ~ tagged_alt asg t /\ found t z).
  Proof.
    intros alts x z. split.
    - intros (u & Hv & Hf). inv Hv.
      + inv Hf; try bad; try no_comps. left. exists before, n, t, after. split; [reflexivity|split; [assumption|]]. exists r. auto.
      + right. exists n, t. split; [reflexivity|split; [assumption|]]. exists u. auto.
    - intros [(before & n & t & after & -> & Hb & (r & Hr & Ht & Hx & ->))|(n & t & -> & Hn & (u & Hv & Hf))].
      + eexists. split; [constructor|]. eapply fl_alternative; eassumption.
      + exists u. split; [now constructor|assumption].
  Qed.

  Ltac leaf := let u := fresh in let Hv := fresh in let Hf := fresh in
    intros (u & Hv & Hf); inv Hv; inv Hf; try no_comps; try bad; try contradiction; auto.

  Ltac under := let u := fresh in let Hv := fresh in let Hf := fresh in
    intros (u & Hv & Hf); inv Hv; [inv Hf; try no_comps; bad|exists u; auto].

  Lemma gens_genfs_adds :
    (forall t b s e b' s', gens U params td asg fuel t b s e b' s' -> adds s s' (found t)) /\
    (forall l s fs s', genfs U params td asg fuel l s fs s' -> adds s s' (comps_problem l)).
  Proof.
    apply gens_genfs_ind; intros.
    - apply adds_nothing; [reflexivity|]. intro x. destruct t; try contradiction; leaf.
    - apply adds_nothing; [reflexivity|]. intro x. leaf.
    - apply adds_nothing; [apply require_errors|]. intro x. leaf.
    - apply adds_one. intro x. cbn [error_text]. split; [leaf|]. intros ->. eexists. split; [constructor|]. now constructor.
    - eapply adds_iff; [exact H|]. intro z. apply found_struct; auto.
    - eapply adds_iff; [exact H|]. intro z. apply found_struct; auto.
    - eapply adds_iff; [exact H|]. intro z. split; [under|].
      intros (u & Hv & Hf). exists u. split; [now constructor|assumption].
    - eapply adds_iff; [exact H|]. intro z. split; [under|].
      intros (u & Hv & Hf). exists u. split; [now constructor|assumption].
    - eapply adds_iff; [exact H|]. intro x. split; [under|].
      intros (u & Hv & Hf). exists u. split; [now constructor|assumption].
    - eapply adds_iff; [exact H|]. intro z. split; [under|].
      intros (u & Hv & Hf). exists u. split; [now constructor|assumption].
    - assert (Hs : same s' s'') by (apply special_some in e1; unfold same;
        repeat match goal with H : _ \/ _ |- _ => destruct H | H : _ /\ _ |- _ => destruct H end; subst; apply require_errors).
      apply resolve_adds in e0 as (es & E1 & E2). exists es. split; [rewrite Hs; exact E1|]. intro x. rewrite E2.
      split; [intros [Hx ->]; eexists; split; [constructor|now constructor]|leaf].
    - assert (Hs : s'' = s') by (apply special_none in e0; tauto). subst s''.
      eapply adds_iff; [eapply resolve_adds; exact e|]. intro x.
      split; [leaf|intros [Hx ->]; eexists; split; [constructor|now constructor]].
    - eapply adds_iff; [eapply resolve_adds; exact e|]. intro x.
      split; [leaf|intros [Hx ->]; eexists; split; [constructor|now constructor]].
    - apply adds_nothing; [apply require_errors|]. intro x. destruct t; try contradiction; leaf.
    - pose proof (has_tagged_iff _ _ _ _ _ _ e) as Ht. eapply adds_iff; [eapply has_adds; exact e|].
      intro z. rewrite found_choice. split; [|auto]. intros [Hz|(n & t & -> & Hn & _)]; [exact Hz|].
      exfalso. destruct Ht as [Ht _]. specialize (Ht eq_refl). inv Ht; [contradiction|]. inv H0.
    - pose proof (has_tagged_iff _ _ _ _ _ _ e0) as Ht.
      eapply adds_trans; [eapply has_adds; exact e0|exact H|]. intro z. rewrite found_choice. split.
      + intros [Hz|(n' & t' & E & _ & Hz)]; [now left|]. injection E as <- <-. now right.
      + intros [Hz|Hz]; [now left|]. right. exists n, t. split; [reflexivity|split; [|exact Hz]]. intro Hx.
        assert (false = true) by (apply Ht; now left). discriminate.
    - eapply adds_iff; [eapply has_adds; exact e|]. intro z. rewrite found_choice. split; [|auto].
      intros [Hz|(n' & t' & -> & _)]; [exact Hz|]. exfalso. apply n. reflexivity.
    - apply adds_one. intro x. cbn [error_text]. split.
      + intros (v & Hv & Hf). destruct t; try contradiction; inv Hv; inv Hf; try no_comps; reflexivity.
      + intros ->. exists t. split; [constructor|]. constructor. destruct t; try contradiction; eauto.
    - apply adds_nothing; [reflexivity|]. intros x [(n & t & o & d & [] & _)|[_ [t []]]].
    - eapply adds_trans; [exact H|eapply adds_or; [eapply tagOf_adds; exact e0|exact H0]|].
      + intro x. cbv beta. unfold comps_problem. split.
        * intros [(n' & t' & o' & d' & [Hi|Hi] & Hp)|[-> (t' & [Hi|Hi])]]; try discriminate.
          -- injection Hi as <- <- <- <-. tauto.
          -- right. right. left. exists n', t', o', d'. auto.
          -- right. right. right. eauto.
        * intros [Hx|[Hx|[(n' & t' & o' & d' & Hi & Hp)|[-> (t' & Hi)]]]].
          -- left. exists n, t, o, d. split; [now left|auto].
          -- left. exists n, t, o, d. split; [now left|auto].
          -- left. exists n', t', o', d'. split; [now right|auto].
          -- right. split; [reflexivity|]. exists t'. now right.
    - eapply adds_trans; [|exact H|].
      + apply (adds_one s ErrComponentsOf (fun x => x = error_text st sv ErrComponentsOf)). reflexivity.
      + intro x. cbn [error_text]. unfold comps_problem. split.
        * intros [(n' & t' & o' & d' & [Hi|Hi] & Hp)|[-> (t' & [Hi|Hi])]]; try discriminate; auto.
          right. left. exists n', t', o', d'. auto.
        * intros [->|[(n' & t' & o' & d' & Hi & Hp)|[-> (t' & Hi)]]].
          -- right. split; [reflexivity|]. exists t. now left.
          -- left. exists n', t', o', d'. split; [now right|auto].
          -- right. split; [reflexivity|]. exists t'. now right.
    - eapply adds_iff; [exact H|]. intro x. unfold comps_problem. split.
      + intros [(n' & t' & o' & d' & [Hi|Hi] & Hp)|[-> (t' & [Hi|Hi])]]; try discriminate; [left|right]; eauto.
        exists n', t', o', d'. auto.
      + intros [(n' & t' & o' & d' & Hi & Hp)|[-> (t' & Hi)]].
        * left. exists n', t', o', d'. split; [now right|auto].
        * right. split; [reflexivity|]. exists t'. now right.
  Qed.

  Definition number_problem (t : AType_) (x : string) : Prop :=
    exists l k d, strip t = TInteger l /\ In k l /\ nn_Value k = NDefined d /\ dv_ModuleName d <> "" /\
      x = (dv_ModuleName d ++ "." ++ dv_ValueName d ++ ": value references from other modules are not supported")%string.

  Lemma named_adds : forall n l s specs s', namedNumberSpecs U params n l s = (specs, s') ->
    adds s s' (fun x => exists k d, In k l /\ nn_Value k = NDefined d /\ dv_ModuleName d <> "" /\
      x = (dv_ModuleName d ++ "." ++ dv_ValueName d ++ ": value references from other modules are not supported")%string).
  Proof.
    induction l as [|x l IH]; intros s specs s' H; cbn in H.
    - injection H as <- <-. apply adds_nothing; [reflexivity|]. intros x (k & d & [] & _).
    - destruct (match nn_Value x with NNil => _ | _ => _ end) as [e s1] eqn:E.
      destruct (namedNumberSpecs U params n l s1) as [sp s2] eqn:E2. injection H as <- <-. apply IH in E2.
      assert (Hx : adds s s1 (fun z => exists d, nn_Value x = NDefined d /\ dv_ModuleName d <> "" /\
        z = (dv_ModuleName d ++ "." ++ dv_ValueName d ++ ": value references from other modules are not supported")%string)).
      { destruct (nn_Value x) as [|z|d].
        - injection E as <- <-. apply adds_nothing; [reflexivity|]. intros z (d & Hd & _). discriminate.
        - injection E as <- <-. apply adds_nothing; [reflexivity|]. intros y (d & Hd & _). discriminate.
        - injection E as <- <-. destruct (String.eqb_spec (dv_ModuleName d) "") as [Ed|Ed].
          + apply adds_nothing; [reflexivity|]. intros z (d' & Hd & Hn & _). injection Hd as <-. contradiction.
          + apply adds_one. intro z. cbn [error_text]. split; [|intros ->; exists d; auto].
            intros (d' & Hd & _ & ->). injection Hd as <-. reflexivity. }
      eapply adds_trans; [exact Hx|exact E2|]. intro z. cbv beta. split.
      + intros (k & d & [<-|Hi] & Hd & Hn & Hz); [left|right]; eauto 6.
      + intros [(d & Hd & Hn & Hz)|(k & d & Hi & Hd & Hn & Hz)]; [exists x, d|exists k, d]; repeat split; auto; [now left|now right].
  Qed.

  Lemma assoc_adds : forall n t s o s', generateAssociatedValuesIfNeeded U params n t s = (o, s') ->
    adds s s' (number_problem t).
  Proof.
    intros n t s o s' H.
    apply assoc_cases in H as [(_ & -> & Hl)|(l & specs & Hl & _ & H & _)].
    - apply adds_nothing; [reflexivity|]. intros x (l & k & d & E & Hi & _). rewrite (Hl _ E) in Hi. contradiction.
    - eapply adds_iff; [eapply named_adds; exact H|]. intro x. cbv beta. split.
      + intros (l' & k & d & E & Hp). rewrite Hl in E. injection E as <-. exists k, d. exact Hp.
      + intros (k & d & Hp). exists l, k, d. split; [exact Hl|exact Hp].
  Qed.

  Definition assignment_problem (a : Assignment_) (x : string) : Prop :=
    match a with
    | ANil => False
    | AType _ t => found t x \/ number_problem t x
    | AValue _ t v => is_literal v /\ found t x
    end.

  Lemma gendecls_adds : forall l s ds s', gendecls U fmt params td asg fuel l s ds s' ->
    adds s s' (fun x => exists a, In a l /\ assignment_problem a x).
  Proof.
    induction 1.
    - apply adds_nothing; [reflexivity|]. intros x (a & [] & _).
    - apply (proj1 gens_genfs_adds) in H. apply assoc_adds in H0.
      eapply adds_trans; [exact H|eapply adds_or; [exact H0|exact IHgendecls]|].
      intro x. cbv beta. split.
      + intros (a & [<-|Hi] & Hp); [|eauto]. cbn in Hp. destruct Hp; auto.
      + intros [Hp|[Hp|(a & Hi & Hp)]]; [exists (AType n t); cbn; auto..|]. exists a. split; [now right|exact Hp].
    - apply (proj1 gens_genfs_adds) in H0. eapply adds_trans; [exact H0|exact IHgendecls|].
      intro x. cbv beta. split.
      + intros (a & [<-|Hi] & Hp); [|eauto]. left. apply Hp.
      + intros [Hp|(a & Hi & Hp)]; [|exists a; split; [now right|exact Hp]].
        exists (AValue n t v). split; [now left|]. split; [|exact Hp]. eapply literal_iff. rewrite H. discriminate.
    - eapply adds_iff; [exact IHgendecls|]. intro x. cbv beta. split.
      + intros (a & [<-|Hi] & Hp); [|eauto]. destruct Hp as [Hl _]. eapply literal_iff in Hl. rewrite H in Hl. contradiction.
      + intros (a & Hi & Hp). exists a. split; [now right|exact Hp].
    - eapply adds_iff; [exact IHgendecls|]. intro x. cbv beta. split.
      + intros (a & [<-|Hi] & Hp); [contradiction|eauto].
      + intros (a & Hi & Hp). exists a. split; [now right|exact Hp].
  Qed.

  Lemma problem_iff : forall x, problem st sv td asg repr x <-> exists a, In a asg /\ assignment_problem a x.
  Proof.
    intro x. split.
    - intros [n t u y Hi Hv Hf|n t v u y Hi Hl Hv Hf|n t l k d Hi Hs Hk Hd Hm].
      + exists (AType n t). split; [assumption|]. left. exists u. auto.
      + exists (AValue n t v). split; [assumption|]. split; [assumption|]. exists u. auto.
      + exists (AType n t). split; [assumption|]. right. exists l, k, d. auto.
    - intros ([|n t|n t v] & Hi & Hp).
      + contradiction.
      + destruct Hp as [(u & Hv & Hf)|(l & k & d & Hs & Hk & Hd & Hm & ->)]; [eapply pb_type; eassumption|eapply pb_number; eassumption].
      + destruct Hp as (Hl & u & Hv & Hf). eapply pb_value; eassumption.
  Qed.
End Errors.

Lemma app_nil_r_s : forall s : string, (s ++ "")%string = s.
Proof. induction s; cbn; congruence. Qed.

Lemma error_lines_concat : forall st sv l msg,
  error_lines st sv msg l =
  (msg ++ String.concat "" (map (fun x => "  " ++ x ++ String (ascii_of_nat 10) "") (map (error_text st sv) l)))%string.
Proof.
  assert (A : forall a b c : string, ((a ++ b) ++ c = a ++ (b ++ c))%string) by (induction a; cbn; congruence).
  assert (C : forall a l, String.concat "" (a :: l) = (a ++ String.concat "" l)%string).
  { intros a [|b l]; cbn; [now rewrite app_nil_r_s|reflexivity]. }
  induction l as [|e l IH]; intro msg; cbn [error_lines map]; [cbn; now rewrite app_nil_r_s|].
  rewrite IH, C, A. reflexivity.
Qed.

(** The list of errors, texts against problems. *)
Lemma Generate_problems : forall st sv U fmt p fuel m r, Generate U fmt p fuel m = Ok r ->
  md_TagDefault m <> TAGS_AUTOMATIC ->
  forall x, problem st sv (md_TagDefault m) (mb_AssignmentList (md_ModuleBody m)) (integer_repr p) x <->
            match r with GenOk _ => False | GenErr l => In x (map (error_text st sv) l) end.
Proof.
  intros st sv U fmt p fuel m r H Ha x. unfold Generate, GenerateWith in H.
  destruct (Z.eqb_spec (md_TagDefault m) TAGS_AUTOMATIC) as [E|_]; [contradiction|].
  bind1 H. apply decls_gendecls in E. apply (gendecls_adds st sv) in E as (es & Ee & Hx).
  cbn [gs_errors app] in Ee. rewrite <- params_repr.
  rewrite problem_iff, <- Hx, <- Ee.
  destruct (gs_errors y); injection H as <-; cbn [map In]; tauto.
Qed.

Fixpoint dotted (s : string) : bool :=
  match s with EmptyString => false | String c s' => Ascii.eqb c "." || dotted s' end.

Lemma dotted_app : forall a b, dotted (a ++ String "." b) = true.
Proof. induction a as [|c a IH]; intro b; cbn; [reflexivity|]. rewrite IH. apply orb_true_r. Qed.

Lemma Generate_no_automatic : forall U fmt p fuel m l, Generate U fmt p fuel m = Ok (GenErr l) ->
  (md_TagDefault m = TAGS_AUTOMATIC /\ l = [ErrAutomaticModule]) \/
  (md_TagDefault m <> TAGS_AUTOMATIC /\ l <> [] /\ ~ In ErrAutomaticModule l).
Proof.
  intros U fmt p fuel m l H. destruct (Z.eq_dec (md_TagDefault m) TAGS_AUTOMATIC) as [E|E].
  - left. split; [assumption|]. unfold Generate, GenerateWith in H. rewrite E in H. cbn in H. congruence.
  - right. split; [assumption|split].
    + intros ->. unfold Generate, GenerateWith in H. destruct (Z.eqb_spec (md_TagDefault m) TAGS_AUTOMATIC); [contradiction|].
      bind1 H. destruct (gs_errors y); discriminate.
    + intro Hi. apply (in_map (error_text (fun _ => "") (fun _ => ""))) in Hi.
      apply (Generate_problems _ _ _ _ _ _ _ _ H E) in Hi.
      assert (F : forall td asg repr u, ~ flaw (fun _ => "") (fun _ => "") td asg repr u "AUTOMATIC tagged modules are not supported").
      { intros td asg repr u Hf. inversion Hf. }
      inversion Hi as [n t u z Hn Hv Hf|n t v u z Hn Hl Hv Hf|n t l' k d Hn Hs Hk Hd Hm Hz].
      * now apply F in Hf.
      * now apply F in Hf.
      * apply (f_equal dotted) in Hz. cbn [append] in Hz. rewrite dotted_app in Hz. discriminate.
Qed.
