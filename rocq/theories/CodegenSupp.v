(** Generate succeeds exactly on the supported modules. *)
From Coq Require Import ZArith String Ascii List Bool Lia SpecFloat.
From Verif Require Import GoBase Utf8 Unicode Tokens Ast GoAst Codegen CodegenSpec CodegenFacts CodegenInv CodegenDecl CodegenTag CodegenTerm.
Import ListNotations.
Local Open Scope string_scope.
Local Open Scope Z_scope.

Definition same (s s' : gstate) : Prop := gs_errors s' = gs_errors s.

Lemma same_trans : forall a b c, ext a b -> ext b c -> (same a c <-> same a b /\ same b c).
Proof.
  intros a b c (e1 & m1 & E1 & _) (e2 & m2 & E2 & _). unfold same. split.
  - intro H. rewrite E2, E1, <- app_assoc in H.
    apply (f_equal (@length _)) in H. rewrite !app_length in H.
    destruct e1, e2; cbn in H; try lia. rewrite E2, E1, !app_nil_r. auto.
  - intros [H1 H2]. congruence.
Qed.

Lemma same_append : forall e s, ~ same s (appendError e s).
Proof.
  intros e s H. unfold same in H. cbn in H. apply (f_equal (@length _)) in H.
  rewrite app_length in H. cbn in H. lia.
Qed.

Lemma same_require : forall m s, same s (requireModule m s).
Proof. intros m s. apply require_errors. Qed.

Lemma stands_for_leaf : forall asg n m t r, stands_for asg n m t -> strip t <> TReference r.
Proof.
  intros asg n m t r (o & Hl & Ho) E. destruct Ho as [[-> _]|(_ & _ & ->)]; [|discriminate].
  remember (Some t) as o eqn:Eo. revert Eo. induction Hl; intro Eo; try discriminate.
  - injection Eo as ->. eapply H0; eassumption.
  - auto.
Qed.

Section Supp.
  Context (U : unicode_tables) (fmt : spec_float -> string).
  Context (params : GenParams) (tagDefault : Z) (asg : list Assignment_) (fuel : nat).

  Notation repr := (gp_IntegerRepr params).

  Lemma resolve_iff : forall n s o s', resolveTypeReference asg fuel n s = Ok (o, s') ->
    (same s s' <-> resolvable asg n).
  Proof.
    intros n s [[m t]|] s' H.
    - apply resolve_some in H as [-> H]. split; [exists m, t; assumption|reflexivity].
    - apply resolve_none in H as (-> & m & o & Hl & Ho & Hm). split.
      + intro H. now apply same_append in H.
      + intros (m' & t & H). exfalso. eapply no_stand_for; eassumption.
  Qed.

  Lemma tagged_same : forall hops t s b s', taggedChoiceTypeAlternative asg hops fuel t s = Ok (b, s') ->
    (same s s' <-> (b = true \/ forall r, unconstrained t = TReference r -> time_name r \/ resolvable asg r)).
  Proof.
    induction hops as [|h IHh]; intro t; induction t using atype_ind'; intros s1 b1 s1' Hg;
      try (cbn in Hg; injection Hg as <- <-; split; [intros _|reflexivity]; right; intros r Hr; discriminate).
    - cbn in Hg. destruct (time_name_dec n) as [[E Ht]|[E Ht]]; rewrite E in Hg.
      { injection Hg as <- <-. split; [intros _|reflexivity]. right. intros r Hr. injection Hr as <-. now left. }
      bind1 Hg. destruct x as [[m t]|]; [discriminate|]. injection Hg as <- <-.
      rewrite (resolve_iff _ _ _ _ E0). split.
      + intro Hr. right. intros r Hx. injection Hx as <-. now right.
      + intros [Hx|Hx]; [discriminate|]. destruct (Hx _ eq_refl); [contradiction|assumption].
    - cbn in Hg. apply IHt in Hg. exact Hg.
    - cbn in Hg. destruct (time_name_dec n) as [[E Ht]|[E Ht]]; rewrite E in Hg.
      { injection Hg as <- <-. split; [intros _|reflexivity]. right. intros r Hr. injection Hr as <-. now left. }
      bind1 Hg. destruct x as [[m t]|].
      + apply resolve_some in E0 as [-> Hs]. apply IHh in Hg. rewrite Hg. split.
        * intros _. right. intros r Hx. injection Hx as <-. right. exists m, t. assumption.
        * intros _. right. intros r Hx. exfalso.
          assert (Hu : strip t = TReference r).
          { clear -Hx. revert Hx. induction t using atype_ind'; intro Hx; try discriminate; auto. }
          eapply stands_for_leaf; eassumption.
      + injection Hg as <- <-.
        rewrite (resolve_iff _ _ _ _ E0). split.
        * intro Hr. right. intros r Hx. injection Hx as <-. now right.
        * intros [Hx|Hx]; [discriminate|]. destruct (Hx _ eq_refl); [contradiction|assumption].
    - assert (Hg' : taggedChoiceTypeAlternative asg (S h) fuel t s1 = Ok (b1, s1')) by exact Hg.
      apply IHt in Hg'. exact Hg'.
  Qed.

  Lemma has_same : forall l s b s', hasTaggedAlternatives asg fuel l s = Ok (b, s') ->
    (same s s' <-> alts_ok asg l).
  Proof.
    induction l as [|[n t] l IH]; intros s b s' H; cbn in H.
    - injection H as <- <-. split; [constructor|reflexivity].
    - bind1 H. pose proof (tagged_same _ _ _ _ _ E) as Hs. pose proof (tagged_alt_iff _ _ _ _ _ _ _ E) as Ht.
      pose proof (tagged_errs _ _ _ _ _ _ _ E) as He. destruct x.
      + injection H as <- <-. rewrite Hs. split; [intros _|auto]. apply ao_tagged. now apply Ht.
      + pose proof (has_errs _ _ _ _ _ _ H) as He'. apply IH in H.
        rewrite (same_trans s y s') by (apply errs_only_ext; assumption). rewrite Hs, H.
        assert (Hn : ~ tagged_alt asg t) by (intro Hx; apply Ht in Hx; discriminate).
        split.
        * intros [[Hx|Hx] Hl]; [discriminate|]. now apply ao_cons.
        * intro Hx. inv Hx; [contradiction|]. auto.
  Qed.

  Lemma tagComponents_same : forall field tag z h cs s cs' s',
    tagComponents tagDefault field tag z h cs s = (cs', s') ->
    (same s s' <-> (exists k, tag_ClassNumber tag = VNumber k) /\
       effective tagDefault (if h then Some z else None) <> TAGS_AUTOMATIC).
  Proof.
    intros field tag z h cs s cs' s' H. unfold tagComponents in H.
    assert (Hm : effective tagDefault (if h then Some z else None) = if h then z else tagDefault) by (destruct h; reflexivity).
    rewrite Hm. set (m := if h then z else tagDefault) in *. clearbody m. clear Hm.
    assert (HN : forall s1 c, match lookupValue (tag_ClassNumber tag) with
        | VNumber n => (app c [("tag:" ++ sprint_int n)%string], s1)
        | v => (c, appendError (ErrTagNumber v) s1) end = (cs', s') ->
        (errs_only s1 s' /\ (same s1 s' <-> exists k, tag_ClassNumber tag = VNumber k))).
    { intros s1 c Hx. unfold lookupValue in Hx.
      destruct (tag_ClassNumber tag); injection Hx as <- <-;
        (split; [apply errs_only_refl || apply errs_only_append|]);
        (split; [intro Hy; try (now apply same_append in Hy); eauto|intros [k Hk]; try discriminate; reflexivity]). }
    destruct (Z.eqb_spec m TAGS_EXPLICIT) as [E1|E1].
    { destruct (HN _ _ H) as [_ ->]. subst m. split; [intros Hx; split; [assumption|apply Z.eqb_neq; reflexivity]|tauto]. }
    destruct (Z.eqb_spec m TAGS_IMPLICIT) as [E2|E2].
    { destruct (HN _ _ H) as [_ ->]. subst m. split; [intros Hx; split; [assumption|apply Z.eqb_neq; reflexivity]|tauto]. }
    destruct (Z.eqb_spec m TAGS_AUTOMATIC) as [E3|E3].
    { destruct (HN _ _ H) as [He Hs]. split; [|tauto]. intro Hx.
      apply (same_trans s _ s' (ext_append _ _) (errs_only_ext _ _ He)) in Hx.
      destruct Hx as [Hx _]. now apply same_append in Hx. }
    destruct (HN _ _ H) as [_ ->]. tauto.
  Qed.

  Lemma unwrapTags_same : forall field t cs s cs' t' s',
    unwrapTags tagDefault field t cs s = (cs', t', s') -> (same s s' <-> tags_ok tagDefault t).
  Proof.
    unfold tags_ok.
    induction t using atype_ind'; intros cs s1 cs' t' s1' H1; cbn in H1;
      try (injection H1 as <- <- <-; cbn; split; [intros _; constructor|reflexivity]).
    - destruct (tagComponents tagDefault field g z b cs s1) as [cs1 s2] eqn:E.
      pose proof (unwrapTags_errs _ _ _ _ _ _ _ _ H1) as [Hx _].
      assert (He : errs_only s1 s2).
      { assert (Hu : unwrapTags tagDefault field (TTagged g TBoolean z b) cs s1 = (cs1, TBoolean, s2))
          by (cbn; rewrite E; reflexivity).
        apply unwrapTags_errs in Hu as [Hu _]. exact Hu. }
      rewrite (same_trans s1 s2 s1') by (apply errs_only_ext; assumption).
      apply IHt in H1. rewrite H1. apply tagComponents_same in E. rewrite E. cbn [tags_of].
      split.
      + intros [[A B] C]. constructor; [|exact C]. cbn. split; [assumption|]. destruct b; exact B.
      + intro Hf. apply Forall_cons_iff in Hf as [[A B] C]. cbn in A, B. split; [|assumption]. split; [assumption|]. destruct b; exact B.
    - cbn [tags_of]. eapply IHt; eassumption.
  Qed.

  Lemma tagOf_same : forall field t o d s tag s',
    asn1TagFromType tagDefault asg fuel field t o d s = Ok (tag, s') -> (same s s' <-> tags_ok tagDefault t).
  Proof.
    intros field t o d s tag s' H. unfold asn1TagFromType in H.
    destruct (unwrapTags tagDefault field t (defaultComponents o d) s) as [[cs leaf] s1] eqn:E.
    bind1 H. injection H as <- <-. eapply unwrapTags_same; eassumption.
  Qed.

  Lemma gens_genfs_same :
    (forall t b s e b' s', gens U params tagDefault asg fuel t b s e b' s' ->
       (same s s' <-> supported tagDefault asg repr t)) /\
    (forall l s fs s', genfs U params tagDefault asg fuel l s fs s' ->
       (same s s' <-> comps_ok tagDefault asg repr l)).
  Proof.
    apply gens_genfs_ind; intros.
    - split; [intros _|reflexivity]. destruct t; try contradiction; constructor.
    - split; [intros _|reflexivity]. constructor. now left.
    - split; [intros _|intros _; apply same_require]. constructor. now right.
    - split.
      + intro H. now apply same_append in H.
      + intro H. inv H. destruct H1; contradiction.
    - rewrite H. split; [now constructor|]. intro Hx. now inv Hx.
    - rewrite H. split; [now constructor|]. intro Hx. now inv Hx.
    - rewrite H. split; [now constructor|]. intro Hx. now inv Hx.
    - rewrite H. split; [now constructor|]. intro Hx. now inv Hx.
    - rewrite H. split; [now constructor|]. intro Hx. now inv Hx.
    - rewrite H. split; [now constructor|]. intro Hx. now inv Hx.
    - assert (Hs : same s' s'') by (apply special_some in e1; unfold same;
        repeat match goal with H : _ \/ _ |- _ => destruct H | H : _ /\ _ |- _ => destruct H end; subst; apply require_errors).
      apply resolve_iff in e0. unfold same in *. rewrite Hs, e0. split; [now constructor|]. intro Hx. now inv Hx.
    - assert (Hs : s'' = s') by (apply special_none in e0; tauto). subst s''.
      apply resolve_iff in e. rewrite e. split; [now constructor|]. intro Hx. now inv Hx.
    - apply resolve_iff in e. rewrite e. split; [now constructor|]. intro Hx. now inv Hx.
    - split; [intros _|intros _; apply same_require]. destruct t; try contradiction; constructor.
    - pose proof (has_tagged_iff _ _ _ _ _ _ e) as Ht. apply has_same in e. rewrite e. split.
      + intro H. constructor; [assumption|]. intros n t -> Hn. exfalso.
        destruct Ht as [Ht _]. specialize (Ht eq_refl). inv Ht; [contradiction|]. inv H1.
      + intro H. now inv H.
    - pose proof (has_tagged_iff _ _ _ _ _ _ e0) as Ht. pose proof (has_errs _ _ _ _ _ _ e0) as He.
      apply has_same in e0.
      rewrite (same_trans s s' s''); [|now apply errs_only_ext|eapply gens_ext; eassumption].
      rewrite e0, H. split.
      + intros [A B]. constructor; [assumption|]. intros n' t' E _. injection E as <- <-. assumption.
      + intro Hx. inv Hx. split; [assumption|]. apply (H3 _ _ eq_refl). intro Hx.
        assert (false = true) by (apply Ht; now left). discriminate.
    - apply has_same in e. rewrite e. split.
      + intro H. constructor; [assumption|]. intros n' t' -> _. exfalso. apply n. reflexivity.
      + intro H. now inv H.
    - split.
      + intro H. now apply same_append in H.
      + intro H. inv H; contradiction.
    - split; [constructor|reflexivity].
    - pose proof (gens_ext _ _ _ _ _ _ _ _ _ _ _ g) as E1. pose proof (tagOf_errs _ _ _ _ _ _ _ _ _ _ e0) as E2.
      apply tagOf_same in e0.
      pose proof (genfs_ext _ _ _ _ _ _ _ _ _ g0) as E3.
      rewrite (same_trans s s1 s3); [|assumption|eapply ext_trans; [apply errs_only_ext; eassumption|assumption]].
      rewrite (same_trans s1 s2 s3); [|apply errs_only_ext; assumption|assumption].
      rewrite H, H0, e0. split.
      + intros (A & B & C). now constructor.
      + intro Hx. now inv Hx.
    - split; [|intro Hx; inv Hx]. intro Hx. exfalso.
      apply (same_trans s _ s' (ext_append _ _) (genfs_ext _ _ _ _ _ _ _ _ _ g)) in Hx.
      destruct Hx as [Hx _]. now apply same_append in Hx.
    - rewrite H. split; [now constructor|]. intro Hx. now inv Hx.
  Qed.

  Lemma named_same : forall n l s specs s', namedNumberSpecs U params n l s = (specs, s') ->
    (same s s' <-> forall x d, In x l -> nn_Value x = NDefined d -> dv_ModuleName d = "").
  Proof.
    induction l as [|x l IH]; intros s specs s' H; cbn in H.
    - injection H as <- <-. split; [intros _ x d []|reflexivity].
    - destruct (match nn_Value x with NNil => _ | _ => _ end) as [e s1] eqn:E.
      destruct (namedNumberSpecs U params n l s1) as [sp s2] eqn:E2. injection H as <- <-.
      pose proof (named_specs_errs _ _ _ _ _ _ _ E2) as He. apply IH in E2.
      assert (Hx : errs_only s s1 /\ (same s s1 <-> forall d, nn_Value x = NDefined d -> dv_ModuleName d = "")).
      { destruct (nn_Value x) as [|z|d].
        - injection E as <- <-. split; [apply errs_only_refl|]. split; [discriminate|reflexivity].
        - injection E as <- <-. split; [apply errs_only_refl|]. split; [discriminate|reflexivity].
        - injection E as <- <-. destruct (String.eqb_spec (dv_ModuleName d) "") as [Ed|Ed].
          + split; [apply errs_only_refl|]. split; [|reflexivity]. intros _ d' Hd. injection Hd as <-. assumption.
          + split; [apply errs_only_append|]. split; [intro Hx; now apply same_append in Hx|].
            intro Hx. exfalso. apply Ed. now apply Hx. }
      destruct Hx as [He1 Hx].
      rewrite (same_trans s s1 s2) by (apply errs_only_ext; assumption). rewrite Hx, E2. split.
      + intros [A B] y d [<-|Hi]; eauto.
      + intro A. split; [intros d; apply A; now left|]. intros y d Hi. apply A. now right.
  Qed.

  Lemma assoc_same : forall n t s o s', generateAssociatedValuesIfNeeded U params n t s = (o, s') ->
    (same s s' <-> numbers_ok t).
  Proof.
    intros n t s o s' H. unfold numbers_ok.
    apply assoc_cases in H as [(_ & -> & Hl)|(l & specs & Hl & _ & H & _)].
    - split; [intros _|reflexivity]. intros l x d E Hi. rewrite (Hl _ E) in Hi. contradiction.
    - apply named_same in H. rewrite H. split.
      + intros A l' x d E. rewrite Hl in E. injection E as <-. apply A.
      + intros A x d. now apply A.
  Qed.

  Lemma literal_iff : forall v, is_literal v <-> valueExpr fmt params v <> None.
  Proof. destruct v; try match goal with b : bool |- _ => destruct b end; cbn; split; intro H; try exact I; try congruence; try contradiction. Qed.

  Lemma gendecls_same : forall l s ds s', gendecls U fmt params tagDefault asg fuel l s ds s' ->
    (same s s' <-> Forall (assignment_ok tagDefault asg repr) l).
  Proof.
    induction 1.
    - split; [constructor|reflexivity].
    - pose proof (gens_ext _ _ _ _ _ _ _ _ _ _ _ H) as E1. pose proof (assoc_errs _ _ _ _ _ _ _ H0) as E2.
      pose proof (gendecls_ext _ _ _ _ _ _ _ _ _ _ H1) as E3.
      rewrite (same_trans s s1 s3); [|assumption|eapply ext_trans; [apply errs_only_ext; eassumption|assumption]].
      rewrite (same_trans s1 s2 s3); [|apply errs_only_ext; assumption|assumption].
      apply (proj1 gens_genfs_same) in H. apply assoc_same in H0. rewrite H, H0, IHgendecls. split.
      + intros (A & B & C). constructor; [split; assumption|assumption].
      + intro Hf. apply Forall_cons_iff in Hf as [[A B] C]. auto.
    - pose proof (gens_ext _ _ _ _ _ _ _ _ _ _ _ H0) as E1. pose proof (gendecls_ext _ _ _ _ _ _ _ _ _ _ H1) as E3.
      rewrite (same_trans s s1 s2); [|assumption|assumption].
      apply (proj1 gens_genfs_same) in H0. rewrite H0, IHgendecls. split.
      + intros (A & B). constructor; [intro; assumption|assumption].
      + intro Hf. apply Forall_cons_iff in Hf as [A C]. split; [|assumption]. apply A. apply literal_iff. congruence.
    - rewrite IHgendecls. split.
      + intro A. constructor; [|assumption]. intro Hl. apply literal_iff in Hl. contradiction.
      + intro Hf. now inv Hf.
    - rewrite IHgendecls. split; [now constructor|]. intro Hf. now inv Hf.
  Qed.
End Supp.
