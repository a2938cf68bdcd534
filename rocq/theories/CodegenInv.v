(** Invariants of the code generator, by induction over [gens]. *)
From Coq Require Import ZArith String Ascii List Bool Lia SpecFloat.
From Verif Require Import GoBase Utf8 Unicode Tokens Ast GoAst Codegen CodegenSpec CodegenFacts.
Import ListNotations.
Local Open Scope string_scope.
Local Open Scope Z_scope.

(** * How the state grows *)

Definition ext (s s' : gstate) : Prop :=
  exists es ms, gs_errors s' = (gs_errors s ++ es)%list /\ gs_modules s' = (gs_modules s ++ ms)%list /\
    (NoDup (gs_modules s) -> NoDup (gs_modules s')).

Definition errs_only (s s' : gstate) : Prop :=
  exists es, gs_errors s' = (gs_errors s ++ es)%list /\ gs_modules s' = gs_modules s.

Lemma ext_refl : forall s, ext s s.
Proof. intro s. exists [], []. rewrite !app_nil_r. auto. Qed.

Lemma ext_trans : forall a b c, ext a b -> ext b c -> ext a c.
Proof.
  intros a b c (es & ms & E & M & N) (es' & ms' & E' & M' & N').
  exists (es ++ es')%list, (ms ++ ms')%list. split; [now rewrite E', E, app_assoc|].
  split; [now rewrite M', M, app_assoc|]. auto.
Qed.

Lemma errs_only_ext : forall s s', errs_only s s' -> ext s s'.
Proof.
  intros s s' (es & E & M). exists es, []. rewrite app_nil_r, M. auto.
Qed.

Lemma errs_only_refl : forall s, errs_only s s.
Proof. intro s. exists []. now rewrite app_nil_r. Qed.

Lemma errs_only_trans : forall a b c, errs_only a b -> errs_only b c -> errs_only a c.
Proof.
  intros a b c (es & E & M) (es' & E' & M'). exists (es ++ es')%list.
  rewrite E', E, app_assoc, M', M. auto.
Qed.

Lemma errs_only_append : forall e s, errs_only s (appendError e s).
Proof. intros e s. exists [e]. auto. Qed.

Lemma ext_append : forall e s, ext s (appendError e s).
Proof. intros. apply errs_only_ext, errs_only_append. Qed.

Lemma in_existsb : forall m l, existsb (String.eqb m) l = true <-> In m l.
Proof.
  intros m l. rewrite existsb_exists. split.
  - intros (x & Hi & He). apply String.eqb_eq in He. now subst.
  - intro Hi. exists m. split; [assumption|]. apply String.eqb_refl.
Qed.

Lemma NoDup_snoc : forall (l : list string) m, NoDup l -> ~ In m l -> NoDup (l ++ [m])%list.
Proof.
  induction l as [|x l IH]; intros m Hn Hm; cbn.
  - constructor; [auto|constructor].
  - inv Hn. constructor.
    + rewrite in_app_iff. cbn. intros [H|[H|[]]]; [contradiction|]. subst. apply Hm. now left.
    + apply IH; [assumption|]. intro H. apply Hm. now right.
Qed.

Lemma ext_require : forall m s, ext s (requireModule m s).
Proof.
  intros m s. unfold requireModule. destruct (existsb (String.eqb m) (gs_modules s)) eqn:E.
  - apply ext_refl.
  - exists [], [m]. cbn. rewrite app_nil_r. repeat split; auto. intro H.
    apply NoDup_snoc; [assumption|]. intro Hi. apply in_existsb in Hi. congruence.
Qed.

Lemma in_require : forall m s x, In x (gs_modules (requireModule m s)) <-> In x (gs_modules s) \/ x = m.
Proof.
  intros m s x. unfold requireModule. destruct (existsb (String.eqb m) (gs_modules s)) eqn:E.
  - split; [auto|]. intros [H| ->]; [assumption|]. now apply in_existsb.
  - cbn. rewrite in_app_iff. cbn. split; intros [H|H]; auto. destruct H as [H|[]]; auto.
Qed.

Lemma require_errors : forall m s, gs_errors (requireModule m s) = gs_errors s.
Proof. intros m s. unfold requireModule. destruct (existsb _ _); reflexivity. Qed.

Lemma ext_noerr : forall s s', ext s s' -> gs_errors s' = [] -> gs_errors s = [].
Proof. intros s s' (es & ms & E & _) H. rewrite H in E. now destruct (gs_errors s). Qed.

Lemma ext_in : forall s s' m, ext s s' -> In m (gs_modules s) -> In m (gs_modules s').
Proof. intros s s' m (es & ms & _ & M & _) H. rewrite M. apply in_or_app. now left. Qed.

Lemma append_err : forall e s, gs_errors (appendError e s) <> [].
Proof. intros e s H. cbn in H. now destruct (gs_errors s). Qed.

Lemma errs_only_same : forall s s', errs_only s s' -> gs_errors s' = [] -> s' = s.
Proof.
  intros [e m] [e' m'] (es & E & M) H. cbn in *. rewrite H in E. symmetry in E.
  apply app_eq_nil in E as [-> _]. now subst.
Qed.

Section Inv.
  Context (U : unicode_tables) (fmt : spec_float -> string).
  Context (params : GenParams) (tagDefault : Z) (asg : list Assignment_) (fuel : nat).

  Notation gens := (gens U params tagDefault asg fuel).
  Notation genfs := (genfs U params tagDefault asg fuel).

  (** * The auxiliary functions *)

  Lemma resolve_some : forall name s n t s', resolveTypeReference asg fuel name s = Ok (Some (n, t), s') ->
    s' = s /\ stands_for asg name n t.
  Proof.
    intros name s n t s' H. unfold resolveTypeReference in H. bind1 H.
    apply unwrap_leaf in E as (o & Hl & Hy). unfold stands_for.
    assert (Hcase : (y = TNil /\ exists tt_, lookupUsefulType x = Some tt_ /\ Ok (Some (x, tt_), s) = Ok (Some (n, t), s'))
                    \/ (y <> TNil /\ Ok (Some (x, y), s) = Ok (Some (n, t), s'))).
    { destruct y; try (right; split; [discriminate|exact H]). left. split; [reflexivity|].
      destruct (lookupUsefulType x); [eauto|discriminate]. }
    destruct Hcase as [(-> & u & Hu & He)|(Hn & He)].
    - injection He as <- <- <-. split; [reflexivity|]. exists o. split; [assumption|]. right. split.
      + destruct o as [u'|]; [right; now subst|now left].
      + unfold lookupUsefulType in Hu. destruct (String.eqb_spec x GeneralizedTimeName) as [->|]; [|discriminate].
        injection Hu as <-. auto.
    - injection He as <- <- <-. split; [reflexivity|]. exists o. split; [assumption|]. left. split; [|assumption].
      destruct o as [u'|]; [now subst|congruence].
  Qed.

  Lemma resolve_none : forall name s s', resolveTypeReference asg fuel name s = Ok (None, s') ->
    s' = appendError (ErrUnresolved name) s /\
    exists n o, leaf_of asg name n o /\ (o = None \/ o = Some TNil) /\ n <> "GeneralizedTime".
  Proof.
    intros name s s' H. unfold resolveTypeReference in H. bind1 H.
    apply unwrap_leaf in E as (o & Hl & Hy).
    destruct y; try discriminate. destruct (lookupUsefulType x) eqn:Eu; [discriminate|].
    injection H as <-. split; [reflexivity|]. exists x, o. split; [assumption|]. split.
    - destruct o; [right; now subst|now left].
    - intros ->. discriminate Eu.
  Qed.

  Lemma resolve_errs : forall name s o s', resolveTypeReference asg fuel name s = Ok (o, s') -> errs_only s s'.
  Proof.
    intros name s [[n t]|] s' H.
    - apply resolve_some in H as [-> _]. apply errs_only_refl.
    - apply resolve_none in H as [-> _]. apply errs_only_append.
  Qed.

  Lemma tagged_errs : forall hops t s b s',
    taggedChoiceTypeAlternative asg hops fuel t s = Ok (b, s') -> errs_only s s'.
  Proof.
    induction hops as [|h IHh]; intro t; induction t using atype_ind'; intros s1 b1 s1' Hg; cbn in Hg;
      try (injection Hg as <- <-; apply errs_only_refl).
    - destruct (_ || _); [injection Hg as <- <-; apply errs_only_refl|].
      bind1 Hg. apply resolve_errs in E. destruct x as [[n' t']|]; [discriminate|].
      injection Hg as <- <-. assumption.
    - eapply IHt. exact Hg.
    - destruct (_ || _); [injection Hg as <- <-; apply errs_only_refl|].
      bind1 Hg. apply resolve_errs in E. destruct x as [[n' t']|].
      + eapply errs_only_trans; [eassumption|]. eapply IHh. exact Hg.
      + injection Hg as <- <-. assumption.
    - eapply IHt. exact Hg.
  Qed.

  Lemma has_errs : forall l s b s', hasTaggedAlternatives asg fuel l s = Ok (b, s') -> errs_only s s'.
  Proof.
    induction l as [|[n t] l IH]; intros s b s' H; cbn in H.
    - injection H as <- <-. apply errs_only_refl.
    - bind1 H. apply tagged_errs in E. destruct x.
      + injection H as <- <-. assumption.
      + eapply errs_only_trans; eauto.
  Qed.

  Lemma unwrapTags_errs : forall field t cs s cs' t' s',
    unwrapTags tagDefault field t cs s = (cs', t', s') -> errs_only s s' /\ t' = strip t.
  Proof.
    induction t using atype_ind'; intros cs s1 cs' t' s1' H1; cbn in H1;
      try (injection H1 as <- <- <-; split; [apply errs_only_refl|reflexivity]).
    - destruct (tagComponents tagDefault field g z b cs s1) as [cs1 s2] eqn:E.
      apply IHt in H1 as [H1 ->]. split; [|reflexivity]. eapply errs_only_trans; [|exact H1].
      unfold tagComponents in E.
      destruct (if (if b then z else tagDefault) =? TAGS_EXPLICIT then _ else _) as [c2 s3] eqn:E2.
      assert (errs_only s1 s3).
      { destruct (_ =? TAGS_EXPLICIT); [injection E2 as <- <-; apply errs_only_refl|].
        destruct (_ =? TAGS_IMPLICIT); [injection E2 as <- <-; apply errs_only_refl|].
        destruct (_ =? TAGS_AUTOMATIC); injection E2 as <- <-; [apply errs_only_append|apply errs_only_refl]. }
      eapply errs_only_trans; [eassumption|].
      destruct (lookupValue (tag_ClassNumber g)); injection E as <- <-;
        (apply errs_only_refl || apply errs_only_append).
    - eauto.
  Qed.

  Lemma tagOf_errs : forall field t o d s tag s',
    asn1TagFromType tagDefault asg fuel field t o d s = Ok (tag, s') -> errs_only s s'.
  Proof.
    intros field t o d s tag s' H. unfold asn1TagFromType in H.
    destruct (unwrapTags tagDefault field t (defaultComponents o d) s) as [[cs leaf] s1] eqn:E.
    apply unwrapTags_errs in E as [E _]. bind1 H. injection H as <- <-. assumption.
  Qed.

  (** * The state only grows *)

  Lemma special_some : forall n t s e s', generateSpecialCase n t s = (Some e, s') ->
    (time_name n /\ e = EIdent "time.Time" /\ s' = requireModule "time" s) \/
    (~ time_name n /\ (exists l, strip t = TBitString l) /\ e = EIdent "asn1.BitString" /\
     s' = requireModule "encoding/asn1" s).
  Proof.
    intros n t s e s' H. unfold generateSpecialCase, time_name in *.
    destruct (String.eqb_spec n GeneralizedTimeName) as [En|En].
    { injection H as <- <-. left. auto. }
    destruct (String.eqb_spec n UTCTimeName) as [En'|En']; cbn [orb] in H.
    { injection H as <- <-. left. auto. }
    right. rewrite removeWrapperTypes_strip in H.
    destruct (strip t); try discriminate. injection H as <- <-.
    split; [intros [H|H]; contradiction|]. eauto.
  Qed.

  Lemma special_none : forall n t s s', generateSpecialCase n t s = (None, s') ->
    s' = s /\ ~ time_name n /\ (forall l, strip t <> TBitString l).
  Proof.
    intros n t s s' H. unfold generateSpecialCase, time_name in *.
    destruct (String.eqb_spec n GeneralizedTimeName) as [En|En]; [discriminate|].
    destruct (String.eqb_spec n UTCTimeName) as [En'|En']; cbn [orb] in H; [discriminate|].
    rewrite removeWrapperTypes_strip in H.
    split; [destruct (strip t); congruence|]. split; [intros [H'|H']; contradiction|].
    intros l Hl. rewrite Hl in H. discriminate.
  Qed.

  Lemma gens_genfs_ext :
    (forall t b s e b' s', gens t b s e b' s' -> ext s s') /\
    (forall l s fs s', genfs l s fs s' -> ext s s').
  Proof.
    apply gens_genfs_ind; intros; try apply ext_refl; try apply ext_require; try apply ext_append; try assumption.
    - apply resolve_errs in e0. apply errs_only_ext in e0. eapply ext_trans; [exact e0|].
      apply special_some in e1 as [(_ & _ & ->)|(_ & _ & _ & ->)]; apply ext_require.
    - apply resolve_errs in e. apply errs_only_ext in e. apply special_none in e0 as [-> _]. assumption.
    - apply resolve_errs in e. now apply errs_only_ext.
    - apply has_errs in e. now apply errs_only_ext.
    - apply has_errs in e0. apply errs_only_ext in e0. eapply ext_trans; eassumption.
    - apply has_errs in e. now apply errs_only_ext.
    - apply tagOf_errs, errs_only_ext in e0. eapply ext_trans; [eassumption|]. eapply ext_trans; eassumption.
    - eapply ext_trans; [apply ext_append|eassumption].
  Qed.

  Definition gens_ext := proj1 gens_genfs_ext.
  Definition genfs_ext := proj2 gens_genfs_ext.

  (** * Names in the output *)

  Definition uses (e : goexpr) (m : string) : Prop :=
    exists id, In id (expr_idents e) /\ qualifier id = Some (package_name m).

  Lemma gens_genfs_modules :
    (forall t b s e b' s', gens t b s e b' s' ->
       forall m, In m (gs_modules s') -> In m (gs_modules s) \/ uses e m) /\
    (forall l s fs s', genfs l s fs s' ->
       forall m, In m (gs_modules s') -> In m (gs_modules s) \/ uses (EStruct fs) m).
  Proof.
    apply gens_genfs_ind; intros; auto.
    - apply in_require in H as [H| ->]; [auto|]. right. exists "big.Int". cbn. auto.
    - apply H. assumption.
    - apply H. assumption.
    - apply resolve_some in e0 as [-> _].
      apply special_some in e1 as [(_ & -> & ->)|(_ & _ & -> & ->)];
        apply in_require in H as [H| ->]; auto; right; eexists; cbn; eauto.
    - apply resolve_some in e as [-> _]. apply special_none in e0 as [-> _]. auto.
    - apply resolve_none in e as [-> _]. auto.
    - apply in_require in H as [H| ->]; [auto|]. right.
      destruct t; try contradiction; cbn in i; subst; eexists; cbn; eauto.
    - destruct (has_errs _ _ _ _ e) as (es & _ & M). rewrite M in H. auto.
    - destruct (has_errs _ _ _ _ e0) as (es & _ & M). rewrite <- M. auto.
    - destruct (has_errs _ _ _ _ e) as (es & _ & M). rewrite M in H. auto.
    - apply tagOf_errs in e0 as (es & _ & M). apply H0 in H1 as [H1|(id & Hi & Hq)].
      + rewrite M in H1. apply H in H1 as [H1|(id & Hi & Hq)]; [auto|]. right. exists id.
        split; [|assumption]. cbn. apply in_or_app. now left.
      + right. exists id. split; [|assumption]. cbn. apply in_or_app. right. exact Hi.
  Qed.

  Definition gens_modules := proj1 gens_genfs_modules.

  (** Qualified names the generator writes for an import. *)
  Inductive from_module : string -> string -> Prop :=
  | fm_big : from_module "math/big" "big.Int"
  | fm_time : from_module "time" "time.Time"
  | fm_bits : from_module "encoding/asn1" "asn1.BitString"
  | fm_enum : from_module "encoding/asn1" "asn1.Enumerated"
  | fm_oid : from_module "encoding/asn1" "asn1.ObjectIdentifier".

  Definition known_ident (mods : list string) (id : string) : Prop :=
    In id predeclared \/ (exists m, In m mods /\ from_module m id) \/ id = "asn1.RawValue" \/
    (exists n t, id = goifyName U n /\ defines asg n t).

  Lemma known_mono : forall s s' id, ext s s' -> known_ident (gs_modules s) id -> known_ident (gs_modules s') id.
  Proof.
    intros s s' id He [H|[(m & Hm & Hf)|[H|H]]]; unfold known_ident; auto.
    right; left. exists m. split; [eapply ext_in; eassumption|assumption].
  Qed.

  Lemma leaf_undefined_inv : forall n m o, leaf_of asg n m o ->
    (exists t, defines asg n t) \/ (m = n /\ o = None).
  Proof. intros n m o H; inv H; eauto. Qed.

  Lemma plain_defined : forall name n t, stands_for asg name n t -> ~ time_name n -> exists u, defines asg name u.
  Proof.
    intros name n t (o & Hl & Ho) Hn. apply leaf_undefined_inv in Hl as [H|[-> ->]]; [assumption|].
    destruct Ho as [[H _]|(_ & -> & _)]; [discriminate|]. exfalso. apply Hn. now left.
  Qed.

  Lemma gens_genfs_idents :
    (forall t b s e b' s', gens t b s e b' s' -> gs_errors s' = [] ->
       forall id, In id (expr_idents e) -> known_ident (gs_modules s') id) /\
    (forall l s fs s', genfs l s fs s' -> gs_errors s' = [] ->
       forall id, In id (expr_idents (EStruct fs)) -> known_ident (gs_modules s') id).
  Proof.
    apply gens_genfs_ind; intros; auto.
    - left. destruct t; try contradiction; cbn in s0; subst; cbn in H0; try contradiction;
        destruct H0 as [<-|[]]; cbn; auto 8.
    - left. destruct H0 as [<-|[]]; cbn; auto 8.
    - destruct H0 as [<-|[]]. right; left. exists "math/big". split; [apply in_require; auto|constructor].
    - now apply append_err in H.
    - apply resolve_some in e0 as [-> _].
      apply special_some in e1 as [(_ & -> & ->)|(_ & _ & -> & ->)]; destruct H0 as [<-|[]]; right; left.
      + exists "time". split; [apply in_require; auto|constructor].
      + exists "encoding/asn1". split; [apply in_require; auto|constructor].
    - apply resolve_some in e as [-> Hr]. apply special_none in e0 as (-> & Hn & _).
      destruct H0 as [<-|[]]. destruct (plain_defined _ _ _ Hr Hn) as [u Hu]. unfold known_ident. eauto 8.
    - apply resolve_none in e as [-> _]. now apply append_err in H.
    - destruct H0 as [<-|[]]. right; left. exists "encoding/asn1". split; [apply in_require; auto|].
      destruct t; try contradiction; cbn in i; subst; constructor.
    - destruct H0 as [<-|[]]. unfold known_ident. auto.
    - contradiction.
    - now apply append_err in H.
    - contradiction.
    - cbn in H2. apply in_app_iff in H2 as [H2|H2].
      + apply tagOf_errs, errs_only_ext in e0. pose proof (genfs_ext _ _ _ _ g0) as He.
        pose proof (ext_trans _ _ _ e0 He) as He'. eapply known_mono; [exact He'|].
        apply H; [|assumption]. eapply ext_noerr; eassumption.
      + apply H0; assumption.
  Qed.

  Definition gens_idents := proj1 gens_genfs_idents.

  (** * Fields mirror components *)

  Section Fields.
    Context (Q : component Value DefinedValue -> gofield -> Prop).
    Hypothesis HQ : forall n t o d e b tag s s1 s2,
      gens t false s e b s1 ->
      asn1TagFromType tagDefault asg fuel n t o d s1 = Ok (tag, s2) -> gs_errors s2 = [] ->
      Q (CNamed (Named n t) o d) (Field (goifyName U n) e tag).

    Lemma gens_genfs_mirrors :
      (forall t b s e b' s', gens t b s e b' s' -> gs_errors s' = [] -> mirrors Q t e) /\
      (forall l s fs s', genfs l s fs s' -> gs_errors s' = [] ->
         Forall2 (mirrors_field Q) (present l) fs).
    Proof.
      apply gens_genfs_ind; intros; auto; try (apply mir_opaque; reflexivity).
      - apply mir_opaque. destruct t; try contradiction; reflexivity.
      - constructor. auto.
      - constructor. auto.
      - constructor. auto.
      - constructor. auto.
      - constructor. auto.
      - constructor. auto.
      - apply mir_opaque. destruct t; try contradiction; reflexivity.
      - apply mir_opaque. destruct t; try contradiction; reflexivity.
      - constructor.
      - cbn. pose proof (genfs_ext _ _ _ _ g0) as He.
        pose proof (tagOf_errs _ _ _ _ _ _ _ e0) as Ht.
        constructor; [|now apply H0]. econstructor; [reflexivity| |].
        + apply H. eapply ext_noerr; [|eassumption]. eapply ext_trans; [|exact He]. now apply errs_only_ext.
        + eapply HQ; [eassumption|eassumption|]. eapply ext_noerr; eassumption.
      - exfalso. apply genfs_ext in g. eapply append_err, ext_noerr; eassumption.
    Qed.
  End Fields.

  (** * Tagged alternatives *)

  Lemma leaf_det : forall n m o m' o', leaf_of asg n m o -> leaf_of asg n m' o' -> m = m' /\ o = o'.
  Proof.
    intros n m o m' o' H. revert m' o'. induction H as [n Hn|n t D Hs|n t m l o D Hs Hl IH]; intros m' o' H'; inv H'; auto.
    - exfalso. eapply Hn; eassumption.
    - exfalso. eapply Hn; eassumption.
    - exfalso. eapply H; eassumption.
    - split; [reflexivity|]. f_equal. eapply defines_unique; eassumption.
    - rewrite (defines_unique _ _ _ _ D H) in Hs. congruence.
    - exfalso. eapply H; eassumption.
    - rewrite (defines_unique _ _ _ _ D H) in Hs. congruence.
    - rewrite (defines_unique _ _ _ _ D H) in Hs. apply IH. congruence.
  Qed.

  Lemma stands_for_det : forall n m t m' t', stands_for asg n m t -> stands_for asg n m' t' -> m = m' /\ t = t'.
  Proof.
    intros n m t m' t' (o & Hl & Ho) (o' & Hl' & Ho').
    destruct (leaf_det _ _ _ _ _ Hl Hl') as [-> <-]. split; [reflexivity|].
    destruct Ho as [[-> Hn]|([Hx|Hx] & _ & Ht)], Ho' as [[Hy Hn']|([Hy|Hy] & _ & Ht')]; congruence.
  Qed.

  Lemma time_name_dec : forall n,
    (String.eqb n GeneralizedTimeName || String.eqb n UTCTimeName = true /\ time_name n) \/
    (String.eqb n GeneralizedTimeName || String.eqb n UTCTimeName = false /\ ~ time_name n).
  Proof.
    intro n. unfold time_name.
    destruct (String.eqb_spec n GeneralizedTimeName) as [E|E]; [left; auto|].
    destruct (String.eqb_spec n UTCTimeName) as [E'|E']; [left; auto|].
    right. split; [reflexivity|]. intros [H|H]; contradiction.
  Qed.

  Lemma no_stand_for : forall n m o m' t, leaf_of asg n m o -> (o = None \/ o = Some TNil) ->
    m <> "GeneralizedTime" -> ~ stands_for asg n m' t.
  Proof.
    intros n m o m' t Hl Ho Hm (o' & Hl' & Ho').
    destruct (leaf_det _ _ _ _ _ Hl Hl') as [-> <-].
    destruct Ho' as [[H Hn]|(_ & H & _)]; [|contradiction]. destruct Ho; congruence.
  Qed.

  Lemma tagged_alt_iff : forall hops t s b s',
    taggedChoiceTypeAlternative asg hops fuel t s = Ok (b, s') -> (b = true <-> tagged_alt asg t).
  Proof.
    assert (HR : forall n s s1 (k : option (string * AType_) -> res (bool * gstate)) r,
      (if String.eqb n GeneralizedTimeName || String.eqb n UTCTimeName then Ok (false, s)
       else do (o, s1') <- resolveTypeReference asg fuel n s; match o with None => Ok (false, s1') | Some _ => k o end)
      = Ok (r, s1) ->
      (forall m t, stands_for asg n m t -> ~ time_name n -> k (Some (m, t)) = Ok (r, s1) ->
        (r = true <-> tagged_alt asg t)) ->
      (r = true <-> tagged_alt asg (TReference n))).
    { intros n s s1 k r H Hk. destruct (time_name_dec n) as [[E Ht]|[E Ht]]; rewrite E in H.
      - injection H as <- _. split; [discriminate|]. intro Hx. inv Hx. contradiction.
      - bind1 H. destruct x as [[m t]|].
        + apply resolve_some in E0 as [-> Hs]. rewrite (Hk _ _ Hs Ht H). split; intro Hx.
          * eapply ta_reference; eassumption.
          * inv Hx. destruct (stands_for_det _ _ _ _ _ Hs H2) as [_ ->]. assumption.
        + injection H as <- <-. apply resolve_none in E0 as (_ & m & o & Hl & Ho & Hm).
          split; [discriminate|]. intro Hx. inv Hx. exfalso. eapply no_stand_for; eassumption. }
    induction hops as [|h IHh]; intro t; induction t using atype_ind'; intros s1 b1 s1' Hg;
      try (cbn in Hg; injection Hg as <- <-; split; [discriminate|intro Hx; inv Hx]).
    - eapply (HR _ _ _ (fun o => match o with None => Ok (false, s1) | Some _ => OutOfFuel end)); [|discriminate].
      cbn in Hg. destruct (_ || _); [exact Hg|]. bind1 Hg. cbn. destruct x as [[? ?]|]; exact Hg.
    - cbn in Hg. injection Hg as <- <-. split; [constructor|reflexivity].
    - cbn in Hg. apply IHt in Hg. rewrite Hg. split; [now constructor|]. intro Hx. now inv Hx.
    - cbn in Hg. destruct (time_name_dec n) as [[E Ht]|[E Ht]]; rewrite E in Hg.
      { injection Hg as <- <-. split; [discriminate|]. intro Hx. inv Hx. contradiction. }
      bind1 Hg. destruct x as [[m t]|].
      + apply resolve_some in E0 as [-> Hs]. apply IHh in Hg. rewrite Hg. split; intro Hx.
        * eapply ta_reference; eassumption.
        * inv Hx. destruct (stands_for_det _ _ _ _ _ Hs H1) as [_ ->]. assumption.
      + injection Hg as <- <-. apply resolve_none in E0 as (_ & m & o & Hl & Ho & Hm).
        split; [discriminate|]. intro Hx. inv Hx. exfalso. eapply no_stand_for; eassumption.
    - cbn in Hg. injection Hg as <- <-. split; [constructor|reflexivity].
    - assert (Hg' : taggedChoiceTypeAlternative asg (S h) fuel t s1 = Ok (b1, s1')) by exact Hg.
      apply IHt in Hg'. rewrite Hg'. split; [now constructor|]. intro Hx. now inv Hx.
  Qed.

  Lemma has_tagged_iff : forall l s b s', hasTaggedAlternatives asg fuel l s = Ok (b, s') ->
    (b = true <-> tagged_choice asg l).
  Proof.
    unfold tagged_choice. induction l as [|[n t] l IH]; intros s b s' H; cbn in H.
    - injection H as <- <-. split; [discriminate|]. intro Hx. inv Hx.
    - bind1 H. apply tagged_alt_iff in E. destruct x.
      + injection H as <- <-. split; [|reflexivity]. intros _. left. now apply E.
      + apply IH in H. rewrite H. split; intro Hx; [now right|]. inv Hx; [|assumption].
        apply E in H1. discriminate.
  Qed.

  (** * The Go type *)

  Lemma gens_genfs_go_type :
    (forall t b s e b' s', gens t b s e b' s' -> gs_errors s' = [] ->
       go_type U asg (gp_IntegerRepr params) t e) /\
    (forall l s fs s', genfs l s fs s' -> gs_errors s' = [] ->
       go_fields U asg (gp_IntegerRepr params) l fs).
  Proof.
    apply gens_genfs_ind; intros; try (now constructor; auto).
    - destruct t; try contradiction; cbn in s0; subst; constructor.
    - now apply append_err in H.
    - apply resolve_some in e0 as [-> Hs].
      apply special_some in e1 as [(Ht & -> & ->)|(Ht & (l & Hb) & -> & ->)].
      + eapply gt_time; eassumption.
      + eapply gt_ref_bits; eassumption.
    - apply resolve_some in e as [-> Hs]. apply special_none in e0 as (-> & Ht & Hb).
      eapply gt_reference; eassumption.
    - apply resolve_none in e as [-> _]. now apply append_err in H.
    - destruct t; try contradiction; cbn in i; subst; constructor.
    - apply has_tagged_iff in e. apply gt_choice_raw. now apply e.
    - apply has_tagged_iff in e0. apply gt_choice_one; [|auto].
      intro Hx. assert (false = true) by (apply e0; now left). discriminate.
    - apply has_tagged_iff in e. apply gt_choice; [|assumption]. intro Hx. apply e in Hx. discriminate.
    - now apply append_err in H.
    - pose proof (genfs_ext _ _ _ _ g0) as He. pose proof (tagOf_errs _ _ _ _ _ _ _ e0) as Ht.
      constructor; [|auto]. apply H. eapply ext_noerr; [|eassumption].
      eapply ext_trans; [|exact He]. now apply errs_only_ext.
    - exfalso. apply genfs_ext in g. eapply append_err, ext_noerr; eassumption.
  Qed.

  (** * The SET flag *)

  Lemma gens_set : forall t b s e b' s', gens t b s e b' s' ->
    (b' = true <-> b = true \/ reaches_set asg t).
  Proof.
    induction 1; try (split; [now left|]; intros [Hx|Hx]; [assumption|];
                      first [now inv Hx|destruct t; try contradiction; now inv Hx]).
    - split; [|reflexivity]. intros _. right. constructor.
    - rewrite IHgens. split; (intros [Hx|Hx]; [now left|]); [right; now constructor|inv Hx; now right].
    - rewrite IHgens. split; intros _; [right; constructor|now left].
    - rewrite IHgens. split; (intros [Hx|Hx]; [now left|]); [right; now constructor|inv Hx; now right].
    - rewrite IHgens. split; (intros [Hx|Hx]; [now left|]); [right; now constructor|inv Hx; now right].
    - apply has_tagged_iff in H. split; [now left|]. intros [Hx|Hx]; [assumption|]. inv Hx.
      destruct H as [H _]. specialize (H eq_refl). inv H; [contradiction|]. inv H1.
    - apply has_tagged_iff in H. rewrite IHgens. split; (intros [Hx|Hx]; [now left|]).
      + right. constructor; [|assumption]. intro Hy. assert (false = true) by (apply H; now left). discriminate.
      + right. now inv Hx.
  Qed.
End Inv.
