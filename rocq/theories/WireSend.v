(** Which values can be sent: a Go value for every value that is [sendable] (C70). *)
From Coq Require Import ZArith String Ascii List Bool Lia Permutation SpecFloat.
From Verif Require Import GoBase Utf8 Unicode Tokens Ast GoAst Codegen CodegenSpec CodegenFacts CodegenInv CodegenDecl
  CodegenTag GoifyFacts CodegenShape Wire WireFacts.
Import ListNotations.
Local Open Scope string_scope.
Local Open Scope list_scope.
Local Open Scope Z_scope.

Scheme founded_mut := Induction for founded Sort Prop
  with founded_all_mut := Induction for founded_all Sort Prop.
Combined Scheme founded_mutind from founded_mut, founded_all_mut.

Scheme sendable_mut := Induction for sendable Sort Prop
  with sendable_all_mut := Induction for sendable_all Sort Prop
  with sendable_each_mut := Induction for sendable_each Sort Prop.
Combined Scheme sendable_mutind from sendable_mut, sendable_all_mut, sendable_each_mut.

Section Main.
  Context (U : unicode_tables) (repr : string) (td : Z) (asg : list Assignment_) (f : gofile) (good : string -> Prop).

  Notation go_type := (go_type U asg repr).
  Notation go_fields := (go_fields U asg repr).
  Notation plain_type := (plain_type asg good).
  Notation component_type := (component_type asg good).
  Notation plain_components := (plain_components asg good).

  Hypothesis Hfile : forall n t, defines asg n t -> exists e b, go_type t e /\ mirrors (field_params td asg) t e /\
    (b = true <-> reaches_set asg t) /\ incl (gd_specs (type_decl U n e b)) (file_specs f).
  Hypothesis Hgood : wire_names asg good.

  Lemma go_type_stripped : forall t e, go_type t e -> go_type (strip t) e.
  Proof. intros t e H. induction H; cbn [strip]; try assumption; econstructor; eassumption. Qed.

  Lemma named_value : forall n e b v, incl (gd_specs (type_decl U n e b)) (file_specs f) -> value_of f e v ->
    value_of f (EIdent (goifyName U n)) v.
  Proof.
    intros n e b v I V. destruct b.
    - eapply vo_name; [apply I; right; left; reflexivity|]. eapply vo_name; [apply I; left; reflexivity|exact V].
    - eapply vo_name; [apply I; left; reflexivity|exact V].
  Qed.

  Lemma reference_or_not (t : AType_) : (exists m, strip t = TReference m) \/ (forall m, strip t <> TReference m).
  Proof. destruct (strip t); try (right; intros; discriminate). left. eauto. Qed.

  Lemma stands_det n m t m' t' : stands_for asg n m t -> stands_for asg n m' t' -> m = m' /\ t = t'.
  Proof.
    intros (o & L & H) (o' & L' & H'). destruct (leaf_det _ _ _ _ _ _ L L') as [<- <-]. split; [reflexivity|].
    destruct H as [(-> & N)|([->| ->] & _ & ->)], H' as [(E & N')|([E|E] & _ & ->)]; congruence.
  Qed.

  (** The elements of a slice are not bytes. *)
  Lemma not_byte : forall u e, plain_type u -> go_type u e -> e <> EIdent "byte".
  Proof. intros u e C G ->. pose proof (slice_kind U repr td asg f good Hfile Hgood u _ C G 0%nat) as K. discriminate K. Qed.

  (** A reference has the values of its definition. *)
  Lemma reference_type : forall n t e, component_type (TReference n) -> defines asg n t -> go_type (TReference n) e ->
    exists e', component_type (strip t) /\ go_type t e' /\ forall v, value_of f e' v -> value_of f e v.
  Proof.
    intros n t e C D G. destruct (Hfile n t D) as (e' & b & G' & _ & _ & I). exists e'.
    assert (C' : component_type (strip t)).
    { inversion C as [t0 P| | | |n0 T]; subst.
      - inversion P; subst. match goal with H : good n |- _ => destruct (Hgood n H) as (_ & _ & t' & D' & N) end.
        rewrite <- (defines_unique _ _ _ _ D D') in N. destruct N as [N|(_ & u & E & N)].
        + apply ct_plain. now apply plain_strip.
        + rewrite E. now apply ct_set_of.
      - inversion T as [N|n1 t1 m D1 T1 E1 G1]; subst; [exfalso; exact (N t D)|].
        rewrite (defines_unique _ _ _ _ D D1), E1. now apply ct_time. }
    split; [exact C'|]. split; [exact G'|]. intros v V. assert (Gs := go_type_stripped _ _ G').
    assert (step : forall m1 m t', strip t = TReference m1 -> stands_for asg n m t' -> stands_for asg m1 m t').
    { intros m1 m t' E1 (o & L & Ho). exists o. split; [|exact Ho]. inversion L as [? N|? t1 D1 N|? t1 m2 ? ? D1 E2 L1]; subst.
      - exfalso. exact (N t D).
      - rewrite <- (defines_unique _ _ _ _ D D1) in N. exfalso. exact (N m1 E1).
      - rewrite <- (defines_unique _ _ _ _ D D1) in E2. congruence. }
    assert (here : forall m t', (forall m1, strip t <> TReference m1) -> stands_for asg n m t' -> m = n /\ (t' = t \/ strip t' = TRestrictedString T_VisibleString)).
    { intros m t' N (o & L & Ho). inversion L as [? N1|? t1 D1 N1|? t1 m2 ? ? D1 E2 L1]; subst.
      - exfalso. exact (N1 t D).
      - split; [reflexivity|]. rewrite <- (defines_unique _ _ _ _ D D1) in Ho. destruct Ho as [(Ho & _)|(_ & _ & ->)]; [left; congruence|now right].
      - rewrite <- (defines_unique _ _ _ _ D D1) in E2. exfalso. exact (N _ E2). }
    inversion G as [| | | | | | | | | | | | | | | | |? m t' S T|? m t' l S T E|? m t' S T E| | |]; subst.
    - assert (e' = EIdent "time.Time") as ->; [|exact V].
      destruct (reference_or_not t) as [(m1 & E1)|N].
      + pose proof (step _ _ _ E1 S) as S1. rewrite E1 in Gs.
        inversion Gs as [| | | | | | | | | | | | | | | | |? m2 t2 S2 T2|? m2 t2 l2 S2 T2 E2|? m2 t2 S2 T2 E2| | |]; subst; [reflexivity| |];
          destruct (stands_det _ _ _ _ _ S1 S2) as [<- _]; contradiction.
      + exfalso. destruct (here _ _ N S) as [-> _]. inversion C as [t0 P| | | |n0 T0]; subst.
        * inversion P; subst. match goal with H : good n |- _ => destruct (Hgood n H) as (_ & X & _) end. exact (X T).
        * inversion T0 as [N1|n1 t1 m D1 T1 E1 G1]; subst; [exact (N1 t D)|]. rewrite <- (defines_unique _ _ _ _ D D1) in E1. exact (N _ E1).
    - assert (e' = EIdent "asn1.BitString") as ->; [|exact V].
      destruct (reference_or_not t) as [(m1 & E1)|N].
      + pose proof (step _ _ _ E1 S) as S1. rewrite E1 in Gs.
        inversion Gs as [| | | | | | | | | | | | | | | | |? m2 t2 S2 T2|? m2 t2 l2 S2 T2 E2|? m2 t2 S2 T2 E2| | |]; subst; [|reflexivity|];
          destruct (stands_det _ _ _ _ _ S1 S2) as [<- <-]; [contradiction|]. exfalso. exact (E2 _ E).
      + destruct (here _ _ N S) as [-> [->|X]]; [|congruence]. rewrite E in Gs. inversion Gs; reflexivity.
    - exact (named_value _ _ _ _ I V).
  Qed.

  (** A RawValue can hold any element. *)
  Lemma raw_value : forall t, raw_type asg t -> forall e, component_type (strip t) -> go_type t e -> forall o, value_of f e (GRaw o).
  Proof.
    induction 1 as [alts x TC|g t mode has R IH|t c R IH|n t D R IH]; intros e C G o; cbn [strip] in *.
    - inversion G; subst; [constructor|apply tagged_one in TC; contradiction|contradiction].
    - inversion G; subst. now apply IH.
    - inversion G; subst. now apply IH.
    - destruct (reference_type n t e C D G) as (e' & C' & G' & V). apply V. now apply IH.
  Qed.

  (** ** Zero values *)

  Definition Z0 (t : AType_) : Prop := forall e, component_type (strip t) -> go_type t e -> exists v, value_of f e v /\ is_zero v = true /\ v <> GNil.
  Definition Z1 (l : list (component Value DefinedValue)) : Prop := forall gfs, plain_components l -> go_fields l gfs ->
    exists vs, fields_of f gfs vs /\ forallb is_zero vs = true.

  Lemma zeros : (forall t, founded asg t -> Z0 t) /\ (forall l, founded_all asg l -> Z1 l).
  Proof.
    apply founded_mutind.
    - intros e _ G. inversion G; subst. exists (GBool false). split; [constructor|split; [reflexivity|discriminate]].
    - intros l e _ G. inversion G; subst.
      + exists (GInt 0). split; [constructor; unfold int64; lia|split; [reflexivity|discriminate]].
      + exists (GBig None). split; [constructor|split; [reflexivity|discriminate]].
    - intros l e _ G. inversion G; subst. exists (GBits None 0). split; [constructor; [constructor|unfold int64; lia]|split; [reflexivity|discriminate]].
    - intros e _ G. inversion G; subst. exists (GBytes None). split; [constructor; constructor|split; [reflexivity|discriminate]].
    - intros e _ G. inversion G; subst. exists (GOid None). split; [constructor; constructor|split; [reflexivity|discriminate]].
    - intros x e _ G. inversion G; subst. exists (GInt 0). split; [constructor; unfold int64; lia|split; [reflexivity|discriminate]].
    - intros z e _ G. inversion G; subst. exists (GString ""). split; [constructor|split; [reflexivity|discriminate]].
    - intros t e C G. exists (GSlice None). split; [|split; [reflexivity|discriminate]]. apply (go_slice U repr asg (TSequenceOf t) t) in G as (e' & -> & G); [|now left].
      apply vo_slice; [|constructor]. cbn [strip] in C. apply (component_slice asg good (TSequenceOf t) t) in C; [|now left].
      eapply not_byte; eassumption.
    - intros t e C G. exists (GSlice None). split; [|split; [reflexivity|discriminate]]. apply (go_slice U repr asg (TSetOf t) t) in G as (e' & -> & G); [|now right].
      apply vo_slice; [|constructor]. cbn [strip] in C. apply (component_slice asg good (TSetOf t) t) in C; [|now right].
      eapply not_byte; eassumption.
    - intros c x _ IH e C G. apply (go_struct U repr asg (TSequence c x) c x) in G as (gfs & -> & G); [|now left].
      cbn [strip] in C. apply (component_struct asg good (TSequence c x) c x) in C; [|now left].
      destruct (IH gfs C G) as (vs & V & Zv). exists (GStruct vs). split; [now constructor|split; [exact Zv|discriminate]].
    - intros c x _ IH e C G. apply (go_struct U repr asg (TSet c x) c x) in G as (gfs & -> & G); [|now right].
      cbn [strip] in C. apply (component_struct asg good (TSet c x) c x) in C; [|now right].
      destruct (IH gfs C G) as (vs & V & Zv). exists (GStruct vs). split; [now constructor|split; [exact Zv|discriminate]].
    - intros g t mode has _ IH e C G. inversion G; subst. now apply IH.
    - intros t c _ IH e C G. inversion G; subst. now apply IH.
    - intros n t D _ IH e C G. cbn [strip] in C. destruct (reference_type n t e C D G) as (e' & C' & G' & V).
      destruct (IH e' C' G') as (v & Vv & Zv). exists v. auto.
    - intros N e C G. assert (e = EIdent "time.Time") as ->.
      { eapply time_go_type; [constructor; exact N|exact G]. }
      exists (GTime 0). split; [constructor|split; [reflexivity|discriminate]].
    - intros alts x TC e C G. exists (GRaw None). split; [|split; [reflexivity|discriminate]].
      eapply raw_value; [|exact C|exact G]. now constructor.
    - intros gfs _ G. inversion G; subst. exists []. split; constructor.
    - intros n t o d l _ IH1 _ IH2 gfs C G. inversion C as [|n' t' o' d' l' A CT EX DF C'|]; subst.
      inversion G as [|n' t' o' d' l' e tag gfs' G1 G2|]; subst. destruct (IH1 e CT G1) as (v & V & Zv & _).
      destruct (IH2 gfs' C' G2) as (vs & Vs & Zs). exists (v :: vs). split; [now constructor|]. cbn [forallb]. now rewrite Zv.
    - intros l _ IH gfs C G. inversion C; subst. inversion G; subst. now apply IH.
  Qed.

  (** ** Values *)

  Definition S0 (t : AType_) (a : aval) : Prop := forall e, component_type (strip t) -> go_type t e ->
    exists v, value_of f e v /\ represents td asg repr t v a /\ (blank repr a = false -> is_zero v = false).
  Definition S1 (l : list (component Value DefinedValue)) (fs : list (option aval)) : Prop := forall gfs, plain_components l -> go_fields l gfs ->
    exists vs, fields_of f gfs vs /\ represents_all td asg repr l vs fs /\ (blank repr (AStruct fs) = false -> forallb is_zero vs = false).
  Definition S2 (t : AType_) (l : list aval) : Prop := forall e, plain_type t -> go_type t e ->
    exists vs, values_of f e vs /\ represents_each td asg repr t vs l.

  Lemma values : (forall t a, sendable td asg repr t a -> S0 t a) /\ (forall l fs, sendable_all td asg repr l fs -> S1 l fs) /\
    (forall t l, sendable_each td asg repr t l -> S2 t l).
  Proof.
    apply sendable_mutind.
    - intros b e _ G. inversion G; subst. exists (GBool b). split; [constructor|]. split; [constructor|auto].
    - intros l z H e _ G. inversion G; subst.
      + destruct H as [H|H]; [congruence|]. exists (GInt z). split; [now constructor|]. split; [now constructor|]. cbn. auto.
      + exists (GBig (Some z)). split; [constructor|]. split; [now constructor|reflexivity].
    - intros l o n B H e _ G. inversion G; subst. exists (GBits (Some o) n). split; [now constructor|]. split; [apply (re_bits _ _ _ l (Some o) n)|reflexivity].
    - intros o B e _ G. inversion G; subst. exists (GBytes (Some o)). split; [now constructor|]. split; [apply (re_octets _ _ _ (Some o))|reflexivity].
    - intros l I O e _ G. inversion G; subst. exists (GOid (Some l)). split; [now constructor|]. split; [now constructor|reflexivity].
    - intros x z H e _ G. inversion G; subst. exists (GInt z). split; [now constructor|]. split; [constructor|auto].
    - intros s H e _ G. inversion G; subst. exists (GString s). split; [constructor|]. split; [now constructor|]. now destruct s.
    - intros s H e _ G. inversion G; subst. exists (GString s). split; [constructor|]. split; [now constructor|]. now destruct s.
    - intros s H e _ G. inversion G; subst. exists (GString s). split; [constructor|]. split; [now constructor|]. now destruct s.
    - intros s H e _ G. inversion G; subst. exists (GString s). split; [constructor|]. split; [now constructor|]. now destruct s.
    - intros c x fs _ IH e C G. apply (go_struct U repr asg (TSequence c x) c x) in G as (gfs & -> & G); [|now left].
      cbn [strip] in C. apply (component_struct asg good (TSequence c x) c x) in C; [|now left].
      destruct (IH gfs C G) as (vs & V & R & B). exists (GStruct vs). split; [now constructor|]. split; [now constructor|exact B].
    - intros c x fs _ IH e C G. apply (go_struct U repr asg (TSet c x) c x) in G as (gfs & -> & G); [|now right].
      cbn [strip] in C. apply (component_struct asg good (TSet c x) c x) in C; [|now right].
      destruct (IH gfs C G) as (vs & V & R & B). exists (GStruct vs). split; [now constructor|]. split; [now constructor|exact B].
    - intros t l _ IH e C G. apply (go_slice U repr asg (TSequenceOf t) t) in G as (e' & -> & G); [|now left].
      cbn [strip] in C. apply (component_slice asg good (TSequenceOf t) t) in C; [|now left].
      destruct (IH e' C G) as (vs & V & R). exists (GSlice (Some vs)).
      split; [apply vo_slice; [eapply not_byte; eassumption|exact V]|]. split; [now constructor|reflexivity].
    - intros t l _ IH e C G. apply (go_slice U repr asg (TSetOf t) t) in G as (e' & -> & G); [|now right].
      cbn [strip] in C. apply (component_slice asg good (TSetOf t) t) in C; [|now right].
      destruct (IH e' C G) as (vs & V & R). exists (GSlice (Some vs)).
      split; [apply vo_slice; [eapply not_byte; eassumption|exact V]|]. split; [now constructor|reflexivity].
    - intros g t mode has a NR _ IH e C G. inversion G; subst. destruct (IH e) as (v & V & R & B); [assumption..|].
      exists v. split; [exact V|]. split; [now constructor|exact B].
    - intros t c a _ IH e C G. inversion G; subst. destruct (IH e) as (v & V & R & B); [assumption..|].
      exists v. split; [exact V|]. split; [now constructor|exact B].
    - intros n t a D _ IH e C G. cbn [strip] in C. destruct (reference_type n t e C D G) as (e' & C' & G' & W).
      destruct (IH e' C' G') as (v & V & R & B). exists v. split; [auto|]. split; [now apply (re_reference _ _ _ n t)|exact B].
    - intros z N Y e C G. assert (e = EIdent "time.Time") as ->.
      { eapply time_go_type; [constructor; exact N|exact G]. }
      exists (GTime z). split; [constructor|]. split; [now constructor|auto].
    - intros t a w RW E e C G. exists (GRaw (Some w)). split; [now apply (raw_value t)|]. split; [now apply re_raw|reflexivity].
    - intros gfs _ G. inversion G; subst. exists []. split; [constructor|]. split; [constructor|discriminate].
    - intros n t o d l a fs H _ IH1 _ IH2 gfs C G. inversion C as [|n' t' o' d' l' A CT EX DF C'|]; subst.
      inversion G as [|n' t' o' d' l' e tag gfs' G1 G2|]; subst. destruct (IH1 e CT G1) as (v & V & R & B).
      destruct (IH2 gfs' C' G2) as (vs & Vs & Rs & Bs). exists (v :: vs). split; [now constructor|]. split.
      + destruct o; [|now constructor]. destruct H as [H|H]; [discriminate|]. apply ra_present; auto.
      + cbn [blank forallb] in *. intros E. apply andb_false_iff in E as [E|E]; [now rewrite (B E)|]. rewrite (Bs E). apply andb_false_r.
    - intros n t d l fs F _ IH gfs C G. inversion C as [|n' t' o' d' l' A CT EX DF C'|]; subst.
      inversion G as [|n' t' o' d' l' e tag gfs' G1 G2|]; subst. destruct (proj1 zeros t F e CT G1) as (v & V & Zv & Nv).
      destruct (IH gfs' C' G2) as (vs & Vs & Rs & Bs). exists (v :: vs). split; [now constructor|]. split; [now constructor|].
      cbn [blank forallb] in *. intros E. rewrite (Bs E). apply andb_false_r.
    - intros l fs _ IH gfs C G. inversion C; subst. inversion G; subst. destruct (IH gfs) as (vs & Vs & Rs & Bs); [assumption..|].
      exists vs. split; [exact Vs|]. split; [now constructor|exact Bs].
    - intros t e _ _. exists []. split; constructor.
    - intros t a l _ IH1 _ IH2 e C G. destruct (plain_strip asg good t C) as [C' _].
      destruct (IH1 e (ct_plain _ _ _ C') G) as (v & V & R & _). destruct (IH2 e C G) as (vs & Vs & Rs).
      exists (v :: vs). split; now constructor.
  Qed.
End Main.

(** A sendable value of a generated type has a Go value that stands for it. *)
Lemma sendable_value : forall U fmt p fuel m f good n t a,
  Generate U fmt p fuel m = Ok (GenOk f) ->
  wire_names (mb_AssignmentList (md_ModuleBody m)) good -> good n -> defines (mb_AssignmentList (md_ModuleBody m)) n t ->
  sendable (md_TagDefault m) (mb_AssignmentList (md_ModuleBody m)) (integer_repr p) t a ->
  exists v, value_of f (EIdent (goifyName U n)) v /\ represents (md_TagDefault m) (mb_AssignmentList (md_ModuleBody m)) (integer_repr p) t v a.
Proof.
  intros U fmt p fuel m f good n t a G W Gn D H. set (asg := mb_AssignmentList (md_ModuleBody m)) in *.
  pose proof (file_declares _ _ _ _ _ _ G) as HF. fold asg in HF. cbn zeta in HF.
  destruct (HF n t D) as (e & b & GT & _ & _ & I). destruct (W n Gn) as (_ & _ & t' & D' & N).
  assert (C : component_type asg good (strip t)).
  { rewrite <- (defines_unique _ _ _ _ D D') in N. destruct N as [N|(_ & u & E & N)].
    - apply ct_plain. now apply plain_strip.
    - rewrite E. now apply ct_set_of. }
  destruct (proj1 (values U (integer_repr p) (md_TagDefault m) asg f good HF W) t a H e C GT) as (v & V & R & _).
  exists v. split; [exact (named_value U f n e b v I V)|exact R].
Qed.
