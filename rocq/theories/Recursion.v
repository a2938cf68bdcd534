(** Types that contain themselves: in Go and in ASN.1. *)
From Coq Require Import ZArith String Ascii List Bool Relations.
From Verif Require Import GoBase Utf8 Unicode Tokens Ast GoAst Codegen CodegenSpec CodegenFacts CodegenInv CodegenDecl
  CodegenTag GoifyFacts CodegenShape Wire WireFacts.
Import ListNotations.
Local Open Scope string_scope.
Local Open Scope list_scope.

(** * Specification *)

(** [contains f e s]: a value of the Go type [e] contains, without a pointer or a slice
    in between, a value of the type named [s]; [f] has the type declarations.
    (The Go Programming Language Specification, "Struct types": a struct type T may not
    contain a field of type T, or of a type containing T as a component, directly or
    indirectly, if those containing types are only array or struct types; "Alias
    declarations" and "Type definitions" may not be circular either.) *)
Inductive contains (f : gofile) : goexpr -> string -> Prop :=
| ct_name s : contains f (EIdent s) s
| ct_field n e tag fs s : In (Field n e tag) fs -> contains f e s -> contains f (EStruct fs) s
| ct_declared s a e s' : In (TypeSpec s a e) (file_specs f) -> contains f e s' -> contains f (EIdent s) s'.

(** Go: invalid recursive type. *)
Definition go_recursive (f : gofile) : Prop :=
  exists s a e, In (TypeSpec s a e) (file_specs f) /\ contains f e s.

(** [embeds t n]: a value of the ASN.1 type [t] contains one of the type named [n] as
    itself, as a component of a SEQUENCE or SET (OPTIONAL or not), or as the only
    alternative of a CHOICE. *)
Inductive embeds : AType_ -> string -> Prop :=
| em_reference n : embeds (TReference n) n
| em_tagged g t z b n : embeds t n -> embeds (TTagged g t z b) n
| em_constrained t c n : embeds t n -> embeds (TConstrained t c) n
| em_sequence cs xs k t o d n : In (CNamed (Named k t) o d) (cs ++ xs) -> embeds t n -> embeds (TSequence cs xs) n
| em_set cs xs k t o d n : In (CNamed (Named k t) o d) (cs ++ xs) -> embeds t n -> embeds (TSet cs xs) n
| em_choice k t x n : embeds t n -> embeds (TChoice [Named k t] x) n.

(** [n] is defined as a type that embeds [m]. *)
Definition built_from (asg : list Assignment_) (n m : string) : Prop :=
  exists t, defines asg n t /\ embeds t m.

(** Some type of the module embeds itself, directly or through other types. *)
Definition asn_recursive (asg : list Assignment_) : Prop :=
  exists n, clos_trans _ (built_from asg) n n.

(** The same with the exact cases: a reference counts unless it stands for a time or a
    BIT STRING, which have Go types of the library, and the only alternative of a CHOICE
    unless it is tagged, when the Go type is asn1.RawValue. *)
Inductive carries (asg : list Assignment_) : AType_ -> string -> Prop :=
| ca_reference n m t : stands_for asg n m t -> ~ time_name m -> (forall l, strip t <> TBitString l) ->
    carries asg (TReference n) n
| ca_tagged g t z b n : carries asg t n -> carries asg (TTagged g t z b) n
| ca_constrained t c n : carries asg t n -> carries asg (TConstrained t c) n
| ca_sequence cs xs k t o d n : In (CNamed (Named k t) o d) (cs ++ xs) -> carries asg t n -> carries asg (TSequence cs xs) n
| ca_set cs xs k t o d n : In (CNamed (Named k t) o d) (cs ++ xs) -> carries asg t n -> carries asg (TSet cs xs) n
| ca_choice k t x n : ~ tagged_alt asg t -> carries asg t n -> carries asg (TChoice [Named k t] x) n.

Definition made_of (asg : list Assignment_) (n m : string) : Prop :=
  exists t, defines asg n t /\ carries asg t m.

(** Some type of the module carries itself, directly or through other types. *)
Definition self_carrying (asg : list Assignment_) : Prop :=
  exists n, clos_trans _ (made_of asg) n n.

(** * Proof *)

Lemma flat_map_owner : forall A B (h : A -> list B) l, NoDup (flat_map h l) ->
  forall x y s, In x l -> In y l -> In s (h x) -> In s (h y) -> x = y.
Proof.
  intros A B h l. induction l as [|a l IH]; intros N x y s Hx Hy Sx Sy; [destruct Hx|].
  cbn [flat_map] in N.
  assert (D : forall z, In z l -> In s (h a) -> ~ In s (h z)).
  { intros z Hz Sa Sz. clear IH Hx Hy Sx Sy. induction (h a) as [|b r IHr]; [destruct Sa|].
    cbn [app] in N. inversion N as [|? ? N1 N2]; subst. destruct Sa as [->|Sa]; [|now apply IHr].
    apply N1. apply in_or_app. right. apply in_flat_map. eauto. }
  assert (N' : NoDup (flat_map h l)).
  { clear -N. induction (h a) as [|b r IHr]; [exact N|]. cbn [app] in N. inversion N; subst. auto. }
  destruct Hx as [<-|Hx], Hy as [<-|Hy]; auto.
  - now destruct (D y Hy Sx).
  - now destruct (D x Hx Sy).
  - eapply IH; eassumption.
Qed.

(** A type assignment, the Go type made for it and whether it got a name with SET. *)
Notation entry := (prod (prod (prod string AType_) goexpr) bool).
Definition entry_specs (U : unicode_tables) (x : entry) : list gospec :=
  match x with (n, _, e, b) => gd_specs (type_decl U n e b) end.
Definition is_type_spec (s : gospec) : bool := match s with TypeSpec _ _ _ => true | _ => false end.
Definition spec_types (s : gospec) : list string := match s with TypeSpec n _ _ => [n] | _ => [] end.

Lemma file_entries : forall U fmt p fuel m f, Generate U fmt p fuel m = Ok (GenOk f) ->
  exists l : list entry,
    filter is_type_spec (file_specs f) = flat_map (entry_specs U) l /\
    (forall n t, In (AType n t) (mb_AssignmentList (md_ModuleBody m)) <-> exists e b, In (n, t, e, b) l) /\
    Forall (fun x => match x with (n, t, e, b) =>
      go_type U (mb_AssignmentList (md_ModuleBody m)) (integer_repr p) t e end) l.
Proof.
  intros U fmt p fuel m f G. destruct (file_groups _ _ _ _ _ _ G) as (fin & gs & Hf & He & _ & Hok & Hg).
  unfold file_specs. rewrite Hf, flat_map_app, filter_app, import_specs.
  replace (filter is_type_spec (map ImportSpec (gs_modules fin))) with (@nil gospec) by (clear; induction (gs_modules fin) as [|x r IH]; [reflexivity|exact IH]).
  cbn [app]. clear Hf G. set (asg := mb_AssignmentList (md_ModuleBody m)) in *.
  assert (X : forall l gs, Forall2 (group U fmt (NewCodeGenerator p) (md_TagDefault m) asg fuel fin) l gs ->
    Forall decl_ok (concat gs) -> exists es : list entry,
    filter is_type_spec (flat_map gd_specs (concat gs)) = flat_map (entry_specs U) es /\
    (forall n t, In (AType n t) l <-> exists e b, In (n, t, e, b) es) /\
    Forall (fun x => match x with (n, t, e, b) => go_type U asg (integer_repr p) t e end) es).
  { induction 1 as [|a g l gs' Ha Hg' IH]; intros Ok.
    - exists []. split; [reflexivity|]. split; [|constructor]. intros n t. split; [intros []|intros (e & b & [])].
    - cbn [concat] in Ok. apply Forall_app in Ok as [Ok1 Ok2]. destruct (IH Ok2) as (es & E1 & E2 & E3).
      cbn [concat]. rewrite flat_map_app, filter_app.
      assert (V : forall ds, Forall decl_ok ds -> Forall (fun d => gd_tok d = TokVar) ds ->
        filter is_type_spec (flat_map gd_specs ds) = []).
      { induction ds as [|d ds IHd]; intros O T; [reflexivity|]. inversion O as [|? ? O1 O2]; inversion T as [|? ? T1 T2]; subst.
        cbn [flat_map]. rewrite filter_app, IHd, app_nil_r; auto. unfold decl_ok in O1. rewrite T1 in O1.
        clear -O1. induction O1 as [|x r (a & b & c & ->) _ IH]; auto. }
      destruct a as [|n t|n t v].
      + cbn in Ha. subst g. exists es. split; [exact E1|]. split; [|exact E3]. intros n t. rewrite <- E2.
        split; [intros [H|H]; [discriminate|exact H]|now right].
      + destruct Ha as (s & e & b & s1 & o & s2 & Hgen & Hx & Ha & He2 & ->).
        exists ((n, t, e, b) :: es). split; [|split].
        * cbn [flat_map entry_specs]. rewrite filter_app. rewrite <- E1. f_equal.
          rewrite V; [|now inversion Ok1|eapply opt_vars; eassumption]. rewrite app_nil_r. destruct b; reflexivity.
        * intros n' t'. split.
          -- intros [H|H]; [inversion H; subst; exists e, b; now left|]. apply E2 in H as (e' & b' & H). exists e', b'. now right.
          -- intros (e' & b' & [H|H]); [inversion H; subst; now left|]. right. apply E2. eauto.
        * constructor; [|exact E3]. rewrite <- params_repr. eapply gens_genfs_go_type; [eassumption|].
          eapply ext_noerr; eassumption.
      + exists es. split; [|split; [|exact E3]].
        * rewrite V; [exact E1|exact Ok1|]. destruct Ha as [[_ ->]|(ve & te & s & b & s1 & _ & _ & _ & _ & ->)]; repeat constructor.
        * intros n' t'. rewrite <- E2. split; [intros [H|H]; [discriminate|exact H]|now right]. }
  exact (X _ _ Hg Hok).
Qed.

Lemma append_SET : forall s, (s ++ "SET")%string <> s.
Proof. induction s as [|c s IH]; [discriminate|]. cbn [append]. intro E. apply IH. now injection E. Qed.

Section Rec.
  Context (U : unicode_tables) (repr : string) (asg : list Assignment_) (f : gofile) (l : list entry).
  Notation go_type := (go_type U asg repr).
  Notation go_fields := (go_fields U asg repr).
  Notation R := (made_of asg).
  Notation embeds := (carries asg).

  Hypothesis Hspecs : filter is_type_spec (file_specs f) = flat_map (entry_specs U) l.
  Hypothesis Hin : forall n t, In (AType n t) asg <-> exists e b, In (n, t, e, b) l.
  Hypothesis Htype : Forall (fun x => match x with (n, t, e, b) => go_type t e end) l.
  Hypothesis Hnodup : NoDup (declared_types f).
  Hypothesis Hascii : forall n t, In (AType n t) asg -> ascii_type_name n.

  Definition entry_types (x : entry) : list string := flat_map spec_types (entry_specs U x).

  Lemma types_eq : declared_types f = flat_map entry_types l.
  Proof.
    transitivity (flat_map spec_types (filter is_type_spec (file_specs f))).
    - unfold declared_types. clear. induction (file_specs f) as [|s r IH]; [reflexivity|].
      destruct s; cbn [flat_map filter is_type_spec spec_types app]; [f_equal|..]; exact IH.
    - rewrite Hspecs. clear. induction l as [|x r IH]; [reflexivity|]. cbn [flat_map]. rewrite flat_map_app, IH. reflexivity.
  Qed.

  Lemma spec_entry : forall s a e, In (TypeSpec s a e) (file_specs f) ->
    exists x, In x l /\ In (TypeSpec s a e) (entry_specs U x).
  Proof. intros s a e H. apply in_flat_map. rewrite <- Hspecs. apply filter_In. auto. Qed.

  Lemma same_entry : forall x y s, In x l -> In y l -> In s (entry_types x) -> In s (entry_types y) -> x = y.
  Proof. rewrite types_eq in Hnodup. exact (flat_map_owner _ _ _ _ Hnodup). Qed.

  (** Names of Go's own types are not declared. *)
  Lemma builtin_undeclared : forall x s, In x l -> In s (entry_types x) -> builtin_kind s = None.
  Proof.
    intros [[[n t] e] b] s Hx Hs.
    assert (A : ascii_type_name n) by (eapply Hascii, Hin; eauto).
    unfold entry_types, entry_specs, type_decl in Hs. destruct b; cbn in Hs; [destruct Hs as [<-|[<-|[]]]|destruct Hs as [<-|[]]].
    - now apply builtin_goify.
    - now apply builtin_goify1.
    - now apply builtin_goify1.
  Qed.

  (** [m] is defined, and [s] is one of the names declared for it. *)
  Definition owner (m s : string) : Prop :=
    exists t e b, defines asg m t /\ In (m, t, e, b) l /\ In s (entry_types (m, t, e, b)).

  Lemma defined_owner : forall n t, defines asg n t -> owner n (goifyName U n).
  Proof.
    intros n t D. assert (I := first_named_in _ _ _ D). apply Hin in I as (e & b & I). exists t, e, b.
    split; [exact D|]. split; [exact I|]. unfold entry_types, entry_specs, type_decl. destruct b; cbn; auto.
  Qed.

  Lemma fields_in : forall cs fs, go_fields cs fs -> forall n e tag, In (Field n e tag) fs ->
    exists k t o d, In (CNamed (Named k t) o d) cs /\ go_type t e.
  Proof.
    induction 1 as [|k t o d cs e tag fs H1 H2 IH|cs fs H2 IH]; intros n e' tag' I; [destruct I| |].
    - destruct I as [E|I].
      + inversion E; subst. exists k, t, o, d. split; [now left|exact H1].
      + destruct (IH _ _ _ I) as (k' & t' & o' & d' & I' & T). exists k', t', o', d'. split; [now right|exact T].
    - destruct (IH _ _ _ I) as (k' & t' & o' & d' & I' & T). exists k', t', o', d'. split; [now right|exact T].
  Qed.

  Lemma ident_type : forall t e, go_type t e -> forall s, e = EIdent s -> builtin_kind s = None ->
    exists n tn, embeds t n /\ s = goifyName U n /\ defines asg n tn.
  Proof.
    induction 1; intros q E B; inversion E; subst; try discriminate B.
    - destruct (IHgo_type _ eq_refl B) as (n & tn & X1 & X2). exists n, tn. split; [now constructor|exact X2].
    - destruct (IHgo_type _ eq_refl B) as (n & tn & X1 & X2). exists n, tn. split; [now constructor|exact X2].
    - assert (K : embeds (TReference n) n) by (econstructor; eassumption).
      destruct H as (o & L & C). inversion L; subst.
      + destruct C as [[? _]|(_ & -> & _)]; [discriminate|]. destruct H0. now left.
      + exists m, t0. auto.
      + exists n, t0. auto.
    - destruct (IHgo_type _ eq_refl B) as (k & tn & X1 & X2). exists k, tn. split; [now constructor|exact X2].
  Qed.

  Lemma struct_type : forall t e, go_type t e -> forall fs, e = EStruct fs -> forall n e' tag, In (Field n e' tag) fs ->
    exists t', go_type t' e' /\ forall m, embeds t' m -> embeds t m.
  Proof.
    induction 1; intros gfs E k e' tag I; inversion E; subst.
    - destruct (IHgo_type _ eq_refl _ _ _ I) as (t' & T & X). exists t'. split; [exact T|]. intros m M. constructor; auto.
    - destruct (IHgo_type _ eq_refl _ _ _ I) as (t' & T & X). exists t'. split; [exact T|]. intros m M. constructor; auto.
    - destruct (fields_in _ _ H _ _ _ I) as (k' & t' & o & d & I' & T). exists t'. split; [exact T|]. intros m M. econstructor; eassumption.
    - destruct (fields_in _ _ H _ _ _ I) as (k' & t' & o & d & I' & T). exists t'. split; [exact T|]. intros m M. econstructor; eassumption.
    - destruct (IHgo_type _ eq_refl _ _ _ I) as (t' & T & X). exists t'. split; [exact T|]. intros m M. constructor; auto.
  Qed.

  Lemma declared_not_builtin : forall s, In s (declared_types f) -> builtin_kind s = None.
  Proof. intros s Hs. rewrite types_eq in Hs. apply in_flat_map in Hs as (x & Hx & Hs). eapply builtin_undeclared; eassumption. Qed.

  Lemma spec_declared : forall s a e, In (TypeSpec s a e) (file_specs f) -> In s (declared_types f).
  Proof. intros s a e I. apply in_flat_map. exists (TypeSpec s a e). split; [exact I|now left]. Qed.

  (** Go containment follows ASN.1 containment. *)
  Lemma contains_embeds : forall e s, contains f e s -> In s (declared_types f) ->
    (forall t, go_type t e -> exists m0 m, embeds t m0 /\ clos_refl_trans _ R m0 m /\ owner m s) /\
    (forall s0 n, e = EIdent s0 -> owner n s0 -> exists m, clos_refl_trans _ R n m /\ owner m s).
  Proof.
    intros e s H. induction H as [s|n e tag fs s I H IH|s0 a e s I H IH]; intro Hs.
    - split.
      + intros t T. destruct (ident_type _ _ T _ eq_refl (declared_not_builtin _ Hs)) as (n & tn & E & -> & D).
        exists n, n. split; [exact E|]. split; [apply rt_refl|]. eapply defined_owner; eassumption.
      + intros s0 n E O. inversion E; subst s0. exists n. split; [apply rt_refl|exact O].
    - specialize (IH Hs) as [IH _]. split; [|discriminate]. intros t T.
      destruct (struct_type _ _ T _ eq_refl _ _ _ I) as (t' & T' & X). destruct (IH _ T') as (m0 & m & E & Y).
      exists m0, m. split; [now apply X|exact Y].
    - specialize (IH Hs) as [IH1 IH2].
      assert (P2 : forall n, owner n s0 -> exists m, clos_refl_trans _ R n m /\ owner m s).
      { intros n (t & e' & b & D & Ix & Is). destruct (spec_entry _ _ _ I) as (x & Hx & Ie).
        assert (x = (n, t, e', b)) as ->.
        { apply (same_entry _ _ s0 Hx Ix); [|exact Is]. apply in_flat_map. exists (TypeSpec s0 a e). split; [exact Ie|now left]. }
        assert (T : go_type t e') by (rewrite Forall_forall in Htype; exact (Htype _ Ix)).
        assert (X : e = e' \/ (b = true /\ e = EIdent (goifyName U n ++ "SET")%string)).
        { unfold entry_specs, type_decl in Ie. destruct b; cbn in Ie.
          - destruct Ie as [E|[E|[]]]; inversion E; subst; auto.
          - destruct Ie as [E|[]]; inversion E; subst; auto. }
        destruct X as [->|[-> ->]].
        - destruct (IH1 _ T) as (m0 & m & E & RT & O). exists m. split; [|exact O].
          eapply rt_trans; [apply rt_step|exact RT]. exists t. auto.
        - apply (IH2 _ n eq_refl). exists t, e', true. split; [exact D|]. split; [exact Ix|]. now left. }
      split.
      + intros t T. destruct (ident_type _ _ T _ eq_refl (declared_not_builtin _ (spec_declared _ _ _ I))) as (n & tn & E & -> & D).
        destruct (P2 n (defined_owner _ _ D)) as (m & RT & O). exists n, m. auto.
      + intros s1 n E O. inversion E; subst s1. now apply P2.
  Qed.

  Lemma go_recursive_asn : go_recursive f -> self_carrying asg.
  Proof.
    intros (s & a & e & I & C). pose proof (spec_declared _ _ _ I) as Hs.
    destruct (contains_embeds _ _ C Hs) as [P1 P2]. destruct (spec_entry _ _ _ I) as ([[[n t] e'] b] & Hx & Ie).
    assert (Sx : In s (entry_types (n, t, e', b))) by (apply in_flat_map; exists (TypeSpec s a e); split; [exact Ie|now left]).
    assert (T : go_type t e') by (rewrite Forall_forall in Htype; exact (Htype _ Hx)).
    assert (P : exists m0 m, embeds t m0 /\ clos_refl_trans _ R m0 m /\ owner m s).
    { unfold entry_specs, type_decl in Ie. destruct b; cbn in Ie.
      - destruct Ie as [E|[E|[]]]; inversion E; subst; [now apply P1|].
        inversion C as [s' E'|?|s0 a' e0 s' I' C']; subst.
        + exfalso. eapply append_SET. eassumption.
        + destruct (spec_entry _ _ _ I') as (y & Hy & Iy).
          assert ((n, t, e', true) = y) as <-.
          { apply (same_entry _ _ (goifyName U n ++ "SET")%string Hx Hy); [now left|].
            apply in_flat_map. eexists. split; [exact Iy|now left]. }
          cbn in Iy. destruct Iy as [E'|[E'|[]]]; inversion E'; subst.
          * exact (proj1 (contains_embeds _ _ C' Hs) _ T).
          * exfalso. eapply append_SET. symmetry. eassumption.
      - destruct Ie as [E|[]]; inversion E; subst. now apply P1. }
    destruct P as (m0 & m & E & RT & (t' & e2 & b' & D & Ix & Is)).
    assert (X := same_entry _ _ s Hx Ix Sx Is). inversion X; subst.
    exists m. assert (St : R m m0) by (exists t'; auto). clear -St RT.
    assert (X : forall k z, R k m0 -> clos_refl_trans _ R m0 z -> clos_trans _ R k z).
    { intros k z S' H. apply clos_rt_rtn1 in H. induction H as [|y z S2 H IH]; [now apply t_step|].
      eapply t_trans; [exact IH|now apply t_step]. }
    now apply X.
  Qed.
End Rec.

Lemma carries_embeds : forall asg t n, carries asg t n -> embeds t n.
Proof. induction 1; econstructor; eassumption. Qed.

Lemma self_carrying_recursive : forall asg, self_carrying asg -> asn_recursive asg.
Proof.
  intros asg (n & C). exists n. revert C. generalize n at 1 3. intros m C. induction C as [x y (t & D & C)|x y z _ IH1 _ IH2].
  - apply t_step. exists t. split; [exact D|]. eapply carries_embeds; eassumption.
  - eapply t_trans; eassumption.
Qed.

Lemma go_recursive_carries : forall U fmt p fuel m f, Generate U fmt p fuel m = Ok (GenOk f) ->
  NoDup (declared_types f) -> (forall n t, In (AType n t) (mb_AssignmentList (md_ModuleBody m)) -> ascii_type_name n) ->
  go_recursive f -> self_carrying (mb_AssignmentList (md_ModuleBody m)).
Proof.
  intros U fmt p fuel m f G N A. destruct (file_entries _ _ _ _ _ _ G) as (l & H1 & H2 & H3).
  exact (go_recursive_asn U (integer_repr p) _ f l H1 H2 H3 N A).
Qed.

Lemma recursive_embeds : forall U fmt p fuel m f, Generate U fmt p fuel m = Ok (GenOk f) ->
  NoDup (declared_types f) -> (forall n t, In (AType n t) (mb_AssignmentList (md_ModuleBody m)) -> ascii_type_name n) ->
  go_recursive f -> asn_recursive (mb_AssignmentList (md_ModuleBody m)).
Proof. intros. eapply self_carrying_recursive, go_recursive_carries; eassumption. Qed.

(** * The converse *)

Lemma contains_trans : forall f e s s', contains f e s -> contains f (EIdent s) s' -> contains f e s'.
Proof. intros f e s s' H H'. induction H; [exact H'|eapply ct_field; eauto|eapply ct_declared; eauto]. Qed.

Section Back.
  Context (U : unicode_tables) (repr : string) (asg : list Assignment_) (f : gofile) (l : list entry).
  Hypothesis Hspecs : filter is_type_spec (file_specs f) = flat_map (entry_specs U) l.
  Hypothesis Hin : forall n t, In (AType n t) asg <-> exists e b, In (n, t, e, b) l.
  Hypothesis Htype : Forall (fun x => match x with (n, t, e, b) => go_type U asg repr t e end) l.

  Lemma fields_of : forall cs fs, go_fields U asg repr cs fs -> forall k t o d, In (CNamed (Named k t) o d) cs ->
    exists n e tag, In (Field n e tag) fs /\ go_type U asg repr t e.
  Proof.
    induction 1 as [|k t o d cs e tag fs H1 H2 IH|cs fs H2 IH]; intros k' t' o' d' I; [destruct I| |].
    - destruct I as [E|I].
      + inversion E; subst. eexists _, e, tag. split; [now left|exact H1].
      + destruct (IH _ _ _ _ I) as (n & e' & tag' & I' & T). exists n, e', tag'. split; [now right|exact T].
    - destruct I as [E|I]; [discriminate|eauto].
  Qed.

  Lemma carries_contains : forall t n, carries asg t n -> forall e, go_type U asg repr t e -> contains f e (goifyName U n).
  Proof.
    induction 1 as [n m t S T B|g t z b n C IH|t c n C IH|cs xs k t o d n I C IH|cs xs k t o d n I C IH|k t x n N C IH];
      intros e G; inversion G; subst.
    - destruct (stands_for_det _ _ _ _ _ _ S H0) as [-> ->]. contradiction.
    - destruct (stands_for_det _ _ _ _ _ _ S H0) as [-> ->]. now destruct (B l0).
    - apply ct_name.
    - auto.
    - auto.
    - match goal with H : go_fields _ _ _ _ _ |- _ => destruct (fields_of _ _ H _ _ _ _ I) as (n' & e' & tag & If & T) end. eapply ct_field; [exact If|auto].
    - match goal with H : go_fields _ _ _ _ _ |- _ => destruct (fields_of _ _ H _ _ _ _ I) as (n' & e' & tag & If & T) end. eapply ct_field; [exact If|auto].
    - match goal with H : tagged_choice _ _ |- _ => inversion H as [? ? Q|? ? Q]; subst; [contradiction|inversion Q] end.
    - auto.
    - match goal with H : length _ <> _ |- _ => now destruct H end.
  Qed.

  Lemma spec_of : forall x s, In x l -> In s (entry_specs U x) -> is_type_spec s = true -> In s (file_specs f).
  Proof.
    intros x s Hx Hs T. assert (X : In s (filter is_type_spec (file_specs f))).
    { rewrite Hspecs. apply in_flat_map. eauto. }
    now apply filter_In in X.
  Qed.

  (** The declaration of [n] and what it contains. *)
  Lemma made_contains : forall n m, made_of asg n m ->
    exists a e, In (TypeSpec (goifyName U n) a e) (file_specs f) /\ contains f e (goifyName U m).
  Proof.
    intros n m (t & D & C). assert (I := first_named_in _ _ _ D). apply Hin in I as (e & b & I).
    assert (T : go_type U asg repr t e) by (rewrite Forall_forall in Htype; exact (Htype _ I)).
    assert (X := carries_contains _ _ C _ T). destruct b.
    - eexists _, _. split; [eapply spec_of; [exact I|right; now left|reflexivity]|].
      eapply ct_declared; [|exact X]. eapply spec_of; [exact I|now left|reflexivity].
    - eexists _, _. split; [eapply spec_of; [exact I|now left|reflexivity]|exact X].
  Qed.

  Lemma path_contains : forall n m, clos_trans _ (made_of asg) n m ->
    exists a e, In (TypeSpec (goifyName U n) a e) (file_specs f) /\ contains f e (goifyName U m).
  Proof.
    induction 1 as [n m H|n m k _ (a & e & I1 & C1) _ (a' & e' & I2 & C2)]; [now apply made_contains|].
    exists a, e. split; [exact I1|]. eapply contains_trans; [exact C1|]. eapply ct_declared; eassumption.
  Qed.
End Back.

Lemma carries_go_recursive : forall U fmt p fuel m f, Generate U fmt p fuel m = Ok (GenOk f) ->
  self_carrying (mb_AssignmentList (md_ModuleBody m)) -> go_recursive f.
Proof.
  intros U fmt p fuel m f G (n & C). destruct (file_entries _ _ _ _ _ _ G) as (l & H1 & H2 & H3).
  destruct (path_contains U _ _ f l H1 H2 H3 _ _ C) as (a & e & I & X). exists (goifyName U n), a, e. auto.
Qed.
