(** Property C77: CHOICE and ANY on the wire.  The vocabulary is in [Wire.v] and
    [WireRead.v]. *)
From Coq Require Import ZArith String Ascii List Bool Lia Permutation SpecFloat.
From Verif Require Import GoBase Utf8 Unicode Tokens Ast Grammar Parser ParserFacts ParserRuns GoAst Codegen CodegenSpec
  CodegenFacts Wire WireFacts WireSend WireRead WireReadFacts PropsCodegen PropsWire PropsRead.
Import ListNotations.
Local Open Scope string_scope.
Local Open Scope list_scope.
Local Open Scope Z_scope.

(** * C77: a program that reads a CHOICE or ANY and writes it again gives back what it got *)

(** A type assignment whose type is a CHOICE with tagged alternatives, with any tags and
    constraints of its own, becomes asn1.RawValue: every element is kept.  Missing: such
    types as components (C68 and C76, with a refutation below) and other types. *)
Theorem C77_tagged_choice_kept_partial : forall U fmt p fuel m f sorted n t alts x w,
  Generate U fmt p fuel m = Ok (GenOk f) -> NoDup (declared_types f) ->
  ascii_type_name n -> defines (assignments m) n t -> strip t = TChoice alts x -> tagged_choice (assignments m) alts ->
  forall k, (3 <= k)%nat -> exists v,
    unmarshal f k (goifyName U n) w = Some v /\ marshal sorted f k (goifyName U n) v = Some [w].
Proof.
  intros U fmt p fuel m f sorted n t alts x w G ND A D S1 T k Hk.
  destruct (file_declares _ _ _ _ _ _ G n t D) as (e & b & GT & _ & RS & I).
  assert (E : e = EIdent "asn1.RawValue").
  { apply go_type_strip in GT. rewrite S1 in GT. inversion GT as [| | | | | | | | | | | | | | | | | | | |alts' x' T' | n' t' x' e' T' GT' |alts' x' T']; subst; [reflexivity| |contradiction].
    exfalso. apply T'. apply tagged_one in T. exact T. }
  subst e.
  assert (Hb : b = false).
  { destruct b; [|reflexivity]. exfalso. assert (R := proj1 RS eq_refl). clear - R S1 T. revert S1.
    induction R; intro S1; cbn [strip] in S1; try discriminate S1; auto.
    injection S1 as <- <-. apply tagged_one in T. contradiction. }
  subst b. destruct k as [|k]; [lia|].
  assert (K : forall j, (1 <= j)%nat -> kind_of f j (EIdent (goifyName U n)) = Some KRaw).
  { intros j Hj. destruct j as [|j]; [lia|]. apply (kind_named U f ND) with (e := EIdent "asn1.RawValue"); [exact A|exact I|].
    destruct j; reflexivity. }
  exists (GRaw (Some w)). split.
  - unfold unmarshal. cbn [parse_field]. rewrite K by lia. destruct w as [class number body]. reflexivity.
  - unfold marshal. cbn [make_field]. rewrite K by lia. reflexivity.
Qed.
Print Assumptions C77_tagged_choice_kept_partial.

(** The elements that are kept in an interface: integers, bit strings, octet strings and
    object identifiers that Go's types hold, strings that are PrintableString if they can
    be and UTF8String otherwise, times that are UTCTime from 1950 to 2049 and
    GeneralizedTime otherwise. *)
Inductive kept : tlv -> Prop :=
| kp_integer z : int64 z -> kept (universal 2 (Octets (PInt z)))
| kp_bits o n : kept (universal 3 (Octets (PBits o n)))
| kp_octets l : kept (universal 4 (Octets (POctets l)))
| kp_oid l : oid_ok l = true -> oid_small l = true -> kept (universal 6 (Octets (POid l)))
| kp_printable s : all_chars printable_char s = true -> kept (universal 19 (Octets (PString s)))
| kp_utf8 s : utf8_valid s = true -> all_chars printable_char s = false -> kept (universal 12 (Octets (PString s)))
| kp_utc z : outside_utc z = false -> kept (universal 23 (Octets (PUtc z)))
| kp_generalized z : outside_utc z = true -> four_digit_year z = true -> kept (universal 24 (Octets (PGeneralized z))).

Lemma any_dynamic : forall w v, any_value w = Some v -> match v with GNil | GDyn _ _ => True | _ => False end.
Proof.
  intros [class number [p|l]] v H; cbn [any_value] in H; [|injection H as <-; exact I].
  repeat match type of H with (if ?b then _ else _) = _ => destruct b end; try discriminate H; try (injection H as <-; exact I);
    destruct (parse_prim _ _ _); try discriminate H; injection H as <-; exact I.
Qed.

Lemma dyn_string : forall sorted f k s, make_field sorted f (S k) (EIdent "string") fp0 (GString s) =
  if all_chars printable_char s then Some [universal 19 (Octets (PString s))]
  else if utf8_valid s then Some [universal 12 (Octets (PString s))] else None.
Proof. intros. cbn. destruct (all_chars printable_char s); [reflexivity|]. destruct (utf8_valid s); reflexivity. Qed.

Lemma dyn_time : forall sorted f k t, make_field sorted f (S k) (EIdent "time.Time") fp0 (GTime t) =
  if outside_utc t then if four_digit_year t then Some [universal 24 (Octets (PGeneralized t))] else None
  else Some [universal 23 (Octets (PUtc t))].
Proof.
  intros. cbn [make_field]. replace (kind_of f (S k) (EIdent "time.Time")) with (Some KTime) by reflexivity.
  cbn [fp0 fp_omitEmpty fp_optional andb is_default field_tag kind_tag fp_timeType fp_stringType fp_set Z.eqb negb orb prim_body].
  destruct (outside_utc t); [|reflexivity]. now destruct (four_digit_year t).
Qed.

Lemma any_kept : forall sorted f k w,
  (exists v, any_value w = Some v /\ match v with GDyn e v' => make_field sorted f (S k) e fp0 v' | _ => None end = Some [w]) <-> kept w.
Proof.
  intros sorted f k w. split.
  - intros (v & V & M). destruct w as [class number [p|l]]; cbn [any_value] in V; [|injection V as <-; discriminate M].
    destruct (class =? CLASS_UNIVERSAL) eqn:C; [|injection V as <-; discriminate M]. apply Z.eqb_eq in C. subst class.
    fold (universal number (Octets p)) in *.
    destruct (existsb (Z.eqb number) [19; 18; 22; 20; 12]) eqn:B1.
    { cbn [parse_prim] in V. destruct p as [| | | | |s| |]; try discriminate V. destruct (parse_string number s) as [s'|] eqn:PS; [|discriminate V].
      injection V as <-. rewrite dyn_string in M. destruct (all_chars printable_char s') eqn:AP; [|destruct (utf8_valid s') eqn:UV; [|discriminate M]];
        injection M as <- <-; [now apply kp_printable|now apply kp_utf8]. }
    destruct (number =? 2) eqn:B2.
    { apply Z.eqb_eq in B2. subst number. destruct p; try discriminate V. cbn [parse_prim] in V.
      destruct ((- 2 ^ 63 <=? z) && (z <? 2 ^ 63)) eqn:R; [|discriminate V]. apply kp_integer. unfold int64. lia. }
    destruct (number =? 3) eqn:B3.
    { apply Z.eqb_eq in B3. subst number. destruct p; try discriminate V. apply kp_bits. }
    destruct (number =? 6) eqn:B6.
    { apply Z.eqb_eq in B6. subst number. destruct p; try discriminate V. cbn [parse_prim] in V. destruct (oid_small l) eqn:OS; [|discriminate V].
      injection V as <-. apply kp_oid; [|exact OS]. cbn in M. destruct (oid_ok l); [reflexivity|discriminate M]. }
    destruct ((number =? 23) || (number =? 24)) eqn:BT.
    { destruct p as [| | | | | |z|z]; try discriminate V; cbn [parse_prim] in V.
      - destruct (number =? 23) eqn:B23; [|discriminate V]. apply Z.eqb_eq in B23. subst number. injection V as <-.
        rewrite dyn_time in M. destruct (outside_utc z) eqn:O; [destruct (four_digit_year z); discriminate M|]. now apply kp_utc.
      - destruct (number =? 24) eqn:B24; [|discriminate V]. apply Z.eqb_eq in B24. subst number. injection V as <-.
        rewrite dyn_time in M. destruct (outside_utc z) eqn:O; [|discriminate M]. destruct (four_digit_year z) eqn:FD; [|discriminate M].
        now apply kp_generalized. }
    destruct (number =? 4) eqn:B4.
    { apply Z.eqb_eq in B4. subst number. destruct p; try discriminate V. apply kp_octets. }
    destruct (number =? 30); [discriminate V|]. injection V as <-. discriminate M.
  - intros H. inversion H as [z Hz|o n|l|l H1 H2|s H1|s H1 H2|z H1|z H1 H2]; subst.
    + exists (GDyn (EIdent "int64") (GInt z)). split; [|reflexivity]. cbn [any_value universal Z.eqb existsb orb parse_prim].
      assert ((- 2 ^ 63 <=? z) && (z <? 2 ^ 63) = true) as R by (unfold int64 in Hz; lia). cbn. cbn in R. now rewrite R.
    + now exists (GDyn (EIdent "asn1.BitString") (GBits (Some o) n)).
    + now exists (GDyn (EArray (EIdent "byte")) (GBytes (Some l))).
    + exists (GDyn (EIdent "asn1.ObjectIdentifier") (GOid (Some l))). split; [cbn [any_value universal]; cbn -[oid_small]; now rewrite H2|].
      cbn -[oid_ok]. now rewrite H1.
    + exists (GDyn (EIdent "string") (GString s)). rewrite dyn_string, H1. split; [|reflexivity]. cbn -[all_chars].
      assert (all_chars printable_char_read s = true) as R; [|now rewrite R].
      clear H. induction s as [|c s IH]; [reflexivity|]. cbn in H1 |- *. apply andb_true_iff in H1 as [H1 H2].
      rewrite IH by exact H2. unfold printable_char_read. now rewrite H1.
    + exists (GDyn (EIdent "string") (GString s)). rewrite dyn_string, H1, H2. split; [|reflexivity]. cbn -[utf8_valid]. now rewrite H1.
    + exists (GDyn (EIdent "time.Time") (GTime z)). now rewrite dyn_time, H1.
    + exists (GDyn (EIdent "time.Time") (GTime z)). now rewrite dyn_time, H1, H2.
Qed.

(** A type assignment whose type is ANY or a CHOICE of several untagged alternatives
    becomes interface{}: exactly these elements are given back. *)
Theorem C77_interface_exactly : forall U fmt p fuel m f sorted n t,
  Generate U fmt p fuel m = Ok (GenOk f) -> NoDup (declared_types f) ->
  ascii_type_name n -> defines (assignments m) n t ->
  ((exists s, strip t = TAny s) \/
   exists alts x, strip t = TChoice alts x /\ ~ tagged_choice (assignments m) alts /\ length alts <> 1%nat) ->
  forall w k, (3 <= k)%nat ->
  ((exists v, unmarshal f k (goifyName U n) w = Some v /\ marshal sorted f k (goifyName U n) v = Some [w]) <-> kept w).
Proof.
  intros U fmt p fuel m f sorted n t G ND A D S1 w k Hk.
  destruct (file_declares _ _ _ _ _ _ G n t D) as (e & b & GT & _ & RS & I).
  assert (E : e = EInterface).
  { apply go_type_strip in GT. destruct S1 as [[s S1]|(alts & x & S1 & NT & NL)]; rewrite S1 in GT; inversion GT; subst; try reflexivity; [contradiction|].
    exfalso. now apply NL. }
  subst e.
  assert (Hb : b = false).
  { destruct b; [|reflexivity]. exfalso. assert (R := proj1 RS eq_refl). clear - R S1.
    induction R; cbn [strip] in S1; auto; destruct S1 as [[s S1]|(alts & x' & S1 & NT & NL)]; try discriminate S1.
    injection S1 as <- <-. now apply NL. }
  subst b. destruct k as [|[|[|k]]]; try lia.
  assert (K : forall j, (1 <= j)%nat -> kind_of f j (EIdent (goifyName U n)) = Some KAny).
  { intros j Hj. destruct j as [|j]; [lia|]. apply (kind_named U f ND) with (e := EInterface); [exact A|exact I|]. destruct j; reflexivity. }
  unfold unmarshal. cbn [parse_field]. rewrite K by lia. destruct w as [class number body].
  cbn [is_any].
  assert (M : forall v, any_value (TLV class number body) = Some v ->
    marshal sorted f (S (S (S k))) (goifyName U n) v = match v with GDyn e v' => make_field sorted f (S (S (S k))) e fp0 v' | _ => None end).
  { intros v V. unfold marshal. destruct v; try (exfalso; exact (any_dynamic _ _ V)); cbn [make_field]; [reflexivity|]. now rewrite K by lia. }
  rewrite <- (any_kept sorted f (S (S k))). split; intros (v & V & W).
  - exists v. assert (V' : any_value (TLV class number body) = Some v).
    { destruct (any_value _); cbn in V; [injection V as <-; reflexivity|discriminate V]. }
    split; [exact V'|]. now rewrite <- (M _ V').
  - exists v. rewrite V. split; [reflexivity|]. now rewrite (M _ V).
Qed.
Print Assumptions C77_interface_exactly.

(** No alternative has a tag. *)
Ltac not_tagged := let T := fresh in intro T; unfold tagged_choice in T; repeat match goal with
  | H : Exists _ (_ :: _) |- _ => inversion H; clear H; subst
  | H : Exists _ [] |- _ => inversion H
  | H : tagged_alt _ _ |- _ => inversion H; clear H; subst
  end.

Definition any_text : string :=
  "M DEFINITIONS ::= BEGIN
   Name ::= CHOICE { dns [2] IA5String, ip [7] OCTET STRING }
   Outer ::= [1] Name2  Name2 ::= [APPLICATION 3] CHOICE { dns [2] IA5String, ip OCTET STRING }
   Value ::= ANY
   Either ::= CHOICE { i INTEGER, s UTF8String, l SEQUENCE OF INTEGER } END".
Definition any_module : Module_ := Eval vm_compute in module_of any_text.
Definition any_file : gofile := Eval vm_compute in file_of any_text.
Example C77_example :
  accepted any_text any_module any_file /\ NoDup (declared_types any_file) /\
  Forall ascii_type_name ["Name"; "Name2"; "Value"; "Either"] /\
  (exists t alts, defines (assignments any_module) "Name2" t /\ strip t = TChoice alts [] /\ tagged_choice (assignments any_module) alts) /\
  (exists t s, defines (assignments any_module) "Value" t /\ strip t = TAny s) /\
  (exists t alts, defines (assignments any_module) "Either" t /\ strip t = TChoice alts [] /\
     ~ tagged_choice (assignments any_module) alts /\ length alts <> 1%nat) /\
  let element := TLV CLASS_CONTEXT_SPECIFIC 2 (Octets (PString "host")) in
  unmarshal any_file 3 "Name" element = Some (GRaw (Some element)) /\
  unmarshal any_file 3 "Either" (universal 2 (Octets (PInt 7))) = Some (GDyn (EIdent "int64") (GInt 7)) /\
  marshal (fun l => l) any_file 3 "Either" (GDyn (EIdent "int64") (GInt 7)) = Some [universal 2 (Octets (PInt 7))] /\
  kept (universal 2 (Octets (PInt 7))) /\ ~ kept (universal 16 (Nested [universal 2 (Octets (PInt 7))])).
Proof.
  split; [accept|]. split; [vm_compute; repeat constructor; cbn; intuition discriminate|]. split; [repeat constructor|].
  split; [eexists _, _; split; [find_first|split; [reflexivity|apply Exists_cons_hd, ta_tag]]|].
  split; [eexists _, _; split; [find_first|reflexivity]|].
  split; [eexists _, _; split; [find_first|split; [reflexivity|split; [not_tagged|discriminate]]]|].
  repeat split; try (vm_compute; reflexivity); [apply kp_integer; unfold int64; lia|].
  intro H. inversion H.
Qed.

(** *** Alternatives that do not survive *)

(** Some encoding of a value of the type [n] of the text [s] is not accepted. *)
Definition refuses (s n : string) : Prop := exists m f t a w,
  accepted s m f /\ NoDup (declared_types f) /\ defines (assignments m) n t /\
  encodes (md_TagDefault m) (assignments m) t a w /\
  forall k, unmarshal f k (goifyName ascii_tables n) w = None.

(** Some encoding of a value of the type [n] of the text [s] is accepted, but the value
    read cannot be sent. *)
Definition loses (s n : string) : Prop := exists m f t a w v,
  accepted s m f /\ NoDup (declared_types f) /\ defines (assignments m) n t /\
  encodes (md_TagDefault m) (assignments m) t a w /\
  unmarshal f 10 (goifyName ascii_tables n) w = Some v /\
  forall sorted k, marshal sorted f k (goifyName ascii_tables n) v = None.

(** Some encoding of a value [a] of the type [n] of the text [s] is accepted, and the value
    read is sent as something that does not encode [a]. *)
Definition changes (s n : string) : Prop := exists m f t a w v w',
  accepted s m f /\ NoDup (declared_types f) /\ defines (assignments m) n t /\
  encodes (md_TagDefault m) (assignments m) t a w /\
  unmarshal f 10 (goifyName ascii_tables n) w = Some v /\
  marshal (fun l => l) f 10 (goifyName ascii_tables n) v = Some [w'] /\
  ~ encodes (md_TagDefault m) (assignments m) t a w'.

(** Something is accepted as the type [n] of the text [s] that encodes no value of it. *)
Definition overreads (s n : string) : Prop := exists m f t w v,
  accepted s m f /\ NoDup (declared_types f) /\ defines (assignments m) n t /\
  (forall a, ~ encodes (md_TagDefault m) (assignments m) t a w) /\
  unmarshal f 10 (goifyName ascii_tables n) w = Some v.

Ltac setup s := let m := eval vm_compute in (module_of s) in let f := eval vm_compute in (file_of s) in exists m, f.
Ltac start := split; [accept|]; split; [vm_compute; repeat constructor; cbn; intuition discriminate|]; split; [find_first|].
Ltac never := let k := fresh in intros k; do 8 (destruct k as [|k]; [vm_compute; reflexivity|]); reflexivity.

Ltac refuse s ma mw := setup s; eexists _, ma, mw; start; split; [encode|never].
Ltac lose s ma mw := setup s; eexists _, ma, mw, _; start; split; [encode|split; [vm_compute; reflexivity|]];
  let sorted := fresh in let k := fresh in intros sorted k; do 5 (destruct k as [|k]; [vm_compute; reflexivity|]); reflexivity.

(** With IMPLICIT TAGS a tag on a CHOICE is still explicit, but it is sent as an implicit one. *)
Definition implicit_text : string := "M DEFINITIONS IMPLICIT TAGS ::= BEGIN A ::= SEQUENCE { c [0] CHOICE { i INTEGER, b BOOLEAN } } END".
Theorem C77_implicit_refuted : misencodes implicit_text "A".
Proof.
  misencode implicit_text (GStruct [GDyn (EIdent "bool") (GBool true)]) (AStruct [Some (AChoice "b" (ABool true))]).
  - apply re_sequence. cbn [app]. apply ra_required; [|constructor]. apply re_tagged.
    + intro R. inversion R as [alts x T| | |]; subst. revert T. not_tagged.
    + eapply (re_interface _ _ _ _ _ _ _ ascii_tables); [not_tagged|right; now left|constructor|constructor].
  - intro H. cbn in H. take_apart. match goal with O : ~ open_type _ _ |- _ => apply O, oy_choice end.
Qed.
Print Assumptions C77_implicit_refuted.

(** A string in an interface is sent as a PrintableString or UTF8String. *)
Definition either_text : string := "M DEFINITIONS ::= BEGIN A ::= SEQUENCE { c CHOICE { i INTEGER, s IA5String } } END".
Theorem C77_string_refuted : misencodes either_text "A" /\ changes either_text "A".
Proof.
  split.
  - misencode either_text (GStruct [GDyn (EIdent "string") (GString "x")]) (AStruct [Some (AChoice "s" (AString "x"))]).
    + apply re_sequence. cbn [app]. apply ra_required; [|constructor].
      eapply (re_interface _ _ _ _ _ _ _ ascii_tables); [not_tagged|right; now left|constructor|now apply re_ia5].
    + intro H. cbn in H. take_apart.
  - setup either_text. eexists _, (AStruct [Some (AChoice "s" (AString "x"))]), (universal 16 (Nested [universal 22 (Octets (PString "x"))])), _, _.
    start. split; [encode|]. split; [vm_compute; reflexivity|]. split; [vm_compute; reflexivity|].
    intro H. cbn in H. take_apart.
Qed.
Print Assumptions C77_string_refuted.

(** Booleans, enumerations and everything structured leave nil in the interface, which
    cannot be sent; explicit tags make everything structured. *)
Definition structured_text : string :=
  "M DEFINITIONS ::= BEGIN A ::= SEQUENCE { c CHOICE { i INTEGER, l SEQUENCE OF INTEGER } }
   B ::= SEQUENCE { c CHOICE { i INTEGER, b BOOLEAN } } C ::= SEQUENCE { c [0] CHOICE { i INTEGER, b BOOLEAN } } END".
Theorem C77_structured_refuted : loses structured_text "A" /\ loses structured_text "B" /\ loses structured_text "C".
Proof.
  split; [|split].
  - lose structured_text (AStruct [Some (AChoice "l" (AList [AInt 1]))]) (universal 16 (Nested [universal 16 (Nested [universal 2 (Octets (PInt 1))])])).
  - lose structured_text (AStruct [Some (AChoice "b" (ABool true))]) (universal 16 (Nested [universal 1 (Octets (PBool true))])).
  - lose structured_text (AStruct [Some (AChoice "i" (AInt 1))]) (universal 16 (Nested [TLV CLASS_CONTEXT_SPECIFIC 0 (Nested [universal 2 (Octets (PInt 1))])])).
Qed.
Print Assumptions C77_structured_refuted.

(** AlgorithmIdentifier of RFC 5280: with parameters NULL, and without parameters. *)
Definition algorithm_text : string :=
  "M DEFINITIONS ::= BEGIN AlgorithmIdentifier ::= SEQUENCE { algorithm OBJECT IDENTIFIER,
     parameters ANY DEFINED BY algorithm OPTIONAL } END".
Theorem C77_parameters_refuted :
  (exists m f t w v, accepted algorithm_text m f /\ NoDup (declared_types f) /\ defines (assignments m) "AlgorithmIdentifier" t /\
    encodes (md_TagDefault m) (assignments m) t (AStruct [Some (AOid [1; 2; 840; 113549; 1; 1; 11]); Some (AAny (universal 5 (Octets (POctets []))))]) w /\
    unmarshal f 10 "AlgorithmIdentifier" w = Some v /\ forall sorted k, marshal sorted f k "AlgorithmIdentifier" v = None) /\
  (exists m f t w v, accepted algorithm_text m f /\ NoDup (declared_types f) /\ defines (assignments m) "AlgorithmIdentifier" t /\
    encodes (md_TagDefault m) (assignments m) t (AStruct [Some (AOid [1; 2; 840; 113549; 1; 1; 11]); None]) w /\
    unmarshal f 10 "AlgorithmIdentifier" w = Some v /\ forall sorted k, marshal sorted f k "AlgorithmIdentifier" v = None).
Proof.
  split; setup algorithm_text; eexists _, _, _; start; (split; [repeat (apply en_sequence || apply ea_present || apply ea_absent || apply en_oid || apply en_any || apply ea_nil)|]);
    (split; [vm_compute; reflexivity|]); intros sorted k; do 5 (destruct k as [|k]; [vm_compute; reflexivity|]); reflexivity.
Qed.
Print Assumptions C77_parameters_refuted.

(** Lists of interfaces cannot be read at all. *)
Definition list_text : string := "M DEFINITIONS ::= BEGIN A ::= SEQUENCE OF CHOICE { i INTEGER, s UTF8String } B ::= SET OF ANY END".
Ltac list_case class body := cbn [is_any is_raw fp0 fp_explicit wanted kind_tag Z.eqb fp_set expected fp_tag fst snd kind_compound set_default fp_optional option_map andb];
  destruct ((class =? CLASS_UNIVERSAL) && _ && _); [|reflexivity]; destruct body; reflexivity.
Theorem C77_list_refuted : exists m f, accepted list_text m f /\ forall k w, unmarshal f k "A" w = None /\ unmarshal f k "B" w = None.
Proof.
  setup list_text. split; [accept|]. intros k [class number body]. unfold unmarshal.
  split; do 2 (destruct k as [|k]; [reflexivity|]); cbn [parse_field].
  - match goal with |- context [kind_of ?f (S k) (EIdent ?s)] =>
      assert (K : kind_of f (S k) (EIdent s) = Some (KSlice false EInterface)) by (destruct k; reflexivity); rewrite K; clear K end.
    list_case class body.
  - destruct k as [|k]; [reflexivity|].
    match goal with |- context [kind_of ?f (S (S k)) (EIdent ?s)] =>
      assert (K : kind_of f (S (S k)) (EIdent s) = Some (KSlice true EInterface)) by (destruct k; reflexivity); rewrite K; clear K end.
    list_case class body.
Qed.
Print Assumptions C77_list_refuted.

(** An absent CHOICE takes the place of what follows it. *)
Definition swallow_text : string :=
  "M DEFINITIONS ::= BEGIN A ::= SEQUENCE { c CHOICE { i [0] INTEGER } OPTIONAL, b BOOLEAN }
   B ::= SEQUENCE { c CHOICE { i INTEGER, s UTF8String } OPTIONAL, b BOOLEAN }
   C ::= SEQUENCE { c CHOICE { i [0] INTEGER } OPTIONAL, b BOOLEAN OPTIONAL } END".
Theorem C77_absent_refuted : refuses swallow_text "A" /\ refuses swallow_text "B" /\ misreads ex_params swallow_text "C".
Proof.
  split; [|split].
  - refuse swallow_text (AStruct [None; Some (ABool true)]) (universal 16 (Nested [universal 1 (Octets (PBool true))])).
  - refuse swallow_text (AStruct [None; Some (ABool true)]) (universal 16 (Nested [universal 1 (Octets (PBool true))])).
  - misread swallow_text ex_params (AStruct [None; Some (ABool true)]) (universal 16 (Nested [universal 1 (Octets (PBool true))])). not_that.
Qed.
Print Assumptions C77_absent_refuted.

(** A RawValue is filled from elements that are no alternative of the CHOICE. *)
Definition foreign_text : string := "M DEFINITIONS ::= BEGIN A ::= SEQUENCE { c CHOICE { i [0] INTEGER, s [1] IA5String } } END".
Theorem C77_foreign_refuted : overreads foreign_text "A".
Proof.
  setup foreign_text. eexists _, (universal 16 (Nested [universal 1 (Octets (PBool true))])), _. start. split; [|vm_compute; reflexivity].
  intros a H. cbn in H. take_apart.
Qed.
Print Assumptions C77_foreign_refuted.
