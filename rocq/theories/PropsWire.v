(** Properties C68, C70 and C71: what generated types look like on the wire.  The vocabulary (BER,
    encoding/asn1, which Go value stands for which ASN.1 value) is in [Wire.v]. *)
From Coq Require Import ZArith String Ascii List Bool Lia Permutation Relations SpecFloat.
From Verif Require Import GoBase Utf8 Unicode Tokens Ast Grammar Parser ParserFacts ParserRuns GoAst Codegen CodegenSpec
  CodegenFacts Wire WireFacts WireSend Recursion PropsCodegen.
Import ListNotations.
Local Open Scope string_scope.
Local Open Scope list_scope.
Local Open Scope Z_scope.

(** * C68: marshalling a generated type gives a BER encoding of the ASN.1 type *)

(** For the types of the fragment of [Wire.v].  [good] is any set of type names whose
    definitions are in the fragment and refer to names of the set only.  asn1.Marshal
    succeeds on every Go value [v] that stands for an ASN.1 value [a], and what it
    returns is an encoding of [a].  [sorted] is the order encoding/asn1 gives the
    elements of a SET OF.  Missing: types outside the fragment; the theorems below
    show that the claim is false for them. *)
Theorem C68_marshal_partial : forall U fmt p fuel m f sorted good n t v a,
  Generate U fmt p fuel m = Ok (GenOk f) -> NoDup (declared_types f) ->
  (forall l, Permutation l (sorted l)) ->
  wire_names (assignments m) good -> good n -> defines (assignments m) n t ->
  represents (md_TagDefault m) (assignments m) (integer_repr p) t v a ->
  exists w k0, encodes (md_TagDefault m) (assignments m) t a w /\
    (forall k, (k0 <= k)%nat -> marshal sorted f k (goifyName U n) v = Some [w]) /\
    (forall k ws, marshal sorted f k (goifyName U n) v = Some ws -> ws = [w]).
Proof. exact marshal_encodes. Qed.
Print Assumptions C68_marshal_partial.

Definition wire_text : string :=
  "M DEFINITIONS IMPLICIT TAGS ::= BEGIN
   Rec ::= SEQUENCE { id [0] INTEGER, name IA5String OPTIONAL, level Level,
     when [1] EXPLICIT GeneralizedTime, keys [APPLICATION 2] SET OF OCTET STRING, flags Flags,
     next SEQUENCE OF Rec OPTIONAL, body [3] Body }
   Body ::= CHOICE { text [0] UTF8String, code [1] INTEGER }
   Level ::= INTEGER (0..9)
   Flags ::= SET OF BOOLEAN END".

Definition module_of (s : string) : Module_ :=
  match ParseString ascii_tables 1000 s with Ok (ParseOk (Some m)) => m | _ => ex_module 0 [] end.
Definition file_of (s : string) : gofile :=
  match gen_ ex_params (module_of s) with Ok (GenOk f) => f | _ => {| gf_name := ""; gf_decls := [] |} end.

(** The text [s] is accepted as the module [m], and the code generated for it is [f]. *)
Definition accepted (s : string) (m : Module_) (f : gofile) : Prop :=
  parses ascii_tables s (ParseOk (Some m)) /\ gen_ ex_params m = Ok (GenOk f).

Ltac accept := split; [apply (ParseString_parses _ 1000); vm_compute; reflexivity|vm_compute; reflexivity].

Definition wire_module : Module_ := Eval vm_compute in module_of wire_text.
Definition wire_file : gofile := Eval vm_compute in file_of wire_text.

Definition wire_good (n : string) : Prop := In n ["Rec"; "Body"; "Level"; "Flags"].

Ltac plain := repeat first [apply pc_nil | apply pc_nothing | apply pt_boolean | apply pt_integer | apply pt_bits | apply pt_octets
  | apply pt_oid | apply pt_enumerated | apply pt_printable | apply pt_constrained | apply pt_sequence_of | apply pt_sequence
  | apply pt_choice, Exists_cons_hd, ta_tag | apply pt_reference; vm_compute; auto].

Ltac inspect := split; [cbn; lia|]; split; [|intros ? ?; discriminate]; cbn [tags_of];
  repeat (apply Forall_cons; [split; [vm_compute; auto|intros k Hk; vm_compute in Hk; injection Hk as <-; unfold int64; lia]|]); apply Forall_nil.

Ltac undefined := let t := fresh in let H := fresh in
  intros t H; unfold defines in H; apply first_named_in in H; vm_compute in H; repeat destruct H as [H|H]; try discriminate H; exact H.

(** The type is not a CHOICE that is generated as asn1.RawValue. *)
Ltac not_raw := let R := fresh in intro R; repeat match goal with
  | H : ?x <> ?x |- _ => exfalso; exact (H eq_refl)
  | H : defines _ _ _ |- _ => unfold defines in H; vm_compute in H
  | H : first_named _ (_ :: _) _ |- _ => inversion H; clear H; subst
  | H : first_named _ [] _ |- _ => inversion H
  | H : raw_type _ _ |- _ => inversion H; clear H; subst
  end.

Ltac find_first := vm_compute; repeat first [apply fn_type | apply fn_skip_type; [discriminate|]].

Example C68_example :
  accepted wire_text wire_module wire_file /\ wire_names (assignments wire_module) wire_good /\
  let sample := GStruct [GInt 3; GString ""; GInt 0; GTime 63000000000; GSlice (Some [GBytes (Some [1; 2])]); GSlice None; GSlice None;
    GRaw (Some (TLV CLASS_CONTEXT_SPECIFIC 3 (Nested [TLV CLASS_CONTEXT_SPECIFIC 1 (Octets (PInt 7))])))] in
  exists t, defines (assignments wire_module) "Rec" t /\
    represents (md_TagDefault wire_module) (assignments wire_module) "int64" t sample
      (AStruct [Some (AInt 3); None; Some (AInt 0); Some (ATime 63000000000); Some (AList [AOctets [1; 2]]); Some (AList []); None;
        Some (AChoice "code" (AInt 7))]) /\
    marshal (fun l => l) wire_file 10 "Rec" sample =
      Some [universal 16 (Nested [TLV CLASS_CONTEXT_SPECIFIC 0 (Octets (PInt 3)); universal 2 (Octets (PInt 0));
        TLV CLASS_CONTEXT_SPECIFIC 1 (Nested [universal 24 (Octets (PGeneralized 63000000000))]);
        TLV CLASS_APPLICATION 2 (Nested [universal 4 (Octets (POctets [1; 2]))]); universal 17 (Nested []);
        TLV CLASS_CONTEXT_SPECIFIC 3 (Nested [TLV CLASS_CONTEXT_SPECIFIC 1 (Octets (PInt 7))])])].
Proof.
  split; [accept|]. split.
  - intros n [<-|[<-|[<-|[<-|[]]]]]; (split; [repeat split|]; split; [intros [H|H]; discriminate H|]).
    + eexists. split; [vm_compute; constructor|]. left. apply pt_sequence. cbn [app].
      repeat (apply pc_named; [repeat split| |inspect|now left|]); [..|apply pc_nil]; cbn [strip]; try (apply ct_plain; plain; fail).
      * apply ct_string. cbn. auto.
      * apply ct_time. apply gn_here. undefined.
      * apply ct_set_of. plain.
    + eexists. split; [find_first|]. left. plain.
    + eexists. split; [find_first|]. left. plain.
    + eexists. split; [find_first|]. right.
      split; [reflexivity|]. eexists. split; [reflexivity|]. plain.
  - intros sample. eexists. split; [vm_compute; constructor|]. split; [|vm_compute; reflexivity].
    apply re_sequence. cbn [app].
    apply ra_required; [apply re_tagged; [not_raw|apply re_int64; [reflexivity|unfold int64; lia]]|].
    apply ra_absent; [reflexivity|discriminate|].
    apply ra_required.
    { eapply re_reference; [find_first|].
      apply re_constrained, re_int64; [reflexivity|unfold int64; lia]. }
    apply ra_required; [apply re_tagged; [not_raw|apply re_generalized; [undefined|reflexivity]]|].
    apply ra_required; [apply re_tagged; [not_raw|apply re_set_of; repeat constructor]|].
    apply ra_required.
    { eapply re_reference; [find_first|]. apply re_set_of. constructor. }
    apply ra_absent; [reflexivity|discriminate|].
    apply ra_required; [|constructor]. apply re_raw.
    + apply rw_tagged. eapply rw_reference; [find_first|]. apply rw_choice, Exists_cons_hd, ta_tag.
    + apply en_explicit; [right; eapply oy_reference; [find_first|]; apply oy_choice|].
      eapply en_reference; [find_first|]. eapply en_choice; [right; now left|].
      eapply en_implicit; [discriminate|intro O; inversion O|apply en_integer].
Qed.

(** *** Outside the fragment *)

(** There is a value of the type [n] of the text [s] that is sent as something that is
    not an encoding of it. *)
Definition misencodes (s n : string) : Prop := exists m f t v a w,
  accepted s m f /\ NoDup (declared_types f) /\ defines (assignments m) n t /\
  represents (md_TagDefault m) (assignments m) (integer_repr ex_params) t v a /\
  marshal (fun l => l) f 10 (goifyName ascii_tables n) v = Some [w] /\
  ~ encodes (md_TagDefault m) (assignments m) t a w.

(** Take encodings of known types apart. *)
Ltac take_apart := repeat match goal with
  | H : defines _ _ _ |- _ => unfold defines in H
  | H : first_named _ (_ :: _) _ |- _ => inversion H; clear H; subst
  | H : first_named _ [] _ |- _ => inversion H
  | H : _ = _ |- _ => discriminate H
  | H : ?x <> ?x |- _ => exfalso; exact (H eq_refl)
  | H : In _ (_ :: _) |- _ => destruct H as [H|H]
  | H : In _ [] |- _ => destruct H
  | H : Named _ _ = Named _ _ |- _ => injection H as H; subst
  | H : encodes _ _ _ _ _ |- _ => inversion H; clear H; subst
  | H : encodes_all _ _ (_ ++ _) _ _ |- _ => progress cbn [app] in H
  | H : encodes_all _ _ _ _ _ |- _ => inversion H; clear H; subst
  | H : Forall2 (encodes _ _ _) _ _ |- _ => inversion H; clear H; subst
  | H : denotes _ _ |- _ => inversion H; clear H; subst
  | H : _ \/ _ |- _ => destruct H
  | H : open_type _ _ |- _ => inversion H; clear H; subst
  | H : string_number _ = Some _ |- _ => vm_compute in H; discriminate H
  end.

Ltac misencode s mv ma :=
  let m := eval vm_compute in (module_of s) in let f := eval vm_compute in (file_of s) in
  exists m, f; eexists _, mv, ma; eexists; split; [accept|]; split; [vm_compute; repeat constructor; cbn; intuition discriminate|];
  split; [find_first|]; split; [|split; [vm_compute; reflexivity|]].

(** A SET type, sent by name, becomes a SEQUENCE. *)
Definition set_text : string := "M DEFINITIONS ::= BEGIN A ::= SEQUENCE { b B } B ::= SET { x BOOLEAN } END".
Theorem C68_set_refuted : misencodes set_text "A" /\ misencodes set_text "B".
Proof.
  split.
  - misencode set_text (GStruct [GStruct [GBool true]]) (AStruct [Some (AStruct [Some (ABool true)])]).
    + apply re_sequence. cbn [app]. apply ra_required; [|constructor]. eapply re_reference; [find_first|].
      apply re_set. cbn [app]. apply ra_required; [constructor|constructor].
    + intro H. cbn in H. take_apart.
  - misencode set_text (GStruct [GBool true]) (AStruct [Some (ABool true)]).
    + apply re_set. cbn [app]. apply ra_required; [constructor|constructor].
    + intro H. cbn in H. take_apart.
Qed.
Print Assumptions C68_set_refuted.

(** A string type other than PrintableString loses its tag when it has a name or is an
    element. *)
Definition string_text : string := "M DEFINITIONS ::= BEGIN A ::= SEQUENCE { b B } B ::= IA5String C ::= SEQUENCE OF UTF8String END".
Theorem C68_string_refuted : misencodes string_text "A" /\ misencodes string_text "C".
Proof.
  split.
  - misencode string_text (GStruct [GString "x"]) (AStruct [Some (AString "x")]).
    + apply re_sequence. cbn [app]. apply ra_required; [|constructor]. eapply re_reference; [find_first|]. now apply re_ia5.
    + intro H. cbn in H. take_apart.
  - misencode string_text (GSlice (Some [GString "x"])) (AList [AString "x"]).
    + apply re_sequence_of. cbn [contents_of]. apply rx_cons; [now apply re_utf8|constructor].
    + intro H. cbn in H. take_apart.
Qed.
Print Assumptions C68_string_refuted.

(** The tag of a type assignment is lost, and so is the tag of an element. *)
Definition tag_text : string := "M DEFINITIONS ::= BEGIN A ::= [APPLICATION 1] SEQUENCE { x BOOLEAN } B ::= SEQUENCE OF [0] BOOLEAN END".
Theorem C68_tag_refuted : misencodes tag_text "A" /\ misencodes tag_text "B".
Proof.
  split.
  - misencode tag_text (GStruct [GBool true]) (AStruct [Some (ABool true)]).
    + apply re_tagged; [not_raw|apply re_sequence]. cbn [app]. apply ra_required; [constructor|constructor].
    + intro H. cbn in H. take_apart.
  - misencode tag_text (GSlice (Some [GBool true])) (AList [ABool true]).
    + apply re_sequence_of. cbn [contents_of]. apply rx_cons; [apply re_tagged; [not_raw|constructor]|constructor].
    + intro H. cbn in H. take_apart.
Qed.
Print Assumptions C68_tag_refuted.

(** Times are sent as UTCTime when they are elements or have a type of their own. *)
Definition time_text : string := "M DEFINITIONS ::= BEGIN A ::= SEQUENCE OF GeneralizedTime B ::= GeneralizedTime END".
Theorem C68_time_refuted : misencodes time_text "A" /\ misencodes time_text "B".
Proof.
  split.
  - misencode time_text (GSlice (Some [GTime 63000000000])) (AList [ATime 63000000000]).
    + apply re_sequence_of. cbn [contents_of]. apply rx_cons; [|constructor]. apply re_generalized; [undefined|reflexivity].
    + intro H. cbn in H. take_apart.
  - misencode time_text (GTime 63000000000) (ATime 63000000000).
    + apply re_generalized; [undefined|reflexivity].
    + intro H. cbn in H. take_apart.
Qed.
Print Assumptions C68_time_refuted.

(** FALSE is not sent where the default is TRUE. *)
Definition default_text : string := "M DEFINITIONS ::= BEGIN A ::= SEQUENCE { x BOOLEAN DEFAULT TRUE } END".
Theorem C68_default_refuted : misencodes default_text "A".
Proof.
  misencode default_text (GStruct [GBool false]) (AStruct [Some (ABool false)]).
  - apply re_sequence. cbn [app]. apply ra_required; [constructor|constructor].
  - intro H. cbn in H. take_apart.
Qed.
Print Assumptions C68_default_refuted.

(** Values of type REAL cannot be sent at all. *)
Definition real_text : string := "M DEFINITIONS ::= BEGIN A ::= REAL END".
Theorem C68_real_refuted : exists m f, accepted real_text m f /\
  forall sorted k v, marshal sorted f k "A" v = None.
Proof.
  let m := eval vm_compute in (module_of real_text) in let f := eval vm_compute in (file_of real_text) in exists m, f.
  split; [accept|]. intros sorted k v. unfold marshal. destruct (static_dec v) as [ST|ST].
  2: { apply make_field_dynamic; [|exact ST]. destruct k as [|[|k]]; discriminate. }
  rewrite make_field_eq by exact ST. cbn [left_out fp0 fp_omitEmpty fp_optional andb orb].
  destruct k as [|k]; [reflexivity|]. destruct k; cbn; unfold make_value; destruct v; reflexivity.
Qed.
Print Assumptions C68_real_refuted.

(** An INTEGER with a default followed by another component: the tree forgets the
    number (C06), zero is not sent, and the peer reads the default. *)
Definition number_text : string := "M DEFINITIONS ::= BEGIN A ::= SEQUENCE { x INTEGER DEFAULT 5, y BOOLEAN } END".
Theorem C68_number_refuted : exists m f w, accepted number_text m f /\
  marshal (fun l => l) f 10 "A" (GStruct [GInt 0; GBool true]) = Some [w] /\
  let written := TSequence [CNamed (Named "x" (TInteger [])) false (Some (VNumber 5)); CNamed (Named "y" TBoolean) false None] [] in
  encodes TAGS_EXPLICIT (assignments m) written (AStruct [Some (AInt 5); Some (ABool true)]) w /\
  ~ encodes TAGS_EXPLICIT (assignments m) written (AStruct [Some (AInt 0); Some (ABool true)]) w.
Proof.
  let m := eval vm_compute in (module_of number_text) in let f := eval vm_compute in (file_of number_text) in exists m, f.
  eexists. split; [accept|]. split; [vm_compute; reflexivity|]. intro written. split.
  - apply en_sequence. cbn [app]. apply ea_default; [constructor|]. apply ea_present; [constructor|constructor].
  - intro H. subst written. cbn in H. take_apart.
Qed.
Print Assumptions C68_number_refuted.

(** * C70: every value of an ASN.1 type can be sent *)

(** For the types of the fragment of [Wire.v] and the values that fit into Go's types
    and have no OPTIONAL component that is present but blank: there is a value of the
    generated type for which asn1.Marshal returns an encoding of the given value.
    Missing: the other values, see the next theorem, and the other types. *)
Theorem C70_sendable_partial : forall U fmt p fuel m f sorted good n t a,
  Generate U fmt p fuel m = Ok (GenOk f) -> NoDup (declared_types f) ->
  (forall l, Permutation l (sorted l)) ->
  wire_names (assignments m) good -> good n -> defines (assignments m) n t ->
  sendable (md_TagDefault m) (assignments m) (integer_repr p) t a ->
  exists v w k0, value_of f (EIdent (goifyName U n)) v /\ encodes (md_TagDefault m) (assignments m) t a w /\
    forall k, (k0 <= k)%nat -> marshal sorted f k (goifyName U n) v = Some [w].
Proof.
  intros U fmt p fuel m f sorted good n t a G ND HS W Gn D H.
  destruct (sendable_value _ _ _ _ _ _ _ _ _ _ G W Gn D H) as (v & V & R).
  destruct (marshal_encodes _ _ _ _ _ _ _ _ _ _ _ _ G ND HS W Gn D R) as (w & k0 & E & M & _). exists v, w, k0. auto.
Qed.
Print Assumptions C70_sendable_partial.

Example C70_example : exists t, defines (assignments wire_module) "Rec" t /\
  sendable (md_TagDefault wire_module) (assignments wire_module) "int64" t
    (AStruct [Some (AInt 0); Some (AString "x"); Some (AInt 3); Some (ATime 63000000000); Some (AList []); Some (AList [ABool false]); None;
      Some (AChoice "text" (AString "y"))]).
Proof.
  eexists. split; [find_first|]. apply se_sequence. cbn [app].
  apply sa_present; [now left|apply se_tagged; [not_raw|apply se_integer; right; unfold int64; lia]|].
  apply sa_present; [now right|now apply se_ia5|].
  apply sa_present; [now left|eapply se_reference; [find_first|]; apply se_constrained, se_integer; right; unfold int64; lia|].
  apply sa_present; [now left|apply se_tagged; [not_raw|apply se_generalized; [undefined|reflexivity]]|].
  apply sa_present; [now left|apply se_tagged; [not_raw|apply se_set_of; constructor]|].
  apply sa_present; [now left|eapply se_reference; [find_first|]; apply se_set_of; repeat constructor|].
  apply sa_absent; [constructor|]. apply sa_present; [now left| |constructor]. eapply se_raw.
  - apply rw_tagged. eapply rw_reference; [find_first|]. apply rw_choice, Exists_cons_hd, ta_tag.
  - apply en_explicit; [right; eapply oy_reference; [find_first|]; apply oy_choice|].
    eapply en_reference; [find_first|]. eapply en_choice; [now left|].
    eapply en_implicit; [discriminate|intro O; inversion O|now apply en_string].
Qed.

(** The value { x 0 } of SEQUENCE { x INTEGER OPTIONAL } has an encoding, but no value
    of the Go type is sent as one. *)
Definition blank_text : string := "M DEFINITIONS ::= BEGIN A ::= SEQUENCE { x INTEGER OPTIONAL } END".
Definition optional_field : fieldParameters := Eval vm_compute in parseFieldParameters "optional".
Theorem C70_blank_refuted : exists m f t a w,
  accepted blank_text m f /\ NoDup (declared_types f) /\ defines (assignments m) "A" t /\
  encodes (md_TagDefault m) (assignments m) t a w /\
  forall sorted k v w', marshal sorted f k "A" v = Some [w'] -> ~ encodes (md_TagDefault m) (assignments m) t a w'.
Proof.
  let m := eval vm_compute in (module_of blank_text) in let f := eval vm_compute in (file_of blank_text) in exists m, f.
  eexists _, (AStruct [Some (AInt 0)]), _. split; [accept|]. split; [vm_compute; repeat constructor; cbn; intuition discriminate|].
  split; [find_first|]. split.
  - apply en_sequence. cbn [app]. apply ea_present; constructor.
  - intros sorted k v w' M E. cbn in E. take_apart.
    unfold marshal in M. destruct (static_dec v) as [ST|ST].
    2: { rewrite make_field_dynamic in M; [discriminate M| |exact ST]. destruct k as [|[|k]]; discriminate. }
    rewrite make_field_eq in M by exact ST. destruct k as [|k]; [discriminate M|].
    cbn [left_out fp0 fp_omitEmpty fp_optional andb orb] in M.
    match type of M with context [kind_of ?f (S k) (EIdent "A")] =>
      assert (K : kind_of f (S k) (EIdent "A") = Some (KStruct [Field "X" (EIdent "int64") (Some "`asn1:""optional""`")]))
        by (destruct k; reflexivity) end.
    rewrite K in M. clear K.
    unfold make_value in M. destruct v as [| | | | | | | |vs| | | |]; cbn [is_default prim_body] in M; try discriminate M;
      try (destruct (field_tag _ _ _) in M; discriminate M).
    cbn [field_tag kind_tag fp0 fp_timeType fp_stringType fp_set Z.eqb negb andb forallb exported] in M.
    change (ascii_upper (byte_of_ascii "X")) with true in M. cbn [andb] in M.
    destruct vs as [|v [|v' vs]]; cbn [make_fields] in M; [discriminate M| |].
    2: { destruct (make_field _ _ _ _ _ v); discriminate M. }
    clear ST. destruct (static_dec v) as [ST|ST].
    2: { rewrite make_field_dynamic in M; [discriminate M|discriminate|exact ST]. }
    rewrite make_field_eq in M by exact ST.
    change (parseFieldParameters (tag_body (Some "`asn1:""optional""`"))) with optional_field in M.
    change (kind_of _ (S k) (EIdent "int64")) with (Some KInt) in M. unfold left_out in M.
    cbn [optional_field fp_omitEmpty fp_optional fp_defaultValue andb orb] in M.
    destruct (is_zero v) eqn:Zv; [discriminate M|].
    unfold make_value in M. destruct v; cbn [is_default prim_body optional_field fp_defaultValue] in M;
      try (destruct (field_tag _ _ _) in M; discriminate M).
    cbn in M. injection M as ->. discriminate Zv.
Qed.
Print Assumptions C70_blank_refuted.

(** * C71: generated types are not recursive without a pointer *)

(** SEQUENCE { next Rec OPTIONAL } becomes a Go struct that contains itself. *)
Definition recursive_text : string := "M DEFINITIONS ::= BEGIN Rec ::= SEQUENCE { x INTEGER, next Rec OPTIONAL } END".
Theorem C71_recursive_refuted : exists m f, accepted recursive_text m f /\ NoDup (declared_types f) /\ go_recursive f.
Proof.
  let m := eval vm_compute in (module_of recursive_text) in let f := eval vm_compute in (file_of recursive_text) in exists m, f.
  split; [accept|]. split; [vm_compute; repeat constructor; cbn; intuition discriminate|].
  eexists "Rec", _, _. split; [vm_compute; now left|]. eapply ct_field; [right; now left|]. apply ct_name.
Qed.
Print Assumptions C71_recursive_refuted.

(** If no type of the module embeds itself as (part of) a component, no generated type
    does.  Missing: modules with such types, see above, and names above ASCII. *)
Theorem C71_recursive_partial : forall U fmt p fuel m f,
  Generate U fmt p fuel m = Ok (GenOk f) -> NoDup (declared_types f) ->
  (forall n t, In (AType n t) (assignments m) -> ascii_type_name n) ->
  ~ asn_recursive (assignments m) -> ~ go_recursive f.
Proof. intros U fmt p fuel m f G N A H C. apply H. exact (recursive_embeds U fmt p fuel m f G N A C). Qed.
Print Assumptions C71_recursive_partial.

(** Exactly: the generator writes a recursive Go type for the modules in which a type
    carries itself, and for no others.  Missing: as above; for the direction from the
    module to the file neither condition on names is needed. *)
Theorem C71_exactly_partial : forall U fmt p fuel m f,
  Generate U fmt p fuel m = Ok (GenOk f) ->
  (self_carrying (assignments m) -> go_recursive f) /\
  (NoDup (declared_types f) -> (forall n t, In (AType n t) (assignments m) -> ascii_type_name n) ->
   go_recursive f -> self_carrying (assignments m)).
Proof.
  intros U fmt p fuel m f G. split.
  - exact (carries_go_recursive U fmt p fuel m f G).
  - exact (go_recursive_carries U fmt p fuel m f G).
Qed.
Print Assumptions C71_exactly_partial.

(** A type that contains itself through another one does carry itself; one that is the
    tagged only alternative of itself does not, its Go type is asn1.RawValue. *)
Definition mutual_text : string :=
  "M DEFINITIONS ::= BEGIN A ::= SEQUENCE { b [1] B } B ::= SET { a A OPTIONAL, n INTEGER } C ::= CHOICE { c [0] C } END".
Definition mutual_module : Module_ := Eval vm_compute in module_of mutual_text.
Definition mutual_file : gofile := Eval vm_compute in file_of mutual_text.
Example C71_exactly_example : accepted mutual_text mutual_module mutual_file /\ NoDup (declared_types mutual_file) /\
  (forall n t, In (AType n t) (assignments mutual_module) -> ascii_type_name n) /\
  made_of (assignments mutual_module) "A" "B" /\ made_of (assignments mutual_module) "B" "A" /\
  self_carrying (assignments mutual_module) /\ ~ made_of (assignments mutual_module) "C" "C" /\
  built_from (assignments mutual_module) "C" "C".
Proof.
  assert (A1 : made_of (assignments mutual_module) "A" "B").
  { eexists. split; [apply fn_type|]. eapply ca_sequence; [now left|]. apply ca_tagged.
    eapply (ca_reference _ _ "B"); [|intros [E|E]; discriminate E|].
    - eexists. split; [apply leaf_here; [apply fn_skip_type; [discriminate|apply fn_type]|discriminate]|].
      left. split; [reflexivity|discriminate].
    - discriminate. }
  assert (B1 : made_of (assignments mutual_module) "B" "A").
  { eexists. split; [apply fn_skip_type; [discriminate|apply fn_type]|]. eapply ca_set; [now left|].
    eapply (ca_reference _ _ "A"); [|intros [E|E]; discriminate E|].
    - eexists. split; [apply leaf_here; [apply fn_type|discriminate]|]. left. split; [reflexivity|discriminate].
    - discriminate. }
  split; [accept|]. split; [vm_compute; repeat constructor; cbn; intuition discriminate|].
  split; [intros n t [H|[H|[H|[]]]]; inversion H; subst; split; vm_compute; auto|].
  split; [exact A1|]. split; [exact B1|].
  split; [exists "A"; eapply t_trans; apply t_step; eassumption|]. split.
  - intros (t & D & C). apply first_named_in in D.
    destruct D as [D|[D|[D|[]]]]; inversion D; subst. inversion C as [| | | | |k t x n N C']; subst. apply N. apply ta_tag.
  - eexists. split; [apply fn_skip_type; [discriminate|]; apply fn_skip_type; [discriminate|]; apply fn_type|].
    apply em_choice, em_tagged, em_reference.
Qed.

(** A list through SEQUENCE OF is not recursive in this sense, a SET that contains
    another one is generated with two names each. *)
Definition tree_text : string :=
  "M DEFINITIONS ::= BEGIN Tree ::= SET { leaf Leaf, sub SEQUENCE OF Tree } Leaf ::= SET { n INTEGER OPTIONAL } END".
Definition tree_module : Module_ := Eval vm_compute in module_of tree_text.
Definition tree_file : gofile := Eval vm_compute in file_of tree_text.
Example C71_example : accepted tree_text tree_module tree_file /\ NoDup (declared_types tree_file) /\
  (forall n t, In (AType n t) (assignments tree_module) -> ascii_type_name n) /\
  ~ asn_recursive (assignments tree_module) /\
  contains tree_file (EIdent "Tree") "LeafSET" /\ ~ contains tree_file (EIdent "LeafSET") "Tree".
Proof.
  split; [accept|]. split; [vm_compute; repeat constructor; cbn; intuition discriminate|].
  split; [|split; [|split]].
  - intros n t [H|[H|[]]]; inversion H; subst; split; vm_compute; auto.
  - assert (S1 : forall n m, built_from (assignments tree_module) n m -> n = "Tree" /\ m = "Leaf").
    { intros n m (t & D & E). apply first_named_in in D. destruct D as [D|[D|[]]]; inversion D; subst; inversion E; subst;
        repeat match goal with
        | H : In _ _ |- _ => destruct H
        | H : CNamed _ _ _ = CNamed _ _ _ |- _ => inversion H; subst; clear H
        | H : embeds _ _ |- _ => inversion H; subst; clear H
        end; auto. }
    intros (n & C). assert (S2 : forall n m, clos_trans _ (built_from (assignments tree_module)) n m -> n = "Tree" /\ m = "Leaf").
    { induction 1 as [n' m' H|n' m' k' _ [-> ->] _ [H2 _]]; [now apply S1|discriminate]. }
    destruct (S2 _ _ C) as [-> H]. discriminate.
  - eapply ct_declared; [right; now left|]. eapply ct_declared; [now left|]. eapply ct_field; [now left|].
    eapply ct_declared; [do 3 right; now left|]. apply ct_name.
  - intro C. inversion C as [|?|s0 a e s1 I C1]; subst.
    cbn in I. repeat destruct I as [I|I]; try discriminate I; try contradiction. inversion I; subst.
    inversion C1 as [|n e tag fs s2 I2 C2|]; subst. destruct I2 as [I2|[]]. inversion I2; subst.
    inversion C2 as [|?|s0 a e s3 I3 C3]; subst. cbn in I3. repeat destruct I3 as [I3|I3]; try discriminate I3; contradiction.
Qed.
