(** Property C76: what generated types make of received encodings.  The vocabulary is
    in [Wire.v] (BER, Go values) and [WireRead.v] (encoding/asn1's Unmarshal). *)
From Coq Require Import ZArith String Ascii List Bool Lia Permutation SpecFloat.
From Verif Require Import GoBase Utf8 Unicode Tokens Ast Grammar Parser ParserFacts ParserRuns GoAst Codegen CodegenSpec
  CodegenFacts Wire WireFacts WireSend WireRead WireReadFacts PropsCodegen PropsWire.
Import ListNotations.
Local Open Scope string_scope.
Local Open Scope list_scope.
Local Open Scope Z_scope.

(** * C76: unmarshalling into a generated type gives the value that was encoded *)

(** For the types of the fragment of [Wire.v] whose components are [clear] (see
    [WireRead.v]), and the values that fit into Go's types: from every encoding [w] of
    a value [a], asn1.Unmarshal makes a Go value that stands for [a] (up to the order of
    SET OF).  Missing: other types and other values; the theorems below show that the
    claim is false for them. *)
Theorem C76_unmarshal_partial : forall U fmt p fuel m f good n t a w,
  Generate U fmt p fuel m = Ok (GenOk f) -> NoDup (declared_types f) ->
  wire_names (assignments m) good -> readable (md_TagDefault m) (assignments m) (integer_repr p) good ->
  good n -> defines (assignments m) n t ->
  sendable (md_TagDefault m) (assignments m) (integer_repr p) t a -> in_range a = true ->
  encodes (md_TagDefault m) (assignments m) t a w ->
  exists v a' k0, same_value (assignments m) t a a' /\ represents (md_TagDefault m) (assignments m) (integer_repr p) t v a' /\
    (forall k, (k0 <= k)%nat -> unmarshal f k (goifyName U n) w = Some v) /\
    (forall k v', unmarshal f k (goifyName U n) w = Some v' -> v' = v).
Proof.
  intros U fmt p fuel m f good n t a w G ND W RD Gn D H I E.
  destruct (unmarshal_reads U fmt p fuel m f good n t a w G ND W RD Gn D H I E) as (v & a' & k0 & S1 & R1 & P1).
  exists v, a', k0. split; [exact S1|]. split; [exact R1|]. split; [exact P1|]. intros k v' X.
  apply (unmarshal_mono _ _ _ _ _) with (k' := Nat.max k k0) in X; [|lia]. rewrite P1 in X by lia. congruence.
Qed.
Print Assumptions C76_unmarshal_partial.

(** What one program sends (C68), the other one reads. *)
Theorem C76_round_trip_partial : forall U fmt p fuel m f sorted good n t v a,
  Generate U fmt p fuel m = Ok (GenOk f) -> NoDup (declared_types f) -> (forall l, Permutation l (sorted l)) ->
  wire_names (assignments m) good -> readable (md_TagDefault m) (assignments m) (integer_repr p) good ->
  good n -> defines (assignments m) n t ->
  represents (md_TagDefault m) (assignments m) (integer_repr p) t v a -> sendable (md_TagDefault m) (assignments m) (integer_repr p) t a -> in_range a = true ->
  exists w v' a' k0, same_value (assignments m) t a a' /\ represents (md_TagDefault m) (assignments m) (integer_repr p) t v' a' /\
    forall k, (k0 <= k)%nat -> marshal sorted f k (goifyName U n) v = Some [w] /\ unmarshal f k (goifyName U n) w = Some v'.
Proof.
  intros U fmt p fuel m f sorted good n t v a G ND HS W RD Gn D R H I.
  destruct (C68_marshal_partial U fmt p fuel m f sorted good n t v a G ND HS W Gn D R) as (w & k1 & E & M & _).
  destruct (unmarshal_reads U fmt p fuel m f good n t a w G ND W RD Gn D H I E) as (v' & a' & k0 & S1 & R1 & P1).
  exists w, v', a', (Nat.max k0 k1). split; [exact S1|]. split; [exact R1|]. intros k Hk. split; [apply M|apply P1]; lia.
Qed.
Print Assumptions C76_round_trip_partial.

Definition read_text : string :=
  "M DEFINITIONS ::= BEGIN
   Msg ::= SEQUENCE { pvno [0] INTEGER, realm [1] IA5String OPTIONAL, when [2] GeneralizedTime OPTIONAL,
     tickets [3] SEQUENCE OF Ticket, flags [4] IMPLICIT BIT STRING OPTIONAL, kind [5] ENUMERATED { a(1), b(2) },
     body [6] Body, extra Body OPTIONAL }
   Body ::= CHOICE { text [7] UTF8String, bodies [8] SEQUENCE OF Body }
   Ticket ::= SEQUENCE { name PrintableString OPTIONAL, keys Keys, etype INTEGER DEFAULT 18 }
   Keys ::= SET OF OCTET STRING END".
Definition read_module : Module_ := Eval vm_compute in module_of read_text.
Definition read_file : gofile := Eval vm_compute in file_of read_text.
Definition read_good (n : string) : Prop := In n ["Msg"; "Body"; "Ticket"; "Keys"].


(** The SEQUENCEs and SETs in a type; components and what follows them. *)
Fixpoint sequences (t : AType_) : list (list (component Value DefinedValue)) :=
  let inner := fix inner (l : list (component Value DefinedValue)) :=
    match l with CNamed (Named _ u) _ _ :: l' => sequences u ++ inner l' | _ :: l' => inner l' | [] => [] end in
  match t with
  | TSequence c x | TSet c x => (c ++ x) :: inner c ++ inner x
  | TSequenceOf u | TSetOf u | TTagged _ u _ _ | TConstrained u _ => sequences u
  | _ => []
  end.

Fixpoint splits (l : list (component Value DefinedValue)) : list (component Value DefinedValue * list (component Value DefinedValue)) :=
  match l with [] => [] | x :: l' => (x, l') :: splits l' end.

Lemma splits_in : forall pre x post, In (x, post) (splits (pre ++ x :: post)).
Proof. induction pre as [|y pre IH]; intros; cbn; [now left|right; apply IH]. Qed.

Lemma sequences_in : forall t l, within t l -> In l (sequences t).
Proof.
  assert (inner_in : forall n t o d l c, In l (sequences t) -> In (CNamed (Named n t) o d) c -> In l
    ((fix inner (l : list (component Value DefinedValue)) :=
      match l with CNamed (Named _ u) _ _ :: l' => sequences u ++ inner l' | _ :: l' => inner l' | [] => [] end) c)).
  { intros n t o d l c H. induction c as [|y c IH]; intros [].
    - subst y. apply in_or_app. now left.
    - destruct y as [|[]|]; [|apply in_or_app; right|]; auto. }
  intros t l H. induction H; cbn [sequences]; try (now left); try assumption; right; apply in_or_app;
    match goal with HI : In _ (_ ++ _) |- _ => apply in_app_or in HI; destruct HI as [HI|HI]; [left|right] end; eapply inner_in; eassumption.
Qed.

Lemma readable_check td asg repr (good : string -> Prop) :
  (forall name, good name -> exists u, defines asg name u /\
    Forall (fun l => Forall (fun '(x, post) => match x with CNamed (Named n t) o d => clear td asg repr t o d post | _ => True end) (splits l)) (sequences u)) ->
  readable td asg repr good.
Proof.
  intros H name u l Gn D W pre n t o d post ->. destruct (H name Gn) as (u' & D' & F). rewrite (defines_unique _ _ _ _ D D') in W.
  apply sequences_in in W. rewrite Forall_forall in F. specialize (F _ W). rewrite Forall_forall in F. exact (F _ (splits_in pre _ post)).
Qed.

Ltac tag_of := repeat match goal with
  | H : defines _ _ _ |- _ => unfold defines in H; vm_compute in H
  | H : first_named _ (_ :: _) _ |- _ => inversion H; clear H; subst
  | H : first_named _ [] _ |- _ => inversion H
  | H : ?x <> ?x |- _ => exfalso; exact (H eq_refl)
  | H : string_number _ = Some _ |- _ => vm_compute in H; injection H as H; subst
  | H : _ = _ |- _ => discriminate H
  | H : outer_tag _ _ _ _ |- _ => inversion H; clear H; subst
  end.

(** The components that can come first. *)
Fixpoint heads (l : list (component Value DefinedValue)) : list AType_ :=
  match l with
  | CNamed (Named _ t) o d :: l' => t :: (if o then heads l' else match d with Some _ => heads l' | None => [] end)
  | CNil :: l' => heads l'
  | _ => []
  end.

Lemma heads_in td asg : forall l fs class k body ws, encodes_all td asg l fs (TLV class k body :: ws) ->
  exists t, In t (heads l) /\ outer_tag asg t class k.
Proof.
  induction l as [|c l IH]; intros fs class k body ws H; inversion H as [| n t o d l0 a fs0 w ws0 E R| n t d l0 fs0 ws0 R| n t o dv l0 a fs0 ws0 DV R | l0 fs0 ws0 R]; subst; cbn [heads].
  - exists t. split; [now left|]. eapply encodes_outer; eassumption.
  - destruct (IH _ _ _ _ _ R) as (u & I & O). exists u. split; [now right|assumption].
  - destruct (IH _ _ _ _ _ R) as (u & I & O). exists u. split; [|assumption]. destruct o; now right.
  - exact (IH _ _ _ _ _ R).
Qed.

Ltac each_tag H := cbn [tags_of In] in H; repeat destruct H as [H|H]; [injection H as <- <-..|destruct H].

Ltac one_left := repeat match goal with
  | H : encodes_all _ _ (_ :: _) _ _ |- _ => inversion H; clear H; subst
  | H : encodes_all _ _ [] _ _ |- _ => inversion H; clear H; subst
  end.

Ltac clearly := constructor;
  [ intros ? ?; cbn [strip]; discriminate
  | let H := fresh in intros ? ? H; each_tag H; intros _; cbn; discriminate
  | let E := fresh in let H := fresh in intros ? E ? ? ? H; try discriminate E; each_tag H; reflexivity
  | reflexivity
  | let H := fresh in let E := fresh in let T := fresh in intros H ? ? ? ? ? ? ? ? E; destruct H as [H|H]; try discriminate H; try (exfalso; exact (H eq_refl));
    apply heads_in in E; destruct E as (? & E & ?); cbn [heads In] in E; repeat destruct E as [E|E]; try destruct E; subst;
    tag_of; unfold alike; cbn; intuition discriminate
  | let H := fresh in let E := fresh in let T := fresh in intros H ? ? T E; destruct H as [H|H]; try discriminate H; try (exfalso; exact (H eq_refl)); each_tag T;
    try discriminate E; intros; one_left
  | let O := fresh in let R := fresh in let T := fresh in let E := fresh in
    intros O R T ? ? ? E; first [discriminate O | discriminate T | inversion E; fail | revert R; not_raw; fail] ].

Lemma read_readable : readable (md_TagDefault read_module) (assignments read_module) "int64" read_good.
Proof.
  apply readable_check. intros name [<-|[<-|[<-|[<-|[]]]]]; eexists; (split; [find_first|]); cbn [sequences app]; repeat (apply Forall_cons || apply Forall_nil); cbn [splits];
   repeat (apply Forall_cons || apply Forall_nil).
  all: clearly.
Qed.

Definition read_value : aval := AStruct [Some (AInt 5); None; Some (ATime 63000000000);
  Some (AList [AStruct [Some (AString "host"); Some (AList [AOctets [1; 2]; AOctets []]); Some (AInt 18)];
               AStruct [None; Some (AList []); Some (AInt 0)]]); None; Some (AEnum 2);
  Some (AChoice "bodies" (AList [AChoice "text" (AString "u")])); Some (AChoice "text" (AString "v"))].
Definition read_body : tlv := TLV CLASS_CONTEXT_SPECIFIC 6 (Nested [TLV CLASS_CONTEXT_SPECIFIC 8 (Nested [universal 16 (Nested
  [TLV CLASS_CONTEXT_SPECIFIC 7 (Nested [universal 12 (Octets (PString "u"))])])])]).
Definition read_extra : tlv := TLV CLASS_CONTEXT_SPECIFIC 7 (Nested [universal 12 (Octets (PString "v"))]).
Definition read_wire : tlv := universal 16 (Nested
  [TLV CLASS_CONTEXT_SPECIFIC 0 (Nested [universal 2 (Octets (PInt 5))]);
   TLV CLASS_CONTEXT_SPECIFIC 2 (Nested [universal 24 (Octets (PGeneralized 63000000000))]);
   TLV CLASS_CONTEXT_SPECIFIC 3 (Nested [universal 16 (Nested
     [universal 16 (Nested [universal 19 (Octets (PString "host")); universal 17 (Nested [universal 4 (Octets (POctets [])); universal 4 (Octets (POctets [1; 2]))])]);
      universal 16 (Nested [universal 17 (Nested []); universal 2 (Octets (PInt 0))])])]);
   TLV CLASS_CONTEXT_SPECIFIC 5 (Nested [universal 10 (Octets (PInt 2))]); read_body; read_extra]).

(** The type is, or is not, a CHOICE or ANY without a tag. *)
Ltac open := first [left; vm_compute; reflexivity
  | right; repeat first [apply oy_choice | apply oy_any | apply oy_constrained | eapply oy_reference; [find_first; fail|]]].
Ltac not_open := let O := fresh in intro O; repeat match goal with
  | H : ?x <> ?x |- _ => exfalso; exact (H eq_refl)
  | H : defines _ _ _ |- _ => unfold defines in H; vm_compute in H
  | H : first_named _ (_ :: _) _ |- _ => inversion H; clear H; subst
  | H : first_named _ [] _ |- _ => inversion H
  | H : open_type _ _ |- _ => inversion H; clear H; subst
  end.
Ltac raw := repeat first [apply rw_choice; first [apply Exists_cons_hd, ta_tag | apply Exists_cons_tl, Exists_cons_hd, ta_tag] | apply rw_tagged | apply rw_constrained
  | eapply rw_reference; [find_first; fail|]].

Ltac encode := repeat first [apply en_boolean | apply en_integer | apply en_bits | apply en_octets | apply en_enumerated
  | apply en_string; vm_compute; reflexivity | apply en_sequence; cbn [app] | eapply en_set; cbn [app] | apply en_sequence_of; repeat constructor
  | apply en_constrained
  | apply en_explicit; [open; fail|] | eapply en_implicit; [vm_compute; discriminate|not_open; fail|]
  | eapply en_choice; [first [now left | right; now left]|]
  | apply en_generalized; undefined | eapply en_reference; [find_first; fail|]
  | apply ea_nil | apply ea_present | apply ea_absent | apply ea_default; [constructor|]].

Ltac send := repeat first [apply se_boolean | apply se_integer; right; unfold int64; lia
  | apply se_bits; [repeat constructor; lia|unfold int64; lia] | apply se_octets; repeat constructor; lia | apply se_enumerated; unfold int64; lia
  | apply se_printable; reflexivity | apply se_ia5; reflexivity | apply se_numeric; reflexivity | apply se_utf8; reflexivity
  | apply se_sequence; cbn [app] | apply se_set; cbn [app] | apply se_sequence_of | apply se_set_of | apply se_tagged; [not_raw; fail|] | apply se_constrained
  | apply se_generalized; [undefined|reflexivity] | eapply se_reference; [find_first; fail|]
  | apply sa_nil | apply sa_present; [first [now left | now right]| |] | apply sa_absent; [repeat constructor| ]
  | apply sx_nil | apply sx_cons | eapply se_raw; [raw; fail|encode]].

Example C76_example :
  accepted read_text read_module read_file /\ NoDup (declared_types read_file) /\
  wire_names (assignments read_module) read_good /\
  readable (md_TagDefault read_module) (assignments read_module) "int64" read_good /\
  (exists t, defines (assignments read_module) "Msg" t /\
    sendable (md_TagDefault read_module) (assignments read_module) "int64" t read_value /\ in_range read_value = true /\
    encodes (md_TagDefault read_module) (assignments read_module) t read_value read_wire) /\
  unmarshal read_file 20 "Msg" read_wire = Some (GStruct [GInt 5; GString ""; GTime 63000000000;
    GSlice (Some [GStruct [GString "host"; GSlice (Some [GBytes (Some []); GBytes (Some [1; 2])]); GInt 18];
                  GStruct [GString ""; GSlice (Some []); GInt 0]]); GBits None 0; GInt 2;
    GRaw (Some read_body); GRaw (Some read_extra)]).
Proof.
  split; [accept|]. split; [vm_compute; repeat constructor; cbn; intuition discriminate|]. split; [|split; [exact read_readable|split]].
  - intros n [<-|[<-|[<-|[<-|[]]]]]; (split; [repeat split|]; split; [intros [H|H]; discriminate H|]); (eexists; split; [find_first|]).
    + left. apply pt_sequence. cbn [app].
      repeat (apply pc_named; [repeat split| |inspect|now left|]); [..|apply pc_nil]; cbn [strip]; try (apply ct_plain; plain; fail).
      * apply ct_string. cbn. auto.
      * apply ct_time. apply gn_here. undefined.
    + left. plain.
    + left. apply pt_sequence. cbn [app]. apply pc_named; [repeat split|apply ct_plain; plain|inspect|now left|].
      apply pc_named; [repeat split|apply ct_plain; plain|inspect|now left|].
      apply pc_named; [repeat split|apply ct_plain; plain| | |apply pc_nil].
      * split; [cbn; lia|]. split; [apply Forall_nil|]. intros k Hk. injection Hk as <-. unfold int64; lia.
      * right. split; [reflexivity|]. split; [eexists; reflexivity|]. eapply it_here. reflexivity.
    + right. split; [reflexivity|]. eexists. split; [reflexivity|]. plain.
  - eexists. split; [find_first|]. split; [unfold read_value; send|]. split; [reflexivity|]. unfold read_value, read_wire. encode.
    + eapply en_set_of; [repeat constructor|apply perm_swap].
    + eapply en_set_of; constructor.
  - vm_compute. reflexivity.
Qed.

(** *** Outside the fragment *)

(** Some encoding of a value of the type [n] of the text [s] is not accepted. *)
Definition rejects (s n : string) : Prop := exists m f t a w,
  accepted s m f /\ NoDup (declared_types f) /\ defines (assignments m) n t /\
  sendable (md_TagDefault m) (assignments m) (integer_repr ex_params) t a /\ in_range a = true /\
  encodes (md_TagDefault m) (assignments m) t a w /\
  forall k, unmarshal f k (goifyName ascii_tables n) w = None.

(** Some encoding of a value of the type [n] of the text [s] is
    read as a Go value that does not stand for that value. *)
Definition misreads (p : GenParams) (s n : string) : Prop := exists m f t a w v,
  parses ascii_tables s (ParseOk (Some m)) /\ gen_ p m = Ok (GenOk f) /\ NoDup (declared_types f) /\ defines (assignments m) n t /\
  encodes (md_TagDefault m) (assignments m) t a w /\
  unmarshal f 10 (goifyName ascii_tables n) w = Some v /\
  forall a', same_value (assignments m) t a a' -> ~ represents (md_TagDefault m) (assignments m) (integer_repr p) t v a'.

Ltac reject s ma mw :=
  let m := eval vm_compute in (module_of s) in let f := eval vm_compute in (file_of s) in
  exists m, f; eexists _, ma, mw; split; [accept|]; split; [vm_compute; repeat constructor; cbn; intuition discriminate|];
  split; [find_first|]; split; [send|]; split; [reflexivity|]; split;
  [encode|let k := fresh in intros k; do 8 (destruct k as [|k]; [vm_compute; reflexivity|]); reflexivity].

(** The components of a SET may come in any order; only one is accepted. *)
Definition order_text : string := "M DEFINITIONS ::= BEGIN A ::= SEQUENCE { b SET { x BOOLEAN, y INTEGER } } END".
Theorem C76_set_refuted : rejects order_text "A".
Proof.
  reject order_text (AStruct [Some (AStruct [Some (ABool true); Some (AInt 1)])])
    (universal 16 (Nested [universal 17 (Nested [universal 2 (Octets (PInt 1)); universal 1 (Octets (PBool true))])])).
  apply perm_swap.
Qed.
Print Assumptions C76_set_refuted.

(** All strings are one Go type, and untagged strings are read whatever their tag: an
    absent string takes the next one's place, although the ASN.1 types differ. *)
Definition strings_text : string := "M DEFINITIONS ::= BEGIN A ::= SEQUENCE { x PrintableString OPTIONAL, y IA5String } END".
Theorem C76_strings_refuted : rejects strings_text "A".
Proof. reject strings_text (AStruct [None; Some (AString "a")]) (universal 16 (Nested [universal 22 (Octets (PString "a"))])). Qed.
Print Assumptions C76_strings_refuted.

(** PRIVATE tags with EXPLICIT. *)
Definition private_text : string := "M DEFINITIONS ::= BEGIN A ::= SEQUENCE { x [PRIVATE 1] INTEGER } END".
Theorem C76_private_refuted : rejects private_text "A".
Proof. reject private_text (AStruct [Some (AInt 7)]) (universal 16 (Nested [TLV CLASS_PRIVATE 1 (Nested [universal 2 (Octets (PInt 7))])])). Qed.
Print Assumptions C76_private_refuted.

(** Times with an implicit tag. *)
Definition time_text : string := "M DEFINITIONS ::= BEGIN A ::= SEQUENCE { x [1] IMPLICIT GeneralizedTime } END".
Theorem C76_time_refuted : rejects time_text "A".
Proof.
  reject time_text (AStruct [Some (ATime 63000000000)])
    (universal 16 (Nested [TLV CLASS_CONTEXT_SPECIFIC 1 (Octets (PGeneralized 63000000000))])).
Qed.
Print Assumptions C76_time_refuted.

(** An absent explicitly tagged component before an empty last one. *)
Definition last_text : string := "M DEFINITIONS ::= BEGIN A ::= SEQUENCE { x [0] INTEGER OPTIONAL, y OCTET STRING } END".
Theorem C76_last_refuted : rejects last_text "A".
Proof. reject last_text (AStruct [None; Some (AOctets [])]) (universal 16 (Nested [universal 4 (Octets (POctets []))])). Qed.
Print Assumptions C76_last_refuted.

(** Tags of type assignments, and SET types by their names. *)
Definition top_text : string := "M DEFINITIONS ::= BEGIN A ::= [APPLICATION 1] SEQUENCE { x BOOLEAN } END".
Theorem C76_assignment_refuted : rejects top_text "A" /\ rejects set_text "A" /\ rejects set_text "B".
Proof.
  split; [|split].
  - reject top_text (AStruct [Some (ABool true)]) (TLV CLASS_APPLICATION 1 (Nested [universal 16 (Nested [universal 1 (Octets (PBool true))])])).
  - reject set_text (AStruct [Some (AStruct [Some (ABool true)])]) (universal 16 (Nested [universal 17 (Nested [universal 1 (Octets (PBool true))])])).
    apply Permutation_refl.
  - reject set_text (AStruct [Some (ABool true)]) (universal 17 (Nested [universal 1 (Octets (PBool true))])).
    apply Permutation_refl.
Qed.
Print Assumptions C76_assignment_refuted.

Ltac misread s p ma mw :=
  let m := eval vm_compute in (module_of s) in
  let f := eval vm_compute in (match gen_ p m with Ok (GenOk f) => f | _ => {| gf_name := ""; gf_decls := [] |} end) in
  exists m, f; eexists _, ma, mw; eexists; split; [apply (ParseString_parses _ 1000); vm_compute; reflexivity|]; split; [vm_compute; reflexivity|];
  split; [vm_compute; repeat constructor; cbn; intuition discriminate|];
  split; [find_first|]; split; [encode|split; [vm_compute; reflexivity|]].

Ltac not_that := let a := fresh "a" in let S := fresh "SV" in let R := fresh "RV" in intros a S R;
  repeat match goal with
  | H : same_value _ _ _ _ |- _ => inversion H; clear H; subst
  | H : same_components _ _ _ _ |- _ => cbn [app] in H; inversion H; clear H; subst
  | H : raw_type _ _ |- _ => inversion H; fail
  | H : represents _ _ _ _ _ _ |- _ => inversion H; clear H; subst
  | H : represents_all _ _ _ _ _ _ |- _ => cbn [app] in H; inversion H; clear H; subst
  | H : _ = _ |- _ => discriminate H
  end.

(** Defaults that are not numbers are lost, and numbers are if INTEGER is big.Int (for
    defaults that the parser already loses see C06). *)
Definition default_text : string := "M DEFINITIONS ::= BEGIN A ::= SEQUENCE { x BOOLEAN DEFAULT TRUE } END".
Definition default_number_text : string := "M DEFINITIONS ::= BEGIN A ::= SEQUENCE { x INTEGER DEFAULT 5 } END".
Theorem C76_default_refuted : misreads ex_params default_text "A" /\ misreads big_params default_number_text "A".
Proof.
  split.
  - misread default_text ex_params (AStruct [Some (ABool true)]) (universal 16 (Nested [])). not_that.
  - misread default_number_text big_params (AStruct [Some (AInt 5)]) (universal 16 (Nested [])). not_that.
Qed.
Print Assumptions C76_default_refuted.

(** An OPTIONAL component that is zero, false or empty is read as absent. *)
Definition optional_text : string := "M DEFINITIONS ::= BEGIN A ::= SEQUENCE { x INTEGER OPTIONAL } B ::= SEQUENCE { x UTF8String OPTIONAL } END".
Theorem C76_optional_refuted : misreads ex_params optional_text "A" /\ misreads ex_params optional_text "B".
Proof.
  split.
  - misread optional_text ex_params (AStruct [Some (AInt 0)]) (universal 16 (Nested [universal 2 (Octets (PInt 0))])). not_that.
  - misread optional_text ex_params (AStruct [Some (AString "")]) (universal 16 (Nested [universal 12 (Octets (PString ""))])). not_that.
Qed.
Print Assumptions C76_optional_refuted.

(** Without [in_range]: an ENUMERATED value that does not fit into 32 bits is sent but not
    read. *)
Definition range_text : string := "M DEFINITIONS ::= BEGIN A ::= SEQUENCE { x ENUMERATED { a(2147483648) } } END".
Theorem C76_range_refuted : exists m f t a v w,
  accepted range_text m f /\ NoDup (declared_types f) /\ defines (assignments m) "A" t /\
  sendable (md_TagDefault m) (assignments m) "int64" t a /\ represents (md_TagDefault m) (assignments m) "int64" t v a /\
  marshal (fun l => l) f 10 "A" v = Some [w] /\ forall k, unmarshal f k "A" w = None.
Proof.
  let m := eval vm_compute in (module_of range_text) in let f := eval vm_compute in (file_of range_text) in exists m, f.
  eexists _, (AStruct [Some (AEnum 2147483648)]), (GStruct [GInt 2147483648]), _.
  split; [accept|]. split; [vm_compute; repeat constructor; cbn; intuition discriminate|]. split; [find_first|]. split; [send|]. split.
  - apply re_sequence. cbn [app]. apply ra_required; constructor.
  - split; [vm_compute; reflexivity|]. intros k. do 8 (destruct k as [|k]; [vm_compute; reflexivity|]). reflexivity.
Qed.
Print Assumptions C76_range_refuted.
