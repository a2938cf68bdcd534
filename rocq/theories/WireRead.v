(** Specification vocabulary for reading: how encoding/asn1 unmarshals encodings into
    the generated types (go1.16, encoding/asn1/asn1.go), and what a type must be like
    for that to work.  Encodings, abstract values and Go values are those of
    [Wire.v]; the contents octets of primitive types are left out here too. *)
From Coq Require Import ZArith String Ascii List Bool Permutation.
From Verif Require Import GoBase Utf8 Unicode Tokens Ast GoAst Codegen CodegenSpec Wire.
Import ListNotations.
Local Open Scope string_scope.
Local Open Scope list_scope.
Local Open Scope Z_scope.

(** * encoding/asn1 *)

Definition compound (c : contents) : bool := match c with Nested _ => true | Octets _ => false end.

(** Contents of length zero. *)
Definition empty_contents (c : contents) : bool :=
  match c with
  | Nested [] | Octets (POctets []) | Octets (POid []) | Octets (PString EmptyString) => true
  | _ => false
  end.

(** getUniversalType: is the encoding of this kind of type constructed? *)
Definition kind_compound (k : gkind) : bool := match k with KStruct _ | KSlice _ _ => true | _ => false end.

(** The tags a string or a time may come with: the switch on t.tag of parseField. *)
Definition string_tags : list Z := [22; 27; 20; 12; 18; 30].

(** parseField: the universal tag a field of kind [k] is read as, given the tag (class
    and number) that was found. *)
Definition wanted (fp : fieldParameters) (k : gkind) (class number : Z) : option Z :=
  match kind_tag k with
  | None => None
  | Some u =>
      let u1 :=
        if u =? 19 then
          if class =? CLASS_UNIVERSAL then if existsb (Z.eqb number) string_tags then number else u
          else if fp_stringType fp =? 0 then u else fp_stringType fp
        else u in
      let u2 := if (u1 =? 23) && (number =? 24) && (class =? CLASS_UNIVERSAL) then 24 else u1 in
      Some (if fp_set fp then 17 else u2)
  end.

(** parseField: the class and number that must be found to go on (of "application" and
    "private" the generator writes at most one). *)
Definition expected (fp : fieldParameters) (u : Z) : Z * Z :=
  match fp_tag fp with
  | Some n => if fp_explicit fp then (CLASS_UNIVERSAL, u) else (fp_class fp, n)
  | None => (CLASS_UNIVERSAL, u)
  end.

Definition int32 (z : Z) : bool := (- 2 ^ 31 <=? z) && (z <? 2 ^ 31).

(** parseObjectIdentifier reads numbers below 2^31; the first two come as one. *)
Definition oid_small (l : list Z) : bool :=
  match l with
  | a :: b :: l' => forallb (fun x => (0 <=? x) && (x <? 2 ^ 31)) (a :: 40 * a + b :: l')
  | _ => false
  end.

(** isPrintable with asterisk and ampersand. *)
Definition printable_char_read (c : ascii) : bool :=
  printable_char c || (byte_of_ascii c =? 42) || (byte_of_ascii c =? 38).

(** parseString: the string types by tag (BMPString is left out). *)
Definition parse_string (u : Z) (s : string) : option string :=
  let check (b : bool) := if b then Some s else None in
  if u =? 19 then check (all_chars printable_char_read s)
  else if u =? 18 then check (all_chars numeric_char s)
  else if u =? 22 then check (all_chars ia5_char s)
  else if u =? 12 then check (utf8_valid s)
  else if (u =? 20) || (u =? 27) then Some s
  else None.

(** parseField: primitive contents of a field of kind [k] read with the universal tag [u]. *)
Definition parse_prim (k : gkind) (u : Z) (p : prim) : option gval :=
  match k, p with
  | KBool, PBool b => Some (GBool b)
  | KInt, PInt z => if (- 2 ^ 63 <=? z) && (z <? 2 ^ 63) then Some (GInt z) else None
  | KEnum, PInt z => if int32 z then Some (GInt z) else None
  | KBig, PInt z => Some (GBig (Some z))
  | KBits, PBits o n => Some (GBits (Some o) n)
  | KBytes, POctets l => Some (GBytes (Some l))
  | KOid, POid l => if oid_small l then Some (GOid (Some l)) else None
  | KString, PString s => option_map GString (parse_string u s)
  | KTime, PUtc t => if u =? 23 then Some (GTime t) else None
  | KTime, PGeneralized t => if u =? 24 then Some (GTime t) else None
  | _, _ => None
  end.

(** parseSequenceOf treats all strings alike, and both times. *)
Definition element_tag (number : Z) : Z :=
  if existsb (Z.eqb number) string_tags then 19 else if (number =? 24) || (number =? 23) then 23 else number.

Definition element_ok (k : gkind) (w : tlv) : bool :=
  match k with KRaw => true | _ =>
  match kind_tag k, w with
  | Some u, TLV class number body => (class =? CLASS_UNIVERSAL) && Bool.eqb (compound body) (kind_compound k) && (element_tag number =? u)
  | None, _ => false
  end
  end.

(** parseSequenceOf gives up on other types ("unknown Go type for slice"). *)
Definition element_kind (k : gkind) : bool :=
  match k with KRaw => true | _ => match kind_tag k with Some _ => true | None => false end end.

(** parseField on an interface: values of some universal types are kept with their Go
    type, anything else is skipped and leaves nil (BMPString is left out). *)
Definition any_value (w : tlv) : option gval :=
  match w with
  | TLV class number (Octets p) =>
      if class =? CLASS_UNIVERSAL then
        if existsb (Z.eqb number) [19; 18; 22; 20; 12] then option_map (GDyn (EIdent "string")) (parse_prim KString number p)
        else if number =? 2 then option_map (GDyn (EIdent "int64")) (parse_prim KInt number p)
        else if number =? 3 then option_map (GDyn (EIdent "asn1.BitString")) (parse_prim KBits number p)
        else if number =? 6 then option_map (GDyn (EIdent "asn1.ObjectIdentifier")) (parse_prim KOid number p)
        else if (number =? 23) || (number =? 24) then option_map (GDyn (EIdent "time.Time")) (parse_prim KTime number p)
        else if number =? 4 then option_map (GDyn (EArray (EIdent "byte"))) (parse_prim KBytes number p)
        else if number =? 30 then None
        else Some GNil
      else Some GNil
  | TLV _ _ (Nested _) => Some GNil
  end.

Definition is_any (k : gkind) : bool := match k with KAny => true | _ => false end.
Definition is_raw (k : gkind) : bool := match k with KRaw => true | _ => false end.

(** parseField on a RawValue without an explicit tag takes any element, unless there is
    an implicit tag to compare. *)
Definition raw_matches (fp : fieldParameters) (class number : Z) : bool :=
  match fp_tag fp with Some k => (class =? fp_class fp) && (number =? k) | None => true end.

Section Unmarshal.
  Context (f : gofile).

  (** The zero value of a type: what a fresh variable holds. *)
  Fixpoint zero_of (fuel : nat) (e : goexpr) : option gval :=
    match fuel with
    | O => None
    | S n =>
        match kind_of f n e with
        | Some KBool => Some (GBool false)
        | Some KInt | Some KEnum => Some (GInt 0)
        | Some KString => Some (GString "")
        | Some KTime => Some (GTime 0)
        | Some KBits => Some (GBits None 0)
        | Some KOid => Some (GOid None)
        | Some KBig => Some (GBig None)
        | Some KBytes => Some (GBytes None)
        | Some (KSlice _ _) => Some (GSlice None)
        | Some KRaw => Some (GRaw None)
        | Some KAny => Some GNil
        | Some (KStruct fs) =>
            option_map GStruct
              ((fix fields (fs : list gofield) : option (list gval) :=
                  match fs with
                  | [] => Some []
                  | Field _ e' _ :: fs' =>
                      match zero_of n e' with
                      | None => None
                      | Some v => option_map (cons v) (fields fs')
                      end
                  end) fs)
        | Some KOther | None => None
        end
    end.

  (** setDefaultValue on a fresh field; [None] if the field is not optional. *)
  Definition set_default (fuel : nat) (e : goexpr) (fp : fieldParameters) : option gval :=
    if fp_optional fp then
      match fp_defaultValue fp, kind_of f fuel e with
      | Some d, Some KInt | Some d, Some KEnum => Some (GInt d)
      | _, _ => zero_of fuel e
      end
    else None.

  (** parseField: the value of a fresh field of the Go type [e] with these parameters,
      read from the elements [ws], and the elements that remain.  [None] is an error. *)
  Fixpoint parse_field (fuel : nat) (e : goexpr) (fp : fieldParameters) (ws : list tlv) : option (gval * list tlv) :=
    match fuel with
    | O => None
    | S n =>
        match kind_of f n e with
        | None => None
        | Some k =>
            let absent := option_map (fun v => (v, ws)) (set_default n e fp) in
            let value (class number : Z) (body : contents) (rest : list tlv) : option (gval * list tlv) :=
              match wanted fp k class number with
              | None => None
              | Some u =>
                  if (class =? fst (expected fp u)) && (number =? snd (expected fp u)) && Bool.eqb (compound body) (kind_compound k) then
                    match k, body with
                    | KStruct fs, Nested inner =>
                        if forallb exported fs then
                          option_map (fun vs => (GStruct vs, rest))
                            ((fix fields (fs : list gofield) (inner : list tlv) : option (list gval) :=
                                match fs with
                                | [] => Some []
                                | Field _ e' tag' :: fs' =>
                                    match parse_field n e' (parseFieldParameters (tag_body tag')) inner with
                                    | None => None
                                    | Some (v, inner') => option_map (cons v) (fields fs' inner')
                                    end
                                end) fs inner)
                        else None
                    | KSlice _ e', Nested inner =>
                        match kind_of f n e' with
                        | None => None
                        | Some k' =>
                            if element_kind k' && forallb (element_ok k') inner then
                              option_map (fun vs => (GSlice (Some vs), rest))
                                ((fix elements (count : nat) (inner : list tlv) : option (list gval) :=
                                    match count with
                                    | O => Some []
                                    | S count' =>
                                        match parse_field n e' fp0 inner with
                                        | None => None
                                        | Some (v, inner') => option_map (cons v) (elements count' inner')
                                        end
                                    end) (List.length inner) inner)
                            else None
                        end
                    | _, Octets p => option_map (fun v => (v, rest)) (parse_prim k u p)
                    | _, _ => None
                    end
                  else absent
              end in
            match ws with
            | [] => absent
            | TLV class number body :: rest =>
                if is_any k then option_map (fun v => (v, rest)) (any_value (TLV class number body))
                else if fp_explicit fp then
                  if empty_contents body && match rest with [] => true | _ => false end then None
                  else if (class =? (if fp_application fp then CLASS_APPLICATION else CLASS_CONTEXT_SPECIFIC))
                          && match fp_tag fp with Some k => number =? k | None => false end
                          && (empty_contents body || compound body) then
                    if is_raw k then Some (GRaw (Some (TLV class number body)), rest)
                    else
                      match body with
                      | Nested (TLV class' number' body' :: inner) => value class' number' body' (inner ++ rest)
                      | _ => None
                      end
                  else absent
                else if is_raw k then
                  if raw_matches fp class number then Some (GRaw (Some (TLV class number body)), rest) else absent
                else value class number body rest
            end
        end
    end.
End Unmarshal.

(** asn1.Unmarshal of an encoding into a fresh variable of the type named [s] in the
    file [f].  What follows the encoding is returned to the caller and left out here. *)
Definition unmarshal (f : gofile) (fuel : nat) (s : string) (w : tlv) : option gval :=
  option_map fst (parse_field f fuel (EIdent s) fp0 [w]).

(** * ASN.1 *)

(** The tag an encoding of a type begins with: class and number (X.680 8, 31). *)
Section OuterTag.
  Context (asg : list Assignment_).

  Inductive outer_tag : AType_ -> Z -> Z -> Prop :=
  | ot_boolean : outer_tag TBoolean CLASS_UNIVERSAL 1
  | ot_integer l : outer_tag (TInteger l) CLASS_UNIVERSAL 2
  | ot_bits l : outer_tag (TBitString l) CLASS_UNIVERSAL 3
  | ot_octets : outer_tag TOctetString CLASS_UNIVERSAL 4
  | ot_oid : outer_tag TObjectIdentifier CLASS_UNIVERSAL 6
  | ot_enumerated x : outer_tag (TEnumerated x) CLASS_UNIVERSAL 10
  | ot_string z n : string_number z = Some n -> outer_tag (TRestrictedString z) CLASS_UNIVERSAL n
  | ot_sequence c x : outer_tag (TSequence c x) CLASS_UNIVERSAL 16
  | ot_set c x : outer_tag (TSet c x) CLASS_UNIVERSAL 17
  | ot_sequence_of t : outer_tag (TSequenceOf t) CLASS_UNIVERSAL 16
  | ot_set_of t : outer_tag (TSetOf t) CLASS_UNIVERSAL 17
  | ot_tagged class k t mode has : outer_tag (TTagged {| tag_Class := class; tag_ClassNumber := VNumber k |} t mode has) class k
  | ot_constrained t c class k : outer_tag t class k -> outer_tag (TConstrained t c) class k
  | ot_reference n t class k : defines asg n t -> outer_tag t class k -> outer_tag (TReference n) class k
  | ot_generalized : (forall t, ~ defines asg "GeneralizedTime" t) -> outer_tag (TReference "GeneralizedTime") CLASS_UNIVERSAL 24
  | ot_utc : (forall t, ~ defines asg "UTCTime" t) -> outer_tag (TReference "UTCTime") CLASS_UNIVERSAL 23
  | ot_choice alts x n t class k : In (Named n t) alts -> outer_tag t class k -> outer_tag (TChoice alts x) class k
  | ot_any s class k : outer_tag (TAny s) class k.
End OuterTag.

(** Tags encoding/asn1 may take for one another: all strings have one Go type, and so
    have both times. *)
Definition alike (class number class' number' : Z) : Prop :=
  class = class' /\
  (number = number' \/
   class = CLASS_UNIVERSAL /\ (In number (19 :: string_tags) /\ In number' (19 :: string_tags) \/ In number [23; 24] /\ In number' [23; 24])).

(** The components [l] of a SEQUENCE or SET that is part of the type [t]. *)
Inductive within : AType_ -> list (component Value DefinedValue) -> Prop :=
| wi_sequence c x : within (TSequence c x) (c ++ x)
| wi_set c x : within (TSet c x) (c ++ x)
| wi_sequence_in c x n t o d l : In (CNamed (Named n t) o d) (c ++ x) -> within t l -> within (TSequence c x) l
| wi_set_in c x n t o d l : In (CNamed (Named n t) o d) (c ++ x) -> within t l -> within (TSet c x) l
| wi_sequence_of t l : within t l -> within (TSequenceOf t) l
| wi_set_of t l : within t l -> within (TSetOf t) l
| wi_tagged g t mode has l : within t l -> within (TTagged g t mode has) l
| wi_constrained t c l : within t l -> within (TConstrained t c) l.

Section Readable.
  Context (tagDefault : Z) (asg : list Assignment_) (repr : string).

  (** What encoding/asn1 needs to read a component (of type [t], OPTIONAL if [o], with
      the default [d]) that is followed by the components [post].
      - It is no SET: encoding/asn1 wants the components in their order.
      - Explicit tags are not PRIVATE, and times are not tagged implicitly.
      - A default is read into an int64.
      - If the component can be left out, what follows cannot be taken for it (X.680
        25.6 asks for different tags); and if it also has an explicit tag, an empty
        element must not come last (encoding/asn1 stops with "explicit tag has no
        child" before it compares tags).
      - If a CHOICE without a tag of its own can be left out, nothing comes after it:
        a RawValue takes any element. *)
  Record clear (t : AType_) (o : bool) (d : option Value) (post : list (component Value DefinedValue)) : Prop := {
    cl_set : forall c x, strip t <> TSet c x;
    cl_private : forall tag mode, In (tag, mode) (tags_of t) -> effective tagDefault mode = TAGS_EXPLICIT ->
      tag_Class tag <> CLASS_PRIVATE;
    cl_time : forall n, strip t = TReference n -> generalized_time asg n ->
      forall tag mode, In (tag, mode) (tags_of t) -> effective tagDefault mode = TAGS_EXPLICIT;
    cl_default : d <> None -> repr = "int64";
    cl_distinct : o = true \/ d <> None -> forall class k fs class' k' body ws,
      outer_tag asg t class k -> encodes_all tagDefault asg post fs (TLV class' k' body :: ws) -> ~ alike class k class' k';
    cl_last : o = true \/ d <> None ->
      forall tag mode, In (tag, mode) (tags_of t) -> effective tagDefault mode = TAGS_EXPLICIT ->
      forall fs class k body, encodes_all tagDefault asg post fs [TLV class k body] -> empty_contents body = false;
    cl_choice : o = true -> raw_type asg t -> tags_of t = [] ->
      forall fs w ws, ~ encodes_all tagDefault asg post fs (w :: ws)
  }.

  (** All components of the types of a set of names are like that. *)
  Definition readable (good : string -> Prop) : Prop :=
    forall name u l, good name -> defines asg name u -> within u l ->
    forall pre n t o d post, l = pre ++ CNamed (Named n t) o d :: post -> clear t o d post.
End Readable.

(** Numbers of enumerations and object identifiers that encoding/asn1 reads. *)
Fixpoint in_range (a : aval) : bool :=
  match a with
  | AEnum z => int32 z
  | AOid l => oid_small l
  | AStruct l => forallb (fun o => match o with Some a' => in_range a' | None => true end) l
  | AList l => forallb in_range l
  | _ => true
  end.

(** The same value: a SET OF has no order. *)
Section Same.
  Context (asg : list Assignment_).

  Inductive same_value : AType_ -> aval -> aval -> Prop :=
  | sv_same t a : same_value t a a
  | sv_sequence c x fs fs' : same_components (c ++ x) fs fs' -> same_value (TSequence c x) (AStruct fs) (AStruct fs')
  | sv_set c x fs fs' : same_components (c ++ x) fs fs' -> same_value (TSet c x) (AStruct fs) (AStruct fs')
  | sv_sequence_of t l l' : same_elements t l l' -> same_value (TSequenceOf t) (AList l) (AList l')
  | sv_set_of t l l' l'' : Permutation l l' -> same_elements t l' l'' -> same_value (TSetOf t) (AList l) (AList l'')
  | sv_tagged g t mode has a a' : same_value t a a' -> same_value (TTagged g t mode has) a a'
  | sv_constrained t c a a' : same_value t a a' -> same_value (TConstrained t c) a a'
  | sv_reference n t a a' : defines asg n t -> same_value t a a' -> same_value (TReference n) a a'
  with same_components : list (component Value DefinedValue) -> list (option aval) -> list (option aval) -> Prop :=
  | sc_nil : same_components [] [] []
  | sc_present n t o d l a a' fs fs' : same_value t a a' -> same_components l fs fs' ->
      same_components (CNamed (Named n t) o d :: l) (Some a :: fs) (Some a' :: fs')
  | sc_absent n t o d l fs fs' : same_components l fs fs' ->
      same_components (CNamed (Named n t) o d :: l) (None :: fs) (None :: fs')
  | sc_nothing l fs fs' : same_components l fs fs' -> same_components (CNil :: l) fs fs'
  with same_elements : AType_ -> list aval -> list aval -> Prop :=
  | sl_nil t : same_elements t [] []
  | sl_cons t a a' l l' : same_value t a a' -> same_elements t l l' -> same_elements t (a :: l) (a' :: l').
End Same.
