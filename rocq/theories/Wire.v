(** Specification vocabulary for what travels on the wire: the values of ASN.1 types
    and their Basic Encoding Rules (X.690), the values of the generated Go types, and
    how encoding/asn1 marshals them (go1.16, encoding/asn1/marshal.go and common.go).
    Nothing here uses the functions of [Codegen.v] except [goifyName].

    Encodings are kept as trees of tag-length-value triples.  How lengths and the
    contents octets of primitive types (booleans, integers, times, ...) are laid out
    is left out: a primitive content is named by what it says. *)
From Coq Require Import ZArith String Ascii List Bool Permutation.
From Verif Require Import GoBase Utf8 Unicode Tokens Ast GoAst Codegen CodegenSpec.
Import ListNotations.
Local Open Scope string_scope.
Local Open Scope list_scope.
Local Open Scope Z_scope.

(** * Encodings *)

(** What the contents octets of a primitive encoding say. *)
Inductive prim : Type :=
| PBool (b : bool)
| PInt (z : Z)
| PBits (octets : list Z) (length : Z)
| POctets (l : list Z)
| POid (l : list Z)
| PString (s : string)
| PUtc (t : Z)
| PGeneralized (t : Z).

(** An encoding: tag class (the CLASS_ constants), tag number, contents. *)
Inductive tlv : Type :=
| TLV (class number : Z) (body : contents)
with contents : Type :=
| Octets (p : prim)
| Nested (l : list tlv).

(** * ASN.1 *)

(** Abstract values.  A structure has one entry per component; an OPTIONAL component
    that is absent is [None]; a component with a DEFAULT always has a value.  Times
    are seconds since the start of the year 1, in UTC.  A value of a CHOICE names its
    alternative; a value of ANY is known by its encoding. *)
Inductive aval : Type :=
| ABool (b : bool)
| AInt (z : Z)
| AEnum (z : Z)
| ABits (octets : list Z) (length : Z)
| AOctets (l : list Z)
| AOid (l : list Z)
| AString (s : string)
| ATime (t : Z)
| AStruct (l : list (option aval))
| AList (l : list aval)
| AChoice (n : string) (a : aval)
| AAny (w : tlv).

(** Universal tag numbers of the character string types (X.680 41, table 8). *)
Definition string_number (z : Z) : option Z :=
  if z =? T_UTF8String then Some 12
  else if z =? T_NumericString then Some 18
  else if z =? T_PrintableString then Some 19
  else if (z =? T_TeletexString) || (z =? T_T61String) then Some 20
  else if z =? T_VideotexString then Some 21
  else if z =? T_IA5String then Some 22
  else if z =? T_GraphicString then Some 25
  else if (z =? T_VisibleString) || (z =? T_ISO646String) then Some 26
  else if z =? T_GeneralString then Some 27
  else if z =? T_UniversalString then Some 28
  else if z =? T_BMPString then Some 30
  else None.

(** The literal [v] denotes the abstract value [a]. *)
Inductive denotes : Value -> aval -> Prop :=
| de_number k : denotes (VNumber k) (AInt k)
| de_boolean b : denotes (VBoolean b) (ABool b).

Definition universal (number : Z) (body : contents) : tlv := TLV CLASS_UNIVERSAL number body.

(** The Basic Encoding Rules: [encodes t a w] says that [w] encodes the value [a] of
    type [t].  Covered are all types but NULL, REAL and CHARACTER STRING; tag numbers
    are literal.  A tag on an untagged CHOICE or on ANY is always explicit.  The components of a SEQUENCE are encoded in order
    ([exts] are the extension additions; that the tree keeps the order of the text is
    property C69). *)
Section Ber.
  Context (tagDefault : Z) (asg : list Assignment_).

  (** An untagged CHOICE or ANY (X.680 31.2.7). *)
  Inductive open_type : AType_ -> Prop :=
  | oy_choice alts x : open_type (TChoice alts x)
  | oy_any s : open_type (TAny s)
  | oy_constrained t c : open_type t -> open_type (TConstrained t c)
  | oy_reference n t : defines asg n t -> open_type t -> open_type (TReference n).

  Inductive encodes : AType_ -> aval -> tlv -> Prop :=
  | en_boolean b : encodes TBoolean (ABool b) (universal 1 (Octets (PBool b)))
  | en_integer l z : encodes (TInteger l) (AInt z) (universal 2 (Octets (PInt z)))
  | en_bits l o n : encodes (TBitString l) (ABits o n) (universal 3 (Octets (PBits o n)))
  | en_octets o : encodes TOctetString (AOctets o) (universal 4 (Octets (POctets o)))
  | en_oid l : encodes TObjectIdentifier (AOid l) (universal 6 (Octets (POid l)))
  | en_enumerated x z : encodes (TEnumerated x) (AEnum z) (universal 10 (Octets (PInt z)))
  | en_string z n s : string_number z = Some n ->
      encodes (TRestrictedString z) (AString s) (universal n (Octets (PString s)))
  | en_sequence comps exts fs ws : encodes_all (comps ++ exts) fs ws ->
      encodes (TSequence comps exts) (AStruct fs) (universal 16 (Nested ws))
  | en_set comps exts fs ws ws' : encodes_all (comps ++ exts) fs ws -> Permutation ws ws' ->
      encodes (TSet comps exts) (AStruct fs) (universal 17 (Nested ws'))
  | en_sequence_of t l ws : Forall2 (encodes t) l ws ->
      encodes (TSequenceOf t) (AList l) (universal 16 (Nested ws))
  | en_set_of t l ws ws' : Forall2 (encodes t) l ws -> Permutation ws ws' ->
      encodes (TSetOf t) (AList l) (universal 17 (Nested ws'))
  | en_explicit class k t mode (has : bool) a w :
      effective tagDefault (if has then Some mode else None) = TAGS_EXPLICIT \/ open_type t -> encodes t a w ->
      encodes (TTagged {| tag_Class := class; tag_ClassNumber := VNumber k |} t mode has) a (TLV class k (Nested [w]))
  | en_implicit class k t mode (has : bool) a class' k' body :
      effective tagDefault (if has then Some mode else None) <> TAGS_EXPLICIT -> ~ open_type t -> encodes t a (TLV class' k' body) ->
      encodes (TTagged {| tag_Class := class; tag_ClassNumber := VNumber k |} t mode has) a (TLV class k body)
  | en_constrained t c a w : encodes t a w -> encodes (TConstrained t c) a w
  | en_reference n t a w : defines asg n t -> encodes t a w -> encodes (TReference n) a w
  | en_generalized z : (forall t, ~ defines asg "GeneralizedTime" t) ->
      encodes (TReference "GeneralizedTime") (ATime z) (universal 24 (Octets (PGeneralized z)))
  | en_utc z : (forall t, ~ defines asg "UTCTime" t) ->
      encodes (TReference "UTCTime") (ATime z) (universal 23 (Octets (PUtc z)))
  | en_choice alts x n t a w : In (Named n t) alts -> encodes t a w -> encodes (TChoice alts x) (AChoice n a) w
  | en_any s w : encodes (TAny s) (AAny w) w
  with encodes_all : list (component Value DefinedValue) -> list (option aval) -> list tlv -> Prop :=
  | ea_nil : encodes_all [] [] []
  | ea_present n t o d l a fs w ws : encodes t a w -> encodes_all l fs ws ->
      encodes_all (CNamed (Named n t) o d :: l) (Some a :: fs) (w :: ws)
  | ea_absent n t d l fs ws : encodes_all l fs ws ->
      encodes_all (CNamed (Named n t) true d :: l) (None :: fs) ws
  | ea_default n t o dv l a fs ws : denotes dv a -> encodes_all l fs ws ->
      encodes_all (CNamed (Named n t) o (Some dv) :: l) (Some a :: fs) ws
  | ea_nothing l fs ws : encodes_all l fs ws -> encodes_all (CNil :: l) fs ws.
End Ber.

(** * Go *)

(** Values of the generated types; [None] is a nil slice or pointer.  Times as above
    (a time.Time also has a location, which is left out; the zero time is 0).  A RawValue
    is the element it holds, or zero.  A value in an interface comes with its Go type;
    an interface may also be nil. *)
Inductive gval : Type :=
| GBool (b : bool)
| GInt (z : Z)
| GBig (z : option Z)
| GString (s : string)
| GBytes (l : option (list Z))
| GBits (octets : option (list Z)) (length : Z)
| GOid (l : option (list Z))
| GTime (t : Z)
| GStruct (l : list gval)
| GSlice (l : option (list gval))
| GRaw (w : option tlv)
| GNil
| GDyn (e : goexpr) (v : gval).

(** The zero value of its type (as reflect.DeepEqual sees it). *)
Fixpoint is_zero (v : gval) : bool :=
  match v with
  | GBool b => negb b
  | GInt z => z =? 0
  | GBig None => true
  | GString EmptyString => true
  | GBytes None => true
  | GBits None n => n =? 0
  | GOid None => true
  | GTime t => t =? 0
  | GStruct l => forallb is_zero l
  | GSlice None => true
  | GRaw None => true
  | GNil => true
  | _ => false
  end.

Definition contents_of {A} (o : option (list A)) : list A := match o with Some l => l | None => [] end.

(** What encoding/asn1 can tell of a Go type by reflection. *)
Inductive gkind : Type :=
| KBool | KInt | KString | KTime | KBits | KEnum | KOid | KBig | KBytes
| KSlice (set : bool) (elem : goexpr)
| KStruct (fields : list gofield)
| KRaw
| KAny
| KOther.

Definition builtin_kind (s : string) : option gkind :=
  if String.eqb s "bool" then Some KBool
  else if String.eqb s "int64" then Some KInt
  else if String.eqb s "string" then Some KString
  else if String.eqb s "time.Time" then Some KTime
  else if String.eqb s "asn1.BitString" then Some KBits
  else if String.eqb s "asn1.Enumerated" then Some KEnum
  else if String.eqb s "asn1.ObjectIdentifier" then Some KOid
  else if String.eqb s "asn1.RawValue" then Some KRaw
  else if String.eqb s "float64" then Some KOther
  else None.

(** The declaration of a type in a file: is it an alias, and of what? *)
Fixpoint find_type (l : list gospec) (s : string) : option (bool * goexpr) :=
  match l with
  | [] => None
  | TypeSpec n alias e :: l' => if String.eqb n s then Some (alias, e) else find_type l' s
  | _ :: l' => find_type l' s
  end.

Fixpoint has_suffix (suffix s : string) : bool :=
  String.eqb suffix s || match s with EmptyString => false | String _ s' => has_suffix suffix s' end.

(** The kind of a type declared with the name [s] and this underlying type. *)
Definition defined_kind (s : string) (k : gkind) : gkind :=
  match k with
  | KSlice _ e => KSlice (has_suffix "SET" s) e
  | KBool | KInt | KString | KBytes | KStruct _ => k
  | KEnum => KInt
  | _ => KOther
  end.

(** The kind of a type expression in the file [f]; names of types are looked up at
    most [fuel] times in a row. *)
Fixpoint kind_of (f : gofile) (fuel : nat) (e : goexpr) : option gkind :=
  match e with
  | EIdent s =>
      match builtin_kind s with
      | Some k => Some k
      | None =>
          match fuel with
          | O => None
          | S fuel' =>
              match find_type (file_specs f) s with
              | Some (true, e') => kind_of f fuel' e'
              | Some (false, e') => option_map (defined_kind s) (kind_of f fuel' e')
              | None => None
              end
          end
      end
  | EStar (EIdent s) => if String.eqb s "big.Int" then Some KBig else Some KOther
  | EArray (EIdent s) => if String.eqb s "byte" then Some KBytes else Some (KSlice false (EIdent s))
  | EArray e' => Some (KSlice false e')
  | EStruct fs => Some (KStruct fs)
  | EInterface => Some KAny
  | _ => Some KOther
  end.

(** reflect.StructTag.Get("asn1") on a tag literal of the generator's form. *)
Definition tag_body (tag : option string) : string :=
  match tag with
  | None => ""
  | Some s => String.substring 7 (String.length s - 9) s
  end.

(** Characters of PrintableString and NumericString (isPrintable without asterisk and
    ampersand, isNumeric; X.680 41.2, 41.4) and IA5String. *)
Definition printable_char (c : ascii) : bool :=
  let b := byte_of_ascii c in
  ascii_lower b || ascii_upper b || ascii_digit b || ((39 <=? b) && (b <=? 41)) || ((43 <=? b) && (b <=? 47))
  || (b =? 32) || (b =? 58) || (b =? 61) || (b =? 63).
Definition numeric_char (c : ascii) : bool := ascii_digit (byte_of_ascii c) || (byte_of_ascii c =? 32).
Definition ia5_char (c : ascii) : bool := byte_of_ascii c <? 128.

(** utf8.ValidString. *)
Definition utf8_valid (s : string) : bool :=
  forallb (fun p => negb ((fst p =? rune_error) && (Nat.eqb (snd p) 1))) (decode_all (bytes_of_string s)).

(** The first second of a year of the Gregorian calendar. *)
Definition year_start (y : Z) : Z :=
  86400 * (365 * (y - 1) + (y - 1) / 4 - (y - 1) / 100 + (y - 1) / 400).
(** outsideUTCRange; the years makeGeneralizedTime can write. *)
Definition outside_utc (t : Z) : bool := (t <? year_start 1950) || (year_start 2050 <=? t).
Definition four_digit_year (t : Z) : bool := (year_start 0 <=? t) && (t <? year_start 10000).

(** makeObjectIdentifier refuses other values (X.660). *)
Definition oid_ok (l : list Z) : bool :=
  match l with
  | a :: b :: _ => (a <=? 2) && ((a =? 2) || (b <? 40))
  | _ => false
  end.

(** Exported names, in ASCII. *)
Definition exported (fd : gofield) : bool :=
  match fd with Field (String c _) _ _ => ascii_upper (byte_of_ascii c) | _ => false end.

(** getUniversalType. *)
Definition kind_tag (k : gkind) : option Z :=
  match k with
  | KBool => Some 1 | KInt => Some 2 | KBig => Some 2 | KBits => Some 3 | KBytes => Some 4 | KOid => Some 6
  | KEnum => Some 10 | KStruct _ => Some 16 | KSlice set _ => Some (if set then 17 else 16)
  | KString => Some 19 | KTime => Some 23
  | KRaw | KAny | KOther => None
  end.

(** The universal tag makeField settles on, if it does not give up. *)
Definition field_tag (fp : fieldParameters) (k : gkind) (v : gval) : option Z :=
  match kind_tag k with
  | None => None
  | Some tag =>
      if negb (fp_timeType fp =? 0) && negb (tag =? 23) then None
      else if negb (fp_stringType fp =? 0) && negb (tag =? 19) then None
      else
        let tag' :=
          match v with
          | GString s =>
              if fp_stringType fp =? 0 then
                if all_chars printable_char s then Some 19 else if utf8_valid s then Some 12 else None
              else Some (fp_stringType fp)
          | GTime t => Some (if (fp_timeType fp =? 24) || outside_utc t then 24 else 23)
          | _ => Some tag
          end in
        match tag' with
        | None => None
        | Some tag' => if fp_set fp then if tag' =? 16 then Some 17 else None else Some tag'
        end
  end.

(** The tag of a field: none, explicit or implicit. *)
Definition put_tag (fp : fieldParameters) (tag : Z) (body : contents) : tlv :=
  match fp_tag fp with
  | None => universal tag body
  | Some k => TLV (fp_class fp) k (if fp_explicit fp then Nested [universal tag body] else body)
  end.

(** A value equal to its default is left out ([canHaveDefaultValue]: integer kinds). *)
Definition is_default (fp : fieldParameters) (k : gkind) (v : gval) : bool :=
  match k, v, fp_defaultValue fp with
  | KInt, GInt z, Some d | KEnum, GInt z, Some d => fp_optional fp && (z =? d)
  | _, _, _ => false
  end.

(** Primitive contents: makeBody. *)
Definition prim_body (fp : fieldParameters) (k : gkind) (v : gval) : option prim :=
  match k, v with
  | KBool, GBool b => Some (PBool b)
  | KInt, GInt z | KEnum, GInt z => Some (PInt z)
  | KBig, GBig (Some z) => Some (PInt z)
  | KBits, GBits o n => Some (PBits (contents_of o) n)
  | KBytes, GBytes o => Some (POctets (contents_of o))
  | KOid, GOid (Some l) => if oid_ok l then Some (POid l) else None
  | KString, GString s =>
      if fp_stringType fp =? 22 then if all_chars ia5_char s then Some (PString s) else None
      else if fp_stringType fp =? 18 then if all_chars numeric_char s then Some (PString s) else None
      else Some (PString s)
  | KTime, GTime t =>
      if (fp_timeType fp =? 24) || outside_utc t then if four_digit_year t then Some (PGeneralized t) else None
      else Some (PUtc t)
  | _, _ => None
  end.

(** What makeField writes for a RawValue: its element, whatever the parameters say; for
    the zero RawValue an element with tag 0 and no contents. *)
Definition raw_element (o : option tlv) : tlv :=
  match o with Some w => w | None => universal 0 (Octets (POctets [])) end.

Section Marshal.
  (** The order encoding/asn1 puts the elements of a SET OF in. *)
  Context (sorted : list tlv -> list tlv).
  Context (f : gofile) (fuel : nat).

  (** makeField and makeBody: the encodings (none or one) of a field of the Go type
      [e] with these parameters and this value.  [None] is an error.  A value in an
      interface is written as a field of its own type; a nil interface is an error, even
      if the field is optional. *)
  Fixpoint make_field (e : goexpr) (fp : fieldParameters) (v : gval) {struct v} : option (list tlv) :=
    match v with
    | GNil => None
    | GDyn e' v' => match kind_of f fuel e with Some KAny => make_field e' fp v' | _ => None end
    | _ =>
    if fp_omitEmpty fp && match v with GSlice (Some []) | GSlice None | GBytes (Some []) | GBytes None => true | _ => false end then Some []
    else if fp_optional fp && match fp_defaultValue fp with None => is_zero v | Some _ => false end then Some []
    else
      match kind_of f fuel e with
      | None => None
      | Some k =>
          if is_default fp k v then Some []
          else
            match k, v with KRaw, GRaw o => Some [raw_element o] | _, _ =>
            match field_tag fp k v with
            | None => None
            | Some tag =>
                match k, v with
                | KStruct fs, GStruct vs =>
                    if forallb exported fs then
                      match
                        (fix fields (fs : list gofield) (vs : list gval) {struct vs} : option (list tlv) :=
                           match fs, vs with
                           | [], [] => Some []
                           | Field _ e' tag' :: fs', v' :: vs' =>
                               match make_field e' (parseFieldParameters (tag_body tag')) v' with
                               | None => None
                               | Some a => option_map (app a) (fields fs' vs')
                               end
                           | _, _ => None
                           end) fs vs
                      with
                      | None => None
                      | Some ws => Some [put_tag fp tag (Nested ws)]
                      end
                    else None
                | KSlice _ e', GSlice o =>
                    match
                      match o with
                      | None => Some []
                      | Some vs =>
                          (fix elements (vs : list gval) : option (list tlv) :=
                             match vs with
                             | [] => Some []
                             | v' :: vs' =>
                                 match make_field e' fp0 v' with
                                 | None => None
                                 | Some a => option_map (app a) (elements vs')
                                 end
                             end) vs
                      end
                    with
                    | None => None
                    | Some ws => Some [put_tag fp tag (Nested (if tag =? 17 then sorted ws else ws))]
                    end
                | _, _ =>
                    match prim_body fp k v with
                    | None => None
                    | Some p => Some [put_tag fp tag (Octets p)]
                    end
                end
            end
            end
      end
    end.
End Marshal.

(** asn1.Marshal of a value of the type named [s] in the file [f]. *)
Definition marshal (sorted : list tlv -> list tlv) (f : gofile) (fuel : nat) (s : string) (v : gval) : option (list tlv) :=
  make_field sorted f fuel (EIdent s) fp0 v.

(** * What a Go value stands for *)

(** A CHOICE with tagged alternatives, perhaps by name: generated as a RawValue. *)
Inductive raw_type (asg : list Assignment_) : AType_ -> Prop :=
| rw_choice alts x : tagged_choice asg alts -> raw_type asg (TChoice alts x)
| rw_tagged g t mode has : raw_type asg t -> raw_type asg (TTagged g t mode has)
| rw_constrained t c : raw_type asg t -> raw_type asg (TConstrained t c)
| rw_reference n t : defines asg n t -> raw_type asg t -> raw_type asg (TReference n).

(** [represents t v a]: the Go value [v] stands for the abstract value [a] of type [t].
    A field of an OPTIONAL component that holds the zero value stands for absence (but
    a nil interface cannot be sent).  A RawValue stands for what its element encodes, the
    element including the tags of the component.  A value in an interface stands for
    the alternative of a CHOICE. *)
Section Represents.
  Context (tagDefault : Z) (asg : list Assignment_) (repr : string).

  Inductive represents : AType_ -> gval -> aval -> Prop :=
  | re_boolean b : represents TBoolean (GBool b) (ABool b)
  | re_int64 l z : repr = "int64" -> int64 z -> represents (TInteger l) (GInt z) (AInt z)
  | re_big l z : repr = "big.Int" -> represents (TInteger l) (GBig (Some z)) (AInt z)
  | re_bits l o n : represents (TBitString l) (GBits o n) (ABits (contents_of o) n)
  | re_octets o : represents TOctetString (GBytes o) (AOctets (contents_of o))
  | re_oid l : oid_ok l = true -> represents TObjectIdentifier (GOid (Some l)) (AOid l)
  | re_enumerated x z : represents (TEnumerated x) (GInt z) (AEnum z)
  | re_printable s : all_chars printable_char s = true ->
      represents (TRestrictedString T_PrintableString) (GString s) (AString s)
  | re_ia5 s : all_chars ia5_char s = true ->
      represents (TRestrictedString T_IA5String) (GString s) (AString s)
  | re_numeric s : all_chars numeric_char s = true ->
      represents (TRestrictedString T_NumericString) (GString s) (AString s)
  | re_utf8 s : utf8_valid s = true ->
      represents (TRestrictedString T_UTF8String) (GString s) (AString s)
  | re_sequence comps exts vs fs : represents_all (comps ++ exts) vs fs ->
      represents (TSequence comps exts) (GStruct vs) (AStruct fs)
  | re_set comps exts vs fs : represents_all (comps ++ exts) vs fs ->
      represents (TSet comps exts) (GStruct vs) (AStruct fs)
  | re_sequence_of t o l : represents_each t (contents_of o) l ->
      represents (TSequenceOf t) (GSlice o) (AList l)
  | re_set_of t o l : represents_each t (contents_of o) l ->
      represents (TSetOf t) (GSlice o) (AList l)
  | re_tagged g t mode has v a : ~ raw_type asg t -> represents t v a -> represents (TTagged g t mode has) v a
  | re_constrained t c v a : represents t v a -> represents (TConstrained t c) v a
  | re_reference n t v a : defines asg n t -> represents t v a -> represents (TReference n) v a
  | re_generalized z : (forall t, ~ defines asg "GeneralizedTime" t) -> four_digit_year z = true ->
      represents (TReference "GeneralizedTime") (GTime z) (ATime z)
  | re_raw t a w : raw_type asg t -> encodes tagDefault asg t a w -> represents t (GRaw (Some w)) a
  | re_interface alts x n t U e v a : ~ tagged_choice asg alts -> In (Named n t) alts -> go_type U asg repr t e ->
      represents t v a -> represents (TChoice alts x) (GDyn e v) (AChoice n a)
  with represents_all : list (component Value DefinedValue) -> list gval -> list (option aval) -> Prop :=
  | ra_nil : represents_all [] [] []
  | ra_required n t d l v a vs fs : represents t v a -> represents_all l vs fs ->
      represents_all (CNamed (Named n t) false d :: l) (v :: vs) (Some a :: fs)
  | ra_present n t d l v a vs fs : is_zero v = false -> represents t v a -> represents_all l vs fs ->
      represents_all (CNamed (Named n t) true d :: l) (v :: vs) (Some a :: fs)
  | ra_absent n t d l v vs fs : is_zero v = true -> v <> GNil -> represents_all l vs fs ->
      represents_all (CNamed (Named n t) true d :: l) (v :: vs) (None :: fs)
  | ra_nothing l vs fs : represents_all l vs fs -> represents_all (CNil :: l) vs fs
  with represents_each : AType_ -> list gval -> list aval -> Prop :=
  | rx_nil t : represents_each t [] []
  | rx_cons t v a vs l : represents t v a -> represents_each t vs l -> represents_each t (v :: vs) (a :: l).
End Represents.

(** * The types that keep their encoding *)

Section Fragment.
  Context (asg : list Assignment_).

  (** An INTEGER, perhaps by name. *)
  Inductive integer_type : AType_ -> Prop :=
  | it_here t l : strip t = TInteger l -> integer_type t
  | it_reference t n t' : strip t = TReference n -> defines asg n t' -> integer_type t' -> integer_type t.

  (** GeneralizedTime, perhaps by a name of its own. *)
  Inductive generalized_time : string -> Prop :=
  | gn_here : (forall t, ~ defines asg "GeneralizedTime" t) -> generalized_time "GeneralizedTime"
  | gn_reference n t m : defines asg n t -> tags_of t = [] -> strip t = TReference m ->
      generalized_time m -> generalized_time n.

  (** [good] is a set of names of types. *)
  Context (good : string -> Prop).

  (** Untagged types whose Go type says everything. *)
  Inductive plain_type : AType_ -> Prop :=
  | pt_boolean : plain_type TBoolean
  | pt_integer l : plain_type (TInteger l)
  | pt_bits l : plain_type (TBitString l)
  | pt_octets : plain_type TOctetString
  | pt_oid : plain_type TObjectIdentifier
  | pt_enumerated x : plain_type (TEnumerated x)
  | pt_printable : plain_type (TRestrictedString T_PrintableString)
  | pt_constrained t c : plain_type t -> plain_type (TConstrained t c)
  | pt_sequence_of t : plain_type t -> plain_type (TSequenceOf t)
  | pt_sequence comps exts : plain_components (comps ++ exts) -> plain_type (TSequence comps exts)
  | pt_reference n : good n -> plain_type (TReference n)
  | pt_choice alts x : tagged_choice asg alts -> plain_type (TChoice alts x)
  (** Types of components, without their tags and constraints: the struct tag can say
      some more. *)
  with component_type : AType_ -> Prop :=
  | ct_plain t : plain_type t -> component_type t
  | ct_set comps exts : plain_components (comps ++ exts) -> component_type (TSet comps exts)
  | ct_set_of t : plain_type t -> component_type (TSetOf t)
  | ct_string z : In z [T_IA5String; T_UTF8String; T_NumericString] -> component_type (TRestrictedString z)
  | ct_time n : generalized_time n -> component_type (TReference n)
  (** At most one tag, not UNIVERSAL; defaults are numbers. *)
  with plain_components : list (component Value DefinedValue) -> Prop :=
  | pc_nil : plain_components []
  | pc_named n t o d l : ascii_name n -> component_type (strip t) -> expressible t d ->
      d = None \/ (o = false /\ (exists k, d = Some (VNumber k)) /\ integer_type t) ->
      plain_components l -> plain_components (CNamed (Named n t) o d :: l)
  | pc_nothing l : plain_components l -> plain_components (CNil :: l).

  (** What a name may be defined as. *)
  Definition named_type (t : AType_) : Prop :=
    plain_type t \/ (tags_of t = [] /\ exists u, strip t = TSetOf u /\ plain_type u).
End Fragment.

(** Every name of the set is that of a type of the fragment, which refers to names of
    the set only. *)
Definition wire_names (asg : list Assignment_) (good : string -> Prop) : Prop :=
  forall n, good n -> ascii_type_name n /\ ~ time_name n /\ exists t, defines asg n t /\ named_type asg good t.

(** * Which values can be sent *)

(** The values of a Go type of the file [f]; the length of a bit string is an int. *)
Section ValueOf.
  Context (f : gofile).

  Inductive value_of : goexpr -> gval -> Prop :=
  | vo_bool b : value_of (EIdent "bool") (GBool b)
  | vo_int z : int64 z -> value_of (EIdent "int64") (GInt z)
  | vo_big o : value_of (EStar (EIdent "big.Int")) (GBig o)
  | vo_string s : value_of (EIdent "string") (GString s)
  | vo_time t : value_of (EIdent "time.Time") (GTime t)
  | vo_bits o n : Forall (fun b => 0 <= b < 256) (contents_of o) -> int64 n -> value_of (EIdent "asn1.BitString") (GBits o n)
  | vo_enum z : int64 z -> value_of (EIdent "asn1.Enumerated") (GInt z)
  | vo_oid o : Forall int64 (contents_of o) -> value_of (EIdent "asn1.ObjectIdentifier") (GOid o)
  | vo_bytes o : Forall (fun b => 0 <= b < 256) (contents_of o) -> value_of (EArray (EIdent "byte")) (GBytes o)
  | vo_slice e o : e <> EIdent "byte" -> values_of e (contents_of o) -> value_of (EArray e) (GSlice o)
  | vo_raw o : value_of (EIdent "asn1.RawValue") (GRaw o)
  | vo_nil : value_of EInterface GNil
  | vo_dynamic e v : e <> EInterface -> value_of e v -> value_of EInterface (GDyn e v)
  | vo_struct fs vs : fields_of fs vs -> value_of (EStruct fs) (GStruct vs)
  | vo_name s alias e v : In (TypeSpec s alias e) (file_specs f) -> value_of e v -> value_of (EIdent s) v
  with values_of : goexpr -> list gval -> Prop :=
  | vs_nil e : values_of e []
  | vs_cons e v vs : value_of e v -> values_of e vs -> values_of e (v :: vs)
  with fields_of : list gofield -> list gval -> Prop :=
  | fo_nil : fields_of [] []
  | fo_cons n e tag fs v vs : value_of e v -> fields_of fs vs -> fields_of (Field n e tag :: fs) (v :: vs).
End ValueOf.

Section Sendable.
  Context (tagDefault : Z) (asg : list Assignment_) (repr : string).

  (** Values that look like nothing in Go: FALSE, 0 in an int64, the empty string, the
      first second of the year 1, and structures of such values and absent components. *)
  Fixpoint blank (a : aval) : bool :=
    match a with
    | ABool b => negb b
    | AInt z => String.eqb repr "int64" && (z =? 0)
    | AEnum z => z =? 0
    | AString s => String.eqb s ""
    | ATime t => t =? 0
    | AStruct l => forallb (fun o => match o with Some a' => blank a' | None => true end) l
    | _ => false
    end.

  (** Types that do not contain themselves (other than through SEQUENCE OF and SET OF). *)
  Inductive founded : AType_ -> Prop :=
  | fd_boolean : founded TBoolean
  | fd_integer l : founded (TInteger l)
  | fd_bits l : founded (TBitString l)
  | fd_octets : founded TOctetString
  | fd_oid : founded TObjectIdentifier
  | fd_enumerated x : founded (TEnumerated x)
  | fd_string z : founded (TRestrictedString z)
  | fd_sequence_of t : founded (TSequenceOf t)
  | fd_set_of t : founded (TSetOf t)
  | fd_sequence comps exts : founded_all (comps ++ exts) -> founded (TSequence comps exts)
  | fd_set comps exts : founded_all (comps ++ exts) -> founded (TSet comps exts)
  | fd_tagged g t mode has : founded t -> founded (TTagged g t mode has)
  | fd_constrained t c : founded t -> founded (TConstrained t c)
  | fd_reference n t : defines asg n t -> founded t -> founded (TReference n)
  | fd_generalized : (forall t, ~ defines asg "GeneralizedTime" t) -> founded (TReference "GeneralizedTime")
  | fd_choice alts x : tagged_choice asg alts -> founded (TChoice alts x)
  with founded_all : list (component Value DefinedValue) -> Prop :=
  | fa_nil : founded_all []
  | fa_named n t o d l : founded t -> founded_all l -> founded_all (CNamed (Named n t) o d :: l)
  | fa_nothing l : founded_all l -> founded_all (CNil :: l).

  (** Values of a type that fit into Go's types and character sets, and in which no
      OPTIONAL component is present but blank.  For a CHOICE with tagged alternatives it
      is enough that there is an encoding. *)
  Inductive sendable : AType_ -> aval -> Prop :=
  | se_boolean b : sendable TBoolean (ABool b)
  | se_integer l z : repr = "big.Int" \/ int64 z -> sendable (TInteger l) (AInt z)
  | se_bits l o n : Forall (fun b => 0 <= b < 256) o -> int64 n -> sendable (TBitString l) (ABits o n)
  | se_octets o : Forall (fun b => 0 <= b < 256) o -> sendable TOctetString (AOctets o)
  | se_oid l : Forall int64 l -> oid_ok l = true -> sendable TObjectIdentifier (AOid l)
  | se_enumerated x z : int64 z -> sendable (TEnumerated x) (AEnum z)
  | se_printable s : all_chars printable_char s = true -> sendable (TRestrictedString T_PrintableString) (AString s)
  | se_ia5 s : all_chars ia5_char s = true -> sendable (TRestrictedString T_IA5String) (AString s)
  | se_numeric s : all_chars numeric_char s = true -> sendable (TRestrictedString T_NumericString) (AString s)
  | se_utf8 s : utf8_valid s = true -> sendable (TRestrictedString T_UTF8String) (AString s)
  | se_sequence comps exts fs : sendable_all (comps ++ exts) fs -> sendable (TSequence comps exts) (AStruct fs)
  | se_set comps exts fs : sendable_all (comps ++ exts) fs -> sendable (TSet comps exts) (AStruct fs)
  | se_sequence_of t l : sendable_each t l -> sendable (TSequenceOf t) (AList l)
  | se_set_of t l : sendable_each t l -> sendable (TSetOf t) (AList l)
  | se_tagged g t mode has a : ~ raw_type asg t -> sendable t a -> sendable (TTagged g t mode has) a
  | se_constrained t c a : sendable t a -> sendable (TConstrained t c) a
  | se_reference n t a : defines asg n t -> sendable t a -> sendable (TReference n) a
  | se_generalized z : (forall t, ~ defines asg "GeneralizedTime" t) -> four_digit_year z = true ->
      sendable (TReference "GeneralizedTime") (ATime z)
  | se_raw t a w : raw_type asg t -> encodes tagDefault asg t a w -> sendable t a
  with sendable_all : list (component Value DefinedValue) -> list (option aval) -> Prop :=
  | sa_nil : sendable_all [] []
  | sa_present n t o d l a fs : o = false \/ blank a = false -> sendable t a -> sendable_all l fs ->
      sendable_all (CNamed (Named n t) o d :: l) (Some a :: fs)
  | sa_absent n t d l fs : founded t -> sendable_all l fs ->
      sendable_all (CNamed (Named n t) true d :: l) (None :: fs)
  | sa_nothing l fs : sendable_all l fs -> sendable_all (CNil :: l) fs
  with sendable_each : AType_ -> list aval -> Prop :=
  | sx_nil t : sendable_each t []
  | sx_cons t a l : sendable t a -> sendable_each t l -> sendable_each t (a :: l).
End Sendable.
