(** Specification vocabulary for the code generator properties.  Nothing here uses
    the functions of [Codegen.v] except [goifyName] (the naming convention, which
    has its own properties C30). *)
From Coq Require Import ZArith String Ascii List Bool Relations SpecFloat.
From Verif Require Import GoBase Unicode Ast GoAst Tokens Codegen.
Import ListNotations.
Local Open Scope string_scope.
Local Open Scope Z_scope.

(** * Names in a generated file *)

(** Identifiers occurring in an expression. *)
Fixpoint expr_idents (e : goexpr) : list string :=
  match e with
  | ENilExpr | EInterface | EBasicLit _ => []
  | EIdent s => [s]
  | EStar x => expr_idents x
  | EArray x => expr_idents x
  | EStruct fs => flat_map (fun f => match f with Field _ t _ => expr_idents t end) fs
  | ECall f args => expr_idents f ++ flat_map expr_idents args
  end%list.

(** Identifiers in the type of a spec. *)
Definition spec_type_idents (s : gospec) : list string :=
  match s with
  | TypeSpec _ _ t => expr_idents t
  | ValueSpec _ t _ => expr_idents t
  | ImportSpec _ => []
  end.

(** Identifiers in the initialiser of a spec. *)
Definition spec_value_idents (s : gospec) : list string :=
  match s with
  | ValueSpec _ _ v => expr_idents v
  | _ => []
  end.

(** All specs of a file, in order. *)
Definition file_specs (f : gofile) : list gospec := flat_map gd_specs (gf_decls f).

(** Imported paths, in order. *)
Definition imports (f : gofile) : list string :=
  flat_map (fun s => match s with ImportSpec p => [p] | _ => [] end) (file_specs f).

(** Names of types / of variables declared at top level. *)
Definition declared_types (f : gofile) : list string :=
  flat_map (fun s => match s with TypeSpec n _ _ => [n] | _ => [] end) (file_specs f).
Definition declared_vars (f : gofile) : list string :=
  flat_map (fun s => match s with ValueSpec n _ _ => [n] | _ => [] end) (file_specs f).

(** The text before the first dot. *)
Fixpoint qualifier (s : string) : option string :=
  match s with
  | EmptyString => None
  | String c s' =>
      if Ascii.eqb c "." then Some EmptyString else option_map (String c) (qualifier s')
  end.

(** The last element of an import path. *)
Fixpoint last_elem (cur s : string) : string :=
  match s with
  | EmptyString => cur
  | String c s' =>
      if Ascii.eqb c "/" then last_elem EmptyString s' else last_elem (cur ++ String c "") s'
  end.
Definition package_name (path : string) : string := last_elem "" path.

(** Go's predeclared types that the generator uses. *)
Definition predeclared : list string := ["bool"; "int64"; "string"; "float64"; "byte"].

(** * ASN.1 types *)

(** The type under all tags and constraints. *)
Fixpoint strip (t : AType_) : AType_ :=
  match t with
  | TTagged _ t' _ _ => strip t'
  | TConstrained t' _ => strip t'
  | _ => t
  end.

(** The tags of a type written directly on it, outermost first. *)
Fixpoint tags_of (t : AType_) : list (Tag DefinedValue * option Z) :=
  match t with
  | TTagged tag t' tt_ has => (tag, if has then Some tt_ else None) :: tags_of t'
  | TConstrained t' _ => tags_of t'
  | _ => []
  end.

(** First type or value assignment with a name. *)
Inductive first_named (n : string) : list Assignment_ -> Assignment_ -> Prop :=
| fn_type t l : first_named n (AType n t :: l) (AType n t)
| fn_value t v l : first_named n (AValue n t v :: l) (AValue n t v)
| fn_skip_type m t l a : m <> n -> first_named n l a -> first_named n (AType m t :: l) a
| fn_skip_value m t v l a : m <> n -> first_named n l a -> first_named n (AValue m t v :: l) a
| fn_skip_nil l a : first_named n l a -> first_named n (ANil :: l) a.

(** [n] names a type in the module, defined as [t]. *)
Definition defines (asg : list Assignment_) (n : string) (t : AType_) : Prop :=
  first_named n asg (AType n t).

(** [leaf_of asg n m o]: following references from [n] through tags and constraints
    ends at the name [m], defined as [o] (or not defined). *)
Inductive leaf_of (asg : list Assignment_) : string -> string -> option AType_ -> Prop :=
| leaf_undefined n :
    (forall t, ~ defines asg n t) -> leaf_of asg n n None
| leaf_here n t :
    defines asg n t -> (forall m, strip t <> TReference m) -> leaf_of asg n n (Some t)
| leaf_step n t m l o :
    defines asg n t -> strip t = TReference m -> leaf_of asg m l o -> leaf_of asg n l o.

(** Reference [n] is defined as a (tagged, constrained) reference to [m]. *)
Definition refers (asg : list Assignment_) (n m : string) : Prop :=
  exists t, defines asg n t /\ strip t = TReference m.

(** Some type is defined in terms of nothing but itself. *)
Definition circular (asg : list Assignment_) : Prop :=
  exists n, clos_trans _ (refers asg) n n.

(** Is [n] one of the names of the useful time types? *)
Definition time_name (n : string) : Prop := n = "GeneralizedTime" \/ n = "UTCTime".

(** [stands_for asg n m t]: the reference [n] stands for the type [t], found under
    the name [m] after following references; GeneralizedTime is a built-in name
    (X.680 46.3: [UNIVERSAL 24] IMPLICIT VisibleString).  A nil type counts as
    absent; the parser never makes one. *)
Definition stands_for (asg : list Assignment_) (n m : string) (t : AType_) : Prop :=
  exists o, leaf_of asg n m o /\
    ((o = Some t /\ t <> TNil) \/
     ((o = None \/ o = Some TNil) /\ m = "GeneralizedTime" /\
      t = TTagged {| tag_Class := CLASS_UNIVERSAL; tag_ClassNumber := VNumber 24 |}
            (TRestrictedString T_VisibleString) 0 false)).

(** A CHOICE alternative that counts as tagged: a tag is written on it, or on the
    type its reference stands for; the two time types do not count. *)
Inductive tagged_alt (asg : list Assignment_) : AType_ -> Prop :=
| ta_tag g t z b : tagged_alt asg (TTagged g t z b)
| ta_constrained t c : tagged_alt asg t -> tagged_alt asg (TConstrained t c)
| ta_reference n m t :
    ~ time_name n -> stands_for asg n m t -> tagged_alt asg t -> tagged_alt asg (TReference n).

Definition tagged_choice (asg : list Assignment_) (alts : list (NamedType Value DefinedValue)) : Prop :=
  Exists (fun a => match a with Named _ t => tagged_alt asg t end) alts.

(** The Go type of an ASN.1 type, as the README and the comments describe it. *)
Section GoType.
  Context (U : unicode_tables) (asg : list Assignment_) (repr : string).

  Inductive go_type : AType_ -> goexpr -> Prop :=
  | gt_boolean : go_type TBoolean (EIdent "bool")
  | gt_int64 l : repr = "int64" -> go_type (TInteger l) (EIdent "int64")
  | gt_big l : repr = "big.Int" -> go_type (TInteger l) (EStar (EIdent "big.Int"))
  | gt_string : go_type TCharacterString (EIdent "string")
  | gt_restricted z : go_type (TRestrictedString z) (EIdent "string")
  | gt_real : go_type TReal (EIdent "float64")
  | gt_octets : go_type TOctetString (EArray (EIdent "byte"))
  | gt_bits l : go_type (TBitString l) (EIdent "asn1.BitString")
  | gt_enum x : go_type (TEnumerated x) (EIdent "asn1.Enumerated")
  | gt_oid : go_type TObjectIdentifier (EIdent "asn1.ObjectIdentifier")
  | gt_any s : go_type (TAny s) EInterface
  | gt_tagged g t z b e : go_type t e -> go_type (TTagged g t z b) e
  | gt_constrained t c e : go_type t e -> go_type (TConstrained t c) e
  | gt_sequence_of t e : go_type t e -> go_type (TSequenceOf t) (EArray e)
  | gt_set_of t e : go_type t e -> go_type (TSetOf t) (EArray e)
  | gt_sequence c x fs : go_fields (c ++ x)%list fs -> go_type (TSequence c x) (EStruct fs)
  | gt_set c x fs : go_fields (c ++ x)%list fs -> go_type (TSet c x) (EStruct fs)
  | gt_time n m t : stands_for asg n m t -> time_name m ->
      go_type (TReference n) (EIdent "time.Time")
  | gt_ref_bits n m t l : stands_for asg n m t -> ~ time_name m -> strip t = TBitString l ->
      go_type (TReference n) (EIdent "asn1.BitString")
  | gt_reference n m t : stands_for asg n m t -> ~ time_name m -> (forall l, strip t <> TBitString l) ->
      go_type (TReference n) (EIdent (goifyName U n))
  | gt_choice_raw alts x : tagged_choice asg alts -> go_type (TChoice alts x) (EIdent "asn1.RawValue")
  | gt_choice_one n t x e : ~ tagged_alt asg t -> go_type t e -> go_type (TChoice [Named n t] x) e
  | gt_choice alts x : ~ tagged_choice asg alts -> length alts <> 1%nat -> go_type (TChoice alts x) EInterface
  with go_fields : list (component Value DefinedValue) -> list gofield -> Prop :=
  | gfs_nil : go_fields [] []
  | gfs_cons n t o d l e tag fs : go_type t e -> go_fields l fs ->
      go_fields (CNamed (Named n t) o d :: l) (Field (goifyName U n) e tag :: fs)
  | gfs_absent l fs : go_fields l fs -> go_fields (CNil :: l) fs.
End GoType.

(** A SET or SET OF is met going down through tags, constraints, SEQUENCE OF and
    CHOICE with one untagged alternative. *)
Inductive reaches_set (asg : list Assignment_) : AType_ -> Prop :=
| rs_set c x : reaches_set asg (TSet c x)
| rs_set_of t : reaches_set asg (TSetOf t)
| rs_sequence_of t : reaches_set asg t -> reaches_set asg (TSequenceOf t)
| rs_tagged g t z b : reaches_set asg t -> reaches_set asg (TTagged g t z b)
| rs_constrained t c : reaches_set asg t -> reaches_set asg (TConstrained t c)
| rs_choice n t x : ~ tagged_alt asg t -> reaches_set asg t -> reaches_set asg (TChoice [Named n t] x).

(** Under tags and constraints, a SET or SET OF. *)
Definition is_set (t : AType_) : Prop :=
  (exists c x, strip t = TSet c x) \/ (exists t', strip t = TSetOf t').

(** * What the generator supports *)

(** The type under constraints only. *)
Fixpoint unconstrained (t : AType_) : AType_ :=
  match t with TConstrained t' _ => unconstrained t' | _ => t end.

Section Supported.
  Context (tagDefault : Z) (asg : list Assignment_) (repr : string).

  (** The reference [n] means something. *)
  Definition resolvable (n : string) : Prop := exists m t, stands_for asg n m t.

  (** The alternatives of a CHOICE up to the first tagged one must be resolvable. *)
  Inductive alts_ok : list (NamedType Value DefinedValue) -> Prop :=
  | ao_nil : alts_ok []
  | ao_tagged n t l : tagged_alt asg t -> alts_ok (Named n t :: l)
  | ao_cons n t l : ~ tagged_alt asg t ->
      (forall r, unconstrained t = TReference r -> time_name r \/ resolvable r) ->
      alts_ok l -> alts_ok (Named n t :: l).

  (** Tags of a component: a literal number, and not AUTOMATIC. *)
  Definition tags_ok (t : AType_) : Prop :=
    Forall (fun p => (exists k, tag_ClassNumber (fst p) = VNumber k) /\
                     match snd p with Some z => z | None => tagDefault end <> TAGS_AUTOMATIC) (tags_of t).

  Inductive supported : AType_ -> Prop :=
  | su_boolean : supported TBoolean
  | su_integer l : repr = "int64" \/ repr = "big.Int" -> supported (TInteger l)
  | su_string : supported TCharacterString
  | su_restricted z : supported (TRestrictedString z)
  | su_real : supported TReal
  | su_octets : supported TOctetString
  | su_bits l : supported (TBitString l)
  | su_enum x : supported (TEnumerated x)
  | su_oid : supported TObjectIdentifier
  | su_any s : supported (TAny s)
  | su_tagged g t z b : supported t -> supported (TTagged g t z b)
  | su_constrained t c : supported t -> supported (TConstrained t c)
  | su_sequence_of t : supported t -> supported (TSequenceOf t)
  | su_set_of t : supported t -> supported (TSetOf t)
  | su_sequence c x : comps_ok (c ++ x)%list -> supported (TSequence c x)
  | su_set c x : comps_ok (c ++ x)%list -> supported (TSet c x)
  | su_reference n : resolvable n -> supported (TReference n)
  | su_choice alts x : alts_ok alts ->
      (forall n t, alts = [Named n t] -> ~ tagged_alt asg t -> supported t) -> supported (TChoice alts x)
  with comps_ok : list (component Value DefinedValue) -> Prop :=
  | co_nil : comps_ok []
  | co_named n t o d l : supported t -> tags_ok t -> comps_ok l -> comps_ok (CNamed (Named n t) o d :: l)
  | co_absent l : comps_ok l -> comps_ok (CNil :: l).

  (** Named numbers given by reference must not name another module. *)
  Definition numbers_ok (t : AType_) : Prop :=
    forall l n d, strip t = TInteger l -> In n l -> nn_Value n = NDefined d -> dv_ModuleName d = "".

  (** Values that become variables. *)
  Definition is_literal (v : Value) : Prop :=
    match v with VNumber _ | VBoolean _ | VReal _ => True | _ => False end.

  Definition assignment_ok (a : Assignment_) : Prop :=
    match a with
    | ANil => True
    | AType _ t => supported t /\ numbers_ok t
    | AValue _ t v => is_literal v -> supported t
    end.
End Supported.

(** [visible asg t u]: the generator has to express [u] to express [t]: [u] is
    reached through tags, constraints, components, elements of SEQUENCE OF and SET
    OF, and the only alternative of a CHOICE if it is untagged. *)
Inductive visible (asg : list Assignment_) : AType_ -> AType_ -> Prop :=
| vi_here t : visible asg t t
| vi_tagged g t z b u : visible asg t u -> visible asg (TTagged g t z b) u
| vi_constrained t c u : visible asg t u -> visible asg (TConstrained t c) u
| vi_sequence_of t u : visible asg t u -> visible asg (TSequenceOf t) u
| vi_set_of t u : visible asg t u -> visible asg (TSetOf t) u
| vi_sequence c x n t o d u : In (CNamed (Named n t) o d) (c ++ x)%list -> visible asg t u ->
    visible asg (TSequence c x) u
| vi_set c x n t o d u : In (CNamed (Named n t) o d) (c ++ x)%list -> visible asg t u ->
    visible asg (TSet c x) u
| vi_choice n t x u : ~ tagged_alt asg t -> visible asg t u -> visible asg (TChoice [Named n t] x) u.

(** [t] is a SEQUENCE or SET with these components, extension additions included. *)
Definition has_components (t : AType_) (l : list (component Value DefinedValue)) : Prop :=
  exists c x, l = (c ++ x)%list /\ (t = TSequence c x \/ t = TSet c x).

(** Components of structured types, at any depth, against the generated struct:
    [Q] relates a component and its field. *)
Section Mirrors.
  Context (Q : component Value DefinedValue -> gofield -> Prop).

  (** Types without component lists of their own that show in the output. *)
  Definition opaque (t : AType_) : bool :=
    match t with
    | TSequence _ _ | TSet _ _ | TSequenceOf _ | TSetOf _ | TTagged _ _ _ _ | TConstrained _ _ => false
    | _ => true
    end.

  (** The components that are there; a nil component never comes from the parser. *)
  Definition present (l : list (component Value DefinedValue)) : list (component Value DefinedValue) :=
    filter (fun c => match c with CNil => false | _ => true end) l.

  Inductive mirrors : AType_ -> goexpr -> Prop :=
  | mir_sequence comps exts fs :
      Forall2 mirrors_field (present (comps ++ exts)) fs -> mirrors (TSequence comps exts) (EStruct fs)
  | mir_set comps exts fs :
      Forall2 mirrors_field (present (comps ++ exts)) fs -> mirrors (TSet comps exts) (EStruct fs)
  | mir_sequence_of t e : mirrors t e -> mirrors (TSequenceOf t) (EArray e)
  | mir_set_of t e : mirrors t e -> mirrors (TSetOf t) (EArray e)
  | mir_tagged g t z b e : mirrors t e -> mirrors (TTagged g t z b) e
  | mir_constrained t c e : mirrors t e -> mirrors (TConstrained t c) e
  | mir_opaque t e : opaque t = true -> mirrors t e
  with mirrors_field : component Value DefinedValue -> gofield -> Prop :=
  | mir_field n t o d f e name tag :
      f = Field name e tag -> mirrors t e -> Q (CNamed (Named n t) o d) f ->
      mirrors_field (CNamed (Named n t) o d) f.
End Mirrors.

(** * What a struct tag means: encoding/asn1 *)

(** fieldParameters of encoding/asn1/common.go (go1.16).  stringType and timeType
    hold the tag number, 0 if unset. *)
Record fieldParameters : Type := {
  fp_optional : bool;
  fp_explicit : bool;
  fp_application : bool;
  fp_private : bool;
  fp_defaultValue : option Z;
  fp_tag : option Z;
  fp_stringType : Z;
  fp_timeType : Z;
  fp_set : bool;
  fp_omitEmpty : bool
}.

Definition fp0 : fieldParameters := {|
  fp_optional := false; fp_explicit := false; fp_application := false; fp_private := false;
  fp_defaultValue := None; fp_tag := None; fp_stringType := 0; fp_timeType := 0;
  fp_set := false; fp_omitEmpty := false |}.

(** Decimal digits to a number. *)
Fixpoint dec_val (acc : Z) (s : string) : option Z :=
  match s with
  | EmptyString => Some acc
  | String c s' =>
      let b := byte_of_ascii c in
      if (48 <=? b) && (b <=? 57) then dec_val (10 * acc + (b - 48)) s' else None
  end.

(** A decimal integer literal with an optional sign. *)
Definition int_literal (s : string) : option Z :=
  match s with
  | EmptyString => None
  | String "-" s' => match s' with EmptyString => None | _ => option_map Z.opp (dec_val 0 s') end
  | String "+" s' => match s' with EmptyString => None | _ => dec_val 0 s' end
  | _ => dec_val 0 s
  end.

(** strconv.ParseInt(s, 10, 64). *)
Definition parse_int64 (s : string) : option Z :=
  match int_literal s with
  | Some n => if (- 2 ^ 63 <=? n) && (n <? 2 ^ 63) then Some n else None
  | None => None
  end.

(** [if ret.tag == nil { ret.tag = new(int) }] *)
Definition tag_or_zero (o : option Z) : option Z :=
  match o with None => Some 0 | _ => o end.

(** One part of parseFieldParameters of encoding/asn1/common.go. *)
Definition field_part (r : fieldParameters) (part : string) : fieldParameters :=
  if String.eqb part "optional" then
    {| fp_optional := true; fp_explicit := fp_explicit r; fp_application := fp_application r;
       fp_private := fp_private r; fp_defaultValue := fp_defaultValue r; fp_tag := fp_tag r;
       fp_stringType := fp_stringType r; fp_timeType := fp_timeType r; fp_set := fp_set r;
       fp_omitEmpty := fp_omitEmpty r |}
  else if String.eqb part "explicit" then
    {| fp_optional := fp_optional r; fp_explicit := true; fp_application := fp_application r;
       fp_private := fp_private r; fp_defaultValue := fp_defaultValue r;
       fp_tag := tag_or_zero (fp_tag r);
       fp_stringType := fp_stringType r; fp_timeType := fp_timeType r; fp_set := fp_set r;
       fp_omitEmpty := fp_omitEmpty r |}
  else if String.eqb part "generalized" || String.eqb part "utc" then
    {| fp_optional := fp_optional r; fp_explicit := fp_explicit r; fp_application := fp_application r;
       fp_private := fp_private r; fp_defaultValue := fp_defaultValue r; fp_tag := fp_tag r;
       fp_stringType := fp_stringType r;
       fp_timeType := (if String.eqb part "utc" then 23 else 24); fp_set := fp_set r;
       fp_omitEmpty := fp_omitEmpty r |}
  else if String.eqb part "ia5" || String.eqb part "printable" || String.eqb part "numeric"
          || String.eqb part "utf8" then
    {| fp_optional := fp_optional r; fp_explicit := fp_explicit r; fp_application := fp_application r;
       fp_private := fp_private r; fp_defaultValue := fp_defaultValue r; fp_tag := fp_tag r;
       fp_stringType := (if String.eqb part "ia5" then 22 else if String.eqb part "printable" then 19
                         else if String.eqb part "numeric" then 18 else 12);
       fp_timeType := fp_timeType r; fp_set := fp_set r;
       fp_omitEmpty := fp_omitEmpty r |}
  else if String.prefix "default:" part then
    match parse_int64 (String.substring 8 (String.length part) part) with
    | Some i =>
        {| fp_optional := fp_optional r; fp_explicit := fp_explicit r; fp_application := fp_application r;
           fp_private := fp_private r; fp_defaultValue := Some i; fp_tag := fp_tag r;
           fp_stringType := fp_stringType r; fp_timeType := fp_timeType r; fp_set := fp_set r;
           fp_omitEmpty := fp_omitEmpty r |}
    | None => r
    end
  else if String.prefix "tag:" part then
    match parse_int64 (String.substring 4 (String.length part) part) with
    | Some i =>
        {| fp_optional := fp_optional r; fp_explicit := fp_explicit r; fp_application := fp_application r;
           fp_private := fp_private r; fp_defaultValue := fp_defaultValue r; fp_tag := Some i;
           fp_stringType := fp_stringType r; fp_timeType := fp_timeType r; fp_set := fp_set r;
           fp_omitEmpty := fp_omitEmpty r |}
    | None => r
    end
  else if String.eqb part "set" then
    {| fp_optional := fp_optional r; fp_explicit := fp_explicit r; fp_application := fp_application r;
       fp_private := fp_private r; fp_defaultValue := fp_defaultValue r; fp_tag := fp_tag r;
       fp_stringType := fp_stringType r; fp_timeType := fp_timeType r; fp_set := true;
       fp_omitEmpty := fp_omitEmpty r |}
  else if String.eqb part "application" then
    {| fp_optional := fp_optional r; fp_explicit := fp_explicit r; fp_application := true;
       fp_private := fp_private r; fp_defaultValue := fp_defaultValue r;
       fp_tag := tag_or_zero (fp_tag r);
       fp_stringType := fp_stringType r; fp_timeType := fp_timeType r; fp_set := fp_set r;
       fp_omitEmpty := fp_omitEmpty r |}
  else if String.eqb part "private" then
    {| fp_optional := fp_optional r; fp_explicit := fp_explicit r; fp_application := fp_application r;
       fp_private := true; fp_defaultValue := fp_defaultValue r;
       fp_tag := tag_or_zero (fp_tag r);
       fp_stringType := fp_stringType r; fp_timeType := fp_timeType r; fp_set := fp_set r;
       fp_omitEmpty := fp_omitEmpty r |}
  else if String.eqb part "omitempty" then
    {| fp_optional := fp_optional r; fp_explicit := fp_explicit r; fp_application := fp_application r;
       fp_private := fp_private r; fp_defaultValue := fp_defaultValue r; fp_tag := fp_tag r;
       fp_stringType := fp_stringType r; fp_timeType := fp_timeType r; fp_set := fp_set r;
       fp_omitEmpty := true |}
  else r.

(** The parts of a text separated by commas. *)
Fixpoint comma_parts (s : string) : list string :=
  match s with
  | EmptyString => [EmptyString]
  | String c s' =>
      if Ascii.eqb c "," then EmptyString :: comma_parts s'
      else
        match comma_parts s' with
        | [] => [String c EmptyString]
        | w :: ws => String c w :: ws
        end
  end.

(** parseFieldParameters of encoding/asn1/common.go. *)
Definition parseFieldParameters (s : string) : fieldParameters :=
  fold_left field_part (comma_parts s) fp0.

(** The Go literal of a struct tag with key asn1. *)
Definition tag_source (body : string) : string :=
  "`asn1:" ++ String """" (body ++ String """" "`").

(** The parameters encoding/asn1 uses for a field with a given tag literal. *)
Inductive tag_params : option string -> fieldParameters -> Prop :=
| tp_none : tag_params None (parseFieldParameters "")
| tp_some body : tag_params (Some (tag_source body)) (parseFieldParameters body).

(** The tag class encoding/asn1 uses for a field with a tag (marshal.go, asn1.go). *)
Definition fp_class (fp : fieldParameters) : Z :=
  if fp_application fp then CLASS_APPLICATION
  else if fp_private fp then CLASS_PRIVATE
  else CLASS_CONTEXT_SPECIFIC.

(** The mode of a tag: its own keyword if it has one, else the module's default. *)
Definition effective (tagDefault : Z) (mode : option Z) : Z :=
  match mode with Some z => z | None => tagDefault end.

Definition int64 (z : Z) : Prop := - 2 ^ 63 <= z < 2 ^ 63.

(** The encoding parameters [fp] say what a component of type [t], marked OPTIONAL
    if [o], with default [d], declares. *)
Record component_params (tagDefault : Z) (asg : list Assignment_) (t : AType_) (o : bool)
  (d : option Value) (fp : fieldParameters) : Prop := {
  cp_optional : fp_optional fp = true <-> o = true \/ d <> None;
  cp_default : forall k, fp_defaultValue fp = Some k <-> d = Some (VNumber k);
  cp_untagged : tags_of t = [] -> fp_tag fp = None /\ fp_explicit fp = false;
  cp_tagged : forall tag mode, tags_of t = [(tag, mode)] ->
    (exists k, tag_ClassNumber tag = VNumber k /\ fp_tag fp = Some k) /\
    fp_class fp = tag_Class tag /\
    (fp_explicit fp = true <-> effective tagDefault mode = TAGS_EXPLICIT);
  cp_set : fp_set fp = true <-> is_set t;
  cp_string : fp_stringType fp =
    match strip t with
    | TRestrictedString z =>
        if z =? T_IA5String then 22 else if z =? T_UTF8String then 12
        else if z =? T_NumericString then 18 else 0
    | _ => 0
    end;
  cp_time : forall n m lt, strip t = TReference n -> leaf_of asg n m lt ->
    fp_timeType fp = if String.eqb m "GeneralizedTime" then 24 else if String.eqb m "UTCTime" then 23 else 0;
  cp_no_time : (forall n, strip t <> TReference n) -> fp_timeType fp = 0;
  cp_omitempty : fp_omitEmpty fp = false
}.

(** What the struct tag can say: at most one tag, of a class encoding/asn1 knows
    for fields, with numbers that fit (Go's int is 64 bits wide). *)
Definition expressible (t : AType_) (d : option Value) : Prop :=
  (length (tags_of t) <= 1)%nat /\
  Forall (fun p => In (tag_Class (fst p)) [CLASS_CONTEXT_SPECIFIC; CLASS_APPLICATION; CLASS_PRIVATE] /\
                   forall k, tag_ClassNumber (fst p) = VNumber k -> int64 k) (tags_of t) /\
  (forall k, d = Some (VNumber k) -> int64 k).

(** * Names *)

Definition ascii_letter (c : ascii) : bool := ascii_upper (byte_of_ascii c) || ascii_lower (byte_of_ascii c).
Definition ascii_name_char (c : ascii) : bool :=
  ascii_letter c || ascii_digit (byte_of_ascii c) || Ascii.eqb c "-".

Fixpoint all_chars (p : ascii -> bool) (s : string) : bool :=
  match s with EmptyString => true | String c s' => p c && all_chars p s' end.

(** ASN.1 names spelled in ASCII: a letter, then letters, digits and hyphens. *)
Definition ascii_name (s : string) : Prop :=
  match s with String c s' => ascii_letter c = true /\ all_chars ascii_name_char s' = true | _ => False end.
(** Type and module references start upper case, identifiers and value references
    lower case (X.680 11.2, 11.3). *)
Definition ascii_type_name (s : string) : Prop :=
  ascii_name s /\ match s with String c _ => ascii_upper (byte_of_ascii c) = true | _ => False end.
Definition ascii_value_name (s : string) : Prop :=
  ascii_name s /\ match s with String c _ => ascii_lower (byte_of_ascii c) = true | _ => False end.

(** Exported Go identifiers (ASCII): an upper case letter, then letters, digits and
    underscores (Go specification, Identifiers and Exported identifiers). *)
Definition exported_identifier (s : string) : Prop :=
  match s with
  | String c s' => ascii_upper (byte_of_ascii c) = true /\
      all_chars (fun c => ascii_letter c || ascii_digit (byte_of_ascii c) || Ascii.eqb c "_") s' = true
  | _ => False
  end.

(** The same with letters above ASCII, on the code points of a Go string. *)
Definition exported_runes (U : unicode_tables) (l : list Z) : Prop :=
  match l with
  | r :: l' => is_upper U r = true /\ Forall (fun r => is_letter U r = true \/ is_digit U r = true \/ r = 95) l'
  | [] => False
  end.

(** * Whole files *)

Definition is_import (d : godecl) : Prop := gd_tok d = TokImport /\ exists p, gd_specs d = [ImportSpec p].

(** [d] declares the Go type [name] with type expression [e], directly or through a
    type called [name]SET. *)
Definition declares_type (name : string) (e : goexpr) (d : godecl) : Prop :=
  gd_tok d = TokType /\
  ((exists alias, gd_specs d = [TypeSpec name alias e]) \/
   gd_specs d = [TypeSpec (name ++ "SET") false e; TypeSpec name true (EIdent (name ++ "SET"))]).

(** The declarations of [f] are its imports followed by one group per assignment,
    in order.  The group of a type assignment starts with the declaration of its
    type, which satisfies [P]; no other declaration declares a type. *)
Definition generated (U : unicode_tables) (asg : list Assignment_) (f : gofile)
  (P : string -> AType_ -> godecl -> goexpr -> Prop) : Prop :=
  exists imps groups,
    gf_decls f = (imps ++ concat groups)%list /\
    Forall is_import imps /\
    Forall2 (fun a g =>
      match a with
      | AType n t => exists d rest e, g = d :: rest /\ declares_type (goifyName U n) e d /\
          Forall (fun d' => gd_tok d' = TokVar) rest /\ P n t d e
      | _ => Forall (fun d' => gd_tok d' = TokVar) g
      end) asg groups.

(** The integer a Go decimal literal with an optional sign stands for.  More than one
    digit after a leading 0 would be an octal literal (The Go Programming Language
    Specification, "Integer literals"). *)
Definition leading_zero (s : string) : bool :=
  match s with String "0" (String _ _) => true | _ => false end.
Definition unsigned (s : string) : string :=
  match s with String "-" s' | String "+" s' => s' | _ => s end.
Definition go_int (s : string) : option Z :=
  if leading_zero (unsigned s) then None else int_literal s.

(** [e] is a Go expression for the integer [z]. *)
Definition denotes_int (repr : string) (z : Z) (e : goexpr) : Prop :=
  exists s, go_int s = Some z /\
    ((repr = "big.Int" /\ e = ECall (EIdent "big.NewInt") [EBasicLit s]) \/
     (repr <> "big.Int" /\ e = EBasicLit s)).

(** [e] is the Go expression for a literal value; [real] says how a REAL is written. *)
Inductive value_expr (repr : string) (real : spec_float -> string -> Prop) : Value -> goexpr -> Prop :=
| ve_number z e : denotes_int repr z e -> value_expr repr real (VNumber z) e
| ve_true : value_expr repr real (VBoolean true) (EBasicLit "true")
| ve_false : value_expr repr real (VBoolean false) (EBasicLit "false")
| ve_real x s : real x s -> value_expr repr real (VReal x) (EBasicLit s).

(** The variable for a named number [x] of the INTEGER type [n]. *)
Definition number_spec (U : unicode_tables) (repr n : string) (x : NamedNumber) (sp : gospec) : Prop :=
  exists e, sp = ValueSpec (goifyName U n ++ "Val" ++ goifyName U (nn_Name x)) (EIdent (goifyName U n)) e /\
    match nn_Value x with
    | NNumber z => denotes_int repr z e
    | NDefined d => dv_ModuleName d = "" /\ e = EIdent ("Val" ++ goifyName U (dv_ValueName d))
    | NNil => e = ENilExpr
    end.

(** The variables declared in [f]: one declaration for each value assignment with a
    literal value, and one for the named numbers of each INTEGER type. *)
Definition variables (U : unicode_tables) (asg : list Assignment_) (repr : string)
  (real : spec_float -> string -> Prop) (f : gofile) : Prop :=
  exists groups,
    filter (fun d => match gd_tok d with TokVar => true | _ => false end) (gf_decls f) = concat groups /\
    Forall2 (fun a g =>
      match a with
      | AType n t =>
          (exists l specs, strip t = TInteger l /\ l <> [] /\ Forall2 (number_spec U repr n) l specs /\
             g = [{| gd_tok := TokVar; gd_specs := specs |}]) \/
          ((forall l, strip t = TInteger l -> l = []) /\ g = [])
      | AValue n t v =>
          (exists te e, value_expr repr real v e /\ go_type U asg repr t te /\
             g = [{| gd_tok := TokVar; gd_specs := [ValueSpec ("Val" ++ goifyName U n) te e] |}]) \/
          (~ is_literal v /\ g = [])
      | ANil => g = []
      end) asg groups.

(** All names declared at top level, in order. *)
Definition top_names (f : gofile) : list string :=
  flat_map (fun s => match s with TypeSpec n _ _ => [n] | ValueSpec n _ _ => [n] | ImportSpec _ => [] end)
    (file_specs f).

(** Somewhere in [s], "Val" stands before a capital letter or at the end. *)
Definition capital_or_end (s : string) : Prop :=
  match s with EmptyString => True | String c _ => ascii_upper (byte_of_ascii c) = true end.
Definition val_inside (s : string) : Prop := exists a b, s = a ++ "Val" ++ b /\ capital_or_end b.
Definition ends_with (p s : string) : Prop := exists a, s = a ++ p.

(** The integer representation a generator works with; "int64" by default (README). *)
Definition integer_repr (p : GenParams) : string :=
  if String.eqb (gp_IntegerRepr p) "" then "int64" else gp_IntegerRepr p.

(** Sign, digits, optional fraction, optional exponent: floating-point literals of
    the Go specification, with a sign. *)
Fixpoint digits_then (seen : bool) (k : string -> bool) (s : string) : bool :=
  match s with
  | EmptyString => seen && k EmptyString
  | String c s' =>
      if ascii_digit (byte_of_ascii c) then digits_then true k s' else seen && k s
  end.
Definition at_end (s : string) : bool := match s with EmptyString => true | _ => false end.
Definition opt_sign (k : string -> bool) (s : string) : bool :=
  match s with
  | String c s' => if Ascii.eqb c "+" || Ascii.eqb c "-" then k s' else k s
  | EmptyString => k s
  end.
Definition exponent_part (s : string) : bool :=
  match s with
  | String c s' => if Ascii.eqb c "e" || Ascii.eqb c "E" then opt_sign (digits_then false at_end) s' else at_end s
  | EmptyString => true
  end.
Definition fraction_part (s : string) : bool :=
  match s with
  | String c s' => if Ascii.eqb c "." then digits_then false exponent_part s' else exponent_part s
  | EmptyString => true
  end.
Definition go_number (s : string) : bool := opt_sign (digits_then false fraction_part) s.

Definition is_finite (x : spec_float) : Prop :=
  match x with S754_zero _ | S754_finite _ _ _ => True | _ => False end.
