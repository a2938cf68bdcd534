(** Model of codegen.go, function by function.

    moduleContext's mutable fields (errors, requiredModules) are threaded as
    [gstate]; the pointer [isSet] is threaded as a boolean.  Error texts are
    represented by the inductive type [gen_error]. *)
From Coq Require Import ZArith String Ascii List Bool SpecFloat.
From Verif Require Import GoBase Utf8 Unicode Tokens Ast GoAst.
Import ListNotations.
Local Open Scope string_scope.
Local Open Scope Z_scope.

(** The errors Generate can report (codegen.go:101, 235, 285, 304, 383, 391, 442,
    448, 520). *)
Inductive gen_error : Type :=
| ErrAutomaticModule
| ErrIntRepr (repr : string)
| ErrUnsupportedType (t : AType_)
| ErrForeignValue (module value : string)
| ErrComponentsOf
| ErrAutomaticTag (field : string)
| ErrTagNumber (v : Value)
| ErrUnresolved (ref : string).

(** GenParams, codegen.go:19-28 (Type is always GEN_DECLARATIONS). *)
Record GenParams : Type := {
  gp_Package : string;
  gp_IntegerRepr : string
}.

(** codegen.go:43 *)
Definition IntegerReprInt64 : string := "int64".
(** codegen.go:44 *)
Definition IntegerReprBigInt : string := "big.Int".
(** ast.go:725 *)
Definition GeneralizedTimeName : string := "GeneralizedTime".
(** ast.go:726 *)
Definition UTCTimeName : string := "UTCTime".

(** NewCodeGenerator, codegen.go:48-58 *)
Definition NewCodeGenerator (p : GenParams) : GenParams :=
  if String.eqb (gp_IntegerRepr p) "" then
    {| gp_Package := gp_Package p; gp_IntegerRepr := IntegerReprInt64 |}
  else p.

(** strings.isSeparator *)
Definition isSeparator (U : unicode_tables) (r : Z) : bool :=
  if r <? 128 then
    negb (ascii_digit r || ascii_lower r || ascii_upper r || (r =? 95))
  else if is_letter U r || is_digit U r then false
  else is_space U r.

(** The mapping of strings.Title on a sequence of runes. *)
Fixpoint title_runes (U : unicode_tables) (prev : Z) (l : list Z) : list Z :=
  match l with
  | [] => []
  | r :: l' => (if isSeparator U prev then to_title U r else r) :: title_runes U r l'
  end.

(** strings.Title: decode, map, encode. *)
Definition str_title (U : unicode_tables) (s : string) : string :=
  string_of_bytes (encode_all (title_runes U 32 (map fst (decode_all (bytes_of_string s))))).

(** strings.Replace(name, "-", "_", -1) *)
Fixpoint replace_hyphen (s : string) : string :=
  match s with
  | EmptyString => EmptyString
  | String c s' => String (if Ascii.eqb c "-" then "_"%char else c) (replace_hyphen s')
  end.

(** goifyName, codegen.go:134-136 *)
Definition goifyName (U : unicode_tables) (name : string) : string :=
  str_title U (replace_hyphen name).

(** Mutable part of moduleContext, codegen.go:65-76. *)
Record gstate : Type := {
  gs_errors : list gen_error;
  gs_modules : list string
}.

(** appendError, codegen.go:78-80 *)
Definition appendError (e : gen_error) (s : gstate) : gstate :=
  {| gs_errors := app (gs_errors s) [e]; gs_modules := gs_modules s |}.

(** requireModule, codegen.go:82-89 *)
Definition requireModule (m : string) (s : gstate) : gstate :=
  if existsb (String.eqb m) (gs_modules s) then s
  else {| gs_errors := gs_errors s; gs_modules := app (gs_modules s) [m] |}.

(** removeWrapperTypes, codegen.go:533-544 *)
Fixpoint removeWrapperTypes {P R} (t : atype P R) : atype P R :=
  match t with
  | TTagged _ t' _ _ => removeWrapperTypes t'
  | TConstrained t' _ => removeWrapperTypes t'
  | _ => t
  end.

(** USEFUL_TYPES, ast.go:733-737, and lookupUsefulType, codegen.go:525-531 *)
Definition lookupUsefulType (name : string) : option AType_ :=
  if String.eqb name GeneralizedTimeName then
    Some (TTagged {| tag_Class := CLASS_UNIVERSAL; tag_ClassNumber := VNumber 24 |}
            (TRestrictedString T_VisibleString) 0 false)
  else None.

(** strings.Join(l, ",") *)
Fixpoint join_comma (l : list string) : string :=
  match l with
  | [] => ""
  | [s] => s
  | s :: l' => s ++ "," ++ join_comma l'
  end.

(** fmt.Sprint of a Real that is not finite (codegen.go:205); [fmt_finite] does the
    finite ones. *)
Definition sprint_real (fmt_finite : spec_float -> string) (f : spec_float) : string :=
  match f with
  | S754_infinity false => "+Inf"
  | S754_infinity true => "-Inf"
  | S754_nan => "NaN"
  | _ => fmt_finite f
  end.

(** What Generate does: return an error and write nothing, or print the file
    (codegen.go:98-132). *)
Inductive gen_result : Type :=
| GenErr (l : list gen_error)
| GenOk (f : gofile).

Section Codegen.
  Context (U : unicode_tables).
  (** fmt.Sprint of a finite Real (codegen.go:205). *)
  Context (fmt_finite : spec_float -> string).
  (** The immutable part of moduleContext (codegen.go:65-76); extensibilityImplied
      is never read. *)
  Context (params : GenParams) (tagDefault : Z) (assignments : list Assignment_).

  (** unwrapToLeafType, codegen.go:547-557: TypeReference and Type of the
      resulting TypeAssignment ([TNil] is a nil Type).  Recursive in Go; [fuel]
      bounds the recursion. *)
  Fixpoint unwrapToLeafType (fuel : nat) (reference : string) : res (string * AType_) :=
    match fuel with
    | O => OutOfFuel
    | S f =>
        match al_GetType assignments reference with
        | Some (name, t) =>
            match removeWrapperTypes t with
            | TReference tt_ => unwrapToLeafType f tt_
            | _ => Ok (name, t)
            end
        | None => Ok (reference, TNil)
        end
    end.

  (** resolveTypeReference, codegen.go:513-523 *)
  Definition resolveTypeReference (fuel : nat) (reference : string) (s : gstate)
    : res (option (string * AType_) * gstate) :=
    do (name, t) <- unwrapToLeafType fuel reference;
    match t with
    | TNil =>
        match lookupUsefulType name with
        | Some tt_ => Ok (Some (name, tt_), s)
        | None => Ok (None, appendError (ErrUnresolved reference) s)
        end
    | _ => Ok (Some (name, t), s)
    end.

  (** generateSpecialCase, codegen.go:493-503; [None] is nil. *)
  Definition generateSpecialCase (name : string) (t : AType_) (s : gstate)
    : option goexpr * gstate :=
    if String.eqb name GeneralizedTimeName || String.eqb name UTCTimeName then
      (Some (EIdent "time.Time"), requireModule "time" s)
    else
      match removeWrapperTypes t with
      | TBitString _ => (Some (EIdent "asn1.BitString"), requireModule "encoding/asn1" s)
      | _ => (None, s)
      end.

  (** taggedChoiceTypeAlternative, codegen.go:356-374; its parameter name is not
      used.  [hops] bounds the recursion through references, [fuel] the length of
      a chain of references. *)
  Fixpoint taggedChoiceTypeAlternative (hops fuel : nat) : AType_ -> gstate -> res (bool * gstate) :=
    fix tagged (t : AType_) (s : gstate) : res (bool * gstate) :=
      match t with
      | TTagged _ _ _ _ => Ok (true, s)
      | TReference name =>
          if String.eqb name GeneralizedTimeName || String.eqb name UTCTimeName then Ok (false, s)
          else
            do (o, s1) <- resolveTypeReference fuel name s;
            match o with
            | None => Ok (false, s1)
            | Some (_, t') =>
                match hops with
                | O => OutOfFuel
                | S h => taggedChoiceTypeAlternative h fuel t' s1
                end
            end
      | TConstrained t' _ => tagged t' s
      | _ => Ok (false, s)
      end.

  (** hasTaggedAlternatives, codegen.go:347-354 *)
  Fixpoint hasTaggedAlternatives (fuel : nat) (l : list (NamedType Value DefinedValue))
    (s : gstate) : res (bool * gstate) :=
    match l with
    | [] => Ok (false, s)
    | Named _ t :: l' =>
        do (b, s1) <- taggedChoiceTypeAlternative fuel fuel t s;
        if b : bool then Ok (true, s1) else hasTaggedAlternatives fuel l' s1
    end.

  (** lookupValue, codegen.go:506-508 *)
  Definition lookupValue (v : Value) : Value := v.

  (** One iteration of the case TaggedType of the loop of asn1TagFromType,
      codegen.go:427-449. *)
  Definition tagComponents (field : string) (tag : Tag DefinedValue) (tt_ : Z) (hastt : bool)
    (components : list string) (s : gstate) : list string * gstate :=
    let components :=
      if tag_Class tag =? CLASS_APPLICATION then app components ["application"]
      else if tag_Class tag =? CLASS_PRIVATE then app components ["private"]
      else components in
    let tagType := if hastt then tt_ else tagDefault in
    let '(components, s) :=
      if tagType =? TAGS_EXPLICIT then (app components ["explicit"], s)
      else if tagType =? TAGS_IMPLICIT then (components, s)
      else if tagType =? TAGS_AUTOMATIC then (components, appendError (ErrAutomaticTag field) s)
      else (components, s) in
    match lookupValue (tag_ClassNumber tag) with
    | VNumber n => (app components [("tag:" ++ sprint_int n)%string], s)
    | v => (components, appendError (ErrTagNumber v) s)
    end.

  (** The loop labelled unwrap of asn1TagFromType, codegen.go:423-456: the
      components collected and the type reached. *)
  Fixpoint unwrapTags (field : string) (t : AType_) (components : list string) (s : gstate)
    : list string * AType_ * gstate :=
    match t with
    | TTagged tag t' tt_ hastt =>
        let '(components, s) := tagComponents field tag tt_ hastt components s in
        unwrapTags field t' components s
    | TConstrained t' _ => unwrapTags field t' components s
    | _ => (components, t, s)
    end.

  (** The optional and default components, codegen.go:410-421. *)
  Definition defaultComponents (optional : bool) (dflt : option Value) : list string :=
    let components := if optional then ["optional"] else [] in
    match dflt with
    | None => components
    | Some v =>
        let components :=
          match v with
          | VNumber n => app components [("default:" ++ sprint_int n)%string]
          | _ => components
          end in
        if optional then components else app components ["optional"]
    end.

  (** The type-specific components, codegen.go:458-482. *)
  Definition typeComponents (fuel : nat) (t : AType_) : res (list string) :=
    match t with
    | TRestrictedString lt =>
        Ok (if lt =? T_IA5String then ["ia5"]
            else if lt =? T_UTF8String then ["utf8"]
            else if lt =? T_NumericString then ["numeric"]
            else [])
    | TSet _ _ => Ok ["set"]
    | TSetOf _ => Ok ["set"]
    | TReference name =>
        do (leaf, _) <- unwrapToLeafType fuel name;
        Ok (if String.eqb leaf GeneralizedTimeName then ["generalized"]
            else if String.eqb leaf UTCTimeName then ["utc"]
            else [])
    | _ => Ok []
    end.

  (** The literal of a tag, codegen.go:483-490; [None] is nil. *)
  Definition tagLiteral (components : list string) : option string :=
    match components with
    | [] => None
    | _ => Some ("`asn1:" ++ String """" (join_comma components ++ String """" "`"))%string
    end.

  (** asn1TagFromType, codegen.go:408-491. *)
  Definition asn1TagFromType (fuel : nat) (field : string) (t : AType_) (optional : bool)
    (dflt : option Value) (s : gstate) : res (option string * gstate) :=
    let '(components, leaf, s) :=
      unwrapTags field t (defaultComponents optional dflt) s in
    do extra <- typeComponents fuel leaf;
    Ok (tagLiteral (app components extra), s).

  (** generateTypeBody, codegen.go:222-288, with generateChoiceType (337-345),
      structFromComponents (376-397, one loop [fields] for its two loops) and
      generateStructField (399-406).  Results: expression, *isSet, state. *)
  Fixpoint generateTypeBody (fuel : nat) (t : AType_) (isSet : bool) (s : gstate)
    : res (goexpr * bool * gstate) :=
    let fields :=
      fix fields (l : list (component Value DefinedValue)) (s : gstate)
        : res (list gofield * gstate) :=
        match l with
        | [] => Ok ([], s)
        | CNamed (Named name t') optional dflt :: l' =>
            do (e, _, s1) <- generateTypeBody fuel t' false s;
            do (tag, s2) <- asn1TagFromType fuel name t' optional dflt s1;
            do (fs, s3) <- fields l' s2;
            Ok (Field (goifyName U name) e tag :: fs, s3)
        | CComponentsOf _ :: l' => fields l' (appendError ErrComponentsOf s)
        | CNil :: l' => fields l' s
        end in
    match t with
    | TBoolean => Ok (EIdent "bool", isSet, s)
    | TInteger _ =>
        if String.eqb (gp_IntegerRepr params) IntegerReprInt64 then Ok (EIdent "int64", isSet, s)
        else if String.eqb (gp_IntegerRepr params) IntegerReprBigInt then
          Ok (EStar (EIdent "big.Int"), isSet, requireModule "math/big" s)
        else Ok (EIdent "int64", isSet, appendError (ErrIntRepr (gp_IntegerRepr params)) s)
    | TCharacterString => Ok (EIdent "string", isSet, s)
    | TReal => Ok (EIdent "float64", isSet, s)
    | TOctetString => Ok (EArray (EIdent "byte"), isSet, s)
    | TSequence comps exts =>
        do (fs1, s1) <- fields comps s;
        do (fs2, s2) <- fields exts s1;
        Ok (EStruct (app fs1 fs2), isSet, s2)
    | TSet comps exts =>
        do (fs1, s1) <- fields comps s;
        do (fs2, s2) <- fields exts s1;
        Ok (EStruct (app fs1 fs2), true, s2)
    | TSequenceOf t' =>
        do (e, b, s1) <- generateTypeBody fuel t' isSet s;
        Ok (EArray e, b, s1)
    | TSetOf t' =>
        do (e, b, s1) <- generateTypeBody fuel t' true s;
        Ok (EArray e, b, s1)
    | TTagged _ t' _ _ => generateTypeBody fuel t' isSet s
    | TConstrained t' _ => generateTypeBody fuel t' isSet s
    | TReference name =>
        do (o, s1) <- resolveTypeReference fuel name s;
        match o with
        | Some (n, t') =>
            let '(special, s2) := generateSpecialCase n t' s1 in
            match special with
            | Some e => Ok (e, isSet, s2)
            | None => Ok (EIdent (goifyName U name), isSet, s2)
            end
        | None => Ok (EIdent (goifyName U name), isSet, s1)
        end
    | TRestrictedString _ => Ok (EIdent "string", isSet, s)
    | TBitString _ => Ok (EIdent "asn1.BitString", isSet, requireModule "encoding/asn1" s)
    | TEnumerated _ => Ok (EIdent "asn1.Enumerated", isSet, requireModule "encoding/asn1" s)
    | TAny _ => Ok (EInterface, isSet, s)
    | TObjectIdentifier =>
        Ok (EIdent "asn1.ObjectIdentifier", isSet, requireModule "encoding/asn1" s)
    | TChoice alts _ =>
        do (tagged, s1) <- hasTaggedAlternatives fuel alts s;
        if tagged : bool then Ok (EIdent "asn1.RawValue", isSet, s1)
        else
          match alts with
          | [Named _ t'] => generateTypeBody fuel t' isSet s1
          | _ => Ok (EInterface, isSet, s1)
          end
    | TNil | TNamed _ | TNull => Ok (ENilExpr, isSet, appendError (ErrUnsupportedType t) s)
    end.

  (** generateTypeDecl, codegen.go:163-190 *)
  Definition generateTypeDecl (fuel : nat) (reference : string) (t : AType_) (s : gstate)
    : res (godecl * gstate) :=
    do (body, isSet, s1) <- generateTypeBody fuel t false s;
    let name := goifyName U reference in
    let assign := match body with EStruct _ => false | _ => true end in
    if isSet : bool then
      Ok ({| gd_tok := TokType;
             gd_specs := [TypeSpec (name ++ "SET") false body;
                          TypeSpec name true (EIdent (name ++ "SET"))] |}, s1)
    else
      Ok ({| gd_tok := TokType; gd_specs := [TypeSpec name assign body] |}, s1).

  (** numberToExpr, codegen.go:328-335 *)
  Definition numberToExpr (n : Z) : goexpr :=
    if String.eqb (gp_IntegerRepr params) IntegerReprBigInt then
      ECall (EIdent "big.NewInt") [EBasicLit (sprint_int n)]
    else EBasicLit (sprint_int n).

  (** valueRefToIdent, codegen.go:324-326 *)
  Definition valueRefToIdent (ref : string) : string := "Val" ++ goifyName U ref.

  (** The switch of tryGenerateValueAssignment, codegen.go:195-209; [None] is the
      default case. *)
  Definition valueExpr (v : Value) : option goexpr :=
    match v with
    | VNumber n => Some (numberToExpr n)
    | VBoolean true => Some (EBasicLit "true")
    | VBoolean false => Some (EBasicLit "false")
    | VReal f => Some (EBasicLit (sprint_real fmt_finite f))
    | _ => None
    end.

  (** tryGenerateValueAssignment, codegen.go:192-220; [None] is nil. *)
  Definition tryGenerateValueAssignment (fuel : nat) (ref : string) (t : AType_) (v : Value)
    (s : gstate) : res (option godecl * gstate) :=
    match valueExpr v with
    | None => Ok (None, s)
    | Some e =>
        do (te, _, s1) <- generateTypeBody fuel t false s;
        Ok (Some {| gd_tok := TokVar; gd_specs := [ValueSpec (valueRefToIdent ref) te e] |}, s1)
    end.

  (** The loop of generateAssociatedValuesIfNeeded, codegen.go:297-314. *)
  Fixpoint namedNumberSpecs (reference : string) (l : list NamedNumber) (s : gstate)
    : list gospec * gstate :=
    match l with
    | [] => ([], s)
    | n :: l' =>
        let '(e, s1) :=
          match nn_Value n with
          | NNumber z => (numberToExpr z, s)
          | NDefined d =>
              (EIdent (valueRefToIdent (dv_ValueName d)),
               if String.eqb (dv_ModuleName d) "" then s
               else appendError (ErrForeignValue (dv_ModuleName d) (dv_ValueName d)) s)
          | NNil => (ENilExpr, s)
          end in
        let typeName := goifyName U reference in
        let '(specs, s2) := namedNumberSpecs reference l' s1 in
        (ValueSpec (typeName ++ "Val" ++ goifyName U (nn_Name n)) (EIdent typeName) e :: specs, s2)
    end.

  (** generateAssociatedValuesIfNeeded, codegen.go:290-322; [None] is nil. *)
  Definition generateAssociatedValuesIfNeeded (reference : string) (t : AType_) (s : gstate)
    : option godecl * gstate :=
    match removeWrapperTypes t with
    | TInteger [] => (None, s)
    | TInteger l =>
        let '(specs, s1) := namedNumberSpecs reference l s in
        (Some {| gd_tok := TokVar; gd_specs := specs |}, s1)
    | _ => (None, s)
    end.

  (** [append(decls, decl)] when [decl != nil]. *)
  Definition opt_cons {A} (o : option A) (l : list A) : list A :=
    match o with Some x => x :: l | None => l end.

  (** generateDeclarations, codegen.go:145-161 *)
  Fixpoint generateDeclarations (fuel : nat) (l : list Assignment_) (s : gstate)
    : res (list godecl * gstate) :=
    match l with
    | [] => Ok ([], s)
    | AType name t :: l' =>
        do (d, s1) <- generateTypeDecl fuel name t s;
        let '(o, s2) := generateAssociatedValuesIfNeeded name t s1 in
        do (ds, s3) <- generateDeclarations fuel l' s2;
        Ok (d :: opt_cons o ds, s3)
    | AValue name t v :: l' =>
        do (o, s1) <- tryGenerateValueAssignment fuel name t v s;
        do (ds, s2) <- generateDeclarations fuel l' s1;
        Ok (opt_cons o ds, s2)
    | ANil :: l' => generateDeclarations fuel l' s
    end.
End Codegen.

(** The import declarations, codegen.go:124-129. *)
Definition importDecls (l : list string) : list godecl :=
  map (fun m => {| gd_tok := TokImport; gd_specs := [ImportSpec m] |}) l.

(** Generate, codegen.go:98-132, of a generator with parameters [params] as stored
    by NewCodeGenerator. *)
Definition GenerateWith (U : unicode_tables) (fmt_finite : spec_float -> string)
  (params : GenParams) (fuel : nat) (m : Module_) : res gen_result :=
  if md_TagDefault m =? TAGS_AUTOMATIC then Ok (GenErr [ErrAutomaticModule])
  else
    let moduleName :=
      if String.eqb (gp_Package params) "" then
        goifyName U (mi_Reference (md_ModuleIdentifier m))
      else gp_Package params in
    let assignments := mb_AssignmentList (md_ModuleBody m) in
    do (decls, s) <-
      generateDeclarations U fmt_finite params (md_TagDefault m) assignments fuel assignments
        {| gs_errors := []; gs_modules := [] |};
    match gs_errors s with
    | [] => Ok (GenOk {| gf_name := moduleName;
                         gf_decls := app (importDecls (gs_modules s)) decls |})
    | errs => Ok (GenErr errs)
    end.

(** NewCodeGenerator(params).Generate(m, w). *)
Definition Generate (U : unicode_tables) (fmt_finite : spec_float -> string)
  (params : GenParams) (fuel : nat) (m : Module_) : res gen_result :=
  GenerateWith U fmt_finite (NewCodeGenerator params) fuel m.

(** The error of Generate: the ones of the generator (codegen.go:98-123), or the
    one of go/printer (codegen.go:131). *)
Inductive gen_failure : Type :=
| FailGen (l : list gen_error)
| FailPrint (msg : string).

(** Generate with its writer, codegen.go:98-132: the bytes the writer has received
    and the returned error.  [Fprint] stands for goprint.Fprint(writer, ...) with the
    given writer: the bytes that arrive and the error (go/printer writes
    progressively, so a failing writer may have received some of them). *)
Definition GenerateTo (U : unicode_tables) (fmt_finite : spec_float -> string)
  (Fprint : gofile -> list Z * option string)
  (params : GenParams) (fuel : nat) (m : Module_) : res (list Z * option gen_failure) :=
  do r <- Generate U fmt_finite params fuel m;
  match r with
  | GenErr l => Ok ([], Some (FailGen l))
  | GenOk f => let '(written, e) := Fprint f in Ok (written, option_map FailPrint e)
  end.
