(** Properties C22-C40, C47, C50, C52 and C53: the code generator.  The specification
    vocabulary is in [CodegenSpec.v]. *)
From Coq Require Import ZArith String Ascii List Bool Lia Relations SpecFloat.
From Verif Require Import GoBase Utf8 Unicode Tokens Ast GoAst Codegen CodegenSpec CodegenFacts CodegenInv CodegenDecl
  CodegenTag CodegenTerm CodegenSupp GoifyFacts CodegenShape CodegenNames CodegenMono CodegenChoice.
Import ListNotations.
Local Open Scope string_scope.
Local Open Scope Z_scope.

(** The assignments of a module. *)
Notation assignments m := (mb_AssignmentList (md_ModuleBody m)).

(** ** Example data *)

Definition ex_module (td : Z) (l : list Assignment_) : Module_ := {|
  md_ModuleIdentifier := {| mi_Reference := "Ex-Module"; mi_DefinitiveIdentifier := [] |};
  md_TagDefault := td; md_ExtensibilityImplied := false;
  md_ModuleBody := {| mb_AssignmentList := l; mb_Imports := [] |} |}.
Definition ex_fmt (x : spec_float) : string := "1.5".
Definition ex_params : GenParams := {| gp_Package := ""; gp_IntegerRepr := "" |}.
Definition big_params : GenParams := {| gp_Package := ""; gp_IntegerRepr := "big.Int" |}.
Definition ex_tag (class num : Z) : Tag DefinedValue := {| tag_Class := class; tag_ClassNumber := VNumber num |}.
Definition comp (n : string) (t : AType_) : component Value DefinedValue := CNamed (Named n t) false None.
Definition gen_ (p : GenParams) (m : Module_) : res gen_result := Generate ascii_tables ex_fmt p 10 m.

(** A module with several kinds of types and values. *)
Definition ex_full : Module_ := ex_module TAGS_IMPLICIT [
  AType "Flags" (TBitString []);
  AType "Level" (TConstrained (TInteger [ {| nn_Name := "low"; nn_Value := NNumber 1 |};
                                          {| nn_Name := "high"; nn_Value := NDefined {| dv_ModuleName := ""; dv_ValueName := "top-level" |} |} ]) CSGeneral);
  AValue "top-level" (TInteger []) (VNumber (-300));
  AType "Some-Set" (TTagged (ex_tag CLASS_APPLICATION 3) (TSet [comp "x" TBoolean] []) 0 false);
  AType "Rec" (TSequence
    [ CNamed (Named "fl" (TTagged (ex_tag CLASS_CONTEXT_SPECIFIC 0) (TReference "Flags") TAGS_EXPLICIT true)) true None;
      CNamed (Named "level-one" (TTagged (ex_tag CLASS_APPLICATION 7) (TReference "Level") 0 false)) false (Some (VNumber 5));
      CNil;
      CNamed (Named "inner" (TSequenceOf (TSequence [comp "t" (TReference "GeneralizedTime")] []))) false None ]
    [ CNamed (Named "ext" (TRestrictedString T_IA5String)) true None ]);
  AType "Alt" (TChoice [Named "a" (TReference "Rec"); Named "b" TBoolean] []);
  AValue "oid" TObjectIdentifier (VObjectIdentifier []) ].

Definition ex_full_file : gofile :=
  match gen_ big_params ex_full with Ok (GenOk f) => f | _ => {| gf_name := ""; gf_decls := [] |} end.

Lemma ex_full_ok : Generate ascii_tables ex_fmt big_params 10 ex_full = Ok (GenOk ex_full_file).
Proof. vm_compute. reflexivity. Qed.

(** * C22: Generate is all or nothing *)

(** False: go/printer writes progressively, so a writer that fails late has received
    a part of the file when Generate returns the error. *)
Theorem C22_all_or_nothing_refuted : exists U fmt Fprint p fuel m written e,
  GenerateTo U fmt Fprint p fuel m = Ok (written, Some e) /\ written <> [].
Proof.
  exists ascii_tables, ex_fmt, (fun _ => ([112; 97], Some "disk full")), ex_params, 10%nat,
    (ex_module TAGS_EXPLICIT []), [112; 97], (FailPrint "disk full").
  split; [vm_compute; reflexivity|discriminate].
Qed.
Print Assumptions C22_all_or_nothing_refuted.

(** As long as printing to the writer itself does not fail, an error means that
    nothing was written.  Missing from the full statement: failing writers. *)
Theorem C22_all_or_nothing_partial : forall U fmt Fprint p fuel m written e,
  (forall f, snd (Fprint f) = None) ->
  GenerateTo U fmt Fprint p fuel m = Ok (written, Some e) -> written = [].
Proof.
  intros U fmt Fprint p fuel m written e Hw H. unfold GenerateTo in H. bind1 H. destruct x as [l|f].
  - now injection H as <- _.
  - specialize (Hw f). destruct (Fprint f) as [w [x|]]; [discriminate|]. discriminate.
Qed.
Print Assumptions C22_all_or_nothing_partial.

Example C22_example :
  GenerateTo ascii_tables ex_fmt (fun f => ([1; 2], None)) ex_params 10
    (ex_module TAGS_EXPLICIT [AType "A" TBoolean; AType "N" TNull]) = Ok ([], Some (FailGen [ErrUnsupportedType TNull])) /\
  GenerateTo ascii_tables ex_fmt (fun f => ([1; 2], None)) ex_params 10
    (ex_module TAGS_EXPLICIT [AType "A" TBoolean]) = Ok ([1; 2], None).
Proof. split; vm_compute; reflexivity. Qed.

(** * C23: AUTOMATIC TAGS modules are rejected *)

Theorem C23_automatic_rejected : forall U fmt Fprint p fuel m,
  md_TagDefault m = TAGS_AUTOMATIC ->
  exists e, GenerateTo U fmt Fprint p fuel m = Ok ([], Some e).
Proof.
  intros U fmt Fprint p fuel m H. unfold GenerateTo, Generate, GenerateWith. rewrite H. cbn. eexists. reflexivity.
Qed.
Print Assumptions C23_automatic_rejected.

Example C23_example :
  exists e, GenerateTo ascii_tables ex_fmt (fun _ => ([0], None)) ex_params 10
    (ex_module TAGS_AUTOMATIC [AType "A" TBoolean]) = Ok ([], Some e).
Proof. apply C23_automatic_rejected. reflexivity. Qed.

(** * C24: no duplicate and no unused imports *)

Theorem C24_imports : forall U fmt p fuel m f,
  Generate U fmt p fuel m = Ok (GenOk f) ->
  NoDup (imports f) /\ NoDup (map package_name (imports f)) /\
  (exists imps rest, gf_decls f = (imps ++ rest)%list /\
     Forall is_import imps /\ Forall (fun d => gd_tok d <> TokImport) rest /\
     flat_map gd_specs imps = map ImportSpec (imports f)) /\
  (forall path, In path (imports f) ->
     exists id, In id (flat_map spec_type_idents (file_specs f)) /\ qualifier id = Some (package_name path)).
Proof.
  intros U fmt p fuel m f H. pose proof (Generate_ok _ _ _ _ _ _ H) as (_ & ds & s & Hd & He & Hf).
  pose proof (gendecls_ok _ _ _ _ _ _ _ _ _ _ Hd) as Hok.
  rewrite (imports_eq _ _ _ Hf Hok), (type_idents_eq _ _ _ Hf).
  destruct (gendecls_ext _ _ _ _ _ _ _ _ _ _ Hd) as (_ & ms & _ & _ & Hn).
  specialize (Hn (NoDup_nil _)).
  split; [assumption|]. split; [|split].
  - apply NoDup_map_inj with (P := fun x => In x ["math/big"; "time"; "encoding/asn1"]); [| |assumption].
    + intros x y Hx Hy. cbn in Hx, Hy.
      repeat destruct Hx as [<-|Hx]; try contradiction; repeat destruct Hy as [<-|Hy]; try contradiction;
        vm_compute; congruence.
    + apply Forall_forall. apply (gendecls_pkgs _ _ _ _ _ _ _ _ _ _ Hd). intros x [].
  - exists (importDecls (gs_modules s)), ds. split; [exact Hf|]. split; [apply imports_are|]. split.
    + eapply Forall_impl; [|exact Hok]. intros d Hx E. unfold decl_ok in Hx. rewrite E in Hx. exact Hx.
    + apply import_specs.
  - intros path Hp. destruct (gendecls_modules _ _ _ _ _ _ _ _ _ _ Hd _ Hp) as [[]|Hx]. exact Hx.
Qed.
Print Assumptions C24_imports.

Example C24_example : imports ex_full_file = ["encoding/asn1"; "math/big"; "time"].
Proof. vm_compute. reflexivity. Qed.

(** * C25: every package used is imported *)

(** False: asn1.RawValue does not ask for its import ... *)
Theorem C25_used_imported_refuted : exists U fmt p fuel m f id,
  Generate U fmt p fuel m = Ok (GenOk f) /\
  In id (flat_map spec_type_idents (file_specs f)) /\ qualifier id = Some "asn1" /\
  ~ In "asn1" (map package_name (imports f)).
Proof.
  exists ascii_tables, ex_fmt, ex_params, 10%nat,
    (ex_module TAGS_EXPLICIT [AType "A" (TChoice [Named "a" (TTagged (ex_tag CLASS_CONTEXT_SPECIFIC 1) TBoolean 0 false)] [])]).
  do 2 eexists. split; [vm_compute; reflexivity|]. split; [vm_compute; left; reflexivity|].
  split; [reflexivity|]. vm_compute. intros [].
Qed.
Print Assumptions C25_used_imported_refuted.

(** ... and neither does big.NewInt in the initialiser of a value whose type is no INTEGER. *)
Theorem C25_used_imported_values_refuted : exists U fmt p fuel m f id,
  Generate U fmt p fuel m = Ok (GenOk f) /\
  In id (flat_map spec_value_idents (file_specs f)) /\ qualifier id = Some "big" /\
  ~ In "big" (map package_name (imports f)).
Proof.
  exists ascii_tables, ex_fmt, big_params, 10%nat, (ex_module TAGS_EXPLICIT [AValue "a" TReal (VNumber 1)]).
  do 2 eexists. split; [vm_compute; reflexivity|]. split; [vm_compute; left; reflexivity|].
  split; [reflexivity|]. vm_compute. intros [].
Qed.
Print Assumptions C25_used_imported_values_refuted.

(** Every other package-qualified name is imported.  Missing from the full
    statement: asn1.RawValue, and numbers as values of a type that is not written
    INTEGER.  (ASN.1 names have no dots, hence the hypotheses on names.) *)
Theorem C25_used_imported_partial : forall U fmt p fuel m f id q,
  Generate U fmt p fuel m = Ok (GenOk f) ->
  (forall n t, In (AType n t) (assignments m) -> qualifier (goifyName U n) = None) ->
  (forall n t l x d, In (AType n t) (assignments m) -> strip t = TInteger l -> In x l -> nn_Value x = NDefined d ->
     qualifier (goifyName U (dv_ValueName d)) = None) ->
  (forall n t z, In (AValue n t (VNumber z)) (assignments m) -> exists l, strip t = TInteger l) ->
  In id (flat_map spec_type_idents (file_specs f)) \/ In id (flat_map spec_value_idents (file_specs f)) ->
  id <> "asn1.RawValue" -> qualifier id = Some q ->
  In q (map package_name (imports f)).
Proof. exact used_imported. Qed.
Print Assumptions C25_used_imported_partial.

Example C25_example :
  In "asn1" (map package_name (imports ex_full_file)) /\ In "big" (map package_name (imports ex_full_file)).
Proof.
  assert (H1 : forall n t, In (AType n t) (assignments ex_full) -> qualifier (goifyName ascii_tables n) = None).
  { intros n t Hi; vm_compute in Hi; repeat destruct Hi as [Hi|Hi]; try contradiction; try discriminate;
      injection Hi as <- _; reflexivity. }
  assert (H2 : forall n t l x d, In (AType n t) (assignments ex_full) -> strip t = TInteger l -> In x l ->
    nn_Value x = NDefined d -> qualifier (goifyName ascii_tables (dv_ValueName d)) = None).
  { intros n t l x d Hi Hs Hx Hd; vm_compute in Hi; repeat destruct Hi as [Hi|Hi]; try contradiction; try discriminate;
      injection Hi as <- <-; try discriminate; cbn in Hs; injection Hs as <-;
      repeat destruct Hx as [<-|Hx]; try contradiction; try discriminate; injection Hd as <-; reflexivity. }
  assert (H3 : forall n t z, In (AValue n t (VNumber z)) (assignments ex_full) -> exists l, strip t = TInteger l).
  { intros n t z Hi; vm_compute in Hi; repeat destruct Hi as [Hi|Hi]; try contradiction; try discriminate;
      injection Hi as _ <- _; eexists; reflexivity. }
  split.
  - apply (C25_used_imported_partial _ _ _ _ _ _ "asn1.BitString" _ ex_full_ok H1 H2 H3); [|discriminate|reflexivity].
    left. vm_compute. auto.
  - apply (C25_used_imported_partial _ _ _ _ _ _ "big.NewInt" _ ex_full_ok H1 H2 H3); [|discriminate|reflexivity].
    right. vm_compute. auto.
Qed.

(** * C26: every type assignment yields its Go declaration, in order *)

Theorem C26_type_declarations : forall U fmt p fuel m f,
  Generate U fmt p fuel m = Ok (GenOk f) ->
  generated U (assignments m) f (fun _ _ _ _ => True).
Proof. intros. eapply file_generated; [eassumption|trivial]. Qed.
Print Assumptions C26_type_declarations.

Example C26_example : declared_types ex_full_file = ["Flags"; "Level"; "Some_SetSET"; "Some_Set"; "Rec"; "Alt"].
Proof. vm_compute. reflexivity. Qed.

(** * C27: struct fields mirror components *)

(** The field is named after the component. *)
Definition same_name (U : unicode_tables) (c : component Value DefinedValue) (fd : gofield) : Prop :=
  match c, fd with CNamed (Named n _) _ _, Field name _ _ => name = goifyName U n | _, _ => False end.

Theorem C27_fields_mirror : forall U fmt p fuel m f,
  Generate U fmt p fuel m = Ok (GenOk f) ->
  generated U (assignments m) f (fun n t d e => mirrors (same_name U) t e).
Proof. intros. eapply file_mirrors; [eassumption|]. intros. reflexivity. Qed.
Print Assumptions C27_fields_mirror.

Example C27_example :
  exists fs, In (TypeSpec "Rec" false (EStruct fs)) (file_specs ex_full_file) /\
    map (fun f => match f with Field n _ _ => n end) fs = ["Fl"; "Level_one"; "Inner"; "Ext"].
Proof. eexists. split; [vm_compute; auto 12|reflexivity]. Qed.

(** * C28: the struct tag means what the component declares *)

(** The tag of the field, read by encoding/asn1, says what the component declares. *)
Definition same_params (td : Z) (asg : list Assignment_) (c : component Value DefinedValue) (fd : gofield) : Prop :=
  match c, fd with
  | CNamed (Named _ t) o d, Field _ _ tag =>
      expressible t d -> exists fp, tag_params tag fp /\ component_params td asg t o d fp
  | _, _ => False
  end.

(** Tags of the classes context-specific, application and private; missing from the
    full statement: UNIVERSAL tags, see below. *)
Theorem C28_tag_decodes_partial : forall U fmt p fuel m f,
  Generate U fmt p fuel m = Ok (GenOk f) ->
  generated U (assignments m) f (fun n t d e => mirrors (same_params (md_TagDefault m) (assignments m)) t e).
Proof.
  intros. eapply file_mirrors; [eassumption|]. intros n t o d e b tag s s1 s2 _ Ht He Hx.
  eapply tagOf_means; eassumption.
Qed.
Print Assumptions C28_tag_decodes_partial.

(** False for [UNIVERSAL n]: the class is dropped, so the field is encoded with a
    context-specific tag. *)
Theorem C28_universal_refuted : exists U fmt p fuel m n t o d f tag fp,
  assignments m = [AType "A" (TSequence [CNamed (Named n t) o d] [])] /\
  tags_of t = [(ex_tag CLASS_UNIVERSAL 2, None)] /\
  Generate U fmt p fuel m = Ok (GenOk f) /\
  file_specs f = [TypeSpec "A" false (EStruct [Field "X" (EIdent "bool") tag])] /\
  tag_params tag fp /\ fp_tag fp = Some 2 /\ fp_class fp = CLASS_CONTEXT_SPECIFIC.
Proof.
  exists ascii_tables, ex_fmt, ex_params, 10%nat,
    (ex_module TAGS_IMPLICIT [AType "A" (TSequence [CNamed (Named "x" (TTagged (ex_tag CLASS_UNIVERSAL 2) TBoolean 0 false)) false None] [])]),
    "x", (TTagged (ex_tag CLASS_UNIVERSAL 2) TBoolean 0 false), false, None.
  eexists. exists (Some (tag_source "tag:2")), (parseFieldParameters "tag:2").
  split; [reflexivity|]. split; [reflexivity|]. split; [vm_compute; reflexivity|]. split; [reflexivity|].
  split; [constructor|]. split; reflexivity.
Qed.
Print Assumptions C28_universal_refuted.

Example C28_example :
  expressible (TTagged (ex_tag CLASS_APPLICATION 7) (TReference "Level") 0 false) (Some (VNumber 5)) /\
  exists e, In (Field "Level_one" e (Some (tag_source "default:5,optional,application,tag:7")))
    (match file_specs ex_full_file with
     | l => flat_map (fun s => match s with TypeSpec _ _ (EStruct fs) => fs | _ => [] end) l end) /\
  parseFieldParameters "default:5,optional,application,tag:7" =
  {| fp_optional := true; fp_explicit := false; fp_application := true; fp_private := false;
     fp_defaultValue := Some 5; fp_tag := Some 7; fp_stringType := 0; fp_timeType := 0;
     fp_set := false; fp_omitEmpty := false |}.
Proof.
  split.
  - unfold expressible, int64. cbn. split; [lia|]. split.
    + constructor; [|constructor]. split; [cbn; auto|]. intros k Hk. injection Hk as <-. lia.
    + intros k Hk. injection Hk as <-. lia.
  - eexists. split; [vm_compute; auto 12|vm_compute; reflexivity].
Qed.

(** * C29: all tags of a multiply tagged component are honoured *)

(** False: only one tag number can be in the struct tag. *)
Theorem C29_all_tags_refuted : exists U fmt p fuel m t f tag fp,
  assignments m = [AType "A" (TSequence [CNamed (Named "x" t) false None] [])] /\
  map (fun x => tag_ClassNumber (fst x)) (tags_of t) = [VNumber 1; VNumber 2] /\
  Generate U fmt p fuel m = Ok (GenOk f) /\
  file_specs f = [TypeSpec "A" false (EStruct [Field "X" (EIdent "bool") tag])] /\
  tag_params tag fp /\ fp_tag fp <> Some 1.
Proof.
  exists ascii_tables, ex_fmt, ex_params, 10%nat.
  set (t := TTagged (ex_tag CLASS_CONTEXT_SPECIFIC 1) (TTagged (ex_tag CLASS_CONTEXT_SPECIFIC 2) TBoolean 0 false) 0 false : AType_).
  exists (ex_module TAGS_EXPLICIT [AType "A" (TSequence [CNamed (Named "x" t) false None] [])]), t.
  eexists. exists (Some (tag_source "explicit,tag:1,explicit,tag:2")), (parseFieldParameters "explicit,tag:1,explicit,tag:2").
  split; [reflexivity|]. split; [reflexivity|]. split; [vm_compute; reflexivity|]. split; [reflexivity|].
  split; [constructor|]. vm_compute. discriminate.
Qed.
Print Assumptions C29_all_tags_refuted.

(** The innermost tag is the one that is honoured; missing: the others. *)
Definition innermost (c : component Value DefinedValue) (fd : gofield) : Prop :=
  match c, fd with
  | CNamed (Named _ t) o d, Field _ _ tag =>
      forall l x, tags_of t = (l ++ [x])%list -> (forall k, tag_ClassNumber (fst x) = VNumber k -> int64 k) ->
      exists fp k, tag_params tag fp /\ tag_ClassNumber (fst x) = VNumber k /\ fp_tag fp = Some k
  | _, _ => False
  end.

Theorem C29_innermost_tag_partial : forall U fmt p fuel m f,
  Generate U fmt p fuel m = Ok (GenOk f) ->
  generated U (assignments m) f (fun n t d e => mirrors innermost t e).
Proof.
  intros. eapply file_mirrors; [eassumption|]. intros n t o d e b tag s s1 s2 _ Ht He l x Hl Hx.
  eapply tagOf_inner; eassumption.
Qed.
Print Assumptions C29_innermost_tag_partial.

Example C29_example :
  let t := TTagged (ex_tag CLASS_CONTEXT_SPECIFIC 1) (TTagged (ex_tag CLASS_CONTEXT_SPECIFIC 2) TBoolean 0 false) 0 false : AType_ in
  exists f, gen_ ex_params (ex_module TAGS_EXPLICIT [AType "A" (TSequence [CNamed (Named "x" t) false None] [])]) = Ok (GenOk f) /\
    tags_of t = ([(ex_tag CLASS_CONTEXT_SPECIFIC 1, None)] ++ [(ex_tag CLASS_CONTEXT_SPECIFIC 2, None)])%list.
Proof. eexists. split; [vm_compute; reflexivity|reflexivity]. Qed.

(** * C30: generated names are exported identifiers, and distinct names stay distinct *)

(** Names spelled in ASCII.  Missing: letters above ASCII, see below. *)
Theorem C30_exported_partial : forall U n, ascii_name n -> exported_identifier (goifyName U n).
Proof. exact goify_exported. Qed.
Print Assumptions C30_exported_partial.

Theorem C30_distinct_partial : forall U a b,
  (ascii_value_name a /\ ascii_value_name b) \/ (ascii_type_name a /\ ascii_type_name b) ->
  a <> b -> goifyName U a <> goifyName U b.
Proof.
  intros U a b [[Ha Hb]|[Ha Hb]] Hn H; apply Hn; [eapply goify_inj_value|eapply goify_inj_type]; eassumption.
Qed.
Print Assumptions C30_distinct_partial.

Example C30_example :
  ascii_value_name "max-tag-2" /\ goifyName ascii_tables "max-tag-2" = "Max_tag_2" /\
  ascii_type_name "PDU-Type" /\ goifyName ascii_tables "PDU-Type" = "PDU_Type" /\
  goifyName ascii_tables "maxtag-2" <> goifyName ascii_tables "max-tag-2".
Proof. repeat split; vm_compute; try reflexivity; discriminate. Qed.

(** False above ASCII.  unicode.ToTitle maps U+017F (long s, a lower case letter) to
    'S', so the component names "s" and U+017F give the same identifier; and a letter
    without case, such as U+4E2D, starts an identifier that is not exported. *)
Definition long_s_tables : unicode_tables := {|
  u_letter := fun r => (r =? 383) || (r =? 20013);
  u_upper := fun _ => false;
  u_digit := fun _ => false;
  u_space := fun _ => false;
  u_title := fun r => if r =? 383 then 83 else r
|}.
Definition long_s : string := String "197" (String "191" "").
Definition zhong : string := String "228" (String "184" (String "173" "")).

Theorem C30_distinct_refuted : exists U a b,
  Forall (fun r => is_letter U r = true /\ is_upper U r = false) (map fst (decode_all (bytes_of_string a) ++ decode_all (bytes_of_string b))) /\
  a <> b /\ goifyName U a = goifyName U b.
Proof.
  exists long_s_tables, "s", long_s. split; [|split; [discriminate|vm_compute; reflexivity]].
  vm_compute. repeat constructor.
Qed.
Print Assumptions C30_distinct_refuted.

Theorem C30_exported_refuted : exists U a,
  Forall (fun r => is_letter U r = true) (map fst (decode_all (bytes_of_string a))) /\ a <> "" /\
  ~ exported_runes U (map fst (decode_all (bytes_of_string (goifyName U a)))).
Proof.
  exists long_s_tables, zhong. split; [vm_compute; repeat constructor|]. split; [discriminate|].
  vm_compute. intros [H _]. discriminate.
Qed.
Print Assumptions C30_exported_refuted.

(** * C31: top-level generated names are unique *)

(** False: a type may be called what the generator calls the variable of a value. *)
Theorem C31_unique_names_refuted : exists U fmt p fuel m f,
  NoDup (flat_map asg_name (assignments m)) /\
  Generate U fmt p fuel m = Ok (GenOk f) /\ ~ NoDup (top_names f).
Proof.
  exists ascii_tables, ex_fmt, ex_params, 10%nat,
    (ex_module TAGS_EXPLICIT [AType "ValFoo" TBoolean; AValue "foo" TBoolean (VBoolean true)]).
  eexists. split; [repeat constructor; cbn; intuition discriminate|].
  split; [vm_compute; reflexivity|]. vm_compute. intro H. inversion H as [|x l Hx _]; subst. apply Hx. now left.
Qed.
Print Assumptions C31_unique_names_refuted.

(** Names in ASCII that keep clear of the generator's "Val" (before a capital letter or at
    the end) and "SET" (at the end), with distinct named numbers.  Missing: other names. *)
Theorem C31_unique_names_partial : forall U fmt p fuel m f,
  Generate U fmt p fuel m = Ok (GenOk f) ->
  NoDup (flat_map asg_name (assignments m)) ->
  Forall (fun a =>
    match a with
    | AType n t => (ascii_type_name n /\ ~ val_inside n /\ ~ ends_with "SET" n) /\
        (forall l, strip t = TInteger l -> NoDup (map nn_Name l) /\ Forall ascii_value_name (map nn_Name l))
    | AValue n _ _ => ascii_value_name n
    | ANil => True
    end) (assignments m) ->
  NoDup (top_names f).
Proof. exact unique_names. Qed.
Print Assumptions C31_unique_names_partial.

Example C31_example :
  top_names ex_full_file = ["Flags"; "Level"; "LevelValLow"; "LevelValHigh"; "ValTop_level"; "Some_SetSET"; "Some_Set"; "Rec"; "Alt"] /\
  ascii_type_name "Some-Set" /\ ~ ends_with "SET" "Some-Set" /\ ~ val_inside "Some-Set".
Proof.
  split; [vm_compute; reflexivity|]. split; [repeat split|]. split.
  - intros (a & H). do 9 (destruct a as [|? a]; [discriminate H|first [discriminate H | injection H as _ H]]).
  - intros (a & b & H & _). do 9 (destruct a as [|? a]; [discriminate H|first [discriminate H | injection H as _ H]]).
Qed.

(** * C32: successful generation leaves no dangling type name *)

Theorem C32_no_dangling_types : forall U fmt p fuel m f,
  Generate U fmt p fuel m = Ok (GenOk f) ->
  forall id, In id (flat_map spec_type_idents (file_specs f)) ->
  In id predeclared \/ qualifier id <> None \/ In id (declared_types f).
Proof.
  intros U fmt p fuel m f H id Hid.
  pose proof (Generate_ok _ _ _ _ _ _ H) as (_ & ds & s & Hd & He & Hf).
  rewrite (type_idents_eq _ _ _ Hf) in Hid. rewrite (declared_types_eq _ _ _ Hf).
  destruct (gendecls_idents _ _ _ _ _ _ _ _ _ _ Hd He _ Hid) as [[Hp|[(pk & Hp & Hfm)|[->|(n & t & -> & Hdf)]]]|Ht]; auto.
  - right; left. destruct Hfm; discriminate.
  - right; left. discriminate.
  - right; right. apply first_named_in in Hdf. eapply gendecls_declares; eassumption.
Qed.
Print Assumptions C32_no_dangling_types.

Example C32_example :
  In "Rec" (declared_types ex_full_file) /\ In "Level" (flat_map spec_type_idents (file_specs ex_full_file)) /\
  In "time.Time" (flat_map spec_type_idents (file_specs ex_full_file)).
Proof. vm_compute. auto 20. Qed.

(** * C33: successful generation leaves no dangling value name *)

(** False: a named number may refer to a value that is not in the module. *)
Theorem C33_no_dangling_values_refuted : exists U fmt p fuel m f id,
  Generate U fmt p fuel m = Ok (GenOk f) /\
  In id (flat_map spec_value_idents (file_specs f)) /\ qualifier id = None /\ ~ In id (declared_vars f).
Proof.
  exists ascii_tables, ex_fmt, ex_params, 10%nat,
    (ex_module TAGS_EXPLICIT [AType "A" (TInteger [ {| nn_Name := "x"; nn_Value := NDefined {| dv_ModuleName := ""; dv_ValueName := "y" |} |} ])]).
  do 2 eexists. split; [vm_compute; reflexivity|]. split; [vm_compute; left; reflexivity|].
  split; [reflexivity|]. vm_compute. intuition discriminate.
Qed.
Print Assumptions C33_no_dangling_values_refuted.

(** If every value that named numbers refer to is assigned a number, boolean or real
    in the module, there is no dangling name.  Missing: other references. *)
Theorem C33_no_dangling_values_partial : forall U fmt p fuel m f,
  Generate U fmt p fuel m = Ok (GenOk f) ->
  (forall n t l x d, In (AType n t) (assignments m) -> strip t = TInteger l -> In x l -> nn_Value x = NDefined d ->
     exists t' v, In (AValue (dv_ValueName d) t' v) (assignments m) /\ is_literal v) ->
  forall id, In id (flat_map spec_value_idents (file_specs f)) -> id = "big.NewInt" \/ In id (declared_vars f).
Proof.
  intros U fmt p fuel m f H Hv id Hid.
  destruct (value_idents _ _ _ _ _ _ H _ Hid) as [[-> _]|(n & t & l & x & d & Hi & Hs & Hx & Hd & ->)]; [now left|right].
  destruct (Hv _ _ _ _ _ Hi Hs Hx Hd) as (t' & v & Hi' & Hl).
  eapply value_declared; eassumption.
Qed.
Print Assumptions C33_no_dangling_values_partial.

Example C33_example :
  In "ValTop_level" (flat_map spec_value_idents (file_specs ex_full_file)) /\ In "ValTop_level" (declared_vars ex_full_file).
Proof. vm_compute. auto 20. Qed.

(** * C34: Generate terminates *)

(** False: a type that is defined as a reference to itself, directly or through other
    types, sends Generate into unbounded recursion. *)
Theorem C34_terminates_refuted : exists m, forall U fmt p fuel, Generate U fmt p fuel m = OutOfFuel.
Proof.
  exists (ex_module TAGS_EXPLICIT [AType "A" (TReference "B"); AType "B" (TReference "A")]). intros U fmt p fuel.
  apply Generate_diverges; [discriminate|]. exists "A". eapply t_trans with "B"; apply t_step.
  - eexists. split; [constructor|reflexivity].
  - eexists. split; [apply fn_skip_type; [discriminate|constructor]|reflexivity].
Qed.
Print Assumptions C34_terminates_refuted.

(** Circular definitions are the only obstacle, and Generate never panics.  Missing:
    modules with circular definitions. *)
Theorem C34_terminates_partial : forall U fmt p m, md_TagDefault m <> TAGS_AUTOMATIC ->
  (circular (assignments m) -> forall fuel, Generate U fmt p fuel m = OutOfFuel) /\
  (~ circular (assignments m) -> exists r, forall fuel, (length (assignments m) < fuel)%nat -> Generate U fmt p fuel m = Ok r) /\
  (forall fuel, match Generate U fmt p fuel m with Panic _ => False | _ => True end).
Proof.
  intros U fmt p m H. split; [|split].
  - intros C fuel. apply Generate_diverges; assumption.
  - apply Generate_returns.
  - intro fuel. pose proof (Generate_no_panic U fmt p fuel m) as N. destruct (Generate U fmt p fuel m); auto. exact (N _ eq_refl).
Qed.
Print Assumptions C34_terminates_partial.

Example C34_example :
  md_TagDefault ex_full <> TAGS_AUTOMATIC /\ ~ circular (assignments ex_full) /\
  circular [AType "A" (TTagged (ex_tag CLASS_PRIVATE 1) (TReference "A") 0 false)].
Proof.
  split; [discriminate|]. split.
  - intro H. pose proof (Generate_diverges ascii_tables ex_fmt big_params 10 ex_full) as D.
    rewrite ex_full_ok in D. assert (E : md_TagDefault ex_full <> TAGS_AUTOMATIC) by discriminate. specialize (D E H). discriminate.
  - exists "A". apply t_step. eexists. split; [constructor|reflexivity].
Qed.

(** * C35: only ASN.1 SET and SET OF types become ...SET types *)

(** The declaration goes through a type with the suffix SET. *)
Definition as_set (d : godecl) : Prop :=
  exists n e, gd_specs d = [TypeSpec (n ++ "SET") false e; TypeSpec n true (EIdent (n ++ "SET"))].

Lemma as_set_length : forall n e d, declares_type n e d -> (as_set d <-> length (gd_specs d) = 2%nat).
Proof.
  intros n e d [_ [[a H]|H]]; unfold as_set; rewrite H.
  - split; [intros (n' & e' & E); discriminate|discriminate].
  - split; [reflexivity|]. intros _. eauto.
Qed.

(** False: SEQUENCE OF SET becomes a ...SET type as well. *)
Theorem C35_set_types_refuted : exists U fmt p fuel m t f d,
  assignments m = [AType "A" t] /\ ~ is_set t /\
  Generate U fmt p fuel m = Ok (GenOk f) /\ In d (gf_decls f) /\ as_set d.
Proof.
  exists ascii_tables, ex_fmt, ex_params, 10%nat, (ex_module TAGS_EXPLICIT [AType "A" (TSequenceOf (TSet [] []))]), (TSequenceOf (TSet [] [])).
  do 2 eexists. split; [reflexivity|]. split; [intros [(c & x & H)|(t & H)]; discriminate|].
  split; [vm_compute; reflexivity|]. split; [now left|]. exists "A". eexists. reflexivity.
Qed.
Print Assumptions C35_set_types_refuted.

(** SET and SET OF do become ...SET types, and nothing else does except a SEQUENCE OF
    or a CHOICE.  Missing: SEQUENCE OF and CHOICE over a SET. *)
Theorem C35_set_types_partial : forall U fmt p fuel m f,
  Generate U fmt p fuel m = Ok (GenOk f) ->
  generated U (assignments m) f (fun n t d e =>
    (is_set t -> as_set d) /\
    (as_set d -> is_set t \/ (exists t', strip t = TSequenceOf t') \/ (exists a x, strip t = TChoice [a] x))).
Proof.
  intros U fmt p fuel m f H. eapply generated_impl; [|eapply file_set; exact H].
  intros n t d e D Hs. cbv beta in Hs. pose proof (as_set_length _ _ _ D) as L. split; intro G.
  - apply L, Hs. clear -G. unfold is_set in G.
    induction t; cbn in G; try (destruct G as [(c & x & E)|(u & E)]; discriminate); try (constructor; auto; fail).
  - apply L, Hs in G. clear -G. unfold is_set in *. induction G; cbn; eauto 8.
Qed.
Print Assumptions C35_set_types_partial.

Example C35_example :
  exists d, In d (gf_decls ex_full_file) /\ as_set d /\ In "Some_SetSET" (declared_types ex_full_file) /\
  is_set (TTagged (ex_tag CLASS_APPLICATION 3) (TSet [comp "x" TBoolean] []) 0 false).
Proof.
  eexists. split; [vm_compute; do 7 right; left; reflexivity|]. split; [exists "Some_Set"; eexists; reflexivity|].
  split; [vm_compute; auto|]. left. cbn. eauto.
Qed.

(** * C36: both useful time types can be used as components *)

(** False: UTCTime is not known to the generator. *)
Theorem C36_time_components_refuted : exists U fmt p m, forall fuel,
  (10 < fuel)%nat ->
  assignments m = [AType "A" (TSequence [comp "t" (TReference "UTCTime")] [])] /\
  Generate U fmt p fuel m = Ok (GenErr [ErrUnresolved "UTCTime"]).
Proof.
  exists ascii_tables, ex_fmt, ex_params, (ex_module TAGS_EXPLICIT [AType "A" (TSequence [comp "t" (TReference "UTCTime")] [])]).
  intros fuel H. split; [reflexivity|]. apply Generate_mono with 10%nat; [lia|]. vm_compute. reflexivity.
Qed.
Print Assumptions C36_time_components_refuted.

(** GeneralizedTime.  Missing: UTCTime. *)
Theorem C36_time_components_partial : forall U fmt p m,
  md_TagDefault m <> TAGS_AUTOMATIC ->
  Forall (fun a => exists n cs, a = AType n (TSequence cs []) /\
    Forall (fun c => exists k o, c = CNamed (Named k (TReference "GeneralizedTime")) o None) cs) (assignments m) ->
  exists f, forall fuel, (length (assignments m) < fuel)%nat -> Generate U fmt p fuel m = Ok (GenOk f).
Proof.
  intros U fmt p m Ht H.
  assert (HD : forall n t, defines (assignments m) n t -> exists cs, t = TSequence cs []).
  { intros n t D. apply first_named_in in D. rewrite Forall_forall in H. destruct (H _ D) as (k & cs & E & _). injection E as _ ->. eauto. }
  assert (HC : ~ circular (assignments m)).
  { intros (n & C). destruct (clos_first _ _ _ C) as (k & t & D & E). apply HD in D as (cs & ->). discriminate E. }
  destruct (Generate_returns U fmt p m HC) as (r & Hr).
  assert (HR : resolvable (assignments m) "GeneralizedTime").
  { destruct (al_GetType (assignments m) "GeneralizedTime") as [q|] eqn:E.
    - apply GetType_defines in E as (t & _ & D). exists "GeneralizedTime", t. exists (Some t).
      destruct (HD _ _ D) as (cs & ->). split; [|left; split; [reflexivity|discriminate]].
      apply leaf_here; [exact D|discriminate].
    - pose proof (proj1 (GetType_none _ _) E) as N. eexists _, _. exists None. split; [apply leaf_undefined; exact N|].
      right. split; [now left|]. split; reflexivity. }
  assert (HA : Forall (assignment_ok (md_TagDefault m) (assignments m) (integer_repr p)) (assignments m)).
  { eapply Forall_impl; [|exact H]. intros a (n & cs & -> & Hc). split; [|intros l x d E; discriminate E].
    constructor. rewrite app_nil_r. clear -Hc HR. induction cs as [|c cs IH]; [constructor|].
    apply Forall_cons_iff in Hc as [(k & o & ->) Hc]. constructor; [constructor; exact HR|constructor|auto]. }
  pose proof (Hr _ (Nat.lt_succ_diag_r _)) as G.
  destruct (proj2 (Generate_success _ _ _ _ _ _ G) (conj Ht HA)) as (f & ->). exists f. exact Hr.
Qed.
Print Assumptions C36_time_components_partial.

Example C36_example :
  Forall (fun a => exists n cs, a = AType n (TSequence cs []) /\
    Forall (fun c => exists k o, c = CNamed (Named k (TReference "GeneralizedTime")) o None) cs)
    [AType "A" (TSequence [comp "t" (TReference "GeneralizedTime"); CNamed (Named "u" (TReference "GeneralizedTime")) true None] [])].
Proof. repeat (constructor; try (do 2 eexists; try split; try reflexivity)). Qed.

(** * C37: naming a type does not change what is generated for a CHOICE that uses it *)

(** The type expression of the type declaration number [k] of [f]. *)
Definition type_expr (f : gofile) (k : nat) (e : goexpr) : Prop :=
  exists d n, nth_error (filter (fun d => match gd_tok d with TokType => true | _ => false end) (gf_decls f)) k = Some d /\
    declares_type n e d.

(** False: a tag on a type that is itself a reference is lost when the type is given a
    name; and a name for GeneralizedTime counts as tagged. *)
Theorem C37_naming_refuted : exists U fmt p fuel t b f f',
  Generate U fmt p fuel (ex_module TAGS_EXPLICIT
    [AType "C" (TChoice [Named "a" t; Named "b" TBoolean] []); AType "T" t; AType "B" b]) = Ok (GenOk f) /\
  Generate U fmt p fuel (ex_module TAGS_EXPLICIT
    [AType "C" (TChoice [Named "a" (TReference "T"); Named "b" TBoolean] []); AType "T" t; AType "B" b]) = Ok (GenOk f') /\
  type_expr f 0 (EIdent "asn1.RawValue") /\ ~ type_expr f' 0 (EIdent "asn1.RawValue").
Proof.
  exists ascii_tables, ex_fmt, ex_params, 10%nat, (TTagged (ex_tag CLASS_CONTEXT_SPECIFIC 0) (TReference "B") 0 false), (TInteger []).
  do 2 eexists. split; [vm_compute; reflexivity|]. split; [vm_compute; reflexivity|]. split.
  - exists {| gd_tok := TokType; gd_specs := [TypeSpec "C" true (EIdent "asn1.RawValue")] |}, "C". split; [reflexivity|].
    split; [reflexivity|]. left. eexists. reflexivity.
  - intros (d & n & H & _ & D). cbn in H. injection H as <-. destruct D as [[a D]|D]; discriminate D.
Qed.
Print Assumptions C37_naming_refuted.

Theorem C37_naming_time_refuted : exists U fmt p fuel f f',
  Generate U fmt p fuel (ex_module TAGS_EXPLICIT
    [AType "C" (TChoice [Named "a" (TReference "GeneralizedTime"); Named "b" TBoolean] []); AType "T" (TReference "GeneralizedTime")]) = Ok (GenOk f) /\
  Generate U fmt p fuel (ex_module TAGS_EXPLICIT
    [AType "C" (TChoice [Named "a" (TReference "T"); Named "b" TBoolean] []); AType "T" (TReference "GeneralizedTime")]) = Ok (GenOk f') /\
  type_expr f' 0 (EIdent "asn1.RawValue") /\ ~ type_expr f 0 (EIdent "asn1.RawValue").
Proof.
  exists ascii_tables, ex_fmt, ex_params, 10%nat.
  do 2 eexists. split; [vm_compute; reflexivity|]. split; [vm_compute; reflexivity|]. split.
  - exists {| gd_tok := TokType; gd_specs := [TypeSpec "C" true (EIdent "asn1.RawValue")] |}, "C". split; [reflexivity|].
    split; [reflexivity|]. left. eexists. reflexivity.
  - intros (d & n & H & _ & D). cbn in H. injection H as <-. destruct D as [[a D]|D]; discriminate D.
Qed.
Print Assumptions C37_naming_time_refuted.

(** For an alternative whose type is not, under tags and constraints, itself a
    reference.  Missing: alternatives that are references. *)
Theorem C37_naming_partial : forall U fmt p fuel m m' f f' pre post c l1 nm t n l2 x,
  assignments m = (pre ++ AType c (TChoice (l1 ++ Named nm t :: l2) x) :: post)%list ->
  assignments m' = (pre ++ AType c (TChoice (l1 ++ Named nm (TReference n) :: l2) x) :: post)%list ->
  (length l1 + length l2 <> 0)%nat ->
  defines (assignments m) n t -> n <> c -> ~ time_name n -> t <> TNil -> (forall r, strip t <> TReference r) ->
  Generate U fmt p fuel m = Ok (GenOk f) -> Generate U fmt p fuel m' = Ok (GenOk f') ->
  let k := length (filter (fun a => match a with AType _ _ => true | _ => false end) pre) in
  (type_expr f k (EIdent "asn1.RawValue") <-> type_expr f' k (EIdent "asn1.RawValue")).
Proof.
  intros U fmt p fuel m m' f f' pre post c l1 nm t n l2 x A A' Hl D Hc Hn Ht Hr G G' k.
  assert (TE : forall m f alts, assignments m = (pre ++ AType c (TChoice alts x) :: post)%list -> length alts <> 1%nat ->
    Generate U fmt p fuel m = Ok (GenOk f) ->
    (type_expr f k (EIdent "asn1.RawValue") <-> tagged_choice (assignments m) alts)).
  { clear. intros m f alts A Hl G.
    destruct (generated_at _ _ _ _ (file_go_type _ _ _ _ _ _ G) _ _ _ _ A) as (d & e & Hd & He & Hg).
    rewrite <- (choice_raw _ _ _ _ _ _ Hg Hl). split.
    - intros (d' & n' & Hd' & He'). fold k in Hd. rewrite Hd in Hd'. injection Hd' as <-. clear -He He'.
      destruct He as [_ [[a He]|He]], He' as [_ [[a' He']|He']]; rewrite He in He'; try discriminate; now injection He'.
    - intros ->. exists d. eexists. split; [exact Hd|exact He]. }
  rewrite (TE _ _ _ A), (TE _ _ _ A'); try assumption; try (rewrite app_length; cbn; lia).
  rewrite A, A' in *. apply named_choice; assumption.
Qed.
Print Assumptions C37_naming_partial.

Example C37_example :
  let t := TTagged (ex_tag CLASS_CONTEXT_SPECIFIC 0) (TInteger []) 0 false : AType_ in
  let m a := ex_module TAGS_EXPLICIT [AType "C" (TChoice [Named "a" a; Named "b" TBoolean] []); AType "T" t] in
  defines (assignments (m t)) "T" t /\ (forall r, strip t <> TReference r) /\
  exists f f', gen_ ex_params (m t) = Ok (GenOk f) /\ gen_ ex_params (m (TReference "T")) = Ok (GenOk f') /\
  type_expr f 0 (EIdent "asn1.RawValue").
Proof.
  cbv zeta. split; [apply fn_skip_type; [discriminate|constructor]|]. split; [discriminate|]. do 2 eexists.
  split; [vm_compute; reflexivity|]. split; [vm_compute; reflexivity|].
  exists {| gd_tok := TokType; gd_specs := [TypeSpec "C" true (EIdent "asn1.RawValue")] |}, "C". split; [reflexivity|].
  split; [reflexivity|]. left. eexists. reflexivity.
Qed.

(** * C38: assignment lookup *)

(** The assignment is called [n]. *)
Definition called (n : string) (a : Assignment_) : Prop :=
  match a with ANil => False | AType k _ => k = n | AValue k _ _ => k = n end.

Theorem C38_lookup : forall (l : list Assignment_) n,
  (forall a, al_Get l n = Some a <->
     exists before after, l = (before ++ a :: after)%list /\ called n a /\ Forall (fun b => ~ called n b) before) /\
  (al_Get l n = None <-> Forall (fun a => ~ called n a) l).
Proof.
  assert (P : forall (l : list Assignment_) n a, al_Get l n = Some a <->
     exists before after, l = (before ++ a :: after)%list /\ called n a /\ Forall (fun b => ~ called n b) before).
  { intros l n a. rewrite al_Get_first. split.
    - induction 1 as [t l|t v l|k t l a Hk H IH|k t v l a Hk H IH|l a H IH];
        try (exists [], l; repeat split; constructor);
        destruct IH as (b & af & -> & Ha & Hb).
      + exists (AType k t :: b), af. repeat split; auto.
      + exists (AValue k t v :: b), af. repeat split; auto.
      + exists (ANil :: b), af. repeat split; auto.
    - intros (b & af & -> & Ha & Hb). induction b as [|c b IH].
      + destruct a; cbn in Ha; try contradiction; subst; constructor.
      + apply Forall_cons_iff in Hb as [Hc Hb]. cbn. destruct c; cbn in Hc; constructor; auto. }
  intros l n. split; [apply P|]. split.
  - intro H. apply Forall_forall. intros a Hin Hc.
    assert (E : exists a', al_Get l n = Some a').
    { clear H. induction l as [|b l IH]; [contradiction|]. destruct Hin as [->|Hin].
      - exists a. destruct a; cbn in Hc; try contradiction; subst; cbn; now rewrite String.eqb_refl.
      - destruct (IH Hin) as (a' & E). cbn. destruct b; cbn; try destruct (String.eqb _ _); eauto. }
    destruct E as (a' & E). congruence.
  - intro H. destruct (al_Get l n) as [a|] eqn:E; [|reflexivity]. apply P in E as (b & af & -> & Ha & _).
    apply Forall_app in H as [_ H]. apply Forall_cons_iff in H as [H _]. contradiction.
Qed.
Print Assumptions C38_lookup.

(** GetType and GetValue look at the first assignment of that name only: a value of
    the same name in front hides a type. *)
Theorem C38_kinds_refuted : exists (l : list Assignment_) n t, In (AType n t) l /\ al_GetType l n = None.
Proof. exists [AValue "a" TBoolean (VBoolean true); AType "a" TBoolean], "a", TBoolean. split; [cbn; auto|reflexivity]. Qed.
Print Assumptions C38_kinds_refuted.

(** If no type and value share a name, as ASN.1's spelling rules ensure, they find the
    first assignment of their kind.  Missing: lists where they do. *)
Theorem C38_kinds_partial : forall (l : list Assignment_),
  (forall n t t' v, In (AType n t) l -> In (AValue n t' v) l -> False) ->
  forall n,
  (forall q, al_GetType l n = Some q <-> exists before t after, q = (n, t) /\ l = (before ++ AType n t :: after)%list /\
     forall u, ~ In (AType n u) before) /\
  (al_GetType l n = None <-> forall t, ~ In (AType n t) l) /\
  (forall q, al_GetValue l n = Some q <-> exists before t v after, q = (n, t, v) /\ l = (before ++ AValue n t v :: after)%list /\
     forall u w, ~ In (AValue n u w) before) /\
  (al_GetValue l n = None <-> forall t v, ~ In (AValue n t v) l).
Proof.
  intros l HD n. destruct (C38_lookup l n) as [P N]. unfold al_GetType, al_GetValue.
  assert (CT : forall b t af, l = (b ++ AType n t :: af)%list -> (forall u, ~ In (AType n u) b) -> Forall (fun c => ~ called n c) b).
  { intros b t af E Hu. apply Forall_forall. intros c Hc Hcc. destruct c as [|k u|k u v]; cbn in Hcc; subst; try contradiction.
    - exact (Hu _ Hc).
    - eapply HD; [apply in_or_app; right; left; reflexivity|apply in_or_app; left; exact Hc]. }
  assert (CV : forall b t v af, l = (b ++ AValue n t v :: af)%list -> (forall u w, ~ In (AValue n u w) b) -> Forall (fun c => ~ called n c) b).
  { intros b t v af E Hu. apply Forall_forall. intros c Hc Hcc. destruct c as [|k u|k u w]; cbn in Hcc; subst; try contradiction.
    - eapply HD; [apply in_or_app; left; exact Hc|apply in_or_app; right; left; reflexivity].
    - exact (Hu _ _ Hc). }
  destruct (al_Get l n) as [a|] eqn:E.
  - destruct (proj1 (P a) eq_refl) as (b & af & El & Ha & Hb). rewrite Forall_forall in Hb.
    destruct a as [|k t|k t v]; cbn in Ha; [contradiction| |]; subst k.
    + assert (Hin : In (AType n t) l) by (rewrite El; apply in_or_app; right; now left).
      repeat split.
      * intro H. injection H as <-. exists b, t, af. repeat split; auto. intros u Hu. apply (Hb _ Hu). reflexivity.
      * intros (b' & t' & af' & -> & El' & Hu). pose proof (CT _ _ _ El' Hu) as Hb'.
        assert (X : Some (AType n t) = Some (AType n t')) by (apply P; exists b', af'; repeat split; auto). congruence.
      * discriminate.
      * intro H. exfalso. exact (H _ Hin).
      * discriminate.
      * intros (b' & t' & v' & af' & -> & El' & Hu). exfalso. eapply HD; [exact Hin|]. rewrite El'. apply in_or_app. right. now left.
      * intros _ t' v' Hv. eapply HD; eassumption.
    + assert (Hin : In (AValue n t v) l) by (rewrite El; apply in_or_app; right; now left).
      repeat split.
      * discriminate.
      * intros (b' & t' & af' & -> & El' & Hu). exfalso. eapply HD; [|exact Hin]. rewrite El'. apply in_or_app. right. now left.
      * intros _ t' Ht. eapply HD; eassumption.
      * intro H. injection H as <-. exists b, t, v, af. repeat split; auto. intros u w Hu. apply (Hb _ Hu). reflexivity.
      * intros (b' & t' & v' & af' & -> & El' & Hu). pose proof (CV _ _ _ _ El' Hu) as Hb'.
        assert (X : Some (AValue n t v) = Some (AValue n t' v')) by (apply P; exists b', af'; repeat split; auto). congruence.
      * discriminate.
      * intro H. exfalso. exact (H _ _ Hin).
  - pose proof (proj1 N eq_refl) as H. rewrite Forall_forall in H.
    repeat split; try discriminate.
    + intros (b & t & af & _ & -> & _). exfalso. apply (H (AType n t)); [apply in_or_app; right; now left|reflexivity].
    + intros _ t Ht. exact (H _ Ht eq_refl).
    + intros (b & t & v & af & _ & -> & _). exfalso. apply (H (AValue n t v)); [apply in_or_app; right; now left|reflexivity].
    + intros _ t v Ht. exact (H _ Ht eq_refl).
Qed.
Print Assumptions C38_kinds_partial.

Example C38_example :
  al_GetType (assignments ex_full) "Alt" = Some ("Alt", TChoice [Named "a" (TReference "Rec"); Named "b" TBoolean] []) /\
  al_GetValue (assignments ex_full) "top-level" = Some ("top-level", TInteger [], VNumber (-300)) /\
  al_Get (assignments ex_full) "nope" = None /\
  (forall n t t' v, In (AType n t) (assignments ex_full) -> In (AValue n t' v) (assignments ex_full) -> False).
Proof.
  split; [reflexivity|]. split; [reflexivity|]. split; [reflexivity|]. cbn. intuition congruence.
Qed.

(** * C39: numeric values survive code generation *)

(** How reals are written is left open here; see C40.  DEFAULT values are in C28. *)
Theorem C39_values_survive : forall U fmt p fuel m f,
  Generate U fmt p fuel m = Ok (GenOk f) ->
  variables U (assignments m) (integer_repr p) (fun _ _ => True) f.
Proof. intros U fmt p fuel m f H. eapply variables_impl; [|eapply file_variables; exact H]. trivial. Qed.
Print Assumptions C39_values_survive.

Example C39_example :
  In (ValueSpec "ValTop_level" (EStar (EIdent "big.Int")) (ECall (EIdent "big.NewInt") [EBasicLit "-300"])) (file_specs ex_full_file) /\
  int_literal "-300" = Some (-300).
Proof. split; [vm_compute; auto 12|vm_compute; reflexivity]. Qed.

(** * C40: REAL values are emitted as Go expressions *)

(** False: the infinities are printed as +Inf and -Inf. *)
Theorem C40_real_literals_refuted : exists m, forall U fmt p fuel,
  assignments m = [AValue "inf" TReal (VReal (S754_infinity false))] /\
  exists f, Generate U fmt p fuel m = Ok (GenOk f) /\
    flat_map (fun s => match s with ValueSpec _ _ e => [e] | _ => [] end) (file_specs f) = [EBasicLit "+Inf"] /\
    go_number "+Inf" = false.
Proof.
  exists (ex_module TAGS_EXPLICIT [AValue "inf" TReal (VReal (S754_infinity false))]). intros U fmt p fuel.
  split; [reflexivity|]. eexists. split; [reflexivity|]. split; [reflexivity|vm_compute; reflexivity].
Qed.
Print Assumptions C40_real_literals_refuted.

(** Finite values, if fmt.Sprint writes finite floats as Go writes them.  Missing: the
    infinities and NaN. *)
Theorem C40_real_literals_partial : forall U fmt p fuel m f,
  (forall x, is_finite x -> go_number (fmt x) = true) ->
  Generate U fmt p fuel m = Ok (GenOk f) ->
  variables U (assignments m) (integer_repr p) (fun x s => is_finite x -> go_number s = true) f.
Proof.
  intros U fmt p fuel m f Hf H. eapply variables_impl; [|eapply file_variables; exact H].
  cbv beta. intros x s -> Hx. destruct x; try contradiction; apply Hf; exact Hx.
Qed.
Print Assumptions C40_real_literals_partial.

Example C40_example :
  (forall x, is_finite x -> go_number (ex_fmt x) = true) /\ go_number "1.5" = true /\ go_number "-1e+21" = true /\ go_number "1e" = false /\
  exists f, gen_ ex_params (ex_module TAGS_EXPLICIT [AValue "pi" TReal (VReal (S754_finite false 3 (-1)))]) = Ok (GenOk f) /\
    In (ValueSpec "ValPi" (EIdent "float64") (EBasicLit "1.5")) (file_specs f).
Proof.
  split; [intros; reflexivity|]. split; [reflexivity|]. split; [reflexivity|]. split; [reflexivity|].
  eexists. split; [vm_compute; reflexivity|]. vm_compute. auto.
Qed.

(** * C47: unsupported constructs are errors *)

(** [u] has something in it that the generator cannot express: it is a NULL or a
    reference to nothing, or it has COMPONENTS OF, or a component with a tag number
    given by reference. *)
Definition unsupported (asg : list Assignment_) (u : AType_) : Prop :=
  u = TNull \/
  (exists r, u = TReference r /\ ~ resolvable asg r) \/
  (exists l, has_components u l /\
     ((exists t, In (CComponentsOf t) l) \/
      (exists n t o d x, In (CNamed (Named n t) o d) l /\ In x (tags_of t) /\ forall k, tag_ClassNumber (fst x) <> VNumber k))).

(** At any depth of components, elements and only alternatives.  Missing: what is
    below the alternatives of a CHOICE with several, and the tag of an element. *)
Theorem C47_unsupported_partial : forall U fmt p fuel m n t u f,
  In (AType n t) (assignments m) -> visible (assignments m) t u -> unsupported (assignments m) u ->
  Generate U fmt p fuel m <> Ok (GenOk f).
Proof.
  intros U fmt p fuel m n t u f Hi Hv Hu H.
  destruct (proj1 (Generate_success _ _ _ _ _ _ H) (ex_intro _ f eq_refl)) as [_ HA].
  rewrite Forall_forall in HA. destruct (HA _ Hi) as [Hs _]. apply (visible_supported _ _ _ _ _ Hv) in Hs.
  destruct Hu as [->|[(r & -> & Hr)|(l & (c & x & El & Eu) & Hl)]].
  - inversion Hs.
  - inversion Hs; subst. contradiction.
  - assert (Hc : comps_ok (md_TagDefault m) (assignments m) (integer_repr p) l)
      by (destruct Eu as [->| ->]; inversion Hs; subst; assumption).
    destruct Hl as [(t' & Ht')|(k & t' & o & d & y & Hk & Hy & Hn)].
    + eapply comps_no_of; eassumption.
    + destruct (comps_in _ _ _ _ Hc _ _ _ _ Hk) as [_ Ht]. unfold tags_ok in Ht. rewrite Forall_forall in Ht.
      destruct (Ht _ Hy) as [[z Hz] _]. exact (Hn _ Hz).
Qed.
Print Assumptions C47_unsupported_partial.

Example C47_example :
  let t := TSetOf (TSequence [comp "a" TBoolean] [comp "b" (TSequenceOf TNull)]) : AType_ in
  visible [AType "A" t] t TNull /\ unsupported [AType "A" t] TNull /\
  gen_ ex_params (ex_module TAGS_EXPLICIT [AType "A" t]) = Ok (GenErr [ErrUnsupportedType TNull]).
Proof.
  cbv zeta. split; [|split; [now left|vm_compute; reflexivity]].
  apply vi_set_of. eapply vi_sequence with (n := "b"); [cbn; right; left; reflexivity|]. apply vi_sequence_of. constructor.
Qed.

(** False of the rest: what the alternatives of a CHOICE are is not looked at, and the
    tags of the element type of a SEQUENCE OF are not either. *)
Theorem C47_choice_refuted : exists U fmt p fuel m f,
  assignments m = [AType "A" (TSequence [comp "x" (TChoice [Named "a" TNull; Named "b" TBoolean] [])] [])] /\
  Generate U fmt p fuel m = Ok (GenOk f).
Proof.
  exists ascii_tables, ex_fmt, ex_params, 10%nat,
    (ex_module TAGS_EXPLICIT [AType "A" (TSequence [comp "x" (TChoice [Named "a" TNull; Named "b" TBoolean] [])] [])]).
  eexists. split; [reflexivity|vm_compute; reflexivity].
Qed.
Print Assumptions C47_choice_refuted.

Theorem C47_element_tag_refuted : exists U fmt p fuel m f tag k,
  tag_ClassNumber tag = VDefined k /\
  assignments m = [AType "A" (TSequence [comp "x" (TSequenceOf (TTagged tag TBoolean 0 false))] [])] /\
  Generate U fmt p fuel m = Ok (GenOk f).
Proof.
  set (k := {| dv_ModuleName := ""; dv_ValueName := "n" |}).
  exists ascii_tables, ex_fmt, ex_params, 10%nat,
    (ex_module TAGS_EXPLICIT [AType "A" (TSequence [comp "x" (TSequenceOf (TTagged {| tag_Class := CLASS_CONTEXT_SPECIFIC; tag_ClassNumber := VDefined k |} TBoolean 0 false))] [])]).
  eexists. exists {| tag_Class := CLASS_CONTEXT_SPECIFIC; tag_ClassNumber := VDefined k |}, k.
  split; [reflexivity|]. split; [reflexivity|vm_compute; reflexivity].
Qed.
Print Assumptions C47_element_tag_refuted.

(** * C50: tags follow their keyword, else the module's tag default *)

(** The field's tag makes it explicitly tagged exactly if one of the tags written on
    the component is explicit. *)
Definition same_mode (td : Z) (c : component Value DefinedValue) (fd : gofield) : Prop :=
  match c, fd with
  | CNamed (Named _ t) _ d, Field _ _ tag =>
      Forall (fun x => forall k, tag_ClassNumber (fst x) = VNumber k -> int64 k) (tags_of t) ->
      (forall k, d = Some (VNumber k) -> int64 k) ->
      exists fp, tag_params tag fp /\
        (fp_explicit fp = true <-> Exists (fun x => effective td (snd x) = TAGS_EXPLICIT) (tags_of t))
  | _, _ => False
  end.

Theorem C50_tag_mode : forall U fmt p fuel m f,
  Generate U fmt p fuel m = Ok (GenOk f) ->
  generated U (assignments m) f (fun n t d e => mirrors (same_mode (md_TagDefault m)) t e).
Proof.
  intros. eapply file_mirrors; [eassumption|]. intros n t o d e b tag s s1 s2 _ Ht He Hn Hd.
  eapply tagOf_explicit; eassumption.
Qed.
Print Assumptions C50_tag_mode.

Example C50_example :
  let t b := TTagged (ex_tag CLASS_CONTEXT_SPECIFIC 1) TBoolean TAGS_IMPLICIT b : AType_ in
  exists f, gen_ ex_params (ex_module TAGS_EXPLICIT [AType "A" (TSequence [comp "x" (t false); comp "y" (t true)] [])]) = Ok (GenOk f) /\
  file_specs f = [TypeSpec "A" false (EStruct [Field "X" (EIdent "bool") (Some (tag_source "explicit,tag:1"));
                                               Field "Y" (EIdent "bool") (Some (tag_source "tag:1"))])].
Proof. eexists. split; vm_compute; reflexivity. Qed.

(** * C52: each ASN.1 type is generated as its documented Go type *)

Theorem C52_type_mapping : forall U fmt p fuel m f,
  Generate U fmt p fuel m = Ok (GenOk f) ->
  generated U (assignments m) f (fun n t d e => go_type U (assignments m) (integer_repr p) t e).
Proof. exact file_go_type. Qed.
Print Assumptions C52_type_mapping.

Example C52_example :
  In (TypeSpec "Alt" true EInterface) (file_specs ex_full_file) /\
  go_type ascii_tables (assignments ex_full) "big.Int" (TSequenceOf (TReference "Flags")) (EArray (EIdent "asn1.BitString")).
Proof.
  split; [vm_compute; auto 20|]. constructor. eapply gt_ref_bits with (m := "Flags") (t := TBitString []).
  - exists (Some (TBitString [])). split; [apply leaf_here; [constructor|discriminate]|left; split; [reflexivity|discriminate]].
  - intros [H|H]; discriminate.
  - reflexivity.
Qed.

(** * C53: Generate succeeds on exactly the supported modules *)

Theorem C53_supported : forall U fmt p m,
  ~ circular (assignments m) ->
  ((exists f, forall fuel, (length (assignments m) < fuel)%nat -> Generate U fmt p fuel m = Ok (GenOk f)) <->
   md_TagDefault m <> TAGS_AUTOMATIC /\
   Forall (assignment_ok (md_TagDefault m) (assignments m) (integer_repr p)) (assignments m)).
Proof.
  intros U fmt p m HC. destruct (Generate_returns U fmt p m HC) as (r & Hr).
  pose proof (Generate_success _ _ _ _ _ _ (Hr _ (Nat.lt_succ_diag_r _))) as S1. split.
  - intros (f & Hf). apply S1. exists f. specialize (Hf _ (Nat.lt_succ_diag_r _)). rewrite (Hr _ (Nat.lt_succ_diag_r _)) in Hf. congruence.
  - intro H. apply S1 in H as (f & ->). exists f. exact Hr.
Qed.
Print Assumptions C53_supported.

Example C53_example :
  assignment_ok TAGS_EXPLICIT [] "int64" (AType "A" (TSequence [comp "x" (TSequenceOf TReal)] [])) /\
  ~ assignment_ok TAGS_EXPLICIT [] "int64" (AType "A" (TSequence [comp "x" (TReference "B")] [])) /\
  ~ assignment_ok TAGS_EXPLICIT [] "int32" (AType "A" (TInteger [])).
Proof.
  split; [|split].
  - split; [repeat constructor|]. intros l n d H. discriminate.
  - intros [H _]. inversion H as [| | | | | | | | | | | | | |c x Hc| | |]; subst. inversion Hc as [|n t o d l Ht|]; subst.
    inversion Ht as [| | | | | | | | | | | | | | | |n (k & t & o & Hl & Ho)|]; subst.
    inversion Hl as [q Hq|q u Hq|q u q' l' o' Hq]; subst; try (inversion Hq).
    destruct Ho as [[E _]|[_ [E _]]]; discriminate.
  - intros [H _]. inversion H as [|l [E|E]| | | | | | | | | | | | | | | |]; discriminate.
Qed.
