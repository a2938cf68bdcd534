(** Properties C57 and C58, and C31 for texts: the names in generated code.
    [declared_names] is in [NamesGen.v], the rest of the vocabulary in
    [CodegenSpec.v]. *)
From Coq Require Import ZArith String Ascii List Bool Lia SpecFloat.
From Verif Require Import GoBase Unicode Tokens Ast Grammar Parser ParserFacts ParserRuns GoAst Codegen CodegenSpec CodegenDecl CodegenNames
  NamesFacts NamesGen GoifyFacts PropsCodegen.
Import ListNotations.
Local Open Scope string_scope.
Local Open Scope list_scope.
Local Open Scope Z_scope.

(** A text in ASCII. *)
Definition ascii_text (s : string) : Prop := Forall (fun b => b < 128) (bytes_of_string s).

(** A text the theorems below speak about. *)
Definition c58_text : string :=
  "My-Module DEFINITIONS ::= BEGIN Point-2D ::= SET { x-axis INTEGER, y-axis SEQUENCE { lo REAL } OPTIONAL } Kind ::= INTEGER { first-one(1) } top Kind ::= 7 END".

Lemma c58_ascii : ascii_text c58_text.
Proof. unfold ascii_text. apply Forall_forall. intros b I. vm_compute in I. repeat (destruct I as [<-|I]; [reflexivity|]). destruct I. Qed.

(** * C57: the package clause *)

(** The package is the requested one; without a request the module's reference with
    underscores for hyphens, which is a Go identifier. *)
Theorem C57_package : forall U fmt p fuel m f, Generate U fmt p fuel m = Ok (GenOk f) ->
  (gp_Package p <> "" -> gf_name f = gp_Package p) /\
  (gp_Package p = "" -> forall s, parses U s (ParseOk (Some m)) -> ascii_text s ->
     list_ascii_of_string (gf_name f) =
       map (fun c => if Ascii.eqb c "-" then "_"%char else c) (list_ascii_of_string (mi_Reference (md_ModuleIdentifier m))) /\
     exported_identifier (gf_name f)).
Proof.
  intros U fmt p fuel m f G.
  assert (E : gf_name f = if String.eqb (gp_Package p) "" then goifyName U (mi_Reference (md_ModuleIdentifier m)) else gp_Package p).
  { unfold Generate, GenerateWith in G. destruct (md_TagDefault m =? TAGS_AUTOMATIC); [discriminate|].
    assert (K : gp_Package (NewCodeGenerator p) = gp_Package p) by (clear G; unfold NewCodeGenerator; destruct (String.eqb (gp_IntegerRepr p) ""); reflexivity).
    rewrite K in G. unfold rbind in G. destruct (generateDeclarations _ _ _ _ _ _ _ _) as [[ds st]| |]; try discriminate.
    destruct (gs_errors st); [|discriminate]. injection G as <-. reflexivity. }
  rewrite E. split; intros H.
  - destruct (String.eqb_spec (gp_Package p) ""); [contradiction|reflexivity].
  - intros s P A. rewrite H. cbn [String.eqb]. pose proof (ascii_module U s m P A) as N. inversion_clear N as [|? ? N1 _].
    split; [|exact (named_exported U _ _ N1)]. rewrite (goify_type_name U (mi_Reference (md_ModuleIdentifier m)) N1). generalize (mi_Reference (md_ModuleIdentifier m)).
    induction s0 as [|c s0 IH]; [reflexivity|]. cbn [replace_hyphen list_ascii_of_string map]. now rewrite IH.
Qed.
Print Assumptions C57_package.

Example C57_example : ascii_text c58_text /\ exists m f g, parses ascii_tables c58_text (ParseOk (Some m)) /\
  gen_ {| gp_Package := "mine"; gp_IntegerRepr := IntegerReprInt64 |} m = Ok (GenOk f) /\ gf_name f = "mine" /\
  gen_ {| gp_Package := ""; gp_IntegerRepr := IntegerReprInt64 |} m = Ok (GenOk g) /\ gf_name g = "My_Module".
Proof.
  split; [exact c58_ascii|]. eexists _, _, _. split; [apply (ParseString_parses _ 1000); vm_compute; reflexivity|].
  split; [vm_compute; reflexivity|]. split; [reflexivity|]. split; [vm_compute; reflexivity|reflexivity].
Qed.

(** * C58: generated names are Go identifiers *)

(** From an accepted text in ASCII: every type, variable and struct field the generated
    code declares, at any depth, has the name of an exported Go identifier (so none is
    a keyword or blank). *)
Theorem C58_identifiers_partial : forall U fmt p fuel s m f,
  parses U s (ParseOk (Some m)) -> ascii_text s -> Generate U fmt p fuel m = Ok (GenOk f) ->
  Forall exported_identifier (declared_names f).
Proof. intros U fmt p fuel s m f P A G. exact (generated_names U fmt p fuel m f G (ascii_module U s m P A)). Qed.
Print Assumptions C58_identifiers_partial.

(** Missing: texts with other letters.  They may start a name with a letter that has no
    case, which makes it not exported. *)
Definition c58_zhong : string := "M DEFINITIONS ::= BEGIN T ::= SEQUENCE { " ++ zhong ++ " Kind } Kind ::= INTEGER END".

Theorem C58_identifiers_refuted : exists U fmt p fuel s m f n,
  parses U s (ParseOk (Some m)) /\ Generate U fmt p fuel m = Ok (GenOk f) /\ In n (declared_names f) /\
  ~ exported_runes U (map fst (Utf8.decode_all (bytes_of_string n))).
Proof.
  exists long_s_tables, ex_fmt, ex_params, 10%nat, c58_zhong. eexists _, _, zhong.
  split; [apply (ParseString_parses _ 1000); vm_compute; reflexivity|]. split; [vm_compute; reflexivity|].
  split; [vm_compute; auto|]. vm_compute. intros [H _]. discriminate.
Qed.
Print Assumptions C58_identifiers_refuted.

Example C58_example : ascii_text c58_text /\ exists m f, parses ascii_tables c58_text (ParseOk (Some m)) /\ gen_ ex_params m = Ok (GenOk f) /\
  gf_name f = "My_Module" /\ declared_names f = ["Point_2DSET"; "X_axis"; "Y_axis"; "Lo"; "Point_2D"; "Kind"; "KindValFirst_one"; "ValTop"].
Proof.
  split; [exact c58_ascii|].
  eexists _, _. split; [apply (ParseString_parses _ 1000); vm_compute; reflexivity|]. split; [vm_compute; reflexivity|].
  split; reflexivity.
Qed.

(** * C31 for texts *)

(** As C31_unique_names_partial, with what the lexer says about names. *)
Theorem C31_text_partial : forall U fmt p fuel s m f,
  parses U s (ParseOk (Some m)) -> ascii_text s -> Generate U fmt p fuel m = Ok (GenOk f) ->
  NoDup (flat_map asg_name (assignments m)) ->
  Forall (fun a =>
    match a with
    | AType n t => ~ val_inside n /\ ~ ends_with "SET" n /\ (forall l, strip t = TInteger l -> NoDup (map nn_Name l))
    | _ => True
    end) (assignments m) ->
  NoDup (top_names f).
Proof.
  intros U fmt p fuel s m f P A G N F. apply (C31_unique_names_partial U fmt p fuel m f G N).
  pose proof (ascii_module U s m P A) as Q. inversion_clear Q as [|? ? _ Q1]. rename Q1 into Q. apply Forall_forall. intros a I. rewrite Forall_forall in F, Q.
  specialize (F a I). assert (B : Forall ascii_named (assignment_names a)).
  { apply Forall_forall. intros x Ix. apply Q. apply in_flat_map. eauto. }
  destruct a as [|n t|n t v]; [exact Logic.I| |].
  - destruct F as (F1 & F2 & F3). inversion_clear B as [|? ? B1 B2]. split; [repeat split; try assumption; apply B1|].
    intros l St. split; [auto|]. rewrite <- strip_names, St in B2. apply Forall_map.
    change (Forall ascii_named (map (fun n => (false, nn_Name n)) l)) in B2. apply (proj1 (Forall_map _ _ _)) in B2. exact B2.
  - inversion_clear B as [|? ? B1 B2]. exact B1.
Qed.
Print Assumptions C31_text_partial.

Ltac not_inside H := let a := fresh "a" in let e := fresh "e" in
  first [destruct H as (a & ? & e & _) | destruct H as (a & e)];
  do 10 (destruct a as [|? a]; [discriminate e|first [discriminate e | injection e as _ e]]).

Example C31_text_example : ascii_text c58_text /\ exists m f, parses ascii_tables c58_text (ParseOk (Some m)) /\ gen_ ex_params m = Ok (GenOk f) /\
  flat_map asg_name (assignments m) = ["Point-2D"; "Kind"; "top"] /\
  Forall (fun a =>
    match a with
    | AType n t => ~ val_inside n /\ ~ ends_with "SET" n /\ (forall l, strip t = TInteger l -> NoDup (map nn_Name l))
    | _ => True
    end) (assignments m) /\
  top_names f = ["Point_2DSET"; "Point_2D"; "Kind"; "KindValFirst_one"; "ValTop"].
Proof.
  split; [exact c58_ascii|]. eexists _, _. split; [apply (ParseString_parses _ 1000); vm_compute; reflexivity|].
  split; [vm_compute; reflexivity|]. split; [reflexivity|]. split; [|reflexivity].
  repeat apply Forall_cons; [| |exact Logic.I|apply Forall_nil].
  - split; [intros H; not_inside H|]. split; [intros H; not_inside H|]. intros l H. discriminate H.
  - split; [intros H; not_inside H|]. split; [intros H; not_inside H|]. intros l H. injection H as <-.
    repeat constructor. intros [].
Qed.
