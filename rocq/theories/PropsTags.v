(** Property C84: tags, specified in [WrittenTags.v]. *)
From Coq Require Import ZArith String List Bool Lia Permutation.
From Verif Require Import GoBase Utf8 Unicode Tokens Tables Ast Lexer LexRuns LexSpec LexWords LexProps Grammar Parser ParserFacts ParserRuns
  Render AstInd AstFacts
  Words Forgotten ForgottenFacts Conflicts WrittenTags WrittenTagsFacts PropsWords PropsNumbers.
Import ListNotations.
Local Open Scope string_scope.
Local Open Scope list_scope.
Local Open Scope Z_scope.

(** * C84: tags are those of the text *)

(** The tags of the tree are those written in the text outside of the constructs that
    leave no trace: each with its class, its number, IMPLICIT or EXPLICIT if one of them
    stands behind it, and on the type that follows it.  [T] is the derivation tree that
    the parser follows. *)
Theorem C84_tags_partial : forall U s m ts, parses U s (ParseOk (Some m)) -> reads_all U s ts ->
  exists T m', yields T (Nt N_ModuleDefinition (S_module m')) /\ kept 0 0 T = true /\ leaves T = ts /\ shape m' = shape m /\
    (existsb traceless ts = false -> outside T = ts) /\
    Permutation (text_tags (outside T)) (module_tags m).
Proof.
  intros U s m ts P R. destruct (followed U s m ts P R) as (T & m' & Y & K & L & Sh & _). exists T, m'.
  repeat split; auto; [subst ts; exact (outside_all T _ Y)|].
  rewrite <- (shape_tags m' m Sh). now apply module_tags_all.
Qed.
Print Assumptions C84_tags_partial.

Definition c84_text : string :=
  "M DEFINITIONS IMPLICIT TAGS ::= BEGIN
   T ::= [APPLICATION 7] SEQUENCE {
     a [0] EXPLICIT INTEGER (0..5), b [1] IMPLICIT [PRIVATE kind] Name OPTIONAL, ..., c [UNIVERSAL 24] GeneralizedTime }
   U ::= CHOICE { x [2] SET (SIZE (1)) OF [M.other] NULL }
   END".
Definition c84_module : Module_ := Eval vm_compute in
  match ParseString ascii_tables 1000 c84_text with Ok (ParseOk (Some m)) => m | _ => Build_ModuleDefinition _ _ (Build_ModuleIdentifier "" []) 0 false (Build_ModuleBody _ _ [] []) end.

Example C84_example : exists ts,
  parses ascii_tables c84_text (ParseOk (Some c84_module)) /\ reads_all ascii_tables c84_text ts /\ existsb traceless ts = false /\
  text_tags ts = module_tags c84_module /\
  module_tags c84_module =
    [(Stamp CLASS_APPLICATION (ByNumber 7) None, OnWord T_SEQUENCE);
     (Stamp CLASS_CONTEXT_SPECIFIC (ByNumber 0) (Some TAGS_EXPLICIT), OnWord T_INTEGER);
     (Stamp CLASS_CONTEXT_SPECIFIC (ByNumber 1) (Some TAGS_IMPLICIT),
       OnTag (Stamp CLASS_PRIVATE (ByValue {| dv_ModuleName := ""; dv_ValueName := "kind" |}) None));
     (Stamp CLASS_PRIVATE (ByValue {| dv_ModuleName := ""; dv_ValueName := "kind" |}) None, OnName "Name");
     (Stamp CLASS_UNIVERSAL (ByNumber 24) None, OnName "GeneralizedTime");
     (Stamp CLASS_CONTEXT_SPECIFIC (ByNumber 2) None, OnWord T_SET);
     (Stamp CLASS_CONTEXT_SPECIFIC (ByValue {| dv_ModuleName := "M"; dv_ValueName := "other" |}) None, OnWord T_NULL)].
Proof.
  eexists. split; [apply (ParseString_parses _ 1000); vm_compute; reflexivity|].
  split; [read_all|]. split; [vm_compute; reflexivity|]. split; vm_compute; reflexivity.
Qed.

(** A tag in an exception is read and forgotten. *)
Theorem C84_tags_refuted : exists s ts m,
  parses ascii_tables s (ParseOk (Some m)) /\ reads_all ascii_tables s ts /\
  text_tags ts = [(Stamp CLASS_CONTEXT_SPECIFIC (ByNumber 3) None, OnWord T_INTEGER)] /\ module_tags m = [].
Proof.
  eexists "M DEFINITIONS ::= BEGIN T ::= INTEGER (1..5, ... ! [3] INTEGER : 4) END", _, _.
  split; [apply (ParseString_parses _ 1000); vm_compute; reflexivity|].
  split; [read_all|]. split; vm_compute; reflexivity.
Qed.
Print Assumptions C84_tags_refuted.
