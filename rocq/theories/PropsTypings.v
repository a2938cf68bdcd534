(** Property C88: what has which type, specified in [Typings.v]. *)
From Coq Require Import ZArith String List Bool Lia Permutation.
From Verif Require Import GoBase Utf8 Unicode Tokens Tables Ast Lexer LexRuns LexSpec LexWords LexProps Grammar Parser ParserFacts ParserRuns
  Render AstInd AstFacts
  Words Forgotten ForgottenFacts Conflicts Numbers NumbersFacts WrittenTags WrittenTagsFacts Typings TypingsFacts PropsWords PropsNumbers.
Import ListNotations.
Local Open Scope string_scope.
Local Open Scope list_scope.
Local Open Scope Z_scope.

(** * C88: every name of the tree has the type that the text gives it *)

(** Each assigned type, assigned value, component and alternative of the tree has, under
    its name, a type that starts as in the text: with the same tag, type name or word; so
    have the elements of each SEQUENCE OF and SET OF, each COMPONENTS OF and each type in a
    constraint.  None is added and, outside of the constructs that leave no trace, none is
    lost.  [T] is the derivation tree that the parser follows. *)
Theorem C88_types_partial : forall U s m ts, parses U s (ParseOk (Some m)) -> reads_all U s ts ->
  exists T m', yields T (Nt N_ModuleDefinition (S_module m')) /\ kept 0 0 T = true /\ leaves T = ts /\ shape m' = shape m /\
    (existsb traceless ts = false -> remembered T = T) /\
    Permutation (written_typings (remembered T)) (module_typings m).
Proof.
  intros U s m ts P R. destruct (followed U s m ts P R) as (T & m' & Y & K & L & Sh & _). exists T, m'.
  repeat split; auto; [subst ts; exact (remembered_all T _ Y)|].
  rewrite <- (shape_typings m' m Sh). apply module_typings_all; [exact Y|]. rewrite L. exact (token_range U s ts R).
Qed.
Print Assumptions C88_types_partial.

Definition c88_text : string :=
  "M DEFINITIONS ::= BEGIN
   Names ::= SEQUENCE OF Name
   Bag ::= [3] SET { a [0] INTEGER, b BOOLEAN OPTIONAL, COMPONENTS OF Names, c SET SIZE (1..2) OF OCTET STRING }
   Pick ::= CHOICE { x Bag, y REAL, ..., z INTEGER (Small) }
   five INTEGER ::= 5
   END".
Definition c88_module : Module_ := Eval vm_compute in
  match ParseString ascii_tables 1000 c88_text with Ok (ParseOk (Some m)) => m | _ => Build_ModuleDefinition _ _ (Build_ModuleIdentifier "" []) 0 false (Build_ModuleBody _ _ [] []) end.

Example C88_example : exists ts,
  parses ascii_tables c88_text (ParseOk (Some c88_module)) /\ reads_all ascii_tables c88_text ts /\ existsb traceless ts = false /\
  module_typings c88_module =
    [(TypeCalled "Names", OnWord T_SEQUENCE); (ElementsOf false, OnName "Name");
     (TypeCalled "Bag", OnTag {| st_class := 0; st_number := ByNumber 3; st_mode := None |});
     (FieldCalled "a", OnTag {| st_class := 0; st_number := ByNumber 0; st_mode := None |});
     (FieldCalled "b", OnWord T_BOOLEAN); (TheComponentsOf, OnName "Names");
     (FieldCalled "c", OnWord T_SET); (ElementsOf true, OnWord T_OCTET);
     (TypeCalled "Pick", OnWord T_CHOICE); (FieldCalled "x", OnName "Bag");
     (FieldCalled "y", OnWord T_REAL); (FieldCalled "z", OnWord T_INTEGER);
     (Constraining, OnName "Small"); (ValueCalled "five", OnWord T_INTEGER)].
Proof.
  eexists. split; [apply (ParseString_parses _ 1000); vm_compute; reflexivity|].
  split; [read_all|]. split; vm_compute; reflexivity.
Qed.

(** A type in an exception is read and forgotten. *)
Theorem C88_types_refuted : exists s ts m,
  parses ascii_tables s (ParseOk (Some m)) /\ reads_all ascii_tables s ts /\
  In T_SEQUENCE (map tk_kind ts) /\ module_typings m = [(TypeCalled "T", OnWord T_INTEGER)].
Proof.
  eexists "M DEFINITIONS ::= BEGIN T ::= INTEGER (1..5, ... ! SEQUENCE { a NULL } : x) END", _, _.
  split; [apply (ParseString_parses _ 1000); vm_compute; reflexivity|].
  split; [read_all|]. split; [|vm_compute; reflexivity].
  vm_compute. repeat (first [left; reflexivity|right]).
Qed.
Print Assumptions C88_types_refuted.
