(** Property C89: the values, specified in [WrittenValues.v]. *)
From Coq Require Import ZArith String List Bool Lia SpecFloat Permutation.
From Verif Require Import GoBase Utf8 Unicode Tokens Tables Ast RealNum Lexer LexRuns LexSpec LexWords LexProps Grammar Parser ParserFacts ParserRuns
  Render AstInd AstFacts
  Words Forgotten ForgottenFacts Conflicts Numbers NumbersFacts WrittenValues WrittenValuesFacts PropsWords PropsNumbers.
Import ListNotations.
Local Open Scope string_scope.
Local Open Scope list_scope.
Local Open Scope Z_scope.

(** * C89: every value of the tree is the one that the text writes in its place *)

(** Each assigned value has, under its name, the value written behind its "::="; each
    single value in a constraint is the one written there; and each range goes from the
    value in front of its ".." to the one behind it, an end that is MIN or MAX having none.
    None is added and, outside of the constructs that leave no trace, none is lost.  [T] is
    the derivation tree that the parser follows. *)
Theorem C89_values_partial : forall U s m ts, parses U s (ParseOk (Some m)) -> reads_all U s ts ->
  exists T m', yields T (Nt N_ModuleDefinition (S_module m')) /\ kept 0 0 T = true /\ leaves T = ts /\ shape m' = shape m /\
    (existsb traceless ts = false -> remembered T = T) /\
    Permutation (written_values (remembered T)) (module_values m).
Proof.
  intros U s m ts P R. destruct (followed U s m ts P R) as (T & m' & Y & K & L & Sh & _). exists T, m'.
  repeat split; auto; [subst ts; exact (remembered_all T _ Y)|].
  rewrite <- (shape_values m' m Sh). apply module_values_all; [exact Y| |exact K]. rewrite L. exact (token_range U s ts R).
Qed.
Print Assumptions C89_values_partial.

Definition c89_text : string :=
  "M DEFINITIONS ::= BEGIN
   five INTEGER ::= 5
   less INTEGER ::= -7
   half REAL ::= -0.5
   none REAL ::= PLUS-INFINITY
   yes BOOLEAN ::= TRUE
   same INTEGER ::= five
   id OBJECT IDENTIFIER ::= { iso 3 member(2) node(five) }
   Small ::= INTEGER (MIN<..-2 | 4 | five..9)
   List ::= SEQUENCE SIZE (1..MAX) OF INTEGER (0)
   END".
Definition c89_module : Module_ := Eval vm_compute in
  match ParseString ascii_tables 1000 c89_text with Ok (ParseOk (Some m)) => m | _ => Build_ModuleDefinition _ _ (Build_ModuleIdentifier "" []) 0 false (Build_ModuleBody _ _ [] []) end.

Example C89_example : exists ts,
  parses ascii_tables c89_text (ParseOk (Some c89_module)) /\ reads_all ascii_tables c89_text ts /\ existsb traceless ts = false /\
  module_values c89_module =
    [Assigned "five" (SaidNumber 5); Assigned "less" (SaidNumber (-7));
     Assigned "half" (SaidReal (S754_finite true (2 ^ 52) (-53))); Assigned "none" (SaidReal (S754_infinity false));
     Assigned "yes" (SaidBoolean true); Assigned "same" (SaidName "five");
     Assigned "id" (SaidObject [("", 0, true); ("", 3, false); ("member", 2, false); ("node", 0, true)]);
     Between SaidNothing (SaidNumber (-2)); Allowed (SaidNumber 4); Between (SaidName "five") (SaidNumber 9);
     Allowed (SaidNumber 0); Between (SaidNumber 1) SaidNothing].
Proof.
  eexists. split; [apply (ParseString_parses _ 1000); vm_compute; reflexivity|].
  split; [read_all|]. split; vm_compute; reflexivity.
Qed.

(** The value in an exception is read and forgotten. *)
Theorem C89_values_refuted : exists s ts m,
  parses ascii_tables s (ParseOk (Some m)) /\ reads_all ascii_tables s ts /\
  In 77 (map tk_number ts) /\ module_values m = [Between (SaidNumber 1) (SaidNumber 5)].
Proof.
  eexists "M DEFINITIONS ::= BEGIN T ::= INTEGER (1..5, ... ! INTEGER : 77) END", _, _.
  split; [apply (ParseString_parses _ 1000); vm_compute; reflexivity|].
  split; [read_all|]. split; [|vm_compute; reflexivity].
  vm_compute. repeat (first [left; reflexivity|right]).
Qed.
Print Assumptions C89_values_refuted.
