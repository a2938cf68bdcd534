(** Property C87: the lists of items in braces, specified in [ItemLists.v]. *)
From Coq Require Import ZArith String List Bool Lia Permutation.
From Verif Require Import GoBase Utf8 Unicode Tokens Tables Ast Lexer LexRuns LexSpec LexWords LexProps Grammar Parser ParserFacts ParserRuns
  Render AstInd AstFacts
  Words Forgotten ForgottenFacts Conflicts Numbers NumbersFacts ItemLists ItemListsFacts PropsWords PropsNumbers.
Import ListNotations.
Local Open Scope string_scope.
Local Open Scope list_scope.
Local Open Scope Z_scope.

(** * C87: the items of lists are those of the text, in their order *)

(** The named numbers of every INTEGER, the items of every ENUMERATED, the named bits of
    every BIT STRING and the alternatives of every CHOICE of the tree are those written in
    the text outside of the constructs that leave no trace: in the order of the text, each
    with the number or value in round brackets behind its name, those behind "..." apart.
    [T] is the derivation tree that the parser follows. *)
Theorem C87_items_partial : forall U s m ts, parses U s (ParseOk (Some m)) -> reads_all U s ts ->
  exists T m', yields T (Nt N_ModuleDefinition (S_module m')) /\ kept 0 0 T = true /\ leaves T = ts /\ shape m' = shape m /\
    (existsb traceless ts = false -> remembered T = T) /\
    Permutation (written_lists (remembered T)) (module_lists m).
Proof.
  intros U s m ts P R. destruct (followed U s m ts P R) as (T & m' & Y & K & L & Sh & _). exists T, m'.
  repeat split; auto; [subst ts; exact (remembered_all T _ Y)|].
  rewrite <- (shape_lists m' m Sh). apply module_lists_all; [exact Y|]. rewrite L. exact (token_range U s ts R).
Qed.
Print Assumptions C87_items_partial.

Definition c87_text : string :=
  "M DEFINITIONS ::= BEGIN
   Level ::= INTEGER { low(-5), high(9), top(max), other(Other.last) }
   Colour ::= ENUMERATED { red(3), green, blue(1) }
   Thing ::= CHOICE { kind BIT STRING { b(0), a(7) }, both CHOICE { y NULL, x NULL }, ..., more Level }
   END".
Definition c87_module : Module_ := Eval vm_compute in
  match ParseString ascii_tables 1000 c87_text with Ok (ParseOk (Some m)) => m | _ => Build_ModuleDefinition _ _ (Build_ModuleIdentifier "" []) 0 false (Build_ModuleBody _ _ [] []) end.

Example C87_example : exists ts,
  parses ascii_tables c87_text (ParseOk (Some c87_module)) /\ reads_all ascii_tables c87_text ts /\ existsb traceless ts = false /\
  module_lists c87_module =
    [Listing T_INTEGER
       [("low", Numbered (-5)); ("high", Numbered 9);
        ("top", Valued {| dv_ModuleName := ""; dv_ValueName := "max" |});
        ("other", Valued {| dv_ModuleName := "Other"; dv_ValueName := "last" |})] [];
     Listing T_ENUMERATED [("red", Numbered 3); ("green", Bare); ("blue", Numbered 1)] [];
     Listing T_CHOICE [("kind", Bare); ("both", Bare)] [("more", Bare)];
     Listing T_BIT [("b", Numbered 0); ("a", Numbered 7)] [];
     Listing T_CHOICE [("y", Bare); ("x", Bare)] []].
Proof.
  eexists. split; [apply (ParseString_parses _ 1000); vm_compute; reflexivity|].
  split; [read_all|]. split; vm_compute; reflexivity.
Qed.

(** An enumeration in an exception is read and forgotten. *)
Theorem C87_items_refuted : exists s ts m,
  parses ascii_tables s (ParseOk (Some m)) /\ reads_all ascii_tables s ts /\
  In T_ENUMERATED (map tk_kind ts) /\ module_lists m = [].
Proof.
  eexists "M DEFINITIONS ::= BEGIN T ::= INTEGER (1..5, ... ! ENUMERATED { a(1), b(2) } : a) END", _, _.
  split; [apply (ParseString_parses _ 1000); vm_compute; reflexivity|].
  split; [read_all|]. split; [|vm_compute; reflexivity].
  vm_compute. repeat (first [left; reflexivity|right]).
Qed.
Print Assumptions C87_items_refuted.
