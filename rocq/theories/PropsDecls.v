(** Property C90: from the text to the Go declarations, specified in [DeclText.v]. *)
From Coq Require Import ZArith String List Bool Lia Permutation.
From Verif Require Import GoBase Utf8 Unicode Tokens Tables Ast Lexer LexRuns LexSpec LexWords LexProps Grammar Parser ParserFacts ParserRuns
  Render AstInd AstFacts GoAst Codegen CodegenSpec CodegenShape
  Words Forgotten ForgottenFacts Conflicts Numbers NumbersFacts ItemLists WrittenValues Parts PartsFacts DeclText DeclTextFacts
  PropsWords PropsNumbers PropsParts PropsCodegen.
Import ListNotations.
Local Open Scope string_scope.
Local Open Scope list_scope.
Local Open Scope Z_scope.

(** * C90: the Go file has, in the order of the text, the declarations of its assignments *)

(** The generated file consists of imports and of one group of declarations for each
    assignment of the text, in the order of the text: for "Name ::= type" the declaration
    of a type of that name, with variables for the named numbers written there if it is an
    INTEGER; for "name type ::= value" a variable of that name and of the value that is
    written, if that is a number, a boolean or a REAL.  [As] are the phrases of the
    assignments; [module_text] cuts the text into its parts (C85). *)
Theorem C90_declarations : forall U s m ts fmt p fuel f,
  parses U s (ParseOk (Some m)) -> reads_all U s ts -> Generate U fmt p fuel m = Ok (GenOk f) ->
  exists imports As imps groups, module_text ts m imports As /\
    gf_decls f = imps ++ concat groups /\ Forall is_import imps /\
    Forall2 (fun A g => type_from U (integer_repr p) A g \/ value_from U (integer_repr p) A g) As groups.
Proof.
  intros U s m ts fmt p fuel f P R G. destruct (cut U s m ts P R) as (m' & imports & As & Sh & _ & M & _ & Ap & Cl).
  destruct (file_made U fmt p fuel m f G) as (imps & groups & Ef & Im & Mk). exists imports, As, imps, groups.
  split; [exact M|]. split; [exact Ef|]. split; [exact Im|].
  assert (E : map (amap (fun _ => tt) (fun _ => tt)) (mb_AssignmentList (md_ModuleBody m')) =
      map (amap (fun _ => tt) (fun _ => tt)) (mb_AssignmentList (md_ModuleBody m))).
  { destruct m as [? ? ? []], m' as [? ? ? []]. now injection Sh as _ _ _ E1 _. }
  assert (Ap' : Forall2 (fun A a => Forall clean (leaves A) /\ (yields A (Nt N_Assignment (S_Assignment a)) /\ (exists up next, kept up next A = true) /\
      assignment_text (leaves A) a)) As (mb_AssignmentList (md_ModuleBody m'))).
  { refine (phrases_weaken _ _ _ _ _ Ap). intros A a IA X. rewrite Forall_forall in Cl. auto. }
  clear -Ap' E Mk. revert E Mk Ap'. generalize (mb_AssignmentList (md_ModuleBody m')), (mb_AssignmentList (md_ModuleBody m)).
  intros la' la E Mk Ap'. revert la groups E Mk. induction Ap' as [|A a' As la' (C & Y & K & Tx) _ IH]; intros [|a la] groups E Mk; try discriminate E;
    inversion Mk; subst; [constructor|]. cbn [map] in E. injection E as E1 E2. constructor; [|eapply IH; eassumption].
  eapply made_from; eassumption.
Qed.
Print Assumptions C90_declarations.

Definition c90_text : string :=
  "M DEFINITIONS ::= BEGIN
   big-one INTEGER ::= -17
   Level ::= [2] INTEGER { low(-5), top(big-one) } (0..9)
   yes BOOLEAN ::= TRUE
   same Level ::= yes
   Names ::= SEQUENCE OF Level
   END".
Definition c90_module : Module_ := Eval vm_compute in
  match ParseString ascii_tables 1000 c90_text with Ok (ParseOk (Some m)) => m | _ => Build_ModuleDefinition _ _ (Build_ModuleIdentifier "" []) 0 false (Build_ModuleBody _ _ [] []) end.

Example C90_example : exists ts f,
  parses ascii_tables c90_text (ParseOk (Some c90_module)) /\ reads_all ascii_tables c90_text ts /\
  Generate ascii_tables ex_fmt ex_params 10 c90_module = Ok (GenOk f) /\
  map gd_specs (gf_decls f) =
    [[ValueSpec "ValBig_one" (EIdent "int64") (EBasicLit "-17")];
     [TypeSpec "Level" true (EIdent "int64")];
     [ValueSpec "LevelValLow" (EIdent "Level") (EBasicLit "-5"); ValueSpec "LevelValTop" (EIdent "Level") (EIdent "ValBig_one")];
     [ValueSpec "ValYes" (EIdent "bool") (EBasicLit "true")];
     [TypeSpec "Names" true (EArray (EIdent "Level"))]].
Proof.
  eexists _, _. split; [apply (ParseString_parses _ 1000); vm_compute; reflexivity|].
  split; [read_all|]. split; vm_compute; reflexivity.
Qed.
