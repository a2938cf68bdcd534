(** Property C74: generated code compiles.  The rules of Go and what is asked of the
    module are in [GoCheck.v]. *)
From Coq Require Import ZArith String Ascii List Bool Relations SpecFloat Lia.
From Verif Require Import GoBase Utf8 Unicode Tokens Ast LexRuns Grammar Parser ParserFacts ParserRuns GoAst Codegen CodegenSpec
  CodegenFacts CodegenNames GoifyFacts NamesGen Recursion GoCheck CheckFacts Numbers FromText PropsCodegen PropsNames PropsNumbers PropsWire.
Import ListNotations.
Local Open Scope string_scope.
Local Open Scope list_scope.
Local Open Scope Z_scope.

Lemma parses_reads U s m : parses U s (ParseOk (Some m)) -> exists ts, reads_all U s ts.
Proof. intros P. destruct (parses_outcome U s _ P) as [(e & E)|(m1 & ts & m' & E & R & _)]; [discriminate E|]. now exists ts. Qed.

(** * C74: generated code compiles *)

(** The file generated for an ASCII text compiles if its module is [sound]: names are
    distinct and keep clear of the generator's affixes, values are of their types,
    no type contains itself or is spelled with itself, and a CHOICE with
    tagged alternatives comes with a type that needs encoding/asn1.  [fmt] prints finite
    reals as numbers.  Missing: modules that are legal ASN.1 but not sound; for each
    kind there is a refutation (below, C25, C31, C40 and C71). *)
Theorem C74_compiles_partial : forall U fmt p fuel s m f,
  parses U s (ParseOk (Some m)) -> ascii_text s -> Generate U fmt p fuel m = Ok (GenOk f) ->
  (forall x, is_finite x -> go_number (fmt x) = true) ->
  gp_Package p = "" \/ go_identifier (gp_Package p) ->
  sound (integer_repr p) (assignments m) -> compiles f.
Proof.
  intros U fmt p fuel s m f P A G F Pk S'. apply (compiles_generated U fmt p fuel m f G); auto.
  - exact (ascii_module U s m P A).
  - destruct (parses_reads U s m P) as (ts & R). intros z I. destruct (C75_from_text U s m ts z P R (plain_in m _ I)) as [_ B]. unfold fits_int64. lia.
  - destruct (C57_package U fmt p fuel m f G) as [P1 P2]. destruct (string_dec (gp_Package p) "") as [E|E].
    + apply exported_go. exact (proj2 (P2 E s P A)).
    + rewrite (P1 E). destruct Pk; [contradiction|assumption].
Qed.
Print Assumptions C74_compiles_partial.

Definition compile_text : string :=
  "M DEFINITIONS ::= BEGIN
   Level ::= INTEGER { low(1), high(top) }
   top Level ::= 10
   flag BOOLEAN ::= TRUE
   Tree ::= SEQUENCE { level Level OPTIONAL, sub SEQUENCE OF Tree, bits BIT STRING,
                       alt CHOICE { a [0] INTEGER, b BOOLEAN } }
   Leaves ::= SET OF Tree
   END".
Definition compile_module : Module_ := Eval vm_compute in module_of compile_text.
Definition compile_file : gofile := Eval vm_compute in file_of compile_text.

Ltac split_in := repeat match goal with
  | H : In _ (_ :: _) |- _ => destruct H as [H|H]
  | H : In _ [] |- _ => destruct H
  | H : (_ = _) \/ _ |- _ => destruct H as [H|H]
  | H : False |- _ => destruct H
  | H : AType _ _ = AType _ _ |- _ => inversion H; subst; clear H
  | H : AValue _ _ _ = AValue _ _ _ |- _ => inversion H; subst; clear H
  | H : CNamed _ _ _ = CNamed _ _ _ |- _ => inversion H; subst; clear H
  | H : AType _ _ = AValue _ _ _ |- _ => discriminate H
  | H : AValue _ _ _ = AType _ _ |- _ => discriminate H
  end.
Ltac no_val := let a := fresh in let b := fresh in let E := fresh in intros (a & b & E & _);
  repeat (destruct a as [|? a]; cbn in E; try discriminate E; injection E as ? E).
Ltac no_set := let a := fresh in let E := fresh in intros (a & E);
  repeat (destruct a as [|? a]; cbn in E; try discriminate E; injection E as ? E).

Ltac see_all := repeat (split_in; match goal with
  | H : visible _ _ _ |- _ => inversion H; subst; clear H
  | H : embeds _ _ |- _ => inversion H; subst; clear H
  end; cbn [app] in *; split_in).

Example C74_example : accepted compile_text compile_module compile_file /\ ascii_text compile_text /\
  (forall x, is_finite x -> go_number (ex_fmt x) = true) /\
  sound (integer_repr ex_params) (assignments compile_module) /\
  imports compile_file = ["encoding/asn1"] /\
  top_names compile_file = ["Level"; "LevelValLow"; "LevelValHigh"; "ValTop"; "ValFlag"; "Tree"; "LeavesSET"; "Leaves"].
Proof.
  split; [accept|]. split. { apply Forall_forall. intros b H. vm_compute in H. repeat (destruct H as [<-|H]; [reflexivity|]). destruct H. }
  split; [reflexivity|]. split; [|split; vm_compute; reflexivity].
  assert (BL : base (assignments compile_module) (TReference "Level") (TInteger [{| nn_Name := "low"; nn_Value := NNumber 1 |};
    {| nn_Name := "high"; nn_Value := NDefined {| dv_ModuleName := ""; dv_ValueName := "top" |} |}])).
  { eapply ba_reference; [reflexivity|apply fn_type|]. apply (ba_here _ (TInteger _)). discriminate. }
  assert (D : forall n t, defines (assignments compile_module) n t -> In (AType n t) (assignments compile_module)).
  { intros n t H. exact (first_named_in _ _ _ H). }
  constructor.
  - vm_compute. repeat constructor; cbn; intuition discriminate.
  - intros n t H. cbn in H. split_in; split; first [no_val; fail|no_set; fail|idtac].
  - intros n t H [E|E]; cbn in H; split_in; discriminate.
  - intros n t l H St. cbn in H. split_in; try discriminate St. cbn in St. injection St as <-. split.
    + vm_compute. repeat constructor; cbn; intuition discriminate.
    + constructor; [exact I|]. constructor; [|constructor]. exists (TReference "Level"), 10. split; [right; now left|]. eexists. exact BL.
  - intros n t v H. cbn in H. split_in.
    + left. eexists. exact BL.
    + cbn. apply (ba_here _ TBoolean). discriminate.
  - intros n t u cs H V (c & x & -> & [Hu|Hu]); subst u; cbn in H; split_in; see_all;
      vm_compute; repeat constructor; cbn; intuition discriminate.
  - assert (S1 : forall n m, built_from (assignments compile_module) n m -> n = "Tree" /\ m = "Level").
    { intros n m (t & H & E). apply D in H. cbn in H. split_in; see_all; auto. }
    assert (S2 : forall n m, clos_trans _ (built_from (assignments compile_module)) n m -> n = "Tree" /\ m = "Level").
    { induction 1 as [n' m' H|n' m' k' _ [-> ->] _ [H2 _]]; [now apply S1|discriminate]. }
    intros (n & C). destruct (S2 _ _ C) as [-> H]. discriminate.
  - assert (S1 : forall n m, ~ spelled_with (assignments compile_module) n m).
    { intros n m (t & H & N1 & N2 & V). apply D in H. cbn in H. split_in.
      - see_all.
      - apply N1. constructor.
      - apply N2. constructor. }
    intros (n & C). apply clos_trans_t1n in C. inversion C; subst; eapply S1; eassumption.
  - intros _. eexists "Tree", _, (TBitString []). split; [do 3 right; now left|]. split; [|left; now exists []].
    eapply vi_sequence; [do 2 right; now left|constructor].
Qed.

(** A list of itself: the alias refers to itself, which Go rejects ("invalid recursive
    type"), though X.680 allows it. *)
Definition list_text : string := "M DEFINITIONS ::= BEGIN List ::= SEQUENCE OF List END".
Theorem C74_alias_refuted : exists m f, accepted list_text m f /\ alias_cycle f /\ ~ compiles f.
Proof.
  let m := eval vm_compute in (module_of list_text) in let f := eval vm_compute in (file_of list_text) in exists m, f.
  split; [accept|]. match goal with |- alias_cycle ?f /\ _ => assert (C : alias_cycle f) end.
  { exists "List". apply t_step. exists (EArray (EIdent "List")). split; [now left|now left]. }
  split; [exact C|]. intros H. exact (co_aliases _ H C).
Qed.
Print Assumptions C74_alias_refuted.

(** A REAL given by an integer, integers being written as big.Int. *)
Definition real_text : string := "M DEFINITIONS ::= BEGIN half REAL ::= 5 END".
Theorem C74_real_refuted : exists m f, parses ascii_tables real_text (ParseOk (Some m)) /\
  gen_ big_params m = Ok (GenOk f) /\ In (AValue "half" TReal (VNumber 5)) (assignments m) /\ ~ compiles f.
Proof.
  let m := eval vm_compute in (module_of real_text) in exists m. eexists.
  split; [apply (ParseString_parses _ 1000); vm_compute; reflexivity|]. split; [vm_compute; reflexivity|].
  split; [now left|]. intros H.
  pose proof (co_variables _ H "ValHalf" (EIdent "float64") (ECall (EIdent "big.NewInt") [EBasicLit "5"]) (or_introl eq_refl)) as A.
  inversion A as [| | | |s z t Hs Hz Hi Ex|]; subst. destruct Hi.
Qed.
Print Assumptions C74_real_refuted.

(** Two components of one name are accepted; the struct is not. *)
Definition twins_text : string := "M DEFINITIONS ::= BEGIN Pair ::= SEQUENCE { a INTEGER, a BOOLEAN } END".
Theorem C74_components_refuted : exists m f, accepted twins_text m f /\ ~ compiles f.
Proof.
  let m := eval vm_compute in (module_of twins_text) in let f := eval vm_compute in (file_of twins_text) in exists m, f.
  split; [accept|]. intros H.
  pose proof (co_types _ H "Pair" _ _ (or_introl eq_refl)) as V. inversion V as [| | | | | |fs N _]; subst.
  inversion N as [|? ? N1 _]. apply N1. now left.
Qed.
Print Assumptions C74_components_refuted.
