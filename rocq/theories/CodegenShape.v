(** The generated file, declaration by declaration. *)
From Coq Require Import ZArith String Ascii List Bool Lia SpecFloat.
From Verif Require Import GoBase Utf8 Unicode Tokens Ast GoAst Codegen CodegenSpec CodegenFacts CodegenInv CodegenDecl
  CodegenTag CodegenTerm CodegenSupp GoifyFacts.
Import ListNotations.
Local Open Scope string_scope.
Local Open Scope Z_scope.

Lemma params_repr : forall p, gp_IntegerRepr (NewCodeGenerator p) = integer_repr p.
Proof. intro p. unfold NewCodeGenerator, integer_repr. destruct (String.eqb _ _); reflexivity. Qed.

Lemma Forall2_impl2 : forall A B (R R' : A -> B -> Prop) l l', (forall a b, R a b -> R' a b) -> Forall2 R l l' -> Forall2 R' l l'.
Proof. induction 2; constructor; auto. Qed.

Section Shape.
  Context (U : unicode_tables) (fmt : spec_float -> string).
  Context (params : GenParams) (tagDefault : Z) (asg : list Assignment_) (fuel : nat).

  Notation gens := (gens U params tagDefault asg fuel).

  (** One group of declarations; [fin] is the final state. *)
  Definition group (fin : gstate) (a : Assignment_) (g : list godecl) : Prop :=
    match a with
    | ANil => g = []
    | AType n t => exists s e b s1 o s2, gens t false s e b s1 /\ ext s1 fin /\
        generateAssociatedValuesIfNeeded U params n t s1 = (o, s2) /\ gs_errors s2 = [] /\
        g = type_decl U n e b :: opt_cons o []
    | AValue n t v =>
        (valueExpr fmt params v = None /\ g = []) \/
        (exists ve te s b s1, valueExpr fmt params v = Some ve /\ gens t false s te b s1 /\ ext s1 fin /\
           gs_errors s1 = [] /\ g = [var_decl U n te ve])
    end.

  Lemma gendecls_groups : forall l s ds s', gendecls U fmt params tagDefault asg fuel l s ds s' ->
    gs_errors s' = [] ->
    exists groups, ds = concat groups /\ Forall2 (group s') l groups.
  Proof.
    induction 1; intro He.
    - exists []. split; [reflexivity|constructor].
    - destruct (IHgendecls He) as (gs & -> & Hf).
      pose proof (gendecls_ext _ _ _ _ _ _ _ _ _ _ H1) as Hx.
      exists ((type_decl U n e b :: opt_cons o []) :: gs). split.
      + cbn. rewrite (opt_cons_app _ o (concat gs)). reflexivity.
      + constructor; [|assumption]. exists s, e, b, s1, o, s2. repeat split; auto.
        * eapply ext_trans; [|exact Hx]. eapply errs_only_ext, assoc_errs; eassumption.
        * eapply ext_noerr; eassumption.
    - destruct (IHgendecls He) as (gs & -> & Hf).
      pose proof (gendecls_ext _ _ _ _ _ _ _ _ _ _ H1) as Hx.
      exists ([var_decl U n te ve] :: gs). split; [reflexivity|]. constructor; [|assumption].
      right. exists ve, te, s, b, s1. repeat split; auto. eapply ext_noerr; eassumption.
    - destruct (IHgendecls He) as (gs & -> & Hf). exists ([] :: gs). split; [reflexivity|].
      constructor; [|assumption]. now left.
    - destruct (IHgendecls He) as (gs & -> & Hf). exists ([] :: gs). split; [reflexivity|].
      constructor; [|assumption]. reflexivity.
  Qed.

  Lemma type_decl_declares : forall n e b, declares_type (goifyName U n) e (type_decl U n e b).
  Proof.
    intros n e b. split; [reflexivity|]. destruct b; [right; reflexivity|left; eexists; reflexivity].
  Qed.

  Lemma number_denotes : forall z, denotes_int (gp_IntegerRepr params) z (numberToExpr params z).
  Proof.
    intro z. exists (sprint_int z). split; [apply go_int_sprint|]. unfold numberToExpr.
    destruct (String.eqb_spec (gp_IntegerRepr params) IntegerReprBigInt) as [E|E]; [left|right]; auto.
  Qed.

  Lemma assoc_numbers : forall n t s o s', generateAssociatedValuesIfNeeded U params n t s = (o, s') ->
    gs_errors s' = [] ->
    (exists l specs, strip t = TInteger l /\ l <> [] /\ Forall2 (number_spec U (gp_IntegerRepr params) n) l specs /\
       opt_cons o [] = [{| gd_tok := TokVar; gd_specs := specs |}]) \/
    ((forall l, strip t = TInteger l -> l = []) /\ opt_cons o [] = []).
  Proof.
    intros n t s o s' H He.
    apply assoc_cases in H as [(-> & -> & H)|(l & specs & Hs & Hl & H & ->)]; [right; auto|].
    left. exists l, specs. repeat split; auto.
    apply named_specs_all in H. eapply Forall2_impl2; [|exact H].
    intros x sp (e & -> & Hx). specialize (Hx He). exists e. split; [reflexivity|].
    destruct (nn_Value x); [exact Hx| |exact Hx]. subst e. apply number_denotes.
  Qed.

  Lemma value_expr_of : forall v e, valueExpr fmt params v = Some e ->
    value_expr (gp_IntegerRepr params) (fun x s => s = sprint_real fmt x) v e.
  Proof.
    intros v e H. destruct v; try discriminate.
    - cbn in H. injection H as <-. constructor. apply number_denotes.
    - cbn in H. injection H as <-. now constructor.
    - destruct b; cbn in H; injection H as <-; constructor.
  Qed.

  (** INTEGER asks for math/big. *)
  Lemma gens_integer : forall t b s e b' s', gens t b s e b' s' -> forall l, strip t = TInteger l ->
    gp_IntegerRepr params = "big.Int" -> In "math/big" (gs_modules s').
  Proof.
    induction 1; intros l0 Hs Hr; try discriminate; eauto.
    - destruct t; try contradiction; discriminate.
    - unfold IntegerReprInt64 in *. congruence.
    - apply in_require. now right.
    - contradiction.
    - destruct t; try contradiction; discriminate.
    - destruct t; try contradiction; discriminate.
  Qed.
End Shape.

(** * From Generate *)

Section File.
  Context (U : unicode_tables) (fmt : spec_float -> string) (p : GenParams) (fuel : nat) (m : Module_) (f : gofile).
  Hypothesis HG : Generate U fmt p fuel m = Ok (GenOk f).

  Notation asg := (mb_AssignmentList (md_ModuleBody m)).
  Notation params := (NewCodeGenerator p).
  Notation td := (md_TagDefault m).

  Lemma file_groups : exists fin groups,
    gf_decls f = (importDecls (gs_modules fin) ++ concat groups)%list /\
    gs_errors fin = [] /\ imports f = gs_modules fin /\
    Forall decl_ok (concat groups) /\
    Forall2 (group U fmt params td asg fuel fin) asg groups.
  Proof.
    destruct (Generate_ok _ _ _ _ _ _ HG) as (_ & ds & s & Hd & He & Hf).
    pose proof (gendecls_ok _ _ _ _ _ _ _ _ _ _ Hd) as Hok.
    destruct (gendecls_groups _ _ _ _ _ _ _ _ _ _ Hd He) as (gs & -> & Hg).
    exists s, gs. repeat split; auto. eapply imports_eq; eassumption.
  Qed.

  Lemma imports_are : forall l, Forall is_import (importDecls l).
  Proof. intro l. apply Forall_forall. intros d Hd. apply in_map_iff in Hd as (x & <- & _). split; [reflexivity|eexists; reflexivity]. Qed.

  Lemma opt_vars : forall n t s o s', generateAssociatedValuesIfNeeded U params n t s = (o, s') ->
    Forall (fun d => gd_tok d = TokVar) (opt_cons o []).
  Proof. intros. eapply Forall_impl; [|eapply assoc_ok; eassumption]. intros d [H' _]; exact H'. Qed.

  (** A property of every generated type carries over to the file. *)
  Lemma file_generated : forall P : string -> AType_ -> godecl -> goexpr -> Prop,
    (forall n t s e b s1, In (AType n t) asg -> gens U params td asg fuel t false s e b s1 -> gs_errors s1 = [] ->
       P n t (type_decl U n e b) e) ->
    generated U asg f P.
  Proof.
    intros P HP. destruct file_groups as (fin & gs & Hf & He & _ & _ & Hg).
    exists (importDecls (gs_modules fin)), gs. split; [exact Hf|]. clear Hf. split; [apply imports_are|].
    assert (Hin : forall a, In a asg -> In a asg) by auto. revert Hin Hg.
    generalize asg at 1 4 5. intros l Hin Hg. induction Hg as [|a g l gs' Ha Hg IH]; constructor.
    2:{ apply IH. intros. apply Hin. now right. }
    destruct a as [|n t|n t v].
    - cbn in Ha. subst g. constructor.
    - destruct Ha as (s & e & b & s1 & o & s2 & Hgen & Hx & Ha & He2 & ->).
      eexists _, _, e. split; [reflexivity|]. split; [apply type_decl_declares|].
      split; [eapply opt_vars; eassumption|]. eapply HP; [apply Hin; now left|eassumption|].
      eapply ext_noerr; eassumption.
    - destruct Ha as [[_ ->]|(ve & te & s & b & s1 & _ & _ & _ & _ & ->)]; repeat constructor.
  Qed.

  Lemma filter_concat : forall A (q : A -> bool) l, filter q (concat l) = concat (map (filter q) l).
  Proof. induction l as [|x l IH]; [reflexivity|]. cbn. now rewrite filter_app, IH. Qed.

  Lemma filter_all : forall A (q : A -> bool) l, Forall (fun x => q x = true) l -> filter q l = l.
  Proof. induction 1; [reflexivity|]. cbn. now rewrite H, IHForall. Qed.

  Lemma filter_none : forall A (q : A -> bool) l, Forall (fun x => q x = false) l -> filter q l = [].
  Proof. induction 1; [reflexivity|]. cbn. now rewrite H. Qed.

  Lemma file_variables : variables U asg (integer_repr p) (fun x s => s = sprint_real fmt x) f.
  Proof.
    rewrite <- params_repr. destruct file_groups as (fin & gs & Hf & He & _ & _ & Hg).
    set (q := fun d : godecl => match gd_tok d with TokVar => true | _ => false end).
    exists (map (filter q) gs). split.
    - fold q. rewrite Hf, filter_app, filter_concat.
      rewrite (filter_none _ q (importDecls _)); [reflexivity|].
      apply Forall_forall. intros d Hd. apply in_map_iff in Hd as (x & <- & _). reflexivity.
    - clear Hf. revert Hg. generalize asg at 2 4. intros l Hg.
      induction Hg as [|a g l gs' Ha Hg IH]; constructor; [|assumption].
      destruct a as [|n t|n t v].
      + cbn in Ha. subst g. reflexivity.
      + destruct Ha as (s & e & b & s1 & o & s2 & Hgen & Hx & Ha & He2 & ->).
        pose proof (opt_vars _ _ _ _ _ Ha) as Hv.
        cbn [filter q type_decl gd_tok]. rewrite filter_all.
        * eapply assoc_numbers; eassumption.
        * eapply Forall_impl; [|exact Hv]. intros d Hd. unfold q. now rewrite Hd.
      + destruct Ha as [[Hn ->]|(ve & te & s & b & s1 & Hv & Hgen & _ & He1 & ->)].
        * right. split; [|reflexivity]. intro Hl. apply (literal_iff fmt params) in Hl. contradiction.
        * left. exists te, ve. split; [now apply value_expr_of|]. split; [|reflexivity].
          eapply gens_genfs_go_type; eassumption.
  Qed.

  (** Go types. *)
  Lemma file_go_type : generated U asg f (fun n t d e =>
    go_type U asg (integer_repr p) t e).
  Proof.
    apply file_generated. intros n t s e b s1 _ Hg He. rewrite <- params_repr.
    eapply gens_genfs_go_type; eassumption.
  Qed.

  (** The SET suffix. *)
  Lemma file_set : generated U asg f (fun n t d e =>
    length (gd_specs d) = 2%nat <-> reaches_set asg t).
  Proof.
    apply file_generated. intros n t s e b s1 _ Hg He.
    apply gens_set in Hg. cbn [type_decl gd_specs]. destruct b.
    - split; [intros _|reflexivity]. destruct Hg as [Hg _]. destruct (Hg eq_refl); [discriminate|assumption].
    - split; [discriminate|]. intro Hr. destruct Hg as [_ Hg]. discriminate Hg. now right.
  Qed.

  (** Fields. *)
  Lemma file_mirrors : forall Q : component Value DefinedValue -> gofield -> Prop,
    (forall n t o d e b tag s s1 s2,
      gens U params td asg fuel t false s e b s1 ->
      asn1TagFromType td asg fuel n t o d s1 = Ok (tag, s2) -> gs_errors s2 = [] ->
      Q (CNamed (Named n t) o d) (Field (goifyName U n) e tag)) ->
    generated U asg f (fun n t d e => mirrors Q t e).
  Proof.
    intros Q HQ. apply file_generated. intros n t s e b s1 _ Hg He.
    eapply gens_genfs_mirrors; eassumption.
  Qed.
End File.

(** * Working with [generated] and [variables] *)

Lemma generated_impl : forall U asg f (P Q : string -> AType_ -> godecl -> goexpr -> Prop),
  (forall n t d e, declares_type (goifyName U n) e d -> P n t d e -> Q n t d e) ->
  generated U asg f P -> generated U asg f Q.
Proof.
  intros U asg f P Q HPQ (imps & gs & Hd & Hi & HF). exists imps, gs. split; [exact Hd|]. split; [exact Hi|].
  eapply Forall2_impl2; [|exact HF]. intros a g H. destruct a; try exact H.
  destruct H as (d & rest & e & -> & H1 & H2 & H3). exists d, rest, e. auto 6.
Qed.

Lemma variables_impl : forall U asg repr (P Q : spec_float -> string -> Prop) f,
  (forall x s, P x s -> Q x s) -> variables U asg repr P f -> variables U asg repr Q f.
Proof.
  intros U asg repr P Q f HPQ (gs & Hd & HF). exists gs. split; [exact Hd|].
  eapply Forall2_impl2; [|exact HF]. intros a g H. destruct a as [|n t|n t v]; try exact H.
  destruct H as [(te & e & Hv & Ht & ->)|H]; [left|right; exact H].
  exists te, e. split; [|auto]. destruct Hv; constructor; auto.
Qed.

(** The type declarations of a file, and their place. *)
Lemma generated_at : forall U asg f P, generated U asg f P ->
  forall pre n t post, asg = (pre ++ AType n t :: post)%list ->
  exists d e,
    nth_error (filter (fun d => match gd_tok d with TokType => true | _ => false end) (gf_decls f))
      (length (filter (fun a => match a with AType _ _ => true | _ => false end) pre)) = Some d /\
    declares_type (goifyName U n) e d /\ P n t d e.
Proof.
  intros U asg f P (imps & gs & Hd & Hi & HF) pre n t post E. rewrite Hd, filter_app.
  rewrite (filter_none _ _ imps).
  2: { eapply Forall_impl; [|exact Hi]. intros a [Ha _]. cbn. now rewrite Ha. }
  cbn [app]. clear Hd Hi. subst asg. revert gs HF. induction pre as [|a pre IH]; intros gs HF; inversion HF as [|a' g l gs' Ha HF' E1 E2]; subst.
  - destruct Ha as (d & rest & e & -> & H1 & H2 & H3). exists d, e. split; [|auto].
    cbn. destruct H1 as [H1 _]. rewrite H1. reflexivity.
  - destruct (IH _ HF') as (d & e & H1 & H2 & H3). exists d, e. split; [|auto]. cbn [concat]. rewrite filter_app.
    assert (HV : forall l, Forall (fun d' => gd_tok d' = TokVar) l ->
      filter (fun d => match gd_tok d with TokType => true | _ => false end) l = []).
    { intros l0 Hl. apply filter_none. eapply Forall_impl; [|exact Hl]. intros x Hx. cbn. now rewrite Hx. }
    destruct a as [|k u|k u v]; cbn [app filter length].
    + rewrite (HV _ Ha). exact H1.
    + destruct Ha as (d0 & rest & e0 & -> & [H4 _] & H5 & _). cbn [filter]. rewrite H4, (HV _ H5). exact H1.
    + rewrite (HV _ Ha). exact H1.
Qed.
