(** Declarations and whole files. *)
From Coq Require Import ZArith String Ascii List Bool Lia SpecFloat.
From Verif Require Import GoBase Utf8 Unicode Tokens Ast GoAst Codegen CodegenSpec CodegenFacts CodegenInv.
Import ListNotations.
Local Open Scope string_scope.
Local Open Scope Z_scope.

Section Decl.
  Context (U : unicode_tables) (fmt : spec_float -> string).
  Context (params : GenParams) (tagDefault : Z) (asg : list Assignment_) (fuel : nat).

  Notation gens := (gens U params tagDefault asg fuel).

  Definition type_decl (n : string) (e : goexpr) (b : bool) : godecl :=
    let name := goifyName U n in
    {| gd_tok := TokType;
       gd_specs :=
         if b then [TypeSpec (name ++ "SET") false e; TypeSpec name true (EIdent (name ++ "SET"))]
         else [TypeSpec name (match e with EStruct _ => false | _ => true end) e] |}.

  Definition var_decl (n : string) (te e : goexpr) : godecl :=
    {| gd_tok := TokVar; gd_specs := [ValueSpec ("Val" ++ goifyName U n) te e] |}.

  Inductive gendecls : list Assignment_ -> gstate -> list godecl -> gstate -> Prop :=
  | gd_nil s : gendecls [] s [] s
  | gd_type n t l e b o ds s s1 s2 s3 :
      gens t false s e b s1 ->
      generateAssociatedValuesIfNeeded U params n t s1 = (o, s2) ->
      gendecls l s2 ds s3 ->
      gendecls (AType n t :: l) s (type_decl n e b :: opt_cons o ds) s3
  | gd_value n t v l ve te b ds s s1 s2 :
      valueExpr fmt params v = Some ve ->
      gens t false s te b s1 ->
      gendecls l s1 ds s2 ->
      gendecls (AValue n t v :: l) s (var_decl n te ve :: ds) s2
  | gd_novalue n t v l ds s s' :
      valueExpr fmt params v = None -> gendecls l s ds s' -> gendecls (AValue n t v :: l) s ds s'
  | gd_anil l ds s s' : gendecls l s ds s' -> gendecls (ANil :: l) s ds s'.

  Lemma decls_gendecls : forall l s ds s',
    generateDeclarations U fmt params tagDefault asg fuel l s = Ok (ds, s') -> gendecls l s ds s'.
  Proof.
    induction l as [|[|n t|n t v] l IH]; intros s ds s' H; cbn [generateDeclarations] in H.
    - injection H as <- <-. constructor.
    - constructor. now apply IH.
    - bind1 H. unfold generateTypeDecl in E. bind1 E. apply gen_gens in E0.
      destruct (generateAssociatedValuesIfNeeded U params n t y) as [o s2] eqn:Ea.
      bind1 H. injection H as <- <-. apply IH in E1.
      replace x with (type_decl n x0 y1); [|unfold type_decl; destruct y1; injection E as <- <-; reflexivity].
      assert (y0 = y) by (destruct y1; now injection E). subst y0.
      eapply gd_type; eassumption.
    - bind1 H. unfold tryGenerateValueAssignment in E. destruct (valueExpr fmt params v) as [ve|] eqn:Ev.
      + bind1 E. apply gen_gens in E0. injection E as <- <-. bind1 H. injection H as <- <-.
        apply IH in E. cbn [opt_cons]. eapply gd_value; eassumption.
      + injection E as <- <-. bind1 H. injection H as <- <-. apply IH in E.
        cbn [opt_cons]. eapply gd_novalue; eassumption.
  Qed.

  Lemma named_specs_errs : forall n l s specs s', namedNumberSpecs U params n l s = (specs, s') -> errs_only s s'.
  Proof.
    induction l as [|x l IH]; intros s specs s' H; cbn in H.
    - injection H as <- <-. apply errs_only_refl.
    - destruct (match nn_Value x with NNil => _ | _ => _ end) as [e s1] eqn:E.
      destruct (namedNumberSpecs U params n l s1) as [sp s2] eqn:E2. injection H as <- <-.
      apply IH in E2. eapply errs_only_trans; [|exact E2].
      destruct (nn_Value x) as [|z|d].
      + injection E as <- <-. apply errs_only_refl.
      + injection E as <- <-. apply errs_only_refl.
      + injection E as <- <-. destruct (String.eqb _ _); [apply errs_only_refl|apply errs_only_append].
  Qed.

  Lemma assoc_cases : forall n t s o s', generateAssociatedValuesIfNeeded U params n t s = (o, s') ->
    (o = None /\ s' = s /\ (forall l, strip t = TInteger l -> l = [])) \/
    (exists l specs, strip t = TInteger l /\ l <> [] /\ namedNumberSpecs U params n l s = (specs, s') /\
       o = Some {| gd_tok := TokVar; gd_specs := specs |}).
  Proof.
    intros n t s o s' H. unfold generateAssociatedValuesIfNeeded in H.
    rewrite removeWrapperTypes_strip in H.
    destruct (strip t) eqn:Es; try (left; injection H as <- <-; repeat split; congruence).
    destruct l as [|x l]; [left; injection H as <- <-; repeat split; congruence|].
    destruct (namedNumberSpecs U params n (x :: l) s) as [specs s1] eqn:E. injection H as <- <-.
    right. exists (x :: l), specs. repeat split; auto. discriminate.
  Qed.

  Lemma assoc_errs : forall n t s o s', generateAssociatedValuesIfNeeded U params n t s = (o, s') -> errs_only s s'.
  Proof.
    intros n t s o s' H. apply assoc_cases in H as [(_ & -> & _)|(l & specs & _ & _ & H & _)].
    - apply errs_only_refl.
    - eapply named_specs_errs; eassumption.
  Qed.

  Lemma gendecls_ext : forall l s ds s', gendecls l s ds s' -> ext s s'.
  Proof.
    induction 1; auto.
    - apply ext_refl.
    - eapply ext_trans; [eapply gens_ext; eassumption|]. eapply ext_trans; [|eassumption].
      eapply errs_only_ext, assoc_errs; eassumption.
    - eapply ext_trans; [eapply gens_ext; eassumption|assumption].
  Qed.

  (** Names used in the types of the specs. *)
  Definition type_idents (ds : list godecl) : list string :=
    flat_map spec_type_idents (flat_map gd_specs ds).

  Lemma type_idents_app : forall a b, type_idents (a ++ b) = (type_idents a ++ type_idents b)%list.
  Proof. intros. unfold type_idents. now rewrite !flat_map_app. Qed.

  Lemma type_idents_cons : forall d ds, type_idents (d :: ds) = (flat_map spec_type_idents (gd_specs d) ++ type_idents ds)%list.
  Proof. intros. unfold type_idents. cbn [flat_map]. now rewrite flat_map_app. Qed.

  Lemma type_decl_idents : forall n e b id, In id (flat_map spec_type_idents (gd_specs (type_decl n e b))) <->
    In id (expr_idents e) \/ (b = true /\ id = goifyName U n ++ "SET").
  Proof.
    intros n e b id. unfold type_decl. cbn [gd_specs]. destruct b; cbn.
    - rewrite !in_app_iff. cbn. intuition auto.
    - rewrite app_nil_r. intuition congruence.
  Qed.

  Lemma named_specs_all : forall n l s specs s', namedNumberSpecs U params n l s = (specs, s') ->
    Forall2 (fun x sp => exists e, sp = ValueSpec (goifyName U n ++ "Val" ++ goifyName U (nn_Name x)) (EIdent (goifyName U n)) e /\
       (gs_errors s' = [] ->
        match nn_Value x with
        | NNumber z => e = numberToExpr params z
        | NDefined d => dv_ModuleName d = "" /\ e = EIdent ("Val" ++ goifyName U (dv_ValueName d))
        | NNil => e = ENilExpr
        end)) l specs.
  Proof.
    induction l as [|x l IH]; intros s specs s' H; cbn in H.
    - injection H as <- <-. constructor.
    - destruct (match nn_Value x with NNil => _ | _ => _ end) as [e s1] eqn:E.
      destruct (namedNumberSpecs U params n l s1) as [sp s2] eqn:E2. injection H as <- <-.
      constructor; [|eapply IH; eassumption]. exists e. split; [reflexivity|].
      apply named_specs_errs in E2. intro He.
      assert (H1 : gs_errors s1 = []) by (eapply ext_noerr; [apply errs_only_ext; eassumption|assumption]).
      destruct (nn_Value x) as [|z|d]; injection E as <- <-; try reflexivity.
      destruct (String.eqb_spec (dv_ModuleName d) ""); [auto|]. now apply append_err in H1.
  Qed.

  Lemma named_specs_type_idents : forall n l s specs s', namedNumberSpecs U params n l s = (specs, s') ->
    forall id, In id (flat_map spec_type_idents specs) -> id = goifyName U n.
  Proof.
    intros n l s specs s' H id Hi. apply named_specs_all in H. apply in_flat_map in Hi as (sp & Hs & Hi).
    assert (G : forall l' sps, Forall2 (fun x sp => exists e, sp = ValueSpec (goifyName U n ++ "Val" ++ goifyName U (nn_Name x)) (EIdent (goifyName U n)) e /\
       (gs_errors s' = [] ->
        match nn_Value x with
        | NNumber z => e = numberToExpr params z
        | NDefined d => dv_ModuleName d = "" /\ e = EIdent ("Val" ++ goifyName U (dv_ValueName d))
        | NNil => e = ENilExpr
        end)) l' sps -> In sp sps -> exists a e, sp = ValueSpec a (EIdent (goifyName U n)) e).
    { induction 1 as [|x y l' sps (e & He & _) Hl IH]; [contradiction|]. intros [->|Hin]; eauto. }
    destruct (G _ _ H Hs) as (a & e & ->). cbn in Hi. intuition.
  Qed.

  Lemma assoc_type_idents : forall n t s o s' id,
    generateAssociatedValuesIfNeeded U params n t s = (o, s') ->
    In id (type_idents (opt_cons o [])) -> id = goifyName U n.
  Proof.
    intros n t s o s' id H Hi. apply assoc_cases in H as [(-> & _)|(l & specs & _ & _ & H & ->)]; [contradiction|].
    cbn [opt_cons] in Hi. unfold type_idents in Hi. cbn in Hi. rewrite app_nil_r in Hi.
    eapply named_specs_type_idents; eassumption.
  Qed.

  Lemma opt_cons_app : forall A (o : option A) l, opt_cons o l = (opt_cons o [] ++ l)%list.
  Proof. intros A [x|] l; reflexivity. Qed.

  Lemma gendecls_modules : forall l s ds s', gendecls l s ds s' ->
    forall m, In m (gs_modules s') -> In m (gs_modules s) \/
      exists id, In id (type_idents ds) /\ qualifier id = Some (package_name m).
  Proof.
    induction 1; intros m Hm; auto.
    - rewrite type_idents_cons, opt_cons_app, type_idents_app.
      apply IHgendecls in Hm as [Hm|(id & Hi & Hq)].
      + apply assoc_errs in H0 as (es & _ & M). rewrite M in Hm.
        eapply gens_modules in Hm as [Hm|(id & Hi & Hq)]; [| |eassumption]; [auto|].
        right. exists id. split; [|assumption]. apply in_or_app. left. apply type_decl_idents. auto.
      + right. exists id. split; [|assumption]. rewrite !in_app_iff. auto.
    - rewrite type_idents_cons. apply IHgendecls in Hm as [Hm|(id & Hi & Hq)].
      + eapply gens_modules in Hm as [Hm|(id & Hi & Hq)]; [| |eassumption]; [auto|].
        right. exists id. split; [|assumption]. apply in_or_app. left. cbn. now rewrite app_nil_r.
      + right. exists id. split; [|assumption]. rewrite !in_app_iff. auto.
  Qed.

  (** Types declared. *)
  Definition decl_types (ds : list godecl) : list string :=
    flat_map (fun s => match s with TypeSpec n _ _ => [n] | _ => [] end) (flat_map gd_specs ds).
  Definition decl_vars (ds : list godecl) : list string :=
    flat_map (fun s => match s with ValueSpec n _ _ => [n] | _ => [] end) (flat_map gd_specs ds).

  Lemma decl_types_app : forall a b, decl_types (a ++ b) = (decl_types a ++ decl_types b)%list.
  Proof. intros. unfold decl_types. now rewrite !flat_map_app. Qed.
  Lemma decl_types_cons : forall d ds, decl_types (d :: ds) = (decl_types [d] ++ decl_types ds)%list.
  Proof. intros. exact (decl_types_app [d] ds). Qed.
  Lemma decl_vars_app : forall a b, decl_vars (a ++ b) = (decl_vars a ++ decl_vars b)%list.
  Proof. intros. unfold decl_vars. now rewrite !flat_map_app. Qed.
  Lemma decl_vars_cons : forall d ds, decl_vars (d :: ds) = (decl_vars [d] ++ decl_vars ds)%list.
  Proof. intros. exact (decl_vars_app [d] ds). Qed.

  Lemma gendecls_declares : forall l s ds s', gendecls l s ds s' ->
    forall n t, In (AType n t) l -> In (goifyName U n) (decl_types ds).
  Proof.
    induction 1; intros n0 t0 Hi; try contradiction.
    - rewrite decl_types_cons. apply in_or_app. destruct Hi as [Hi|Hi].
      + injection Hi as -> ->. left. unfold type_decl, decl_types. destruct b; cbn; auto.
      + right. rewrite opt_cons_app, decl_types_app. apply in_or_app. right. eauto.
    - rewrite decl_types_cons. apply in_or_app. right. destruct Hi as [Hi|Hi]; [discriminate|eauto].
    - destruct Hi as [Hi|Hi]; [discriminate|eauto].
    - destruct Hi as [Hi|Hi]; [discriminate|eauto].
  Qed.

  (** Every type name used is predeclared, imported, the raw value or declared. *)
  Lemma gendecls_idents : forall l s ds s', gendecls l s ds s' -> gs_errors s' = [] ->
    forall id, In id (type_idents ds) -> known_ident U asg (gs_modules s') id \/ In id (decl_types ds).
  Proof.
    induction 1; intros He id Hi.
    - contradiction.
    - pose proof (gendecls_ext _ _ _ _ H1) as Hx. pose proof (assoc_errs _ _ _ _ _ H0) as Ha.
      rewrite type_idents_cons, opt_cons_app, type_idents_app, !in_app_iff in Hi.
      rewrite decl_types_cons, opt_cons_app, decl_types_app, !in_app_iff.
      destruct Hi as [Hi|[Hi|Hi]].
      + apply type_decl_idents in Hi as [Hi|[-> ->]].
        * left. eapply known_mono; [|eapply gens_idents; [eassumption| |eassumption]].
          -- eapply ext_trans; [apply errs_only_ext; eassumption|assumption].
          -- eapply ext_noerr; [|exact He]. eapply ext_trans; [apply errs_only_ext; eassumption|assumption].
        * right. left. unfold type_decl, decl_types. cbn. auto.
      + right. left. rewrite (assoc_type_idents _ _ _ _ _ _ H0 Hi).
        unfold type_decl, decl_types. destruct b; cbn; auto.
      + destruct (IHgendecls He _ Hi); auto.
    - pose proof (gendecls_ext _ _ _ _ H1) as Hx.
      rewrite type_idents_cons, in_app_iff in Hi. rewrite decl_types_cons, in_app_iff.
      destruct Hi as [Hi|Hi].
      + cbn in Hi. rewrite app_nil_r in Hi. left.
        eapply known_mono; [eassumption|]. eapply gens_idents; [eassumption| |eassumption].
        eapply ext_noerr; eassumption.
      + destruct (IHgendecls He _ Hi); auto.
    - auto.
    - auto.
  Qed.

  (** No import among the declarations. *)
  Lemma named_specs_kind : forall n l s specs s', namedNumberSpecs U params n l s = (specs, s') ->
    Forall (fun sp => exists a b c, sp = ValueSpec a b c) specs.
  Proof.
    intros n l s specs s' H. apply named_specs_all in H. induction H as [|x y l' sps (e & He & _) Hl IH]; constructor; eauto.
  Qed.

  Definition decl_ok (d : godecl) : Prop :=
    match gd_tok d with
    | TokType => Forall (fun sp => exists a b c, sp = TypeSpec a b c) (gd_specs d)
    | TokVar => Forall (fun sp => exists a b c, sp = ValueSpec a b c) (gd_specs d)
    | TokImport => False
    end.

  Lemma assoc_ok : forall n t s o s', generateAssociatedValuesIfNeeded U params n t s = (o, s') ->
    Forall (fun d => gd_tok d = TokVar /\ decl_ok d) (opt_cons o []).
  Proof.
    intros n t s o s' H. apply assoc_cases in H as [(-> & _)|(l & specs & _ & _ & H & ->)]; constructor; [|constructor].
    split; [reflexivity|]. eapply named_specs_kind; eassumption.
  Qed.

  Lemma type_decl_ok : forall n e b, decl_ok (type_decl n e b).
  Proof. intros n e b. unfold decl_ok, type_decl. cbn. destruct b; repeat constructor; eauto. Qed.

  Lemma gendecls_ok : forall l s ds s', gendecls l s ds s' -> Forall decl_ok ds.
  Proof.
    induction 1; auto.
    - constructor; [apply type_decl_ok|]. rewrite opt_cons_app. apply Forall_app. split; [|assumption].
      eapply Forall_impl; [|eapply assoc_ok; eassumption]. intros d [_ Hd]; exact Hd.
    - constructor; [|assumption]. unfold decl_ok. cbn. repeat constructor. eauto.
  Qed.

  (** The three packages the generator knows. *)
  Lemma gens_genfs_pkgs :
    (forall t b s e b' s', gens t b s e b' s' ->
       incl (gs_modules s) ["math/big"; "time"; "encoding/asn1"] ->
       incl (gs_modules s') ["math/big"; "time"; "encoding/asn1"]) /\
    (forall l s fs s', genfs U params tagDefault asg fuel l s fs s' ->
       incl (gs_modules s) ["math/big"; "time"; "encoding/asn1"] ->
       incl (gs_modules s') ["math/big"; "time"; "encoding/asn1"]).
  Proof.
    assert (R : forall m s, In m ["math/big"; "time"; "encoding/asn1"] ->
       incl (gs_modules s) ["math/big"; "time"; "encoding/asn1"] ->
       incl (gs_modules (requireModule m s)) ["math/big"; "time"; "encoding/asn1"]).
    { intros m s Hm Hi x Hx. apply in_require in Hx as [Hx| ->]; auto. }
    apply gens_genfs_ind; intros; auto.
    - apply R; [cbn; auto|assumption].
    - apply resolve_some in e0 as [-> _].
      apply special_some in e1 as [(_ & _ & ->)|(_ & _ & _ & ->)]; apply R; cbn; auto.
    - apply resolve_some in e as [-> _]. apply special_none in e0 as [-> _]. auto.
    - apply resolve_none in e as [-> _]. auto.
    - apply R; [cbn; auto|assumption].
    - destruct (has_errs _ _ _ _ _ _ e) as (es & _ & M). rewrite M. auto.
    - destruct (has_errs _ _ _ _ _ _ e0) as (es & _ & M). rewrite M in H. auto.
    - destruct (has_errs _ _ _ _ _ _ e) as (es & _ & M). rewrite M. auto.
    - apply tagOf_errs in e0 as (es & _ & M). rewrite M in H0. auto.
  Qed.

  Lemma gendecls_pkgs : forall l s ds s', gendecls l s ds s' ->
    incl (gs_modules s) ["math/big"; "time"; "encoding/asn1"] ->
    incl (gs_modules s') ["math/big"; "time"; "encoding/asn1"].
  Proof.
    induction 1; intro Hi; auto.
    - apply IHgendecls. apply assoc_errs in H0 as (es & _ & M). rewrite M.
      eapply (proj1 gens_genfs_pkgs); eassumption.
    - apply IHgendecls. eapply (proj1 gens_genfs_pkgs); eassumption.
  Qed.
End Decl.

(** * Whole runs *)

Definition init_state : gstate := {| gs_errors := []; gs_modules := [] |}.

Lemma Generate_ok : forall U fmt p fuel m f, Generate U fmt p fuel m = Ok (GenOk f) ->
  md_TagDefault m <> TAGS_AUTOMATIC /\
  exists ds s,
    gendecls U fmt (NewCodeGenerator p) (md_TagDefault m) (mb_AssignmentList (md_ModuleBody m)) fuel
      (mb_AssignmentList (md_ModuleBody m)) init_state ds s /\
    gs_errors s = [] /\
    gf_decls f = (importDecls (gs_modules s) ++ ds)%list.
Proof.
  intros U fmt p fuel m f H. unfold Generate, GenerateWith in H.
  destruct (md_TagDefault m =? TAGS_AUTOMATIC) eqn:Et; [discriminate|].
  split; [intro He; rewrite He in Et; discriminate|].
  bind1 H. apply decls_gendecls in E. exists x, y. split; [exact E|].
  destruct (gs_errors y) eqn:Ey; [|discriminate]. injection H as <-. auto.
Qed.

Lemma import_specs : forall l, flat_map gd_specs (importDecls l) = map ImportSpec l.
Proof. induction l as [|x l IH]; [reflexivity|]. cbn. now f_equal. Qed.

Lemma imports_import : forall l, flat_map (fun s => match s with ImportSpec p => [p] | _ => [] end) (map ImportSpec l) = l.
Proof. induction l as [|x l IH]; [reflexivity|]. cbn. now f_equal. Qed.

Lemma no_import_specs : forall ds, Forall decl_ok ds ->
  flat_map (fun s => match s with ImportSpec p => [p] | _ => [] end) (flat_map gd_specs ds) = [].
Proof.
  induction 1 as [|d ds Hd _ IH]; [reflexivity|]. cbn. rewrite flat_map_app, IH, app_nil_r.
  unfold decl_ok in Hd. destruct (gd_tok d); [| |contradiction];
    (induction Hd as [|sp l (a & b & c & ->) _ IHl]; [reflexivity|exact IHl]).
Qed.

Lemma file_specs_app : forall f l ds, gf_decls f = (importDecls l ++ ds)%list ->
  file_specs f = (map ImportSpec l ++ flat_map gd_specs ds)%list.
Proof. intros f l ds H. unfold file_specs. rewrite H, flat_map_app, import_specs. reflexivity. Qed.

Lemma imports_eq : forall f l ds, gf_decls f = (importDecls l ++ ds)%list -> Forall decl_ok ds -> imports f = l.
Proof.
  intros f l ds H Hd. unfold imports. rewrite (file_specs_app _ _ _ H), flat_map_app, imports_import.
  rewrite no_import_specs by assumption. apply app_nil_r.
Qed.

Lemma import_no_types : forall l, flat_map (fun s => match s with TypeSpec n _ _ => [n] | _ => [] end) (map ImportSpec l) = [].
Proof. induction l; auto. Qed.
Lemma import_no_vars : forall l, flat_map (fun s => match s with ValueSpec n _ _ => [n] | _ => [] end) (map ImportSpec l) = [].
Proof. induction l; auto. Qed.

Lemma declared_types_eq : forall f l ds, gf_decls f = (importDecls l ++ ds)%list -> declared_types f = decl_types ds.
Proof.
  intros f l ds H. unfold declared_types. now rewrite (file_specs_app _ _ _ H), flat_map_app, import_no_types.
Qed.
Lemma declared_vars_eq : forall f l ds, gf_decls f = (importDecls l ++ ds)%list -> declared_vars f = decl_vars ds.
Proof.
  intros f l ds H. unfold declared_vars. now rewrite (file_specs_app _ _ _ H), flat_map_app, import_no_vars.
Qed.

Lemma import_no_idents : forall l, flat_map spec_type_idents (map ImportSpec l) = [].
Proof. induction l; auto. Qed.

Lemma type_idents_eq : forall f l ds, gf_decls f = (importDecls l ++ ds)%list ->
  flat_map spec_type_idents (file_specs f) = type_idents ds.
Proof.
  intros f l ds H. now rewrite (file_specs_app _ _ _ H), flat_map_app, import_no_idents.
Qed.
