(** Property C83: the structs of the generated code are those of the text, from ParseString
    to Generate.  Specified in [Structs.v] and [GenStructs.v]. *)
From Coq Require Import ZArith String Ascii Bool List Lia Permutation.
From Verif Require Import GoBase Unicode Tokens LexRuns Ast Parser ParserFacts ParserRuns AstInd AstFacts GoAst Codegen CodegenSpec CodegenShape
  LexSpec Words Forgotten ForgottenFacts WordsFacts Conflicts ParserComplete Structs StructFacts GenStructs NamesGen PropsWords PropsCodegen Grammar GrammarFacts.
Import ListNotations.
Local Open Scope string_scope.
Local Open Scope list_scope.
Local Open Scope Z_scope.

(** ** What Generate makes of the types of a module *)

Section Gen.
  Context (U : unicode_tables) (asg : list Assignment_) (repr : string).

  (** The name of a component. *)
  Definition names_of (c : component Value DefinedValue) : list string :=
    flat_map (fun x => match x with Component n _ _ => [n] | ComponentsOf => [] end) (entries_of c).

  Lemma names_flat l : flat_map (fun x => match x with Component n _ _ => [n] | ComponentsOf => [] end) (flat_map entries_of l) = flat_map names_of l.
  Proof. induction l as [|c l IH]; [reflexivity|]. cbn [flat_map]. now rewrite flat_map_app, IH. Qed.

  Lemma go_names_struct b (c x : list (component Value DefinedValue)) :
    go_names U {| Structs.is_set := b; entries := flat_map entries_of c ++ flat_map entries_of x |} = map (goifyName U) (flat_map names_of (c ++ x)).
  Proof. unfold go_names, entry_names. cbn [entries]. now rewrite <- flat_map_app, names_flat. Qed.

  Lemma structs_from :
    (forall t e, go_type U asg repr t e -> forall x, In x (expr_structs e) -> exists st, In st (type_structs t) /\ x = go_names U st) /\
    (forall l fs, go_fields U asg repr l fs -> map field_name fs = map (goifyName U) (flat_map names_of l) /\
       forall x, In x (flat_map field_structs fs) -> exists st, In st (flat_map component_structs l) /\ x = go_names U st).
  Proof.
    apply go_type_both; cbn [expr_structs type_structs]; try (intros; now exfalso); try (intros; contradiction); try (intros; now auto).
    - intros t c e _ H x I. destruct (H x I) as (st & I' & E). exists st. split; [apply in_app_iff; now left|exact E].
    - intros c x fs _ [N F] y [<-|H].
      + eexists. split; [left; reflexivity|]. now rewrite go_names_struct.
      + destruct (F y H) as (st & I & E). exists st. split; [right; now rewrite <- flat_map_app|exact E].
    - intros c x fs _ [N F] y [<-|H].
      + eexists. split; [left; reflexivity|]. now rewrite go_names_struct.
      + destruct (F y H) as (st & I & E). exists st. split; [right; now rewrite <- flat_map_app|exact E].
    - intros n t x e _ _ H y I. destruct (H y I) as (st & I' & E). exists st. split; [|exact E].
      cbn [flat_map named_structs]. rewrite app_nil_r. apply in_app_iff. now left.
    - intros n t o d l e tag fs _ H _ [N F]. split.
      + cbn. now rewrite N.
      + cbn [flat_map field_structs]. intros x I. apply in_app_iff in I as [I|I].
        * destruct (H x I) as (st & I' & E). exists st. split; [apply in_app_iff; now left|exact E].
        * destruct (F x I) as (st & I' & E). exists st. split; [apply in_app_iff; now right|exact E].
  Qed.

  Lemma structs_open :
    (forall t e, go_type U asg repr t e -> open_type t = true -> expr_structs e = map (go_names U) (type_structs t)) /\
    (forall l fs, go_fields U asg repr l fs -> forallb open_component l = true ->
       flat_map field_structs fs = map (go_names U) (flat_map component_structs l)).
  Proof.
    apply go_type_both; try (intros; reflexivity); try (intros; cbn [expr_structs type_structs open_type] in *; now auto).
    - intros t c e _ H. change (type_structs (TConstrained t c)) with (type_structs t ++ constraint_structs c).
      change (open_type (TConstrained t c)) with (open_type t && match constraint_structs c with [] => true | _ => false end).
      intros O. apply andb_prop in O as [O1 O2]. destruct (constraint_structs c); [|discriminate O2]. rewrite app_nil_r. now apply H.
    - intros c x fs F H. cbn [open_type type_structs expr_structs map]. intros O. rewrite <- forallb_app in O.
      rewrite go_names_struct, (proj1 (proj2 structs_from _ _ F)), <- flat_map_app, (H O). reflexivity.
    - intros c x fs F H. cbn [open_type type_structs expr_structs map]. intros O. rewrite <- forallb_app in O.
      rewrite go_names_struct, (proj1 (proj2 structs_from _ _ F)), <- flat_map_app, (H O). reflexivity.
    - intros alts x _. cbn [open_type]. destruct (type_structs (TChoice alts x)); [reflexivity|discriminate].
    - intros n t x e NT G _. cbn [open_type]. destruct (type_structs (TChoice [Named n t] x)) as [|] eqn:E; [|discriminate]. intros _.
      change (type_structs (TChoice [Named n t] x)) with ((type_structs t ++ []) ++ flat_map (fun o => match o with Some n => named_structs n | None => [] end) x) in E.
      rewrite app_nil_r in E. apply app_eq_nil in E as [E _].
      destruct (expr_structs e) as [|y l] eqn:Ex; [reflexivity|].
      destruct (proj1 structs_from _ _ G y) as (st & I & _); [rewrite Ex; now left|]. rewrite E in I. destruct I.
    - intros alts x _ _. cbn [open_type]. destruct (type_structs (TChoice alts x)); [reflexivity|discriminate].
    - intros n t o d l e tag fs _ H _ F. cbn [forallb open_component flat_map field_structs component_structs named_structs]. intros O.
      apply andb_prop in O as [O1 O2]. now rewrite map_app, (H O1), (F O2).
  Qed.

  Lemma structs_seen :
    (forall t e, go_type U asg repr t e -> exists l, seen asg t l /\ expr_structs e = map (go_names U) l) /\
    (forall c fs, go_fields U asg repr c fs -> exists l, seen_components asg c l /\ flat_map field_structs fs = map (go_names U) l).
  Proof.
    apply go_type_both; try (intros; exists []; split; [now constructor|reflexivity]).
    - intros g t z b e _ (l & S1 & E). exists l. split; [now constructor|exact E].
    - intros t c e _ (l & S1 & E). exists l. split; [now constructor|exact E].
    - intros t e _ (l & S1 & E). exists l. split; [now constructor|exact E].
    - intros t e _ (l & S1 & E). exists l. split; [now constructor|exact E].
    - intros c x fs F (l & S1 & E). eexists. split; [apply seen_sequence; exact S1|].
      cbn [expr_structs map]. now rewrite go_names_struct, (proj1 (proj2 structs_from _ _ F)), E.
    - intros c x fs F (l & S1 & E). eexists. split; [apply seen_set; exact S1|].
      cbn [expr_structs map]. now rewrite go_names_struct, (proj1 (proj2 structs_from _ _ F)), E.
    - intros alts x T. exists []. split; [apply seen_choice; now left|reflexivity].
    - intros n t x e NT _ (l & S1 & E). exists l. split; [now apply seen_one|exact E].
    - intros alts x NT L. exists []. split; [apply seen_choice; now right|reflexivity].
    - intros n t o d l e tag fs _ (k & S1 & E1) _ (k' & S2 & E2). exists (k ++ k'). split; [now constructor|].
      cbn [flat_map field_structs]. now rewrite map_app, E1, E2.
    - intros l fs _ (k & S1 & E). exists k. split; [now constructor|exact E].
  Qed.

  (** The structs of one declaration, see [file_structs]. *)
  Definition decl_structs (d : godecl) : list (list string) :=
    match gd_tok d with
    | TokType => flat_map (fun s => match s with TypeSpec _ _ e => expr_structs e | _ => [] end) (gd_specs d)
    | _ => []
    end.

  Lemma var_structs l : Forall (fun d' => gd_tok d' = TokVar) l -> flat_map decl_structs l = [].
  Proof. induction 1 as [|d l H F IH]; [reflexivity|]. cbn [flat_map]. unfold decl_structs at 1. now rewrite H, IH. Qed.

  Lemma import_structs l : Forall is_import l -> flat_map decl_structs l = [].
  Proof. induction 1 as [|d l [H _] F IH]; [reflexivity|]. cbn [flat_map]. unfold decl_structs at 1. now rewrite H, IH. Qed.

  Lemma declared_structs name e d : declares_type name e d -> decl_structs d = expr_structs e.
  Proof. intros [T [(alias & E)|E]]; unfold decl_structs; rewrite T, E; cbn; now rewrite ?app_nil_r. Qed.
End Gen.

Section File.
  Context (U : unicode_tables) (fmt : SpecFloat.spec_float -> string) (p : GenParams) (fuel : nat) (m : Module_) (f : gofile)
    (G : Generate U fmt p fuel m = Ok (GenOk f)).

  Lemma file_from x : In x (file_structs f) -> exists st, In st (module_structs m) /\ x = go_names U st.
  Proof.
    destruct (C52_type_mapping U fmt p fuel m f G) as (imps & groups & E & I & F).
    change (file_structs f) with (flat_map decl_structs (gf_decls f)). rewrite E, flat_map_app, (import_structs _ I). cbn [app].
    unfold module_structs. fold (assignments m). clear E I. induction F as [|a g l gs H F IH]; [intros []|].
    cbn [concat flat_map]. rewrite flat_map_app. intros J. apply in_app_iff in J as [J|J].
    - destruct a as [|n t|n t v]; [rewrite (var_structs _ H) in J; destruct J| |rewrite (var_structs _ H) in J; destruct J].
      destruct H as (d & rest & e & -> & D & V & T). cbn [flat_map] in J. rewrite (var_structs _ V), app_nil_r, (declared_structs _ _ _ D) in J.
      destruct (proj1 (structs_from _ _ _) _ _ T x J) as (st & I & E). exists st. split; [apply in_app_iff; now left|exact E].
    - destruct (IH J) as (st & I & E). exists st. split; [apply in_app_iff; now right|exact E].
  Qed.

  Lemma file_open : open_module m = true -> file_structs f = map (go_names U) (module_structs m).
  Proof.
    destruct (C52_type_mapping U fmt p fuel m f G) as (imps & groups & E & I & F).
    change (file_structs f) with (flat_map decl_structs (gf_decls f)). rewrite E, flat_map_app, (import_structs _ I). cbn [app].
    unfold module_structs, open_module. fold (assignments m). clear E I. induction F as [|a g l gs H F IH]; [reflexivity|].
    cbn [forallb concat flat_map]. intros O. apply andb_prop in O as [O1 O2]. rewrite flat_map_app, map_app, (IH O2). f_equal.
    destruct a as [|n t|n t v]; cbn [assignment_structs].
    - now rewrite (var_structs _ H).
    - destruct H as (d & rest & e & -> & D & V & T). cbn [flat_map]. rewrite (var_structs _ V), app_nil_r, (declared_structs _ _ _ D).
      exact (proj1 (structs_open _ _ _) _ _ T O1).
    - rewrite (var_structs _ H). destruct (type_structs t); [reflexivity|discriminate O1].
  Qed.
  Lemma file_seen : exists ls, Forall2 (seen_assignment (assignments m)) (assignments m) ls /\ file_structs f = map (go_names U) (concat ls).
  Proof.
    destruct (C52_type_mapping U fmt p fuel m f G) as (imps & groups & E & I & F).
    change (file_structs f) with (flat_map decl_structs (gf_decls f)). rewrite E, flat_map_app, (import_structs _ I). cbn [app].
    clear E I. revert F. match goal with |- Forall2 ?R _ _ -> _ =>
      enough (X : forall l gs, Forall2 R l gs -> exists ls, Forall2 (seen_assignment (assignments m)) l ls /\
        flat_map decl_structs (concat gs) = map (go_names U) (concat ls)) by (intros F; exact (X _ _ F)) end.
    intros l0 gs0 F. induction F as [|a g l gs H F IH]; [exists []; split; [constructor|reflexivity]|].
    destruct IH as (ls & F2 & E2).
    assert (X : exists k, seen_assignment (assignments m) a k /\ flat_map decl_structs g = map (go_names U) k).
    { destruct a as [|n t|n t v].
      - exists []. split; [reflexivity|exact (var_structs _ H)].
      - destruct H as (d & rest & e & -> & D & V & T). destruct (proj1 (structs_seen _ _ _) _ _ T) as (k & S1 & E1). exists k.
        split; [exact S1|]. cbn [flat_map]. now rewrite (var_structs _ V), app_nil_r, (declared_structs _ _ _ D).
      - exists []. split; [reflexivity|exact (var_structs _ H)]. }
    destruct X as (k & S1 & E1). exists (k :: ls). split; [now constructor|].
    cbn [concat]. now rewrite flat_map_app, map_app, E1, E2.
  Qed.
End File.

(** * C83: the structs of the generated code are those of the text *)

(** Every struct type in the type declarations of the generated code has, in order, one
    field for each component of a SEQUENCE or SET written in the text, named after it;
    not counted is what is written in export lists, exceptions, WITH COMPONENT(S) and
    extension groups (C56).  [T] is the derivation tree that the parser follows. *)
Theorem C83_from_text_partial : forall U s m ts fmt p fuel f,
  parses U s (ParseOk (Some m)) -> reads_all U s ts -> Generate U fmt p fuel m = Ok (GenOk f) ->
  exists T m', yields T (Nt N_ModuleDefinition (S_module m')) /\ kept 0 0 T = true /\ leaves T = ts /\ shape m' = shape m /\
    (existsb traceless ts = false -> remembered T = T) /\
    forall x, In x (file_structs f) -> exists st, In st (written_structs (remembered T)) /\ x = go_names U st.
Proof.
  intros U s m ts fmt p fuel f P R G. destruct (C69_order_partial U s m ts P R) as (T & m' & Y & K & L & Sh & A & N).
  exists T, m'. repeat split; auto. intros x I.
  destruct (file_from U fmt p fuel m f G x I) as (st & J & E). exists st. split; [|exact E].
  apply (count_occ_In struct_dec). specialize (N st). unfold struct_count in N. rewrite N. now apply count_occ_In.
Qed.
Print Assumptions C83_from_text_partial.

(** If no SEQUENCE or SET is written in a CHOICE, a constraint or the type of a value,
    then all those written are generated, each as often as it is written. *)
Theorem C83_structs_partial : forall U s m ts fmt p fuel f,
  parses U s (ParseOk (Some m)) -> reads_all U s ts -> open_module m = true ->
  Generate U fmt p fuel m = Ok (GenOk f) ->
  exists T m', yields T (Nt N_ModuleDefinition (S_module m')) /\ kept 0 0 T = true /\ leaves T = ts /\ shape m' = shape m /\
    (existsb traceless ts = false -> remembered T = T) /\
    Permutation (file_structs f) (map (go_names U) (written_structs (remembered T))).
Proof.
  intros U s m ts fmt p fuel f P R O G. destruct (C69_order_partial U s m ts P R) as (T & m' & Y & K & L & Sh & A & N).
  exists T, m'. repeat split; auto.
  rewrite (file_open U fmt p fuel m f G O). apply Permutation_map. apply (Permutation_count_occ struct_dec). intros x. symmetry. apply N.
Qed.
Print Assumptions C83_structs_partial.

(** Exactly which, for every module: the file has one struct for each SEQUENCE and SET
    that the generator gets to see, in the order of the module. *)
Theorem C83_exactly_partial : forall U fmt p fuel m f, Generate U fmt p fuel m = Ok (GenOk f) ->
  exists ls, Forall2 (seen_assignment (assignments m)) (assignments m) ls /\ file_structs f = map (go_names U) (concat ls).
Proof. exact file_seen. Qed.
Print Assumptions C83_exactly_partial.

Example C83_exactly_example : exists m f,
  parses ascii_tables "M DEFINITIONS ::= BEGIN A ::= CHOICE { a SEQUENCE { one INTEGER } } B ::= CHOICE { a SEQUENCE { two INTEGER }, b NULL } C ::= SEQUENCE { c SET { three REAL } OPTIONAL } END" (ParseOk (Some m)) /\
  gen_ ex_params m = Ok (GenOk f) /\ file_structs f = [["One"]; ["C"]; ["Three"]] /\
  map entry_names (module_structs m) = [["one"]; ["two"]; ["c"]; ["three"]].
Proof.
  eexists _, _. split; [apply (ParseString_parses _ 1000); vm_compute; reflexivity|]. split; [vm_compute; reflexivity|]. split; reflexivity.
Qed.

Definition c83_text : string :=
  "M DEFINITIONS ::= BEGIN A ::= SEQUENCE { top-id INTEGER, in SET { x BOOLEAN OPTIONAL, y [1] REAL }, l SEQUENCE OF SEQUENCE { z A } } B ::= SET OF A END".

Example C83_example : exists ts m f,
  reads_all ascii_tables c83_text ts /\ existsb traceless ts = false /\ parses ascii_tables c83_text (ParseOk (Some m)) /\ open_module m = true /\
  gen_ ex_params m = Ok (GenOk f) /\ file_structs f = [["Top_id"; "In"; "L"]; ["X"; "Y"]; ["Z"]].
Proof.
  unfold c83_text. eexists _, _, _.
  split; [apply reads_all_tokens; repeat (eapply tokens_cons; [vm_compute; reflexivity|]); apply tokens_nil; vm_compute; reflexivity|].
  split; [reflexivity|]. split; [apply (ParseString_parses _ 1000); vm_compute; reflexivity|]. split; [reflexivity|].
  split; vm_compute; reflexivity.
Qed.

(** The structs of a CHOICE with several alternatives are lost (C47). *)
Theorem C83_choice_refuted : exists s m ts f,
  parses ascii_tables s (ParseOk (Some m)) /\ reads_all ascii_tables s ts /\ existsb traceless ts = false /\ gen_ ex_params m = Ok (GenOk f) /\
  In "lost" (text_words ts) /\ file_structs f = [].
Proof.
  eexists "M DEFINITIONS ::= BEGIN A ::= CHOICE { a SEQUENCE { lost INTEGER }, b NULL } END", _, _, _.
  split; [apply (ParseString_parses _ 1000); vm_compute; reflexivity|].
  split; [apply reads_all_tokens; repeat (eapply tokens_cons; [vm_compute; reflexivity|]); apply tokens_nil; vm_compute; reflexivity|].
  split; [reflexivity|]. split; [vm_compute; reflexivity|]. split; [cbn; tauto|reflexivity].
Qed.
Print Assumptions C83_choice_refuted.
