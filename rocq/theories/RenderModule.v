(** Modules that are printed; continues [RenderTypes]. *)
From Coq Require Import ZArith String Ascii Bool List Lia SpecFloat.
From Verif Require Import LexRuns.
From Verif Require Import GoBase Utf8 Unicode Tokens Reserved Lexer Parser Grammar Ast GrammarFacts Conflicts AstFacts AstInd
  ParserFacts ParserRuns ParserComplete Render RenderLex RenderFacts RenderTypes.
Import ListNotations.
Local Open Scope string_scope.
Local Open Scope list_scope.
Local Open Scope Z_scope.

Section Module.
  Context (U : unicode_tables).
  Notation phr := (phr U).

  Lemma phr_type t ws up next : type_words false t = Some ws -> not_round next -> phr up next (Nt N_Type (S_Type t)) ws.
  Proof. intros E R. apply (type_ind2 _ _ _ _ _ _ (type_cases U) t); auto. Qed.

  (** ** Assignments *)

  Lemma phr_assignment a w up next : assignment_words a = Some w -> not_round next ->
    phr up next (Nt N_Assignment (S_Assignment a)) w.
  Proof.
    intros H R. destruct a as [|s t|s t v]; cbn [assignment_words] in H; [discriminate| |]; inv_words; cbn [app].
    - unshelve (rl 49; one; rl 54; apply phrs_cons; [now apply phr_typeref|]; cbn [app]; wd; one; now apply phr_type); kinds.
    - unshelve (rl 50; one; rl 55; apply phrs_cons; [now apply phr_valueref|]; apply phrs_cons;
        [apply phr_type; [assumption|now apply not_round_other]|]; wd; one; now apply phr_value); kinds.
  Qed.

  Lemma assignment_head a w next : assignment_words a = Some w -> not_round (head_kind (map tok w) next).
  Proof.
    destruct a as [|s t|s t v]; cbn [assignment_words]; intros H; [discriminate| |]; inv_words.
    - apply (typeref_some U) in H as (-> & _ & E). cbn [app map head_kind]. rewrite E. discriminate.
    - apply (ident_some U) in H as (-> & _ & E). cbn [app map head_kind]. rewrite E. discriminate.
  Qed.

  Lemma phr_assignments l w up next : between [] (map assignment_words l) = Some w -> not_round next ->
    phr up next (Nt N_AssignmentList (S_AssignmentList l)) w.
  Proof.
    intros H R. refine (left_list U assignment_words [] [] N_AssignmentList N_AssignmentList N_Assignment S_AssignmentList
      S_Assignment 47 48 not_round eq_refl eq_refl G_47 (fun l a => G_48 l a) _ _ l w _ _ H up next R).
    - intros l' ws nx Hl. apply Hl.
    - intros nx its ws Hm. exact Hm.
    - intros a w' _ E up' next' R'. now apply phr_assignment.
    - intros a w' nx _ E. cbn [app]. now apply (assignment_head a).
  Qed.

  (** ** Imports *)

  Lemma phr_symbol s w up next : symbol_words s = Some w -> phr up next (Nt N_Symbol (S_Symbol s)) w.
  Proof.
    intros H. unshelve (rl 43; one). destruct s; cbn [symbol_words] in H; try discriminate.
    - unshelve (rl 44; one; now apply phr_typeref).
    - unshelve (rl 46; one; now apply phr_valueref).
  Qed.

  Lemma phr_symbols l w up next : commas (map symbol_words l) = Some w -> phr up next (Nt N_SymbolList (S_SymbolList l)) w.
  Proof.
    intros H. refine (comma_list U symbol_words N_SymbolList N_Symbol S_SymbolList S_Symbol 41 42 any
      l w up next eq_refl eq_refl G_41 G_42 I _ H I).
    intros a w' _ E up' next' _. now apply phr_symbol.
  Qed.

  Lemma phr_import b s w up next : import_words b s = Some w -> (b = true -> next = T_SEMICOLON) ->
    phr up next (Nt N_SymbolsFromModule (S_SymbolsFromModule s)) w.
  Proof.
    destruct s as [l [r v]]. unfold import_words. cbn [sfm_SymbolList sfm_Module gmr_Reference gmr_AssignedIdentifier].
    intros H N. inv_words. cbn [app].
    unshelve (rl 36; apply phrs_cons; [now apply phr_symbols|]; wd; one; rl 37; apply phrs_cons; [now apply phr_moduleref|]; one); kinds.
    destruct v; try discriminate.
    - destruct b; inv_words. rewrite (N eq_refl). eapply (phr_node _ 40); [exact G_40|reflexivity|reflexivity|apply phrs_nil].
    - unshelve (rl 39; one; now apply phr_defined).
    - unshelve (rl 38; one; now apply phr_oidvalue).
  Qed.

  Lemma phr_imports_more : forall l acc wacc w up, imports_words l = Some w ->
    (forall up next, phr up next (Nt N_SymbolsFromModuleList (S_Imports acc)) wacc) ->
    phr up T_SEMICOLON (Nt N_SymbolsFromModuleList (S_Imports (acc ++ l))) (wacc ++ w).
  Proof.
    induction l as [|s l IH]; intros acc wacc w up H A; [discriminate H|]. destruct l as [|s2 l]; cbn [imports_words] in H.
    - eapply (phr_plain _ 35); [exact (G_35 acc s)|reflexivity|]. apply phrs_cons; [apply A|]. one. now apply (phr_import true).
    - fold imports_words in H. inv_words. rewrite app_assoc. change (s :: s2 :: l) with ([s] ++ s2 :: l). rewrite app_assoc.
      apply IH; [assumption|]. intros up' next. eapply (phr_plain _ 35); [exact (G_35 acc s)|reflexivity|].
      apply phrs_cons; [apply A|]. one. apply (phr_import false); [assumption|discriminate].
  Qed.

  Lemma phr_imports l w up : imports_words l = Some w ->
    phr up T_SEMICOLON (Nt N_SymbolsFromModuleList (S_Imports l)) w.
  Proof.
    destruct l as [|s l]; intros H; [discriminate H|]. destruct l as [|s2 l]; cbn [imports_words] in H.
    - unshelve (rl 34; one; now apply (phr_import true)).
    - fold imports_words in H. inv_words. change (s :: s2 :: l) with ([s] ++ s2 :: l). apply phr_imports_more; [assumption|].
      intros up' next. unshelve (rl 34; one; apply (phr_import false); [assumption|discriminate]).
  Qed.

  (** ** The whole module *)

  Lemma phr_definitivenumber n w up next : number n = Some w -> phr up next (Nt N_DefinitiveNumberForm (S_Number n)) w.
  Proof. intros H. eapply (phr_number U n w up next 15); [exact H|reflexivity|exact G_15]. Qed.

  Lemma phr_definitive c w up next : definitive_words c = Some w ->
    phr up next (Nt N_DefinitiveObjIdComponent (S_DefinitiveObjIdComponent c)) w.
  Proof.
    destruct c as [s i]. unfold definitive_words. cbn [doc_Name doc_Id]. intros H.
    destruct (String.eqb_spec s "") as [->|]; [|destruct (Z.eqb_spec i 0) as [->|]].
    - unshelve (rl 13; one; now apply phr_definitivenumber).
    - unshelve (rl 12; one; rl 198; one; now apply phr_name).
    - inv_words. cbn [app]. unshelve (rl 14; one; rl 16; apply phrs_cons; [now apply phr_name|]; wd;
        apply phrs_cons; [now apply phr_definitivenumber|]; wd; apply phrs_nil); kinds.
  Qed.

  Lemma phr_definitives : forall l w up next, between [] (map definitive_words l) = Some w ->
    phr up next (Nt N_DefinitiveObjIdComponentList (S_DefinitiveObjIdComponentList l)) w.
  Proof.
    induction l as [|c l IH]; intros w up next H; [discriminate H|]. destruct l as [|c2 l].
    - unshelve (rl 10; one; now apply phr_definitive).
    - cbn [map] in H. rewrite between_cons in H by discriminate. inv_words. cbn [app].
      eapply (phr_plain _ 11); [exact (G_11 c (c2 :: l))|reflexivity|].
      apply phrs_cons; [now apply phr_definitive|]. one. now apply IH.
  Qed.

  Lemma phr_body b w up : body_words b = Some w -> phr up T_END (Nt N_ModuleBody (S_ModuleBody b)) w.
  Proof.
    destruct b as [l i]. unfold body_words. cbn [mb_AssignmentList mb_Imports]. intros H.
    assert (Q : {l = [] /\ i = []} + {listed ["IMPORTS"] imports_words [";"] i +++ between [] (map assignment_words l) = Some w}).
    { destruct l, i; auto. }
    destruct Q as [[-> ->]|Q]; [inv_words; kw 24|]. clear H. inv_words.
    unshelve (rl 23; apply phrs_empty; [kw 27|]; apply phrs_cons;
      [|one; apply phr_assignments; [assumption|now apply not_round_other]]).
    unfold listed in H. destruct i as [|s i]; inv_words.
    - kw 31.
    - cbn [app]. unshelve (rl 30; wd; apply phrs_cons; [|wd; apply phrs_nil]); kinds.
      unshelve (rl 32; one; now apply phr_imports).
  Qed.

  Lemma phr_module m ws : module_words m = Some ws -> phr 0 0 (Nt N_ModuleDefinition (S_module m)) ws.
  Proof.
    destruct m as [[r d] t e b]. unfold module_words.
    cbn [md_ModuleIdentifier md_TagDefault md_ExtensibilityImplied md_ModuleBody mi_Reference mi_DefinitiveIdentifier].
    intros H. inv_words. rewrite app_assoc. cbn [app].
    unshelve (rl 1; apply phrs_cons; [rl 7; apply phrs_cons; [now apply phr_moduleref|one]|wd; apply phrs_cons;
      [|apply phrs_cons; [|wd; wd; apply phrs_cons; [now apply phr_body|wd; apply phrs_nil]]]]); kinds.
    - unfold listed in *. destruct d as [|c d]; inv_words.
      + kw 9.
      + cbn [app]. unshelve (rl 8; wd; apply phrs_cons; [now apply phr_definitives|]; wd; apply phrs_nil); kinds.
    - unfold tag_default_words in *.
      destruct (Z.eqb_spec t TAGS_EXPLICIT) as [->|]; [inv_words; kw 17|].
      destruct (Z.eqb_spec t TAGS_IMPLICIT) as [->|]; [inv_words; kw 18|].
      destruct (Z.eqb_spec t TAGS_AUTOMATIC) as [->|]; [inv_words; kw 19|]. discriminate.
    - destruct e; [kw 21|kw 22].
  Qed.

  (** ** Round trip *)

  Lemma module_words_nonempty m : module_words m <> Some [].
  Proof.
    unfold module_words. intros H. apply app_some in H as (x & y & E & _ & W). apply (typeref_some U) in E as (-> & _). discriminate W.
  Qed.

  Lemma render_shape m s : render m = Some s ->
    exists m', parses U s (ParseOk (Some m')) /\ shape m' = shape m.
  Proof.
    unfold render. destruct (module_words m) as [ws|] eqn:E; [|discriminate]. cbn [option_map]. intros H. injection H as <-.
    destruct (phr_module m ws E) as (T & Y & L & G & K).
    assert (R : reads_all U (String.concat " " ws) (leaves T)).
    { rewrite L. apply reads_words; [|exact G]. intros ->. exact (module_words_nonempty m E). }
    destruct (complete U _ T _ Y K R) as (m1 & m' & Em & P & S'). injection Em as <-. eauto.
  Qed.

  Lemma render_exact m s : no_pointers m -> render m = Some s -> parses U s (ParseOk (Some m)).
  Proof.
    intros (m0 & ->) H. destruct (render_shape _ s H) as (m' & P & E).
    replace (md_map _ _ m0) with m'; [exact P|]. apply module_same. unfold shape in E. rewrite E.
    apply md_comp.
  Qed.
End Module.
