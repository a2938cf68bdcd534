(** Renaming commutes with the actions, with the driver and with the parser. *)
From Coq Require Import ZArith String List Bool Lia.
From Verif Require Import GoBase Unicode Tokens Tables Ast RealNum Actions Lexer Driver DriverFacts AstFacts AstInd Rename.
Import ListNotations.
Local Open Scope string_scope.
Local Open Scope list_scope.
Local Open Scope Z_scope.

(** ** Stack values *)

Section Sym.
  Context (rn : string -> string) {P R : Type} (f : P -> P) (g : R -> R).

  Definition ctl_ren (l : ComponentTypeLists P R) : ComponentTypeLists P R :=
    {| ctl_Components := map (cren rn f g) (ctl_Components l);
       ctl_ExtensionAdditions := map (cren rn f g) (ctl_ExtensionAdditions l);
       ctl_TrailingComponents := map (cren rn f g) (ctl_TrailingComponents l) |}.
  Definition ct_ren (c : ChoiceType P R) : ChoiceType P R :=
    {| ct_AlternativeTypeList := map (nren rn f g) (ct_AlternativeTypeList c);
       ct_ExtensionTypes := map (option_map (nren rn f g)) (ct_ExtensionTypes c) |}.

  Definition sym_ren (v : yySymType P R) : yySymType P R :=
    {|
       yy_name := rn (yy_name v);
       yy_numberRepr := yy_numberRepr v;
       yy_Number := yy_Number v;
       yy_Real := yy_Real v;
       yy_TagDefault := yy_TagDefault v;
       yy_ExtensionDefault := yy_ExtensionDefault v;
       yy_ModuleIdentifier := mi_ren rn (yy_ModuleIdentifier v);
       yy_DefinitiveObjIdComponent := doc_ren rn (yy_DefinitiveObjIdComponent v);
       yy_DefinitiveObjIdComponentList := map (doc_ren rn) (yy_DefinitiveObjIdComponentList v);
       yy_DefinitiveIdentifier := map (doc_ren rn) (yy_DefinitiveIdentifier v);
       yy_Type := tren rn f g (yy_Type v);
       yy_ObjectIdElement := oe_ren rn g (yy_ObjectIdElement v);
       yy_DefinedValue := dv_ren rn (yy_DefinedValue v);
       yy_ObjectIdentifierValue := map (oe_ren rn g) (yy_ObjectIdentifierValue v);
       yy_Value := value_ren rn g (yy_Value v);
       yy_Assignment := aren rn f g (yy_Assignment v);
       yy_AssignmentList := map (aren rn f g) (yy_AssignmentList v);
       yy_ModuleBody := mb_ren rn f g (yy_ModuleBody v);
       yy_ValueReference := rn (yy_ValueReference v);
       yy_TypeReference := rn (yy_TypeReference v);
       yy_Constraint := csren rn f g (yy_Constraint v);
       yy_ConstraintSpec := csren rn f g (yy_ConstraintSpec v);
       yy_ElementSetSpec := eren rn f g (yy_ElementSetSpec v);
       yy_Unions := map (map (iren rn f g)) (yy_Unions v);
       yy_Intersections := map (iren rn f g) (yy_Intersections v);
       yy_IntersectionElements := iren rn f g (yy_IntersectionElements v);
       yy_Exclusions := eren rn f g (yy_Exclusions v);
       yy_Elements := eren rn f g (yy_Elements v);
       yy_SubtypeConstraint := map (eren rn f g) (yy_SubtypeConstraint v);
       yy_RangeEndpoint := re_ren rn g (yy_RangeEndpoint v);
       yy_NamedType := nren rn f g (yy_NamedType v);
       yy_ComponentType := cren rn f g (yy_ComponentType v);
       yy_ComponentTypeLists := ctl_ren (yy_ComponentTypeLists v);
       yy_ComponentTypeList := map (cren rn f g) (yy_ComponentTypeList v);
       yy_Tag := tag_ren rn g (yy_Tag v);
       yy_Class := yy_Class v;
       yy_NamedBitList := map (nb_ren rn g) (yy_NamedBitList v);
       yy_NamedBit := nb_ren rn g (yy_NamedBit v);
       yy_Imports := map (sfm_ren rn g) (yy_Imports v);
       yy_SymbolsFromModule := sfm_ren rn g (yy_SymbolsFromModule v);
       yy_SymbolList := map (symbol_ren rn) (yy_SymbolList v);
       yy_Symbol := symbol_ren rn (yy_Symbol v);
       yy_GlobalModuleReference := gmr_ren rn g (yy_GlobalModuleReference v);
       yy_AlternativeTypeList := map (nren rn f g) (yy_AlternativeTypeList v);
       yy_ChoiceType := ct_ren (yy_ChoiceType v);
       yy_ExtensionAdditionAlternative := option_map (nren rn f g) (yy_ExtensionAdditionAlternative v);
       yy_ExtensionAdditionAlternativesList := map (option_map (nren rn f g)) (yy_ExtensionAdditionAlternativesList v);
       yy_ExtensionAdditions := map (cren rn f g) (yy_ExtensionAdditions v);
       yy_NamedNumberList := map (nn_ren rn) (yy_NamedNumberList v);
       yy_NamedNumber := nn_ren rn (yy_NamedNumber v);
       yy_EnumeratedType := et_ren rn (yy_EnumeratedType v);
       yy_Enumeration := map (ei_ren rn) (yy_Enumeration v);
       yy_EnumerationItem := ei_ren rn (yy_EnumerationItem v)
    |}.
End Sym.

Definition ptrD_ren (rn : string -> string) (p : ptrD) : ptrD := {| pd_loc := pd_loc p; pd_snap := dv_ren rn (pd_snap p) |}.
Definition ptrV_ren (rn : string -> string) (p : ptrV) : ptrV :=
  {| pv_arr := pv_arr p; pv_idx := pv_idx p; pv_snap := value_ren rn (ptrD_ren rn) (pv_snap p) |}.

Ltac head t := match t with ?b _ => head b | _ => t end.

Section Acts.
  Context (rn : string -> string) (Prop_rn : proper_renaming rn).
  Notation f := (ptrV_ren rn). Notation g := (ptrD_ren rn). Notation sr := (sym_ren rn f g).

  Lemma zero_ren : sr yy_zero = yy_zero.
  Proof.
    destruct Prop_rn as (E & _). unfold sym_ren, yy_zero. cbn.
    unfold sfm_ren. cbn. unfold mi_ren, doc_ren, oe_ren, dv_ren, nb_ren, gmr_ren, nn_ren, mb_ren, et_ren, ctl_ren, ct_ren, re_ren, tag_ren. cbn.
    rewrite !E. reflexivity.
  Qed.

  Ltac action_unfold :=
    match goal with |- ?a _ _ = _ => let h := head a in unfold h end; cbn -[app map sym_ren];
    unfold sym_ren, oe_ren, doc_ren, tag_ren, nb_ren, re_ren, nn_ren; cbn -[app map].

  Lemma action_ren (mkP : nat -> value ptrD -> ptrV) (mkR : nat -> DefinedValue -> ptrD) mkF n act d v :
    (forall k x, mkP k (value_ren rn g x) = f (mkP k x)) ->
    (forall k x, mkR k (dv_ren rn x) = g (mkR k x)) ->
    (forall x, mkF (dv_ren rn x) = g (mkF x)) ->
    nth_error (actions mkP mkR mkF) n = Some act ->
    act (fun k => sr (d k)) (sr v) = (sr (fst (act d v)), option_map (md_ren rn f g) (snd (act d v))).
  Proof.
    intros HP HR HF H. destruct Prop_rn as (E & EG & EU).
    assert (Ln : (n < 292)%nat).
    { rewrite <- (actions_length mkP mkR mkF). apply nth_error_Some. congruence. }
    do 292 (destruct n as [|n]; [injection H as <-; first [reflexivity|
       solve [action_unfold; rewrite ?map_app, ?HP, ?HR, ?HF; cbn [map]; unfold oe_ren, dv_ren; cbn -[app map]; rewrite ?E, ?EG, ?EU; reflexivity]]|]).
    lia.
  Qed.
End Acts.

(** An action reads only what it is given. *)
Lemma action_ext {P R} mkP mkR mkF n act : nth_error (actions (P:=P) (R:=R) mkP mkR mkF) n = Some act ->
  forall d d' v, (forall k, d k = d' k) -> act d v = act d' v.
Proof.
  intros H d d' v D.
  assert (Ln : (n < 292)%nat).
  { change 292%nat with (length (actions mkP mkR mkF)). apply nth_error_Some. congruence. }
  do 292 (destruct n as [|n]; [injection H as <-; first [reflexivity|
    match goal with |- ?a _ _ = _ => let h := head a in unfold h end; rewrite !D; reflexivity]|]).
  lia.
Qed.

(** ** Following pointers and renaming *)

Section MapRen.
  Context (rn : string -> string) {P R P' R' : Type}.
  Context (h k : P -> P') (h' k' : R -> R') (f : P -> P) (f' : P' -> P') (g : R -> R) (g' : R' -> R').
  Context (HP : forall p, k (f p) = f' (h p)) (HR : forall p, k' (g p) = g' (h' p)).

  Lemma value_map_ren v : value_map k' (value_ren rn g v) = value_ren rn g' (value_map h' v).
  Proof.
    destruct v; try reflexivity. cbn [value_ren value_map]. f_equal. rewrite !map_map. apply map_ext.
    intros e. unfold oe_ren, oe_map. cbn [oe_Name oe_ID oe_Reference]. f_equal. destruct (oe_Reference e); [cbn; now rewrite HR|reflexivity].
  Qed.

  Lemma map_ren {A B} (u : A -> A) (m m' : A -> B) (w : B -> B) l : Forall (fun x => m' (u x) = w (m x)) l ->
    map m' (map u l) = map w (map m l).
  Proof. intros F. rewrite !map_map. induction F as [|x l E F IH]; [reflexivity|]. cbn [map]. now rewrite E, IH. Qed.

  Lemma cases_ren : cases
    (fun t => tmap k k' (tren rn f g t) = tren rn f' g' (tmap h h' t))
    (fun n => nmap k k' (nren rn f g n) = nren rn f' g' (nmap h h' n))
    (fun c => cmap k k' (cren rn f g c) = cren rn f' g' (cmap h h' c))
    (fun c => csmap k k' (csren rn f g c) = csren rn f' g' (csmap h h' c))
    (fun e => emap k k' (eren rn f g e) = eren rn f' g' (emap h h' e))
    (fun i => imap k k' (iren rn f g i) = iren rn f' g' (imap h h' i)).
  Proof.
    constructor; intros; cbn [tmap nmap cmap csmap emap imap tren nren cren csren eren iren]; try reflexivity; try (f_equal; assumption).
    - f_equal; apply map_ren; [assumption|]. eapply Forall_impl; [|eassumption]. intros [n|] E; [exact (f_equal Some E)|reflexivity].
    - f_equal; now apply map_ren.
    - f_equal; now apply map_ren.
    - f_equal; [|assumption]. unfold tag_map, tag_ren. cbn. now rewrite value_map_ren.
    - f_equal. rewrite !map_map. apply map_ext. intros b. unfold nb_map, nb_ren. cbn. now rewrite value_map_ren.
    - f_equal; [assumption|]. destruct d; [cbn; now rewrite HP|reflexivity].
    - f_equal. now apply map_ren.
    - f_equal. apply map_ren. eapply Forall_impl; [|eassumption]. intros l0 F. now apply map_ren.
    - f_equal. apply value_map_ren.
    - f_equal; unfold re_map, re_ren; cbn; now rewrite value_map_ren.
  Qed.

  Lemma md_map_ren m : md_map k k' (md_ren rn f g m) = md_ren rn f' g' (md_map h h' m).
  Proof.
    unfold md_map, md_ren. cbn. f_equal. unfold mb_map, mb_ren. cbn. f_equal.
    - rewrite !map_map. apply map_ext. intros [|s t|s t v]; [reflexivity| |]; cbn; rewrite ?value_map_ren; f_equal;
        exact (type_ind2 _ _ _ _ _ _ cases_ren t).
    - rewrite !map_map. apply map_ext. intros x. unfold sfm_map, sfm_ren. cbn. f_equal. unfold gmr_map, gmr_ren. cbn. now rewrite value_map_ren.
  Qed.
End MapRen.

(** ** Memory *)

Definition slot_ren (rn : string -> string) (s : slot) : slot :=
  {| sl_yys := sl_yys s; sl_val := sym_ren rn (ptrV_ren rn) (ptrD_ren rn) (sl_val s) |}.
Definition lval_ren (rn : string -> string) (v : lexval) : lexval :=
  {| lv_name := rn (lv_name v); lv_numberRepr := lv_numberRepr v; lv_Number := lv_Number v |}.

Lemma map_repeat {A B} (h : A -> B) x n : map h (repeat x n) = repeat (h x) n.
Proof. induction n as [|n IH]; [reflexivity|]. cbn [repeat map]. now rewrite IH. Qed.

Lemma update_map {A B} (h : A -> B) l : forall i x, update (map h l) i (h x) = map h (update l i x).
Proof.
  induction l as [|y l IH]; intros i x; [reflexivity|]. destruct i as [|i]; [reflexivity|].
  cbn [map update]. now rewrite IH.
Qed.

Section DriverRen.
  Context (rn : string -> string) (Prop_rn : proper_renaming rn).
  Notation f := (ptrV_ren rn). Notation g := (ptrD_ren rn). Notation sr := (sym_ren rn f g). Notation slr := (slot_ren rn).

  Lemma slot_zero_ren : slr slot_zero = slot_zero.
  Proof. unfold slot_ren, slot_zero. cbn [sl_yys sl_val]. now rewrite zero_ren. Qed.

  Lemma slot_at_ren S0 i : slot_at (map slr S0) i = slr (slot_at S0 i).
  Proof. unfold slot_at. rewrite <- slot_zero_ren at 1. apply map_nth. Qed.

  Lemma grow_ren old S0 i : grow (map (map slr) old) (map slr S0) i =
    (map (map slr) (fst (grow old S0 i)), map slr (snd (grow old S0 i))).
  Proof.
    unfold grow. rewrite map_length. destruct (_ >=? _); cbn [fst snd]; [|reflexivity].
    now rewrite !map_app, map_repeat, slot_zero_ren.
  Qed.

  Lemma error_pop_ren S0 : forall k, error_pop k (map slr S0) = error_pop k S0.
  Proof.
    induction k as [|k IH]; [reflexivity|]. cbn [error_pop]. rewrite nth_error_map.
    destruct (nth_error S0 k) as [sl|]; [|reflexivity]. cbn [option_map rtab rbind].
    change (sl_yys (slr sl)) with (sl_yys sl). rewrite IH. reflexivity.
  Qed.

  Lemma sym_of_lexval_ren v : sym_of_lexval (lval_ren rn v) = sr (sym_of_lexval v).
  Proof.
    unfold sym_of_lexval. transitivity (set_Number (set_numberRepr (set_name (sr yy_zero) (rn (lv_name v))) (lv_numberRepr v)) (lv_Number v)).
    - now rewrite zero_ren.
    - reflexivity.
  Qed.

  Context {L1 L2 : Type}.
  Context (lex1 : L1 -> lexval -> res (Z * lexval * L1)) (err1 : L1 -> string -> L1).
  Context (lex2 : L2 -> lexval -> res (Z * lexval * L2)) (err2 : L2 -> string -> L2).
  Context (Q : L1 -> L2 -> Prop).
  Context (Q_lex : forall x y v c v' x', Q x y -> lex1 x v = Ok (c, v', x') ->
             exists y', lex2 y (lval_ren rn v) = Ok (c, lval_ren rn v', y') /\ Q x' y').
  Context (Q_err : forall x y m, Q x y -> Q (err1 x m) (err2 y m)).

  (** The renamed state with another lexer. *)
  Definition relx (ps : pstate L1) (y : L2) : pstate L2 :=
    {| ps_old := map (map slr) (ps_old ps); ps_S := map slr (ps_S ps); ps_p := ps_p ps; ps_VAL := sr (ps_VAL ps); ps_state := ps_state ps;
       ps_char := ps_char ps; ps_token := ps_token ps; ps_Errflag := ps_Errflag ps;
       ps_lval := lval_ren rn (ps_lval ps); ps_lx := y; ps_result := option_map (md_ren rn f g) (ps_result ps) |}.

  Definition relo (o : outcome L1) (y : L2) : outcome L2 :=
    match o with Goto l ps => Goto l (relx ps y) | Return c ps => Return c (relx ps y) end.

  Definition lx_of (o : outcome L1) : L1 := match o with Goto _ ps => ps_lx ps | Return _ ps => ps_lx ps end.

  Lemma need_token_sim ps y ps1 : Q (ps_lx ps) y -> need_token lex1 ps = Ok ps1 ->
    exists y', need_token lex2 (relx ps y) = Ok (relx ps1 y') /\ Q (ps_lx ps1) y'.
  Proof.
    intros H. unfold need_token, yylex1. cbn [relx ps_char ps_lx ps_lval].
    destruct (ps_char ps <? 0); [|intros E; injection E as <-; exists y; auto].
    destruct (lex1 (ps_lx ps) (ps_lval ps)) as [[[c v] x]| |] eqn:E; try discriminate.
    destruct (Q_lex _ _ _ _ _ _ H E) as (y' & -> & H'). cbn [rbind].
    destruct (yytranslate c); try discriminate. cbn [rbind]. intros F. injection F as <-. exists y'. auto.
  Qed.

  Lemma reduce_sim ps y n o : step_reduce ps n = Ok o ->
    step_reduce (relx ps y) n = Ok (relo o y) /\ lx_of o = ps_lx ps.
  Proof.
    unfold step_reduce. cbn [relx ps_p ps_old ps_S].
    destruct (rtab (tab yyR2 n)) as [r| |]; try discriminate. cbn [rbind].
    rewrite grow_ren. destruct (grow (ps_old ps) (ps_S ps) (ps_p ps - r + 1)) as [old yyS]. cbn [fst snd].
    rewrite !map_length, !slot_at_ren.
    destruct ((ps_p ps - r <? 0) || _); [discriminate|].
    destruct (rtab (tab yyR1 n)) as [lh| |]; try discriminate. cbn [rbind].
    destruct (rtab (tab yyPgo lh)) as [gt| |]; try discriminate. cbn [rbind].
    change (sl_yys (slr (slot_at yyS (ps_p ps - r)))) with (sl_yys (slot_at yyS (ps_p ps - r))).
    match goal with |- context [rbind ?m _] => destruct m as [a| |]; try discriminate end. cbn [rbind].
    match goal with |- context [nth_error (actions ?a ?b ?c) _] => set (mkP := a); set (mkR := b); set (mkF := c) end.
    destruct (nth_error (actions mkP mkR mkF) (Z.to_nat n)) as [act|] eqn:Ac; [|discriminate]. cbn [rtab rbind].
    rewrite (action_ext mkP mkR mkF _ act Ac (fun k => sl_val (slot_at (map slr yyS) _)) (fun k => sr (sl_val (slot_at yyS (ps_p ps - r + Z.of_nat k)))))
      by (intros k; rewrite slot_at_ren; reflexivity).
    change (sl_val (slr ?x)) with (sr (sl_val x)).
    rewrite (action_ren rn Prop_rn mkP mkR mkF _ act (fun k => sl_val (slot_at yyS (ps_p ps - r + Z.of_nat k))) _ ltac:(reflexivity) ltac:(reflexivity) ltac:(reflexivity) Ac).
    destruct (act _ _) as [v res]. cbn [fst snd]. intros E. injection E as <-. split; [|reflexivity].
    destruct res; reflexivity.
  Qed.

  Lemma error_sim ps y o : Q (ps_lx ps) y -> step_error err1 ps = Ok o ->
    exists y', step_error err2 (relx ps y) = Ok (relo o y') /\ Q (lx_of o) y'.
  Proof.
    intros H. unfold step_error. cbn [relx ps_Errflag ps_state ps_token ps_p ps_S ps_old with_look ps_char ps_lval ps_lx].
    rewrite !error_pop_ren.
    destruct (ps_Errflag ps =? 0).
    - destruct (yyErrorMessage _ _) as [m| |]; try discriminate. cbn [rbind].
      destruct (error_pop _ _) as [[[p s]|]| |]; try discriminate; cbn [rbind]; intros E; injection E as <-;
        exists (err2 y m); (split; [reflexivity|]); cbn; now apply Q_err.
    - destruct ((ps_Errflag ps =? 1) || (ps_Errflag ps =? 2)).
      + destruct (error_pop _ _) as [[[p s]|]| |]; try discriminate; cbn [rbind]; intros E; injection E as <-;
          exists y; (split; [reflexivity|]); exact H.
      + destruct (ps_token ps =? yyEofCode); intros E; injection E as <-; exists y; (split; [reflexivity|]); exact H.
  Qed.

  Lemma step_sim l ps y o : Q (ps_lx ps) y -> step lex1 err1 l ps = Ok o ->
    exists y', step lex2 err2 l (relx ps y) = Ok (relo o y') /\ Q (lx_of o) y'.
  Proof.
    intros H. destruct l; cbn [step].
    - unfold step_stack. cbn [relx ps_p ps_old ps_S ps_state ps_VAL]. rewrite grow_ren. destruct (grow _ _ _) as [old yyS]. cbn [fst snd].
      destruct (_ <? 0); [discriminate|]. intros E. injection E as <-. exists y. split; [|exact H].
      cbn [relo]. do 2 f_equal. unfold relx, with_stack. cbn [ps_old ps_S ps_p ps_VAL ps_state ps_char ps_token ps_Errflag ps_lval ps_lx ps_result].
      f_equal. rewrite <- update_map. reflexivity.
    - unfold step_newstate. cbn [relx ps_state].
      destruct (rtab (tab yyPact (ps_state ps))) as [n| |]; try discriminate. cbn [rbind].
      destruct (n <=? yyFlag); [intros E; injection E as <-; exists y; auto|].
      destruct (need_token lex1 ps) as [ps1| |] eqn:N; try discriminate.
      destruct (need_token_sim _ _ _ H N) as (y' & -> & H'). cbn [rbind relx ps_token].
      destruct (_ || _); [intros E; injection E as <-; exists y'; auto|].
      destruct (rtab (tab yyAct _)) as [a| |]; try discriminate. cbn [rbind].
      destruct (rtab (tab yyChk a)) as [c| |]; try discriminate. cbn [rbind].
      destruct (c =? ps_token ps1); intros E; injection E as <-; exists y'; [|auto].
      split; [|exact H']. cbn [relo]. do 2 f_equal. unfold relx, with_VAL, with_state, with_look.
      cbn [ps_old ps_S ps_p ps_VAL ps_state ps_char ps_token ps_Errflag ps_lval ps_lx ps_result].
      rewrite sym_of_lexval_ren. reflexivity.
    - unfold step_default. cbn [relx ps_state].
      destruct (rtab (tab yyDef (ps_state ps))) as [n| |]; try discriminate. cbn [rbind].
      destruct (n =? -2).
      + destruct (need_token lex1 ps) as [ps1| |] eqn:N; try discriminate.
        destruct (need_token_sim _ _ _ H N) as (y' & -> & H'). cbn [rbind relx ps_token ps_state].
        destruct (exca_find _ _ _) as [i| |]; try discriminate. cbn [rbind].
        destruct (exca_lookup _ _ _) as [n1| |]; try discriminate. cbn [rbind].
        destruct (n1 <? 0); [intros E; injection E as <-; exists y'; auto|].
        destruct (n1 =? 0); [apply error_sim; exact H'|].
        intros E. destruct (reduce_sim _ y' _ _ E) as (E1 & E2). exists y'. rewrite E2. auto.
      + destruct (n =? 0); [now apply error_sim|].
        intros E. destruct (reduce_sim _ y _ _ E) as (E1 & E2). exists y. rewrite E2. auto.
  Qed.

  Lemma run_sim fuel : forall l ps y c ps', Q (ps_lx ps) y -> run lex1 err1 fuel l ps = Ok (c, ps') ->
    exists y', run lex2 err2 fuel l (relx ps y) = Ok (c, relx ps' y') /\ Q (ps_lx ps') y'.
  Proof.
    induction fuel as [|n IH]; intros l ps y c ps' H; cbn [run]; [discriminate|].
    destruct (step lex1 err1 l ps) as [o| |] eqn:E; try discriminate.
    destruct (step_sim _ _ _ _ H E) as (y' & -> & H'). cbn [rbind].
    destruct o as [l' ps1|c1 ps1]; cbn [relo lx_of] in *; [now apply IH|].
    intros F. injection F as <- <-. exists y'. auto.
  Qed.

  Lemma yyParse_sim fuel x y c ps : Q x y -> yyParse lex1 err1 fuel x = Ok (c, ps) ->
    exists y', yyParse lex2 err2 fuel y = Ok (c, relx ps y') /\ Q (ps_lx ps) y'.
  Proof.
    intros H E. destruct (run_sim fuel Lyystack (init x) y c ps H E) as (y' & E' & Q'). exists y'. split; [|exact Q'].
    unfold yyParse. rewrite <- E'. f_equal. unfold relx, init. cbn [ps_old ps_S ps_p ps_VAL ps_state ps_char ps_token ps_Errflag ps_lval ps_lx ps_result].
    rewrite map_repeat, slot_zero_ren, (zero_ren rn Prop_rn). unfold lval_ren, lexval0. cbn [lv_name lv_numberRepr lv_Number].
    destruct Prop_rn as (-> & _). reflexivity.
  Qed.

  (** ** What the caller sees *)

  Lemma mem_slot_ren mem a i : mem_slot (map (map slr) mem) a i = slr (mem_slot mem a i).
  Proof. unfold mem_slot. rewrite <- slot_zero_ren at 1. change (@nil slot) with (map slr []) at 1. rewrite map_nth. apply map_nth. Qed.

  Lemma deref_D_ren mem p : deref_D (map (map slr) mem) (g p) = dv_ren rn (deref_D mem p).
  Proof. unfold deref_D. cbn [ptrD_ren pd_loc pd_snap]. destruct (pd_loc p) as [[a i]|]; [now rewrite mem_slot_ren|reflexivity]. Qed.

  Lemma deref_V_ren mem p : deref_V (map (map slr) mem) (f p) = value_ren rn (dv_ren rn) (deref_V mem p).
  Proof.
    unfold deref_V. cbn [ptrV_ren pv_arr pv_idx]. rewrite mem_slot_ren.
    change (yy_Value (sl_val (slr ?x))) with (value_ren rn g (yy_Value (sl_val x))).
    apply value_map_ren. apply deref_D_ren.
  Qed.
End DriverRen.

Lemma resolve_ren rn (E : proper_renaming rn) mem m :
  resolve (map (map (slot_ren rn)) mem) (md_ren rn (ptrV_ren rn) (ptrD_ren rn) m) = module_ren rn (resolve mem m).
Proof.
  unfold resolve, module_ren. apply md_map_ren; intros p; [now apply deref_V_ren|now apply deref_D_ren].
Qed.
