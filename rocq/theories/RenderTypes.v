(** Types and constraints of a printed module; continues [RenderFacts]. *)
From Coq Require Import ZArith String Ascii Bool List Lia SpecFloat.
From Verif Require Import GoBase Utf8 Unicode Tokens Reserved Lexer Grammar Ast GrammarFacts Conflicts AstInd
  Render RenderLex RenderFacts.
Import ListNotations.
Local Open Scope string_scope.
Local Open Scope list_scope.
Local Open Scope Z_scope.

Ltac rlc n := eapply (phr_comma _ n); [hnf; econstructor; shelve | reflexivity | | cbn [app]].
Ltac kw n := unshelve (rl n; repeat wd; apply phrs_nil); kinds.

Section Types.
  Context (U : unicode_tables).
  Notation phr := (phr U).

  (** ** Leaves of types *)

  Lemma phr_namednumber n w up next : named_number_words n = Some w ->
    phr up next (Nt N_NamedNumber (S_NamedNumber n)) w.
  Proof.
    destruct n as [s v]. unfold named_number_words. cbn [nn_Name nn_Value]. intros H. inv_words. cbn [app].
    destruct v as [|z|d]; [discriminate| |].
    - unshelve (rl 90; apply phrs_cons; [now apply phr_name|]; wd; apply phrs_cons; [now apply phr_signed|]; wd; apply phrs_nil); kinds.
    - unshelve (rl 91; apply phrs_cons; [now apply phr_name|]; wd; apply phrs_cons; [now apply phr_defined|]; wd; apply phrs_nil); kinds.
  Qed.

  Lemma phr_namednumbers l w up next : commas (map named_number_words l) = Some w ->
    phr up next (Nt N_NamedNumberList (S_NamedNumberList l)) w.
  Proof.
    intros H. refine (comma_list U named_number_words N_NamedNumberList N_NamedNumber S_NamedNumberList S_NamedNumber 88 89 any
      l w up next eq_refl eq_refl G_88 G_89 I _ H I).
    intros a w' _ E up' next' _. now apply phr_namednumber.
  Qed.

  Lemma phr_enumitem i w up next : enum_item_words i = Some w ->
    phr up next (Nt N_EnumerationItem (S_EnumerationItem i)) w.
  Proof.
    destruct i as [|n|s]; cbn [enum_item_words]; intros H; [discriminate| |].
    - unshelve (rl 104; one; now apply phr_namednumber).
    - unshelve (rl 105; one; now apply phr_name).
  Qed.

  Lemma phr_enums : forall l w up next, commas (map enum_item_words l) = Some w -> next <> T_COMMA ->
    phr up next (Nt N_Enumeration (S_Enumeration l)) w.
  Proof.
    induction l as [|i l IH]; intros w up next H N; [discriminate H|]. destruct l as [|j l].
    - unshelve (rlc 102; [exact N|one; now apply phr_enumitem]).
    - unfold commas in H. cbn [map] in H. rewrite between_cons in H by discriminate. inv_words. cbn [app].
      eapply (phr_plain _ 103); [exact (G_103 i (tok ",") (j :: l) eq_refl)|reflexivity|].
      apply phrs_cons; [now apply phr_enumitem|]. wd. one. now apply IH.
  Qed.

  Lemma phr_namedbit b w up next : named_bit_words b = Some w -> phr up next (Nt N_NamedBit (S_NamedBit b)) w.
  Proof.
    destruct b as [s v]. unfold named_bit_words. cbn [nb_Name nb_Index]. intros H. inv_words. cbn [app].
    destruct v; try discriminate.
    - unshelve (rl 123; apply phrs_cons; [now apply phr_name|]; wd; apply phrs_cons; [now apply phr_num|]; wd; apply phrs_nil); kinds.
    - unshelve (rl 124; apply phrs_cons; [now apply phr_name|]; wd; apply phrs_cons; [now apply phr_defined|]; wd; apply phrs_nil); kinds.
  Qed.

  Lemma phr_namedbits l w up next : commas (map named_bit_words l) = Some w ->
    phr up next (Nt N_NamedBitList (S_NamedBitList l)) w.
  Proof.
    intros H. refine (comma_list U named_bit_words N_NamedBitList N_NamedBit S_NamedBitList S_NamedBit 121 122 any
      l w up next eq_refl eq_refl G_121 G_122 I _ H I).
    intros a w' _ E up' next' _. now apply phr_namedbit.
  Qed.

  Lemma phr_tag g w up next : tag_words g = Some w -> phr up next (Nt N_Tag (S_Tag g)) w.
  Proof.
    destruct g as [c v]. unfold tag_words. cbn [tag_Class tag_ClassNumber]. intros H. inv_words. cbn [app].
    eapply (phr_plain _ 177); [exact (G_177 (tok "[") c v (tok "]") eq_refl eq_refl)|reflexivity|].
    wd. apply phrs_cons; [|apply phrs_cons; [|wd; apply phrs_nil]].
    - destruct (Z.eqb_spec c CLASS_UNIVERSAL) as [->|]; [inv_words; kw 180|].
      destruct (Z.eqb_spec c CLASS_APPLICATION) as [->|]; [inv_words; kw 181|].
      destruct (Z.eqb_spec c CLASS_PRIVATE) as [->|]; [inv_words; kw 182|].
      destruct (Z.eqb_spec c CLASS_CONTEXT_SPECIFIC) as [->|]; [inv_words; kw 183|]. discriminate.
    - destruct v; try discriminate.
      + unshelve (rl 178; one; now apply phr_num).
      + unshelve (rl 179; one; now apply phr_defined).
  Qed.

  Lemma phr_stringtype k w up next : string_type_words k = Some w ->
    phr up next (Nt N_RestrictedCharacterStringType (S_Type (TRestrictedString k))) w.
  Proof.
    unfold string_type_words, string_types. cbn [find fst snd]. intros H.
    destruct (Z.eqb_spec T_BMPString k) as [<-|_]; [inv_words; kw 201|].
    destruct (Z.eqb_spec T_GeneralString k) as [<-|_]; [inv_words; kw 202|].
    destruct (Z.eqb_spec T_GraphicString k) as [<-|_]; [inv_words; kw 203|].
    destruct (Z.eqb_spec T_IA5String k) as [<-|_]; [inv_words; kw 204|].
    destruct (Z.eqb_spec T_ISO646String k) as [<-|_]; [inv_words; kw 205|].
    destruct (Z.eqb_spec T_NumericString k) as [<-|_]; [inv_words; kw 206|].
    destruct (Z.eqb_spec T_PrintableString k) as [<-|_]; [inv_words; kw 207|].
    destruct (Z.eqb_spec T_TeletexString k) as [<-|_]; [inv_words; kw 208|].
    destruct (Z.eqb_spec T_T61String k) as [<-|_]; [inv_words; kw 209|].
    destruct (Z.eqb_spec T_UniversalString k) as [<-|_]; [inv_words; kw 210|].
    destruct (Z.eqb_spec T_UTF8String k) as [<-|_]; [inv_words; kw 211|].
    destruct (Z.eqb_spec T_VideotexString k) as [<-|_]; [inv_words; kw 212|].
    destruct (Z.eqb_spec T_VisibleString k) as [<-|_]; [inv_words; kw 213|]. discriminate.
  Qed.

  Lemma phr_noexception up next : up <> 131 -> phr up next (Nt N_ExceptionSpec S_none) [].
  Proof.
    intros N. apply Z.eqb_neq in N. eapply (phr_node _ 288); [exact G_288|..|apply phrs_nil].
    - unfold lost, never. cbn [existsb Z.eqb Pos.eqb orb]. now rewrite !andb_false_r.
    - unfold shadowed. rewrite N. cbn [Z.eqb Pos.eqb]. now rewrite !andb_false_r.
  Qed.

  Lemma phr_lower v w up next : end_words "MIN" v = Some w -> phr up next (Nt N_LowerEndValue (S_Value v)) w.
  Proof.
    unfold end_words. intros H. destruct v; try (unshelve (rl 264; one; now apply phr_value)).
    inv_words. kw 265.
  Qed.

  Lemma phr_upper v w up next : end_words "MAX" v = Some w -> phr up next (Nt N_UpperEndValue (S_Value v)) w.
  Proof.
    unfold end_words. intros H. destruct v; try (unshelve (rl 266; one; now apply phr_value)).
    inv_words. kw 267.
  Qed.

  Lemma phr_range lo hi w up next : range_words lo hi = Some w ->
    phr up next (Nt N_ValueRange (S_Elements (EValueRange lo hi))) w.
  Proof.
    destruct lo as [v o], hi as [v' o']. unfold range_words. cbn [re_Value re_IsOpen]. intros H. inv_words.
    rewrite app_assoc.
    eapply (phr_plain _ 259); [eapply (G_259 _ (tok "..")); reflexivity|reflexivity|].
    apply phrs_cons.
    - destruct o.
      + unshelve (rl 261; apply phrs_cons; [now apply phr_lower|]; wd; apply phrs_nil); kinds.
      + rewrite app_nil_r. unshelve (rl 260; one; now apply phr_lower).
    - cbn [app]. wd. one. destruct o'.
      + unshelve (rl 263; wd; one; now apply phr_upper); kinds.
      + unshelve (rl 262; one; now apply phr_upper).
  Qed.

  (** ** Types, by induction *)

  Definition TP (t : AType_) : Prop := forall ws, type_words false t = Some ws -> forall up next,
    (closed t = false -> not_round next) -> phr up next (Nt N_Type (S_Type t)) ws.
  Definition NP (n : NamedType Value DefinedValue) : Prop := forall ws, named_words n = Some ws -> forall up next,
    not_round next -> phr up next (Nt N_NamedType (S_NamedType n)) ws.
  Definition CP (c : component Value DefinedValue) : Prop := forall ws, component_words c = Some ws -> forall up next,
    not_round next -> phr up next (Nt N_ComponentType (S_ComponentType c)) ws.
  Definition SP (c : ConstraintSpec Value DefinedValue) : Prop := forall ws, constraint_words c = Some ws ->
    (exists ws', ws = "(" :: ws') /\ forall up next, phr up next (Nt N_Constraint (S_Constraint c)) ws.
  Definition EP (e : Elements Value DefinedValue) : Prop :=
    (forall ws, element_words e = Some ws -> forall up next, not_round next -> phr up next (Nt N_Elements (S_Elements e)) ws)
    /\ (forall ws, spec_words e = Some ws -> forall up next, not_round next -> phr up next (Nt N_ElementSetSpec (S_ElementSetSpec e)) ws).
  Definition IP (i : IntersectionElements Value DefinedValue) : Prop := forall ws, intersection_words i = Some ws ->
    forall up next, not_round next -> phr up next (Nt N_IntersectionElements (S_IntersectionElements i)) ws.

  (** After OF. *)
  Definition OP (t : AType_) : Prop := forall ws, type_words true t = Some ws -> forall up next, not_round next ->
    match t with
    | TNamed n => phr up next (Nt N_NamedType (S_NamedType n)) ws
    | _ => phr up next (Nt N_Type (S_Type t)) ws
    end.

  Definition TP' (t : AType_) : Prop :=
    TP t /\ match t with TNamed n => NP n | TSequenceOf u | TSetOf u => OP u | _ => True end.

  Lemma after_of t : TP' t -> OP t.
  Proof.
    intros [H N] ws E up next R. destruct t; try (apply H; [exact E|auto]). now apply N.
  Qed.

  Lemma not_round_other k : (k =? T_OPEN_ROUND) = false -> not_round k.
  Proof. intros H. now apply Z.eqb_neq. Qed.

  Lemma builtin up next t ws n N : plain n = true -> rule n N_BuiltinType [Nt N (S_Type t)] (S_Type t) ->
    phr n next (Nt N (S_Type t)) ws -> phr up next (Nt N_Type (S_Type t)) ws.
  Proof.
    intros P Ru H. unshelve (rl 56; one). eapply (phr_plain _ n); [exact Ru|exact P|]. now one.
  Qed.

  Lemma phr_components_list l w up next : Forall CP l -> commas (map component_words l) = Some w -> not_round next ->
    phr up next (Nt N_ComponentTypeList (S_ComponentTypeList l)) w.
  Proof.
    intros F H R. refine (comma_list U component_words N_ComponentTypeList N_ComponentType S_ComponentTypeList S_ComponentType 148 149
      not_round l w up next eq_refl eq_refl G_148 G_149 _ _ H R); [now apply not_round_other|].
    intros a w' I E up' next' R'. rewrite Forall_forall in F. now apply F.
  Qed.

  Lemma phr_additions l w up next : Forall CP l -> commas (map component_words l) = Some w -> not_round next ->
    phr up next (Nt N_ExtensionAdditionList (S_ExtensionAdditions l)) w.
  Proof.
    intros F H R. refine (comma_list U component_words N_ExtensionAdditionList N_ExtensionAddition S_ExtensionAdditions
      (fun c => S_ExtensionAdditions [c]) 141 142 not_round l w up next eq_refl eq_refl (fun a => G_141 [a])
      (fun l t a => G_142 l t [a]) _ _ H R); [now apply not_round_other|].
    intros a w' I E up' next' R'. rewrite Forall_forall in F. unshelve (rl 143; one; now apply F).
  Qed.

  Lemma phr_alternatives l w up next : Forall NP l -> commas (map named_words l) = Some w -> not_round next ->
    phr up next (Nt N_AlternativeTypeList (S_AlternativeTypeList l)) w.
  Proof.
    intros F H R. refine (comma_list U named_words N_AlternativeTypeList N_NamedType S_AlternativeTypeList S_NamedType 172 173
      not_round l w up next eq_refl eq_refl G_172 G_173 _ _ H R); [now apply not_round_other|].
    intros a w' I E up' next' R'. rewrite Forall_forall in F. now apply F.
  Qed.

  Definition option_words (o : option (NamedType Value DefinedValue)) : words :=
    match o with Some n => named_words n | None => None end.

  Lemma phr_altadditions l w up next : Forall (PO NP) l -> commas (map option_words l) = Some w -> not_round next ->
    phr up next (Nt N_ExtensionAdditionAlternativesList (S_ExtensionAdditionAlternativesList l)) w.
  Proof.
    intros F H R. refine (comma_list U option_words N_ExtensionAdditionAlternativesList N_ExtensionAdditionAlternative
      S_ExtensionAdditionAlternativesList S_ExtensionAdditionAlternative 168 169
      not_round l w up next eq_refl eq_refl G_168 G_169 _ _ H R); [now apply not_round_other|].
    intros [a|] w' I E up' next' R'; [|discriminate E]. rewrite Forall_forall in F.
    unshelve (rl 170; one; exact (F _ I _ E _ _ R')).
  Qed.

  Lemma phrs_last2 up next i1 i2 w : phr up next i1 w -> phr up next i2 [] -> phrs U up next [i1; i2] w.
  Proof.
    intros H1 H2. rewrite <- (app_nil_r w). apply phrs_cons; [exact H1|]. apply phrs_empty; [exact H2|apply phrs_nil].
  Qed.

  Lemma phr_components c e w up : Forall CP c -> Forall CP e ->
    extensible (map component_words c) (map component_words e) = Some w ->
    phr up T_CLOSE_CURLY (Nt N_ComponentTypeLists (S_ComponentTypeLists
      {| ctl_Components := c; ctl_ExtensionAdditions := e; ctl_TrailingComponents := [] |})) w.
  Proof.
    intros Fc Fe H. assert (R : not_round T_CLOSE_CURLY) by now apply not_round_other.
    destruct e as [|x e]; unfold extensible in H; cbn [map] in H.
    - unshelve (rl 134; one; now apply phr_components_list).
    - change (component_words x :: map component_words e) with (map component_words (x :: e)) in H. inv_words. cbn [app].
      unshelve (rl 135; apply phrs_cons; [apply phr_components_list; [assumption|assumption|now apply not_round_other]|];
        wd; apply (phrs_cons U _ _ _ _ ["..."]); [|apply phrs_last2]); kinds.
      + kw 130.
      + unshelve (rlc 139; [discriminate|wd; one; now apply phr_additions]); kinds.
      + kw 133.
  Qed.

  Lemma phr_choice a e w up : Forall NP a -> Forall (PO NP) e ->
    alternatives_words (map named_words a) (map option_words e) = Some w ->
    phr up T_CLOSE_CURLY (Nt N_AlternativeTypeLists (S_ChoiceType
      {| ct_AlternativeTypeList := a; ct_ExtensionTypes := e |})) w.
  Proof.
    intros Fa Fe H. assert (R : not_round T_CLOSE_CURLY) by now apply not_round_other.
    assert (X : forall up next w, next <> T_COMMA -> not_round next -> commas (map option_words e) = Some w ->
      phr up next (Nt N_ExtensionAdditionAlternatives (S_ExtensionAdditionAlternativesList e)) ("," :: w)).
    { intros up' next w' N R' E. unshelve (rlc 166; [exact N|wd; one; now apply phr_altadditions]); kinds. }
    destruct a as [|n a]; unfold alternatives_words in H.
    - cbn [map] in H. inv_words. cbn [app]. unshelve (rl 164; apply (phrs_cons U _ _ _ _ ["..."]); [|apply phrs_last2]); kinds.
      + kw 130.
      + now apply X.
      + kw 133.
    - cbn [map] in H. change (named_words n :: map named_words a) with (map named_words (n :: a)) in H.
      unfold extensible in H. destruct e as [|x e]; cbn [map] in H.
      + unshelve (rl 163; one; now apply phr_alternatives).
      + change (option_words x :: map option_words e) with (map option_words (x :: e)) in H.
        change (named_words n :: map named_words a) with (map named_words (n :: a)) in H. inv_words. cbn [app].
        unshelve (rl 162; apply phrs_cons; [apply phr_alternatives; [assumption|assumption|now apply not_round_other]|];
          wd; apply (phrs_cons U _ _ _ _ ["..."]); [|apply phrs_last2]); kinds.
        * kw 130.
        * now apply X.
        * kw 133.
  Qed.

  Lemma phr_inters l w up next : Forall IP l -> between ["^"] (map intersection_words l) = Some w -> not_round next ->
    phr up next (Nt N_Intersections (S_Intersections l)) w.
  Proof.
    intros F H R. refine (left_list U intersection_words ["^"] [Nt N_IntersectionMark S_none] N_Intersections N_IElems
      N_IntersectionElements S_Intersections S_IntersectionElements 240 241 not_round eq_refl eq_refl G_240 (fun l a => G_241 l a)
      _ _ l w _ _ H up next R).
    - intros l' ws nx Hl. unshelve (rl 242; one; apply Hl).
    - intros nx its ws Hm. cbn [app]. apply (phrs_cons U _ _ _ _ ["^"]); [kw 249|exact Hm].
    - intros a w' I E up' next' R'. rewrite Forall_forall in F. now apply F.
    - intros a w' nx _ _. now apply not_round_other.
  Qed.

  Lemma phr_unions l w up next : Forall (Forall IP) l -> unions_words (map (map intersection_words) l) = Some w -> not_round next ->
    phr up next (Nt N_Unions (S_Unions l)) w.
  Proof.
    unfold unions_words. rewrite map_map. intros F H R.
    refine (left_list U (fun k => between ["^"] (map intersection_words k)) ["|"] [Nt N_UnionMark S_none] N_Unions N_UElems
      N_Intersections S_Unions S_Intersections 237 238 not_round eq_refl eq_refl G_237 (fun l a => G_238 l a)
      _ _ l w _ _ H up next R).
    - intros l' ws nx Hl. unshelve (rl 239; one; apply Hl).
    - intros nx its ws Hm. cbn [app]. apply (phrs_cons U _ _ _ _ ["|"]); [kw 247|exact Hm].
    - intros a w' I E up' next' R'. rewrite Forall_forall in F. now apply phr_inters; auto.
    - intros a w' nx _ _. now apply not_round_other.
  Qed.

  Lemma phr_constraint l ws : Forall EP l -> constraint_words (CSSubtype l) = Some ws ->
    (exists ws', ws = "(" :: ws') /\ forall up next, phr up next (Nt N_Constraint (S_Constraint (CSSubtype l))) ws.
  Proof.
    intros F H.
    assert (B : forall w, (forall up, phr up T_CLOSE_ROUND (Nt N_ElementSetSpecs (S_SubtypeConstraint l)) w) ->
      forall up next, phr up next (Nt N_Constraint (S_Constraint (CSSubtype l))) ("(" :: w ++ [")"])).
    { intros w Hw up next. unshelve (rl 227; wd; apply phrs_cons; [|apply phrs_empty; [now apply phr_noexception|wd; apply phrs_nil]]); kinds.
      unshelve (rl 228; one; rl 229; one; apply Hw). }
    destruct l as [|e [|x [|y l]]]; try discriminate H; cbn [constraint_words] in H; inv_words; cbn [app].
    - split; [eauto|]. apply B. intros up. unshelve (rl 230; one; rl 233; one).
      inversion F; subst. match goal with H : EP e |- _ => apply H end; [assumption|now apply not_round_other].
    - split; [eauto|]. intros up next.
      match goal with |- phr _ _ _ ("(" :: ?a ++ "," :: "..." :: "," :: ?b ++ [")"]) =>
        replace (a ++ "," :: "..." :: "," :: b ++ [")"]) with ((a ++ "," :: "..." :: "," :: b) ++ [")"])
          by (rewrite <- app_assoc; reflexivity) end.
      apply B. intros up'. inversion F as [|? ? He F']; subst. inversion F' as [|? ? Hx _]; subst.
      eapply (phr_plain _ 232); [exact (G_232 [e] (tok ",") (tok "...") (tok ",") x eq_refl eq_refl eq_refl)|reflexivity|].
      apply phrs_cons; [|do 3 wd; one].
      + unshelve (rl 233; one). apply He; [assumption|now apply not_round_other].
      + unshelve (rl 234; one). apply Hx; [assumption|now apply not_round_other].
  Qed.

  Lemma type_cases : cases TP' NP CP SP EP IP.
  Proof.
    constructor; intros.
    - split; [discriminate|exact I].
    - split; [|exact I]. intros ws H up next _. cbn [type_words] in H.
      destruct (String.eqb_spec s "GeneralizedTime") as [->|]; [|destruct (String.eqb_spec s "UTCTime") as [->|]]; cbn [orb] in H.
      + inv_words. unshelve (rl 57; one; rl 76; one; kw 215).
      + inv_words. unshelve (rl 57; one; rl 76; one; kw 216).
      + unshelve (rl 57; one; rl 75; one; rl 51; one; now apply phr_typeref).
    - split; [discriminate|exact H].
    - split; [|exact I]. intros ws H up next _. cbn [type_words] in H. inv_words. apply (builtin _ _ _ _ 65 N_NullType); [reflexivity|exact (G_65 _)|kw 126].
    - split; [|exact I]. intros ws H up next _. cbn [type_words] in H. inv_words. apply (builtin _ _ _ _ 66 N_ObjectIdentifierType); [reflexivity|exact (G_66 _)|kw 186].
    - split; [|exact I]. intros ws H up next _. cbn [type_words] in H. unfold listed in H. apply (builtin _ _ _ _ 64 N_IntegerType); [reflexivity|exact (G_64 _)|].
      destruct l as [|x l]; inv_words; cbn [app].
      + kw 86.
      + unshelve (rl 87; wd; wd; apply phrs_cons; [now apply phr_namednumbers|]; wd; apply phrs_nil); kinds.
    - split; [|exact I]. intros ws H up next _. cbn [type_words] in H. destruct e as [r [|x a]]; cbn [et_AdditionalEnumeration et_RootEnumeration] in H; [|discriminate].
      inv_words. cbn [app]. apply (builtin _ _ _ _ 63 N_EnumeratedType); [reflexivity|exact (G_63 _)|].
      unshelve (rl 96; wd; wd; apply phrs_cons; [|wd; apply phrs_nil]); kinds.
      unshelve (rl 97; one; rl 100; one). apply phr_enums; [assumption|discriminate].
    - split; [|exact I]. intros ws H up next _. cbn [type_words] in H. inv_words. apply (builtin _ _ _ _ 68 N_RealType); [reflexivity|exact (G_68 _)|kw 106].
    - split; [|exact I]. intros ws H up next _. cbn [type_words] in H. inv_words. apply (builtin _ _ _ _ 60 N_BooleanType); [reflexivity|exact (G_60 _)|kw 83].
    - split; [|exact I]. intros ws E up next _. cbn [type_words] in E. inv_words. cbn [app]. apply (builtin _ _ _ _ 62 N_ChoiceType); [reflexivity|exact (G_62 _)|].
      eapply (phr_plain _ 161); [exact (G_161 (tok "CHOICE") (tok "{") {| ct_AlternativeTypeList := a; ct_ExtensionTypes := e |} (tok "}") ltac:(vm_compute; reflexivity) eq_refl eq_refl)|reflexivity|].
      wd. wd. apply phrs_cons; [|wd; apply phrs_nil]. now apply phr_choice.
    - split; [|exact I]. intros ws H up next _. cbn [type_words] in H. apply (builtin _ _ _ _ 61 N_CharacterStringType); [reflexivity|exact (G_61 _)|].
      unshelve (rl 199; one; now apply phr_stringtype).
    - split; [|exact I]. intros ws H up next _. cbn [type_words] in H. inv_words. apply (builtin _ _ _ _ 61 N_CharacterStringType); [reflexivity|exact (G_61 _)|].
      unshelve (rl 200; one; kw 214).
    - split; [|exact I]. intros ws H up next _. cbn [type_words] in H. inv_words. apply (builtin _ _ _ _ 67 N_OctetStringType); [reflexivity|exact (G_67 _)|kw 125].
    - split; [|exact I]. intros ws E up next _. cbn [type_words] in E. apply (builtin _ _ _ _ 69 N_SequenceType); [reflexivity|exact (G_69 _)|].
      assert (Q : {c = [] /\ e = []} + {components_words (map component_words c) (map component_words e) = extensible (map component_words c) (map component_words e)}).
      { destruct c, e; cbn [map components_words]; auto. }
      destruct Q as [[-> ->]|Q]; [cbn [map components_words] in E; inv_words; cbn [app]; kw 127|].
      rewrite Q in E. inv_words. cbn [app]. rewrite <- (app_nil_r c).
      eapply (phr_plain _ 129); [exact (G_129 (tok "SEQUENCE") (tok "{") {| ctl_Components := c; ctl_ExtensionAdditions := e; ctl_TrailingComponents := [] |} (tok "}") ltac:(vm_compute; reflexivity) eq_refl eq_refl)|reflexivity|].
      wd. wd. apply phrs_cons; [|wd; apply phrs_nil]. now apply phr_components.
    - split; [|exact I]. intros ws E up next _. cbn [type_words] in E. apply (builtin _ _ _ _ 71 N_SetType); [reflexivity|exact (G_71 _)|].
      assert (Q : {c = [] /\ e = []} + {components_words (map component_words c) (map component_words e) = extensible (map component_words c) (map component_words e)}).
      { destruct c, e; cbn [map components_words]; auto. }
      destruct Q as [[-> ->]|Q]; [cbn [map components_words] in E; inv_words; cbn [app]; kw 154|].
      rewrite Q in E. inv_words. cbn [app]. rewrite <- (app_nil_r c).
      eapply (phr_plain _ 156); [exact (G_156 (tok "SET") (tok "{") {| ctl_Components := c; ctl_ExtensionAdditions := e; ctl_TrailingComponents := [] |} (tok "}") ltac:(vm_compute; reflexivity) eq_refl eq_refl)|reflexivity|].
      wd. wd. apply phrs_cons; [|wd; apply phrs_nil]. now apply phr_components.
    - split; [|exact I]. intros ws E up next R. cbn [type_words] in E. specialize (R eq_refl). inv_words.
      apply (builtin _ _ _ _ 74 N_TaggedType); [reflexivity|exact (G_74 _)|]. unfold tag_mode_words in H1. destruct H as [H _]. destruct b.
      + destruct (Z.eqb_spec z TAGS_IMPLICIT) as [->|]; [|destruct (Z.eqb_spec z TAGS_EXPLICIT) as [->|]]; inv_words; cbn [app].
        * unshelve (rlr 175; [exact R|apply phrs_cons; [now apply phr_tag|]; wd; one; now apply H]); kinds.
        * unshelve (rlr 176; [exact R|apply phrs_cons; [now apply phr_tag|]; wd; one; now apply H]); kinds.
      + destruct (Z.eqb_spec z 0) as [->|]; inv_words; cbn [app].
        unshelve (rlr 174; [exact R|apply phrs_cons; [now apply phr_tag|]; one; now apply H]); kinds.
    - apply after_of in H. split; [|exact H]. intros ws E up next R. specialize (R eq_refl). cbn [type_words] in E. inv_words. cbn [app].
      apply (builtin _ _ _ _ 70 N_SequenceOfType); [reflexivity|exact (G_70 _)|].
      destruct t; try (unshelve (rlr 184; [exact R|wd; wd; one; now apply H]); kinds; fail).
      unshelve (rl 185; wd; wd; one; now apply H); kinds.
    - apply after_of in H. split; [|exact H]. intros ws E up next R. specialize (R eq_refl). cbn [type_words] in E. inv_words. cbn [app].
      apply (builtin _ _ _ _ 72 N_SetOfType); [reflexivity|exact (G_72 _)|].
      destruct t; try (unshelve (rlr 157; [exact R|wd; wd; one; now apply H]); kinds; fail).
      unshelve (rl 158; wd; wd; one; now apply H); kinds.
    - split; [|exact I]. intros ws H up next _. cbn [type_words] in H. apply (builtin _ _ _ _ 73 N_AnyType); [reflexivity|exact (G_73 _)|].
      destruct (String.eqb_spec s "") as [->|]; inv_words; cbn [app].
      + kw 159.
      + unshelve (rl 160; do 3 wd; one; now apply phr_name); kinds.
    - split; [|exact I]. intros ws H up next _. cbn [type_words] in H. unfold listed in H. apply (builtin _ _ _ _ 59 N_BitStringType); [reflexivity|exact (G_59 _)|].
      destruct l as [|x l]; inv_words; cbn [app].
      + kw 119.
      + unshelve (rl 120; do 3 wd; apply phrs_cons; [now apply phr_namedbits|]; wd; apply phrs_nil); kinds.
    - split; [|exact I]. intros ws E up next R. unshelve (rl 58; one). destruct H as [H HO].
      assert (G : closed t = true -> type_words false t +++ constraint_words c = Some ws ->
        phr 58 next (Nt N_ConstrainedType (S_Type (TConstrained t c))) ws).
      { intros Cl W. inv_words. match goal with Q : constraint_words c = Some _ |- _ => destruct (H0 _ Q) as [_ Hc] end. unshelve (rl 217; apply phrs_cons; [apply H; [assumption|congruence]|one; apply Hc]). }
      destruct t; cbn [type_words closed] in E, G; try (apply G; [reflexivity|exact E]); try discriminate.
      + specialize (R eq_refl). inv_words. cbn [app]. unshelve (rl 218; one). match goal with Q : constraint_words c = Some _ |- _ => destruct (H0 _ Q) as [_ Hc] end.
        destruct t; try (unshelve (rlr 221; [exact R|wd; apply phrs_cons; [apply Hc|]; wd; one; now apply HO]); kinds; fail).
        unshelve (rl 225; wd; apply phrs_cons; [apply Hc|]; wd; one; now apply HO); kinds.
      + specialize (R eq_refl). inv_words. cbn [app]. unshelve (rl 218; one). match goal with Q : constraint_words c = Some _ |- _ => destruct (H0 _ Q) as [_ Hc] end.
        destruct t; try (unshelve (rlr 219; [exact R|wd; apply phrs_cons; [apply Hc|]; wd; one; now apply HO]); kinds; fail).
        unshelve (rl 223; wd; apply phrs_cons; [apply Hc|]; wd; one; now apply HO); kinds.
      + destruct (closed t) eqn:Cl; [|discriminate]. now apply G.
    - intros ws E up next R. cbn [named_words] in E. inv_words. unshelve (rlr 77; [exact R|apply phrs_cons; [now apply phr_name|one; now apply H]]).
    - intros ws E. discriminate E.
    - intros ws E up next R. cbn [component_words] in E. destruct o, d as [v|]; try discriminate.
      + inv_words. unshelve (rl 151; apply phrs_cons; [apply H; [assumption|now apply not_round_other]|wd; apply phrs_nil]); kinds.
      + inv_words. unshelve (rl 152; apply phrs_cons; [apply H; [assumption|now apply not_round_other]|cbn [app]; wd; one; now apply phr_value]); kinds.
      + unshelve (rl 150; one; now apply H).
    - intros ws E up next R. cbn [component_words] in E. inv_words. cbn [app]. unshelve (rl 153; wd; wd; one; now apply H); kinds.
    - intros ws E. discriminate E.
    - intros ws E. now apply phr_constraint.
    - intros ws E. discriminate E.
    - split; intros ws E; discriminate E.
    - split; intros ws E up next R; cbn [element_words spec_words] in E.
      + inv_words. cbn [app]. unshelve (rl 252; wd; apply phrs_cons; [|wd; apply phrs_nil]); kinds.
        unshelve (rl 235; one; apply phr_unions; [assumption|assumption|now apply not_round_other]).
      + unshelve (rl 235; one; now apply phr_unions).
    - destruct H as [H _]. split; intros ws E up next R; cbn [element_words spec_words] in E; inv_words; cbn [app].
      + unshelve (rl 252; wd; apply (phrs_cons U _ _ _ _ ("ALL" :: "EXCEPT" :: _)); [|wd; apply phrs_nil]); kinds.
        unshelve (rl 236; wd; one; rl 246; wd; one; apply H; [assumption|now apply not_round_other]); kinds.
      + unshelve (rl 236; wd; one; rl 246; wd; one; now apply H); kinds.
    - split; intros ws E up next R; cbn [element_words spec_words] in E; [|discriminate E].
      unshelve (rl 251; one; rl 253; one; rl 258; one; now apply phr_value).
    - split; intros ws E up next R; cbn [element_words spec_words] in E; [|discriminate E].
      unshelve (rl 251; one; rl 254; one; now apply phr_range).
    - destruct H as [H _]. split; intros ws E up next R; cbn [element_words spec_words] in E; [|discriminate E].
      unshelve (rl 251; one; rl 256; one; rl 269; one; now apply H).
    - split; intros ws E up next R; cbn [element_words spec_words] in E; [|discriminate E]. inv_words. destruct (H _ H1) as [_ Hc].
      cbn [app]. unshelve (rl 251; one; rl 255; one; rl 268; wd; one; apply Hc); kinds.
    - split; intros ws E; discriminate E.
    - intros ws E up next R. destruct H as [H _], H0 as [H0 _]. 
      assert (G : element_words e +++ lit ["EXCEPT"] +++ element_words x = Some ws ->
        phr up next (Nt N_IntersectionElements (S_IntersectionElements (Intersect e x))) ws).
      { intros W. inv_words. cbn [app]. unshelve (rl 244; apply phrs_cons; [rl 245; one; apply H; [assumption|now apply not_round_other]|one; rl 246; wd; one; now apply H0]); kinds. }
      destruct x; try (apply G; exact E). cbn [intersection_words] in E. unshelve (rl 243; one; now apply H).
  Qed.
End Types.
