(** The values of a derivation tree are those of its value. *)
From Coq Require Import ZArith String List Bool Arith Lia SpecFloat Permutation.
From Verif Require Import GoBase Tokens Tables Ast RealNum AstInd ParserFacts ComponentFacts Words Forgotten WordsFacts Numbers NumbersFacts NumeralFacts ItemLists ItemListsFacts Typings WrittenValues Conflicts.
From Verif Require Import Grammar GrammarFacts ForgottenFacts.
Import ListNotations.
Local Open Scope string_scope.
Local Open Scope list_scope.
Local Open Scope Z_scope.

(** ** Trees without the rules that are never used *)

Fixpoint sane (T : tree) : bool :=
  match T with
  | Leaf _ => true
  | Node n l => negb (never n) && forallb sane l
  end.

Lemma kept_sane T : forall up next, kept up next T = true -> sane (remembered T) = true.
Proof.
  induction T as [t|n l IH] using tree_ind2; intros up next K; [reflexivity|]. cbn [remembered sane].
  cbn [kept] in K. rewrite !andb_true_iff in K. destruct K as [[A _] B].
  replace (never n) with false by (unfold lost in A; now destruct (never n)). cbn [negb andb]. destruct (forgotten n); [reflexivity|].
  clear A. revert B. generalize (place up n) as u. intros u. induction IH as [|T l P _ IHl]; intros B; [reflexivity|].
  apply andb_true_iff in B as [B C]. cbn [map forallb]. rewrite (P _ _ B). auto.
Qed.

(** ** What phrases say *)

Definition closed_round (l : list token) : Prop := match l with t :: _ => (tk_kind t =? T_OPEN_ROUND) = false | [] => True end.
Definition an_object (T : tree) (x : list (string * Z * bool)) : Prop :=
  leaves T <> [] /\ closed_round (leaves T) /\ forall after, closed_round after -> read_object (leaves T ++ after) = x ++ read_object after.

Definition vsays (N : nonterm) (v : sem) (T : tree) : Prop :=
  match N, v with
  | N_SignedExponent, S_Number n => single T_NUMBER T (fun t => tk_number t = n) \/
      exists m t, leaves T = [m; t] /\ tk_kind m = T_MINUS /\ tk_kind t = T_NUMBER /\ - tk_number t = n
  | N_realnumber, S_Real f => read_unsigned (leaves T) = SaidReal f /\ exists t r, leaves T = t :: r /\ tk_kind t = T_NUMBER
  | N_NumberForm, S_ObjectIdElement e =>
      single T_NUMBER T (fun t => {| oe_Name := ""; oe_ID := tk_number t; oe_Reference := None |} = e) \/
      exists d, {| oe_Name := ""; oe_ID := 0; oe_Reference := Some d |} = e /\ says N_DefinedValue (S_DefinedValue d) T
  | N_NameAndNumberForm, S_ObjectIdElement e | N_ObjIdComponents, S_ObjectIdElement e => an_object T [object_part e]
  | N_ObjIdComponentsList, S_ObjectIdentifierValue x => an_object T (map object_part x)
  | N_ObjectIdentifierValue, S_ObjectIdentifierValue x =>
      exists o r c, leaves T = o :: r ++ [c] /\ tk_kind o = T_OPEN_CURLY /\ read_object r = map object_part x
  | N_BuiltinValue, S_Value x | N_BooleanValue, S_Value x | N_IntegerValue, S_Value x | N_RealValue, S_Value x
  | N_NumericRealValue, S_Value x | N_SpecialRealValue, S_Value x | N_Value, S_Value x
  | N_LowerEndValue, S_Value x | N_UpperEndValue, S_Value x => read_value (leaves T) = said_of x
  | N_LowerEndpoint, S_RangeEndpoint e => lower_end T = said_of (re_Value e)
  | N_UpperEndpoint, S_RangeEndpoint e => upper_end T = said_of (re_Value e)
  | _, _ => True
  end.

Definition tree_vsays (i : item) (T : tree) : Prop :=
  tree_says i T /\ match i with Tk t => True | Nt N v => vsays N v T end.

Ltac vitems :=
  repeat match goal with
  | [ F : Forall2 _ [] _ |- _ ] => inversion_clear F
  | [ F : Forall2 _ (_ :: _) _ |- _ ] => inversion_clear F
  | [ F : tree_vsays (Tk _) ?T |- _ ] => let C := fresh "Cl" in destruct F as [[-> C] _]
  | [ F : tree_vsays (Nt _ _) _ |- _ ] => let Sy := fresh "Sy" in let V := fresh "V" in destruct F as [Sy V]; cbn [tree_says says vsays] in Sy, V
  end.
Ltac vals :=
  unfold lower_end, upper_end, last_part; cbn [leaves flat_map app rev said_of re_Value]; rewrite ?app_nil_r; try assumption;
  unfold read_value; repeat match goal with [ K : tk_kind ?t = _ |- context [tk_kind ?t] ] => rewrite K end; try reflexivity.

Ltac kinds := repeat match goal with [ K : tk_kind ?t = _ |- context [tk_kind ?t] ] => rewrite K end.
Ltac decided := cbn [Z.eqb Pos.eqb T_NUMBER T_VALUEIDENTIFIER T_TYPEORMODULEREFERENCE T_OPEN_ROUND T_DOT T_EXPONENT T_MINUS T_TRUE T_FALSE
  T_PLUS_INFINITY T_MINUS_INFINITY T_OPEN_CURLY T_MIN T_MAX].

Lemma an_same T T' x : leaves T' = leaves T -> an_object T x -> an_object T' x.
Proof. intros E. unfold an_object. now rewrite E. Qed.

Lemma read_reference t after : tk_kind t = T_VALUEIDENTIFIER -> closed_round after -> read_object (t :: after) = ("", 0, true) :: read_object after.
Proof.
  intros K C. unfold read_object at 1. rewrite K. decided. fold read_object. destruct after as [|p [|x [|q r]]]; try reflexivity.
  cbn [closed_round] in C. rewrite C. reflexivity.
Qed.

Lemma defined_object d T : says N_DefinedValue (S_DefinedValue d) T -> an_object T [("", 0, true)].
Proof.
  cbn [says]. unfold single, an_object. intros [(t & E & K & _)|(q & o & t & E & Kq & Ko & Kt & _)]; rewrite E; (split; [discriminate|]).
  - split; [cbn [closed_round]; now rewrite K|]. intros after C. cbn [app]. now apply read_reference.
  - split; [cbn [closed_round]; now rewrite Kq|]. intros after C. cbn [app]. unfold read_object at 1. rewrite Kq. decided. reflexivity.
Qed.

Lemma vsays_table : Forall (fun p : Z * (nonterm -> list item -> sem -> Prop) => forall N its v l, never (fst p) = false ->
  forgotten (fst p) = false -> snd p N its v -> Forall2 tree_vsays its l -> vsays N v (Node (fst p) l)) (tl numbered).
Proof.
  unfold numbered. cbn [seq map combine rule_table Z.of_nat Pos.of_succ_nat Pos.succ tl].
  repeat (apply Forall_cons; [
    let N := fresh in let its := fresh in let v := fresh in let ls := fresh in let H := fresh in let F := fresh in let G := fresh in let Nv := fresh in
    intros N its v ls Nv G H F; cbn [fst snd] in *; first [discriminate G | discriminate Nv | clear G Nv]; destruct H; first [exact I | vitems; cbn [vsays] in *;
    try solve [assumption | left; eexists; repeat split; eassumption | vals]]|]); try apply Forall_nil.
  - destruct V as (o & r & c & E & K & O). leaf_list. unfold read_value. rewrite K. decided. rewrite removelast_last, O. reflexivity.
  - singles; leaf_list; unfold read_value, read_unsigned; kinds; decided; cbn [negative said_of]; congruence.
  - singles; leaf_list; unfold read_value; kinds; decided; cbn [said_of]; congruence.
  - destruct V as (U & t & r & E & K). cbn [leaves flat_map]. rewrite app_nil_r, E in *. unfold read_value. rewrite K. decided. exact U.
  - destruct V as (U & t & r & E & K). cbn [leaves flat_map app]. rewrite app_nil_r in *. unfold read_value.
    match goal with [ K1 : tk_kind t1 = _ |- _ ] => rewrite K1 end. decided. rewrite U. reflexivity.
  - leaf_list. split; [unfold read_unsigned; kinds; reflexivity|eauto].
  - split; [|leaf_list; eauto]. singles; leaf_list; unfold read_unsigned; kinds; decided; cbn [read_signed tl]; congruence.
  - split; [|leaf_list; eauto]. singles; leaf_list; unfold read_unsigned; kinds; decided; cbn [read_signed tl]; congruence.
  - right. eexists _, _. repeat split; try eassumption. now rewrite clean_wrap.
  - destruct V as (_ & _ & O). exists t1, (leaves y0), t3. split; [leaf_list; reflexivity|]. split; [assumption|].
    specialize (O [] I). rewrite app_nil_r in O. rewrite O. apply app_nil_r.
  - destruct V as (_ & C & O). destruct (defined_object _ _ Sy0) as (_ & _ & D). exists t1, (leaves y0 ++ leaves y1), t4.
    split; [leaf_list; now rewrite <- app_assoc|]. split; [assumption|]. rewrite (D _ C). specialize (O [] I). rewrite app_nil_r in O. rewrite O.
    cbn [map app object_part oe_Name oe_ID oe_Reference read_object]. now rewrite app_nil_r.
  - refine (an_same y _ _ _ V). leaf_list. reflexivity.
  - destruct V0 as (N1 & C1 & O1), V as (N2 & C2 & O2). unfold an_object. cbn [leaves flat_map]. rewrite app_nil_r. 
    split; [destruct (leaves y); [now destruct N1|discriminate]|]. split; [destruct (leaves y); [now destruct N1|exact C1]|].
    intros after C. rewrite <- app_assoc, O1 by (destruct (leaves y0); [now destruct N2|exact C2]). rewrite O2 by exact C. reflexivity.
  - destruct V as [(t & E & K & <-)|(d & <- & D)].
    + unfold an_object. cbn [leaves flat_map]. rewrite app_nil_r, E. split; [discriminate|]. split; [cbn [closed_round]; now rewrite K|].
      intros after _. cbn [app]. unfold read_object at 1. rewrite K. reflexivity.
    + refine (an_same y _ _ _ (defined_object d y D)). leaf_list. reflexivity.
  - refine (an_same y _ _ _ V). leaf_list. reflexivity.
  - refine (an_same y _ _ _ (defined_object v1 y Sy)). leaf_list. reflexivity.
  - right. exists v1. split; [reflexivity|]. cbn [says]. unfold single in *. cbn [leaves flat_map]. rewrite app_nil_r. exact Sy.
  - destruct Sy0 as (n & En & Kn & <-). unfold an_object. cbn [leaves flat_map app]. rewrite En.
    split; [discriminate|]. split; [cbn [app closed_round]; now rewrite Kn|]. intros after _. cbn [app].
    destruct V as [(t & E & K & <-)|(d & <- & [(t & E & K & _)|(q & o & t & E & Kq & Ko & Kt & _)])]; rewrite E; cbn [app]; unfold read_object at 1; kinds; decided; reflexivity.
  - vals; decided. unfold read_unsigned. kinds. reflexivity.
  - vals; decided. unfold read_unsigned. kinds. reflexivity.
Qed.

Lemma recalls_vsays T i : recalls T i -> Forall clean (leaves T) -> sane T = true -> tree_vsays i T.
Proof.
  revert T i. apply (recalls_rect (fun T i => Forall clean (leaves T) -> sane T = true -> tree_vsays i T)).
  - intros t H _. inversion_clear H as [|? ? H2 _]. split; [split; [reflexivity|exact H2]|exact I].
  - intros n N its v l R G Y IH H A. split; [exact (recalls_says (Node n l) (Nt N v) (recalls_node n N its v l R G Y) H)|].
    cbn [leaves sane] in *. apply andb_true_iff in A as [A B]. apply negb_true_iff in A.
    assert (F : Forall2 tree_vsays its l).
    { clear R Y A. induction IH as [|T i l its P _ IHl]; constructor; cbn [flat_map forallb] in H, B;
        apply Forall_app in H as [H1 H2]; apply andb_true_iff in B as [B1 B2]; auto. }
    destruct (rule_numbered n N its v R) as (Q & I & HQ & Bd). apply in_tail in I; [|lia].
    pose proof vsays_table as C. rewrite Forall_forall in C. exact (C (n, Q) I N its v _ A G HQ F).
  - intros n N its v R G H _. split; [exact (recalls_says (Node n []) (Nt N v) (recalls_nothing n N its v R G) H)|].
    pose proof (forgotten_void n N its v R G) as V. destruct N; try contradiction V; cbn [void] in V; subst v; exact I.
Qed.

(** ** How often a value occurs *)

Definition sem_values (v : sem) : list use :=
  match v with
  | S_module x => module_values x
  | S_ModuleBody x => flat_map assignment_values (mb_AssignmentList x)
  | S_AssignmentList x => flat_map assignment_values x
  | S_Assignment x => assignment_values x
  | S_Type x => type_values x
  | S_NamedType x => named_values x
  | S_ComponentTypeLists x =>
      flat_map component_values (ctl_Components x) ++
      flat_map component_values (ctl_ExtensionAdditions x) ++
      flat_map component_values (ctl_TrailingComponents x)
  | S_ComponentTypeList x | S_ExtensionAdditions x => flat_map component_values x
  | S_ComponentType x => component_values x
  | S_ChoiceType x =>
      flat_map named_values (ct_AlternativeTypeList x) ++
      flat_map (fun o => match o with Some n => named_values n | None => [] end) (ct_ExtensionTypes x)
  | S_AlternativeTypeList x => flat_map named_values x
  | S_ExtensionAdditionAlternativesList x => flat_map (fun o => match o with Some n => named_values n | None => [] end) x
  | S_ExtensionAdditionAlternative x => match x with Some n => named_values n | None => [] end
  | S_Constraint x | S_ConstraintSpec x => constraint_values x
  | S_SubtypeConstraint x => flat_map elements_values x
  | S_ElementSetSpec x | S_Elements x | S_Exclusions x => elements_values x
  | S_Unions x => flat_map (flat_map intersection_values) x
  | S_Intersections x => flat_map intersection_values x
  | S_IntersectionElements x => intersection_values x
  | _ => []
  end.

Section Count.
  Context (x : use).
  Notation cnt l := (count_occ use_dec l x).

  (** What is known of a symbol of a right side with the tree [T]. *)
  Definition ufact (i : item) (T : tree) : Prop :=
    tree_vsays i T /\
    match i with
    | Tk t => True
    | Nt N v => dead N = false -> cnt (written_values T) = cnt (sem_values v)
    end.

  Lemma ucnt_app a b : cnt (a ++ b) = (cnt a + cnt b)%nat.
  Proof. apply count_occ_app. Qed.
  Lemma ucnt_cons a b : cnt (a :: b) = (cnt [a] + cnt b)%nat.
  Proof. exact (ucnt_app [a] b). Qed.
  Lemma ucnt_nil : cnt [] = 0%nat.
  Proof. reflexivity. Qed.
  Lemma ucnt_one {A} (f : A -> list use) a : cnt (flat_map f [a]) = cnt (f a).
  Proof. cbn [flat_map]. now rewrite app_nil_r. Qed.
  Lemma values_node n l : written_values (Node n l) = node_use n l ++ flat_map written_values l.
  Proof. reflexivity. Qed.
  Lemma values_leaf t : written_values (Leaf t) = [].
  Proof. reflexivity. Qed.

  Ltac refold :=
    fold (@type_values (value DefinedValue) DefinedValue) (@named_values (value DefinedValue) DefinedValue)
      (@component_values (value DefinedValue) DefinedValue) (@constraint_values (value DefinedValue) DefinedValue)
      (@elements_values (value DefinedValue) DefinedValue) (@intersection_values (value DefinedValue) DefinedValue).
  Ltac ucounts :=
    repeat first [rewrite ucnt_one | rewrite ucnt_app | rewrite flat_map_app | rewrite app_nil_r | rewrite ucnt_nil |
      match goal with |- context [cnt (?a :: ?b)] => lazymatch b with nil => fail | _ => rewrite (ucnt_cons a b) end end].
  Ltac parts :=
    repeat match goal with
    | [ F : Forall2 _ [] _ |- _ ] => inversion_clear F
    | [ F : Forall2 _ (_ :: _) _ |- _ ] => inversion_clear F
    | [ F : ufact (Tk ?t) ?l |- _ ] => destruct F as [[[-> _] _] _]
    | [ F : ufact (Nt _ _) _ |- _ ] => let Sy := fresh "Sy" in let St := fresh "St" in destruct F as ((Sy & St) & F)
    | [ F : dead _ = false -> _ |- _ ] => cbn [dead] in F
    | [ F : false = false -> _ |- _ ] => specialize (F eq_refl)
    | [ F : true = false -> _ |- _ ] => clear F
    end.
  Ltac uses :=
    cbn [tree_says says vsays] in *; unfold single in *;
    repeat match goal with
    | [ F : exists t, _ /\ _ /\ tk_name t = _ |- _ ] => let t := fresh "t" in let E := fresh "E" in destruct F as (t & E & _ & <-)
    end;
    unfold last_part, first_name; cbn [rev app flat_map leaves]; rewrite ?app_nil_r;
    repeat match goal with [ E : leaves _ = [_] |- _ ] => rewrite E; clear E end; cbn [app];
    repeat match goal with
    | [ F : read_value (leaves ?y) = _ |- _ ] => rewrite F; clear F
    | [ F : lower_end ?y = _ |- _ ] => rewrite F; clear F
    | [ F : upper_end ?y = _ |- _ ] => rewrite F; clear F
    end.
  Ltac urule :=
    let N := fresh in let its := fresh in let v := fresh in let l := fresh in let G := fresh in let H := fresh in let F := fresh in
    intros N its v l G H F; cbn [fst snd] in *; first [discriminate G | clear G]; destruct H; cbn [dead]; first [discriminate | intros _]; parts;
    rewrite values_node; cbn [node_use Z.eqb Pos.eqb orb]; uses; cbn [app flat_map]; rewrite ?values_leaf; ucounts;
    repeat match goal with [ H : cnt (written_values _) = _ |- _ ] => rewrite H; clear H end;
    cbn -[count_occ written_values said_of]; refold; unfold module_values, SingleElementConstraint;
    cbn -[count_occ type_values named_values component_values constraint_values elements_values intersection_values written_values said_of];
    ucounts; try lia;
    try (etransitivity; [|symmetry; exact (ucnt_cons _ _)]); rewrite ?ucnt_nil; try lia.

  Lemma rules_values : Forall (fun p : Z * (nonterm -> list item -> sem -> Prop) => forall N its v l,
    forgotten (fst p) = false -> snd p N its v -> Forall2 ufact its l ->
    dead N = false -> cnt (written_values (Node (fst p) l)) = cnt (sem_values v)) (tl numbered).
  Proof.
    unfold numbered. cbn [seq map combine rule_table Z.of_nat Pos.of_succ_nat Pos.succ tl].
    repeat (apply Forall_cons; [try solve [urule]|]); try apply Forall_nil.
  Qed.

  Lemma use_none n : forgotten n = true -> node_use n [] = [].
  Proof.
    intros G. unfold forgotten in G. apply existsb_exists in G as (k & Ik & Ek). apply Z.eqb_eq in Ek. subst k.
    repeat (destruct Ik as [<-|Ik]; [reflexivity|]). contradiction.
  Qed.

  Lemma recalls_values T i : recalls T i -> Forall clean (leaves T) -> sane T = true -> ufact i T.
  Proof.
    revert T i. apply (recalls_rect (fun T i => Forall clean (leaves T) -> sane T = true -> ufact i T)).
    - intros t H A. split; [exact (recalls_vsays (Leaf t) (Tk t) (recalls_leaf t) H A)|exact I].
    - intros n N its v l R G Y IH H A. split; [exact (recalls_vsays (Node n l) (Nt N v) (recalls_node n N its v l R G Y) H A)|].
      cbn [leaves sane] in *. apply andb_true_iff in A as [_ A]. destruct (rule_numbered n N its v R) as (Q & I & HQ & B). apply in_tail in I; [|lia].
      pose proof rules_values as C. rewrite Forall_forall in C. apply (C (n, Q) I N its v l G HQ).
      clear -IH H A. induction IH as [|T i l its P _ IHl]; constructor; cbn [flat_map forallb] in H, A;
        apply Forall_app in H as [H1 H2]; apply andb_true_iff in A as [A1 A2]; auto.
    - intros n N its v R G H A. split; [exact (recalls_vsays (Node n []) (Nt N v) (recalls_nothing n N its v R G) H A)|].
      pose proof (forgotten_void n N its v R G) as V. rewrite values_node, (use_none n G).
      destruct N; try contradiction V; cbn [void] in V; subst v; reflexivity.
  Qed.
End Count.

(** The values of a phrase, outside of what is forgotten, are those of its value. *)
Lemma phrase_values T N v : recalls T (Nt N v) -> Forall clean (leaves T) -> sane T = true -> dead N = false ->
  Permutation (written_values T) (sem_values v).
Proof. intros Y C A D. apply (Permutation_count_occ use_dec). intros x. exact (proj2 (recalls_values x T _ Y C A) D). Qed.

Lemma module_values_all T m : yields T (Nt N_ModuleDefinition (S_module m)) -> Forall clean (leaves T) -> kept 0 0 T = true ->
  Permutation (written_values (remembered T)) (module_values m).
Proof.
  intros Y C K. assert (C' : Forall clean (outside T)).
  { rewrite Forall_forall in *. intros t I. apply C. now apply outside_incl. }
  exact (phrase_values _ _ _ (remembered_recalls T _ Y) C' (kept_sane T 0 0 K) eq_refl).
Qed.

(** Values do not depend on what pointers point to. *)
Section Map.
  Context {P R P' R' : Type} (f : P -> P') (g : R -> R').

  Lemma said_map v : said_of (value_map g v) = said_of v.
  Proof.
    destruct v as [| | | |d| |l]; try reflexivity. cbn. f_equal. rewrite map_map. apply map_ext. intros [n i [r|]]; reflexivity.
  Qed.

  Lemma values_cases : @cases P R
    (fun t => type_values (tmap f g t) = type_values t)
    (fun n => named_values (nmap f g n) = named_values n)
    (fun c => component_values (cmap f g c) = component_values c)
    (fun c => constraint_values (csmap f g c) = constraint_values c)
    (fun e => elements_values (emap f g e) = elements_values e)
    (fun i => intersection_values (imap f g i) = intersection_values i).
  Proof.
    constructor; try reflexivity.
    - intros n H. exact H.
    - intros a e A B. cbn. rewrite !flat_map_map. f_equal; apply flat_map_same; [assumption|].
      eapply Forall_impl; [|exact B]. intros [n|]; [cbn; auto|reflexivity].
    - intros c e A B. cbn. rewrite !flat_map_map. f_equal; apply flat_map_same; assumption.
    - intros c e A B. cbn. rewrite !flat_map_map. f_equal; apply flat_map_same; assumption.
    - intros h t z b H. exact H.
    - intros t H. exact H.
    - intros t H. exact H.
    - intros t c A B. cbn. f_equal; assumption.
    - intros s t H. exact H.
    - intros n o d H. exact H.
    - intros t H. exact H.
    - intros l A. cbn. rewrite flat_map_map. apply flat_map_same; assumption.
    - intros l A. cbn. rewrite flat_map_map. apply flat_map_same. eapply Forall_impl; [|exact A].
      intros k B. rewrite flat_map_map. apply flat_map_same; assumption.
    - intros e H. exact H.
    - intros v. cbn -[said_of value_map]. now rewrite said_map.
    - intros [a o] [b q]. cbn -[said_of value_map]. now rewrite !said_map.
    - intros t H. exact H.
    - intros c H. exact H.
    - intros e x A B. cbn. f_equal; assumption.
  Qed.

  Lemma module_values_map m : module_values (md_map f g m) = module_values m.
  Proof.
    destruct m as [i t e [l s]]. unfold module_values. cbn [md_map mb_map md_ModuleBody mb_AssignmentList].
    rewrite !flat_map_map. apply flat_map_same; apply Forall_forall.
    intros [|n a|n a v] _; [reflexivity| |]; cbn -[said_of value_map]; rewrite ?said_map; try f_equal; apply (type_ind2 _ _ _ _ _ _ values_cases).
  Qed.
End Map.

Lemma shape_values (m m' : Module_) : shape m = shape m' -> module_values m = module_values m'.
Proof.
  intros E. rewrite <- (module_values_map (fun _ => tt) (fun _ => tt) m), <- (module_values_map (fun _ => tt) (fun _ => tt) m').
  unfold shape in E. now rewrite E.
Qed.
