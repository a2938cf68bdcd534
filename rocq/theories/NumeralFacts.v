(** The numbers written in a derivation tree, with their signs, are those of its value (C75). *)
From Coq Require Import ZArith String List Bool Lia SpecFloat.
From Verif Require Import GoBase Tokens Tables Ast RealNum Grammar GrammarFacts AstInd ParserFacts ComponentFacts Words Forgotten ForgottenFacts WordsFacts Numbers NumbersFacts Numerals.
Import ListNotations.
Local Open Scope list_scope.
Local Open Scope Z_scope.

Section Count.
  Context (x : numeral) (Hx : x <> Whole 0).
  Notation cnt := (numeral_count x).
  Notation sn := (sem_numbers value_numbers).

  Lemma xcnt_app a b : cnt (a ++ b) = (cnt a + cnt b)%nat.
  Proof. apply count_occ_app. Qed.
  Lemma xcnt_cons a b : cnt (a :: b) = (cnt [a] + cnt b)%nat.
  Proof. exact (xcnt_app [a] b). Qed.
  Lemma xcnt_zero : cnt [Whole 0] = 0%nat.
  Proof. unfold numeral_count, count_occ. destruct (numeral_dec (Whole 0) x) as [E|E]; [congruence|reflexivity]. Qed.
  Lemma xcnt_nil : cnt [] = 0%nat.
  Proof. reflexivity. Qed.

  (** The numbers of a sign and digits, and of the parts of a REAL value. *)
  Definition exactly (N : nonterm) (v : sem) (T : tree) : Prop :=
    match N, v with
    | N_SignedNumber, S_Number z | N_SignedExponent, S_Number z => written_numbers T = [Whole z]
    | N_realnumber, S_Real f => written_numbers T = [Decimal f]
    | _, _ => True
    end.

  (** What is known of a symbol of a right side and its tree. *)
  Definition xfact (i : item) (T : tree) : Prop :=
    match i with
    | Tk t => clean t /\ T = Leaf t
    | Nt N v => (ndead N = false -> cnt (written_numbers T) = cnt (sn v)) /\ exactly N v T
    end.

  Lemma written_token t k : tk_kind t = k -> written_numbers (Leaf t) = if k =? T_NUMBER then [Whole (tk_number t)] else [].
  Proof. intros <-. unfold written_numbers, token_numbers. now destruct (tk_kind t =? T_NUMBER). Qed.
  Lemma clean_wrap t : clean t -> tk_kind t = T_NUMBER -> wrap64 (- tk_number t) = - tk_number t.
  Proof. intros C K. specialize (C K). unfold wrap64. rewrite Z.mod_small by lia. lia. Qed.

  Lemma written_node n l : written_numbers (Node n l) =
    let parts := flat_map written_numbers l in
      if (n =? 93) || (n =? 110) || (n =? 118) then map opposite parts
      else if n =? 111 then [Decimal (S754_infinity false)]
      else if n =? 112 then [Decimal (S754_infinity true)]
      else if (113 <=? n) && (n <=? 116) then real_of n parts
      else parts.
  Proof. reflexivity. Qed.

  Ltac xfacts :=
    repeat match goal with
    | [ F : Forall2 xfact [] _ |- _ ] => inversion_clear F
    | [ F : Forall2 xfact (_ :: _) _ |- _ ] => inversion_clear F
    | [ F : xfact (Tk _) ?T |- _ ] => let C := fresh in destruct F as [C F]; subst T
    | [ F : xfact (Nt _ _) _ |- _ ] => destruct F
    | [ F : false = false -> _ |- _ ] => specialize (F eq_refl)
    | [ F : ndead _ = false -> _ |- _ ] => cbn [ndead dead] in F
    | [ F : true = false -> _ |- _ ] => clear F
    end.

  Ltac xcounts :=
    repeat first [rewrite xcnt_app | rewrite flat_map_app | rewrite map_app | rewrite flat_one | rewrite app_nil_r | rewrite xcnt_zero | rewrite xcnt_nil |
      match goal with |- context [cnt (?a :: ?b)] => lazymatch b with nil => fail | _ => rewrite (xcnt_cons a b) end end].

  Ltac refold :=
    fold (@type_numbers (value DefinedValue) DefinedValue value_numbers) (@named_numbers (value DefinedValue) DefinedValue value_numbers)
      (@component_numbers (value DefinedValue) DefinedValue value_numbers) (@constraint_numbers (value DefinedValue) DefinedValue value_numbers)
      (@elements_numbers (value DefinedValue) DefinedValue value_numbers) (@intersection_numbers (value DefinedValue) DefinedValue value_numbers).

  Ltac leafs :=
    repeat match goal with [ K : tk_kind ?t = ?k |- context [written_numbers (Leaf ?t)] ] => rewrite (written_token t k K) end.
  Ltac small :=
    repeat match goal with [ C : clean ?t, K : tk_kind ?t = T_NUMBER |- context [wrap64 (- tk_number ?t)] ] => rewrite (clean_wrap t C K) end.

  Ltac xrule :=
    let N := fresh in let its := fresh in let v := fresh in let l := fresh in let H := fresh in let F := fresh in let G := fresh in
    intros N its v l G H F; cbn [fst snd] in *; first [discriminate G | clear G]; destruct H; xfacts; cbn [exactly] in *;
    (split; [first [discriminate|intros _]; rewrite written_node; cbn [Z.eqb Pos.eqb orb andb Z.leb Z.compare Pos.compare Pos.compare_cont flat_map];
       leafs; cbn [Z.eqb Pos.eqb T_NUMBER]; rewrite ?app_nil_l|try exact I]).

  Ltac close :=
       xcounts; repeat match goal with [ H : cnt (written_numbers _) = _ |- _ ] => rewrite H; clear H end;
       cbn -[numeral_count wrap64 written_numbers]; refold;
       unfold module_numbers, mb_numbers, mi_numbers, sfm_numbers, et_numbers, SingleElementConstraint;
       cbn -[numeral_count wrap64 type_numbers named_numbers component_numbers constraint_numbers elements_numbers intersection_numbers written_numbers];
       small; xcounts; lia.

  Ltac exact_parts :=
    rewrite ?written_node; cbn [Z.eqb Pos.eqb orb andb Z.leb Z.compare Pos.compare Pos.compare_cont flat_map];
    leafs; small; repeat match goal with [ H : written_numbers ?y = _ |- _ ] => rewrite H; clear H end; reflexivity.

  Lemma numerals_table : Forall (fun p : Z * (nonterm -> list item -> sem -> Prop) => forall N its v l,
    forgotten (fst p) = false -> snd p N its v -> Forall2 xfact its l ->
    (ndead N = false -> cnt (written_numbers (Node (fst p) l)) = cnt (sn v)) /\ exactly N v (Node (fst p) l)) (tl numbered).
  Proof.
    unfold numbered. cbn [seq map combine rule_table Z.of_nat Pos.of_succ_nat Pos.succ tl].
    repeat (apply Forall_cons; [first [solve [xrule; close] | xrule; first [solve [close] | exact_parts]]|]); apply Forall_nil.
  Qed.

  Lemma tree_numerals T i : recalls T i -> Forall clean (leaves T) -> xfact i T.
  Proof.
    revert T i. apply (recalls_rect (fun T i => Forall clean (leaves T) -> xfact i T)).
    - intros t H. inversion_clear H. now split.
    - intros n N its v l R G _ IH H.
      assert (F : Forall2 xfact its l).
      { clear R G. cbn [leaves] in H. induction IH as [|T i l its P _ IHl]; constructor.
        - apply P. cbn [flat_map] in H. now apply Forall_app in H.
        - apply IHl. cbn [flat_map] in H. now apply Forall_app in H. }
      destruct (rule_numbered n N its v R) as (Q & I & HQ & B). apply in_tail in I; [|lia].
      pose proof numerals_table as C. rewrite Forall_forall in C. exact (C (n, Q) I N its v l G HQ F).
    - intros n N its v R G _. pose proof (forgotten_void n N its v R G) as V.
      assert (E : written_numbers (Node n []) = []).
      { unfold forgotten in G. apply existsb_exists in G as (k & Ik & Ek). apply Z.eqb_eq in Ek. subst k.
        cbn [In] in Ik. repeat (destruct Ik as [<-|Ik]; [reflexivity|]). contradiction. }
      unfold xfact. rewrite E. destruct N; try contradiction V; cbn [void] in V; subst v; split; try exact I; reflexivity.
  Qed.
End Count.

(** The numbers of a module text outside of what is forgotten are those of its value. *)
Lemma module_numerals x T m : x <> Whole 0 -> yields T (Nt N_ModuleDefinition (S_module m)) -> Forall clean (leaves T) ->
  numeral_count x (written_numbers (remembered T)) = numeral_count x (numbers m).
Proof.
  intros Hx Y C. assert (C' : Forall clean (outside T)).
  { rewrite Forall_forall in *. intros t I. apply C. now apply outside_incl. }
  exact (proj1 (tree_numerals x Hx _ _ (remembered_recalls T _ Y) C') eq_refl).
Qed.
