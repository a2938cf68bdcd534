(** The words of a printed module have a derivation tree that loses no conflict, and
    its value is the module. *)
From Coq Require Import ZArith String Ascii Bool List Lia SpecFloat.
From Verif Require Import GoBase Utf8 Unicode Tokens Reserved Lexer Grammar Ast GrammarFacts Conflicts AstInd
  Render RenderLex.
Import ListNotations.
Local Open Scope string_scope.
Local Open Scope list_scope.
Local Open Scope Z_scope.

(** ** Words *)

Lemma app_some a b w : a +++ b = Some w -> exists x y, a = Some x /\ b = Some y /\ w = x ++ y.
Proof. destruct a, b; cbn; try discriminate. intros E. injection E as <-. eauto. Qed.

Lemma lit_some l w : lit l = Some w -> w = l.
Proof. intros E. now injection E as <-. Qed.

Ltac inv_words :=
  repeat match goal with
  | H : _ +++ _ = Some _ |- _ => apply app_some in H as (? & ? & ? & ? & ->)
  | H : lit _ = Some _ |- _ => apply lit_some in H as ->
  | H : None = Some _ |- _ => discriminate H
  end.

(** ** Phrases *)

(** The nodes below a node. *)
Fixpoint kids (up next : Z) (l : list tree) : bool :=
  match l with
  | [] => true
  | T1 :: l' => kept up (head_kind (flat_map leaves l') next) T1 && kids up next l'
  end.

Lemma kept_node up next n l :
  kept up next (Node n l) = negb (lost n next) && negb (shadowed up n) && kids (place up n) next l.
Proof.
  cbn [kept]. f_equal. induction l as [|T l IH]; [reflexivity|]. cbn [kids]. now rewrite IH.
Qed.

(** Rules that lose no conflict anywhere. *)
Definition plain (n : Z) : bool :=
  negb (existsb (Z.eqb n) [45; 113; 191; 77; 157; 174; 175; 176; 184; 219; 220; 221; 222; 102; 139; 140; 166; 167; 40;
                           288; 194; 196; 190]).

(** Rules that lose before an opening parenthesis. *)
Definition before_round (n : Z) : bool := existsb (Z.eqb n) [77; 157; 174; 175; 176; 184; 219; 220; 221; 222].

Section Phrases.
  Context (U : unicode_tables).

  Definition phr (up next : Z) (i : item) (ws : list string) : Prop :=
    exists T, yields T i /\ leaves T = map tok ws /\ Forall (good U) ws /\ kept up next T = true.

  Definition phrs (up next : Z) (its : list item) (ws : list string) : Prop :=
    exists l, Forall2 yields l its /\ flat_map leaves l = map tok ws /\ Forall (good U) ws /\ kids up next l = true.

  Lemma phr_node n N its v up next ws : rule n N its v -> lost n next = false -> shadowed up n = false ->
    phrs (place up n) next its ws -> phr up next (Nt N v) ws.
  Proof.
    intros Ru L Sh (l & Y & E & G & K). exists (Node n l). split; [exact (yields_node n N its v l Ru Y)|].
    split; [exact E|]. split; [exact G|]. now rewrite kept_node, L, Sh, K.
  Qed.

  Lemma plain_lost n next up : plain n = true -> lost n next = false /\ shadowed up n = false /\ place up n = n.
  Proof.
    unfold plain, lost, shadowed, place, never. cbn [existsb]. intros H.
    repeat match goal with |- context [Z.eqb n ?k] => destruct (Z.eqb_spec n k) as [->|]; [discriminate H|] end.
    cbn [orb andb]. rewrite ?andb_false_r. repeat split; reflexivity.
  Qed.

  Lemma phr_plain n N its v up next ws : rule n N its v -> plain n = true -> phrs n next its ws -> phr up next (Nt N v) ws.
  Proof.
    intros Ru Pl F. destruct (plain_lost n next up Pl) as (L & Sh & E). eapply phr_node; eauto. now rewrite E.
  Qed.

  Lemma round_lost n next up : before_round n = true -> next <> T_OPEN_ROUND ->
    lost n next = false /\ shadowed up n = false /\ place up n = n.
  Proof.
    unfold before_round. cbn [existsb]. intros H N. apply Z.eqb_neq in N.
    repeat (apply orb_true_iff in H as [H|H]; [apply Z.eqb_eq in H as ->; unfold lost, shadowed, place, never;
      cbn [existsb Z.eqb Pos.eqb orb andb]; rewrite N, ?andb_false_r; repeat split; reflexivity|]).
    discriminate H.
  Qed.

  Lemma phr_round n N its v up next ws : rule n N its v -> before_round n = true -> next <> T_OPEN_ROUND ->
    phrs n next its ws -> phr up next (Nt N v) ws.
  Proof.
    intros Ru Pl Nx F. destruct (round_lost n next up Pl Nx) as (L & Sh & E). eapply phr_node; eauto. now rewrite E.
  Qed.

  (** Rules that lose before a comma. *)
  Lemma phr_comma n N its v up next ws : rule n N its v -> existsb (Z.eqb n) [102; 139; 140; 166; 167] = true ->
    next <> T_COMMA -> phrs n next its ws -> phr up next (Nt N v) ws.
  Proof.
    intros Ru H Nx F. apply Z.eqb_neq in Nx. cbn [existsb] in H.
    assert (L : lost n next = false /\ shadowed up n = false /\ place up n = n).
    { repeat (apply orb_true_iff in H as [H|H]; [apply Z.eqb_eq in H as ->; unfold lost, shadowed, place, never;
        cbn [existsb Z.eqb Pos.eqb orb andb]; rewrite Nx, ?andb_false_r; repeat split; reflexivity|]).
      discriminate H. }
    destruct L as (L & Sh & E). eapply phr_node; eauto. now rewrite E.
  Qed.

  Lemma phrs_nil up next : phrs up next [] [].
  Proof. exists []. repeat split; constructor. Qed.

  Lemma phrs_tok up next w its ws : good U w -> phrs up next its ws -> phrs up next (Tk (tok w) :: its) (w :: ws).
  Proof.
    intros G (l & Y & E & F & K). exists (Leaf (tok w) :: l). split; [constructor; [constructor|exact Y]|].
    cbn [flat_map leaves map]. rewrite E. split; [reflexivity|]. split; [now constructor|exact K].
  Qed.

  Lemma phrs_cons up next i its w1 w2 : phr up (head_kind (map tok w2) next) i w1 -> phrs up next its w2 ->
    phrs up next (i :: its) (w1 ++ w2).
  Proof.
    intros (T & Y & E & G & K) (l & Y' & E' & G' & K'). exists (T :: l). split; [now constructor|].
    cbn [flat_map]. rewrite E, E', map_app. split; [reflexivity|]. split; [apply Forall_app; now split|].
    cbn [kids]. now rewrite E', K, K'.
  Qed.

  Lemma phrs_one up next i w : phr up next i w -> phrs up next [i] w.
  Proof. intros H. rewrite <- (app_nil_r w). apply phrs_cons; [exact H|apply phrs_nil]. Qed.

  Lemma phrs_empty up next i its w : phr up (head_kind (map tok w) next) i [] -> phrs up next its w ->
    phrs up next (i :: its) w.
  Proof. intros H F. exact (phrs_cons up next i its [] w H F). Qed.
End Phrases.

Ltac fixed := apply fixed_good; vm_compute; reflexivity.

(** Rule [n], whose premises about tokens are left for later. *)
Ltac rl n := eapply (phr_plain _ n); [hnf; econstructor; shelve | reflexivity | cbn [app]].
Ltac rlr n := eapply (phr_round _ n); [hnf; econstructor; shelve | reflexivity | | cbn [app]].
Ltac one := apply phrs_one.
Ltac wd := apply phrs_tok; [try fixed|].
Ltac fin := first [one | apply phrs_nil].
Ltac kinds := try match goal with |- tk_kind _ = _ => first [reflexivity | vm_compute; reflexivity] end.

Section Words.
  Context (U : unicode_tables).
  Notation phr := (phr U).

  (** ** Names and numbers *)

  Lemma ident_some s w : ident s = Some w -> w = [s] /\ good U s /\
    tok s = {| tk_kind := T_VALUEIDENTIFIER; tk_name := s; tk_number := 0 |}.
  Proof.
    unfold ident. destruct (is_ident s) eqn:E; [|discriminate]. intros H. apply lit_some in H as ->.
    split; [reflexivity|]. now apply ident_tok.
  Qed.

  Lemma typeref_some s w : typeref s = Some w -> w = [s] /\ good U s /\
    tok s = {| tk_kind := T_TYPEORMODULEREFERENCE; tk_name := s; tk_number := 0 |}.
  Proof.
    unfold typeref. destruct (is_typeref s) eqn:E; [|discriminate]. intros H. apply lit_some in H as ->.
    split; [reflexivity|]. now apply typeref_tok.
  Qed.

  Lemma number_some n w : number n = Some w -> exists s, w = [s] /\ good U s /\
    tok s = {| tk_kind := T_NUMBER; tk_name := s; tk_number := n |} /\ 0 <= n < 2 ^ 63.
  Proof.
    unfold number. destruct ((0 <=? n) && (n <? 2 ^ 63)) eqn:E; [|discriminate]. intros H. apply lit_some in H as ->.
    apply andb_true_iff in E as [E1 E2]. apply Z.leb_le in E1. apply Z.ltb_lt in E2.
    exists (sprint_int n). destruct (number_tok U n E1 E2). auto.
  Qed.

  Lemma phr_name s w up next : ident s = Some w -> phr up next (Nt N_identifier (S_name s)) w.
  Proof.
    intros H. apply ident_some in H as (-> & G & E). replace s with (tk_name (tok s)) at 1 by now rewrite E.
    eapply (phr_plain _ 6); [refine (G_6 (tok s) _); now rewrite E|reflexivity|].
    apply phrs_tok; [exact G|apply phrs_nil].
  Qed.

  Lemma phr_valueref s w up next : ident s = Some w -> phr up next (Nt N_valuereference (S_ValueReference s)) w.
  Proof.
    intros H. apply ident_some in H as (-> & G & E). replace s with (tk_name (tok s)) at 1 by now rewrite E.
    eapply (phr_plain _ 4); [refine (G_4 (tok s) _); now rewrite E|reflexivity|].
    apply phrs_tok; [exact G|apply phrs_nil].
  Qed.

  Lemma phr_typeref s w up next : typeref s = Some w -> phr up next (Nt N_typereference (S_TypeReference s)) w.
  Proof.
    intros H. apply typeref_some in H as (-> & G & E). replace s with (tk_name (tok s)) at 1 by now rewrite E.
    eapply (phr_plain _ 2); [refine (G_2 (tok s) _); now rewrite E|reflexivity|].
    apply phrs_tok; [exact G|apply phrs_nil].
  Qed.

  Lemma phr_moduleref s w up next : typeref s = Some w -> phr up next (Nt N_modulereference (S_name s)) w.
  Proof.
    intros H. apply typeref_some in H as (-> & G & E). replace s with (tk_name (tok s)) at 1 by now rewrite E.
    eapply (phr_plain _ 3); [refine (G_3 (tok s) _); now rewrite E|reflexivity|].
    apply phrs_tok; [exact G|apply phrs_nil].
  Qed.

  (** A number alone, by any of the rules that consist of one. *)
  Lemma phr_number n w up next k N (f : Z -> sem) : number n = Some w -> plain k = true ->
    (forall t, tk_kind t = T_NUMBER -> rule k N [Tk t] (f (tk_number t))) -> phr up next (Nt N (f n)) w.
  Proof.
    intros H Pl Ru. apply number_some in H as (s & -> & G & E & _). replace n with (tk_number (tok s)) by now rewrite E.
    eapply (phr_plain _ k); [apply Ru; now rewrite E|exact Pl|]. apply phrs_tok; [exact G|apply phrs_nil].
  Qed.

  Lemma phr_num n w up next : number n = Some w -> phr up next (Nt N_number (S_Number n)) w.
  Proof. intros H. eapply (phr_number n w up next 5); [exact H|reflexivity|exact G_5]. Qed.

  Lemma wrap_small z : - 2 ^ 63 <= z < 2 ^ 63 -> wrap64 z = z.
  Proof. intros H. unfold wrap64. rewrite Z.mod_small by lia. lia. Qed.

  Lemma phr_signed n w up next : signed n = Some w -> phr up next (Nt N_SignedNumber (S_Number n)) w.
  Proof.
    unfold signed. destruct (n <? 0); intros H.
    - inv_words. apply number_some in H0 as (s & -> & G & E & B).
      replace n with (wrap64 (- tk_number (tok s))) by (rewrite E; cbn [tk_number]; rewrite wrap_small; lia).
      eapply (phr_plain _ 93); [refine (G_93 (tok "-") (tok s) _ _); [reflexivity|now rewrite E]|reflexivity|].
      cbn [app]. wd. apply phrs_tok; [exact G|apply phrs_nil].
    - eapply (phr_number n w up next 92); [exact H|reflexivity|exact G_92].
  Qed.

  (** ** Values *)

  Lemma phr_defined d w up next : defined_words d = Some w -> phr up next (Nt N_DefinedValue (S_DefinedValue d)) w.
  Proof.
    destruct d as [m v]. unfold defined_words. cbn [dv_ModuleName dv_ValueName].
    destruct (String.eqb_spec m "") as [->|]; intros H; inv_words.
    - unshelve (rl 53; one; now apply phr_valueref).
    - unshelve (rl 52; apply phrs_cons; [now apply phr_moduleref|]; cbn [app]; wd; one; now apply phr_valueref); kinds.
  Qed.

  (** ** Lists *)

  Lemma between_cons s x l : l <> [] -> between s (x :: l) = x +++ lit s +++ between s l.
  Proof. destruct l; [contradiction|reflexivity]. Qed.

  (** Lists [NL: NI | NL mid NI], the words of [mid] being [s]; [F]: what may follow. *)
  Section LeftList.
    Context {A : Type} (f : A -> words) (s : list string) (mid : list item) (NL NF NI : nonterm)
      (SL : list A -> sem) (SI : A -> sem) (nb nr : Z) (F : Z -> Prop).
    Context (Pb : plain nb = true) (Pr : plain nr = true).
    Context (Rb : forall a, rule nb NL [Nt NI (SI a)] (SL [a])).
    Context (Rr : forall l a, rule nr NL (Nt NF (SL l) :: mid ++ [Nt NI (SI a)]) (SL (l ++ [a]))).
    Context (Lift : forall l ws next, (forall up, phr up next (Nt NL (SL l)) ws) -> phr nr next (Nt NF (SL l)) ws).
    Context (Mid : forall next its ws, phrs U nr next its ws -> phrs U nr next (mid ++ its) (s ++ ws)).

    Lemma left_more : forall l, l <> [] ->
      (forall a w, In a l -> f a = Some w -> forall up next, F next -> phr up next (Nt NI (SI a)) w) ->
      (forall a w next, In a l -> f a = Some w -> F (head_kind (map tok (s ++ w)) next)) ->
      forall acc wacc w, between s (map f l) = Some w ->
      (forall up next, F next -> phr up next (Nt NL (SL acc)) wacc) ->
      forall up next, F next -> phr up next (Nt NL (SL (acc ++ l))) (wacc ++ s ++ w).
    Proof.
      induction l as [|a l IH]; intros NE HI HF acc wacc w E Hacc up next Fn; [contradiction|].
      assert (One : forall wa, f a = Some wa -> forall up next, F next -> phr up next (Nt NL (SL (acc ++ [a]))) (wacc ++ s ++ wa)).
      { intros wa Ea up0 next0 Fn0. eapply (phr_plain _ nr); [apply Rr|exact Pr|].
        apply phrs_cons.
        - apply Lift. intros up1. apply Hacc. eapply HF; [now left|exact Ea].
        - apply Mid. one. eapply HI; [now left|exact Ea|exact Fn0]. }
      destruct l as [|b l].
      - cbn in E. now apply One.
      - cbn [map] in E. rewrite between_cons in E by discriminate. apply app_some in E as (wa & wr & Ea & E & ->).
        apply app_some in E as (ws & wl & Es & E & ->). apply lit_some in Es as ->.
        replace (acc ++ a :: b :: l) with ((acc ++ [a]) ++ b :: l) by now rewrite <- app_assoc.
        replace (wacc ++ s ++ wa ++ s ++ wl) with ((wacc ++ s ++ wa) ++ s ++ wl) by now rewrite <- !app_assoc.
        apply (IH ltac:(discriminate)); [|..|exact Fn].
        + intros x wx I. apply HI. now right.
        + intros x wx nx I. apply HF. now right.
        + exact E.
        + now apply One.
    Qed.

    Lemma left_list l w :
      (forall a w, In a l -> f a = Some w -> forall up next, F next -> phr up next (Nt NI (SI a)) w) ->
      (forall a w next, In a l -> f a = Some w -> F (head_kind (map tok (s ++ w)) next)) ->
      between s (map f l) = Some w -> forall up next, F next -> phr up next (Nt NL (SL l)) w.
    Proof.
      intros HI HF E up next Fn. destruct l as [|a l]; [discriminate E|].
      assert (One : forall wa, f a = Some wa -> forall up next, F next -> phr up next (Nt NL (SL [a])) wa).
      { intros wa Ea up0 next0 Fn0. eapply (phr_plain _ nb); [apply Rb|exact Pb|]. one.
        eapply HI; [now left|exact Ea|exact Fn0]. }
      destruct l as [|b l].
      - now apply One.
      - cbn [map] in E. rewrite between_cons in E by discriminate. apply app_some in E as (wa & wr & Ea & E & ->).
        apply app_some in E as (ws & wl & Es & E & ->). apply lit_some in Es as ->.
        change (a :: b :: l) with ([a] ++ b :: l). apply left_more; [discriminate|..|exact Fn].
        + intros x wx I. apply HI. now right.
        + intros x wx nx I. apply HF. now right.
        + exact E.
        + now apply One.
    Qed.
  End LeftList.

  (** With commas between the items. *)
  Lemma comma_list {A} (f : A -> words) NL NI (SL : list A -> sem) (SI : A -> sem) nb nr (F : Z -> Prop) l w up next :
    plain nb = true -> plain nr = true ->
    (forall a, rule nb NL [Nt NI (SI a)] (SL [a])) ->
    (forall l t a, tk_kind t = T_COMMA -> rule nr NL [Nt NL (SL l); Tk t; Nt NI (SI a)] (SL (l ++ [a]))) ->
    F T_COMMA ->
    (forall a w, In a l -> f a = Some w -> forall up next, F next -> phr up next (Nt NI (SI a)) w) ->
    commas (map f l) = Some w -> F next -> phr up next (Nt NL (SL l)) w.
  Proof.
    intros Pb Pr Rb Rr Fc HI E Fn.
    apply (left_list f [","] [Tk (tok ",")] NL NL NI SL SI nb nr F Pb Pr Rb); auto.
    - intros l' a. now apply Rr.
    - intros nx its ws H. cbn [app]. wd. exact H.
  Qed.

  Definition any (z : Z) : Prop := True.
  Definition not_round (z : Z) : Prop := z <> T_OPEN_ROUND.

  (** ** Object identifiers *)

  Lemma phr_numberform n w up next : number n = Some w ->
    phr up next (Nt N_NumberForm (S_ObjectIdElement {| oe_Name := ""; oe_ID := n; oe_Reference := None |})) w.
  Proof.
    intros H. eapply (phr_number n w up next 195 _ (fun n => S_ObjectIdElement {| oe_Name := ""; oe_ID := n; oe_Reference := None |}));
      [exact H|reflexivity|exact G_195].
  Qed.

  Lemma phr_definedform d w up next : defined_words d = Some w -> up <> 192 ->
    phr up next (Nt N_NumberForm (S_ObjectIdElement {| oe_Name := ""; oe_ID := 0; oe_Reference := Some d |})) w.
  Proof.
    intros H N. eapply (phr_node _ 196); [exact (G_196 d)| | |].
    - unfold lost, never. cbn [existsb Z.eqb Pos.eqb orb]. now rewrite !andb_false_r.
    - unfold shadowed. apply Z.eqb_neq in N. rewrite N. cbn. now rewrite !andb_false_r.
    - one. now apply phr_defined.
  Qed.

  Lemma phr_oid e w up next : oid_words e = Some w -> (up = 292 -> oe_Name e = "" -> oe_Reference e = None) ->
    phr up next (Nt N_ObjIdComponents (S_ObjectIdElement e)) w.
  Proof.
    destruct e as [n i [d|]]; unfold oid_words; cbn [oe_Reference oe_Name oe_ID]; intros H Hup.
    - destruct (Z.eqb_spec i 0) as [->|]; [|discriminate].
      destruct (String.eqb_spec n "") as [->|]; inv_words.
      + eapply (phr_node _ 194); [exact (G_194 d)| | |].
        * unfold lost, never. cbn [existsb Z.eqb Pos.eqb orb]. now rewrite !andb_false_r.
        * unfold shadowed. cbn [Z.eqb Pos.eqb]. rewrite !andb_false_r. cbn [orb].
          destruct (Z.eqb_spec up 292) as [E|]; [|reflexivity]. discriminate (Hup E eq_refl).
        * one. now apply phr_defined.
      + unshelve (rl 193; one; eapply (phr_plain _ 197 _ _ (S_ObjectIdElement {| oe_Name := n; oe_ID := 0; oe_Reference := Some d |}));
          [exact (G_197 n (tok "(") {| oe_Name := ""; oe_ID := 0; oe_Reference := Some d |} (tok ")") eq_refl eq_refl)|reflexivity|];
          cbn [app]; apply phrs_cons; [now apply phr_name|]; wd; apply phrs_cons; [now apply phr_definedform|]; wd; apply phrs_nil).
    - destruct (String.eqb_spec n "") as [->|]; inv_words.
      + unshelve (rl 192; one; now apply phr_numberform).
      + unshelve (rl 193; one; eapply (phr_plain _ 197 _ _ (S_ObjectIdElement {| oe_Name := n; oe_ID := i; oe_Reference := None |}));
          [exact (G_197 n (tok "(") {| oe_Name := ""; oe_ID := i; oe_Reference := None |} (tok ")") eq_refl eq_refl)|reflexivity|];
          cbn [app]; apply phrs_cons; [now apply phr_name|]; wd; apply phrs_cons; [now apply phr_numberform|]; wd; apply phrs_nil).
  Qed.

  Lemma lost_190 next : lost 190 next = false.
  Proof. unfold lost, never. cbn [existsb Z.eqb Pos.eqb orb]. now rewrite !andb_false_r. Qed.

  (** Not the whole list of components, or not with a reference at its beginning. *)
  Lemma phr_oids : forall l w up next, between [] (map oid_words l) = Some w ->
    (up = 187 -> match l with e :: _ :: _ => oe_Name e = "" -> oe_Reference e = None | _ => True end) ->
    phr up next (Nt N_ObjIdComponentsList (S_ObjectIdentifierValue l)) w.
  Proof.
    induction l as [|e l IH]; intros w up next H Hup; [discriminate H|]. destruct l as [|e2 l].
    - cbn in H. unshelve (rl 189; one; apply phr_oid; [exact H|discriminate]).
    - cbn [map] in H. rewrite between_cons in H by discriminate. inv_words. cbn [app].
      eapply (phr_node _ 190); [exact (G_190 e (e2 :: l))|apply lost_190| |].
      + unfold shadowed. cbn [Z.eqb Pos.eqb]. now rewrite !andb_false_r.
      + apply phrs_cons.
        * apply phr_oid; [assumption|]. unfold place. destruct (Z.eqb_spec up 187) as [->|]; cbn [andb Z.eqb Pos.eqb]; [|discriminate].
          intros _. exact (Hup eq_refl).
        * one. apply IH; [assumption|]. unfold place. destruct (up =? 187); discriminate.
  Qed.

  Lemma phr_oidvalue l w up next : oids_words l = Some w ->
    phr up next (Nt N_ObjectIdentifierValue (S_ObjectIdentifierValue l)) w.
  Proof.
    unfold oids_words. intros H. inv_words. cbn [app].
    assert (C : (match l with e :: _ :: _ => oe_Name e = "" -> oe_Reference e = None | _ => True end) \/
      (exists d e2 l', l = {| oe_Name := ""; oe_ID := 0; oe_Reference := Some d |} :: e2 :: l')).
    { destruct l as [|e [|e2 l]]; auto. destruct e as [n i [d|]]; [|now left]. cbn [oe_Name oe_Reference].
      cbn [map] in H0. rewrite between_cons in H0 by discriminate. inv_words. unfold oid_words in H. cbn [oe_Name oe_Reference oe_ID] in H.
      destruct (Z.eqb_spec i 0) as [->|]; [|discriminate]. destruct (String.eqb_spec n "") as [->|]; [right; eauto|left; congruence]. }
    destruct C as [C|(d & e2 & l' & ->)].
    - unshelve (rl 187; wd; apply phrs_cons; [apply phr_oids; [assumption|intros _; exact C]|]; wd; apply phrs_nil); kinds.
    - cbn [map] in H0. rewrite between_cons in H0 by discriminate. inv_words. cbn [app]. rewrite <- app_assoc.
      eapply (phr_plain _ 188); [exact (G_188 (tok "{") d (e2 :: l') (tok "}") eq_refl eq_refl)|reflexivity|].
      wd. apply phrs_cons; [now apply phr_defined|]. apply phrs_cons; [apply phr_oids; [assumption|discriminate]|]. wd. apply phrs_nil.
  Qed.

  (** ** Values *)

  Lemma phr_value v w up next : value_words v = Some w -> phr up next (Nt N_Value (S_Value v)) w.
  Proof.
    intros H. unshelve (rl 78; one). destruct v as [|n|f|b|d|s|l]; cbn [value_words] in H; try discriminate H.
    - unshelve (rl 80; one; rl 94; one; now apply phr_signed).
    - destruct f as [|s| |]; try discriminate H. apply lit_some in H as ->. unshelve (rl 82; one; rl 108; one).
      destruct s.
      + eapply (phr_plain _ 112); [exact (G_112 (tok "MINUS-INFINITY") ltac:(vm_compute; reflexivity))|reflexivity|]. wd. apply phrs_nil.
      + eapply (phr_plain _ 111); [exact (G_111 (tok "PLUS-INFINITY") ltac:(vm_compute; reflexivity))|reflexivity|]. wd. apply phrs_nil.
    - apply lit_some in H as ->. unshelve (rl 79; one). destruct b.
      + unshelve (rl 84; wd; apply phrs_nil); kinds.
      + unshelve (rl 85; wd; apply phrs_nil); kinds.
    - unshelve (rl 80; one; rl 95; one; now apply phr_name).
    - unshelve (rl 81; one; now apply phr_oidvalue).
  Qed.
End Words.
