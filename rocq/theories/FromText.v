(** Words and numbers of an accepted module, pointers included, are those of the text. *)
From Coq Require Import ZArith String List Bool Lia SpecFloat.
From Verif Require Import GoBase Unicode Tokens Tables Ast RealNum Lexer Driver Parser LexRuns LexSpec ParserFacts ParserRuns AstInd ComponentFacts ActionSound
  Words WordsFacts Numbers NumbersFacts Pointers MemFacts PointerFacts Grammar GrammarFacts.
Import ListNotations.
Local Open Scope string_scope.
Local Open Scope list_scope.
Local Open Scope Z_scope.

Notation dw := defined_words.

(** ** What is behind pointers *)

Section Behind.
  Context {P R X : Type} (bv : P -> list X) (br : R -> list X).

  Definition behind (q : P + R) : list X := match q with inl a => bv a | inr b => br b end.

  (** All of [A] is in [B] or behind the pointers [l]. *)
  Definition among (A B : list X) (l : list (P + R)) : Prop := forall x, In x A -> In x B \/ In x (flat_map behind l).

  Lemma among_same A : among A A [].
  Proof. intros x H. now left. Qed.
  Lemma among_app A B l A' B' l' : among A B l -> among A' B' l' -> among (A ++ A') (B ++ B') (l ++ l').
  Proof.
    intros H K x I. rewrite flat_map_app, !in_app_iff in *. destruct I as [I|I]; [destruct (H x I)|destruct (K x I)]; auto.
  Qed.
  Lemma among_cons a A B l : among A B l -> among (a :: A) (a :: B) l.
  Proof. intros H. exact (among_app [a] [a] [] A B l (among_same _) H). Qed.
  Lemma among_pre A' A B l : among A B l -> among (A' ++ A) (A' ++ B) l.
  Proof. intros H. exact (among_app A' A' [] A B l (among_same _) H). Qed.
  Lemma among_more A B l : among A B [] -> among A B l.
  Proof. intros H x I. destruct (H x I) as [J|[]]. now left. Qed.
  Lemma among_flats {A} (h h' : A -> list X) (q : A -> list (P + R)) l :
    Forall (fun a => among (h a) (h' a) (q a)) l -> among (flat_map h l) (flat_map h' l) (flat_map q l).
  Proof. intros H. induction H as [|a l H _ IH]; [apply among_same|]. cbn [flat_map]. now apply among_app. Qed.
  Lemma among_flat {A A1 A2} (h : A1 -> list X) (h' : A2 -> list X) (k1 : A -> A1) (k2 : A -> A2) (q : A -> list (P + R)) l :
    Forall (fun a => among (h (k1 a)) (h' (k2 a)) (q a)) l -> among (flat_map h (map k1 l)) (flat_map h' (map k2 l)) (flat_map q l).
  Proof. intros H. rewrite !flat_map_map. now apply among_flats. Qed.
End Behind.

(** ** Numbers with and without pointers *)

Section NumbersBehind.
  Context {P R : Type} (p p' : P -> list numeral).
  Notation amongn := (among p (fun _ : R => [])).

  Lemma numbers_behind_cases : @cases P R
    (fun t => amongn (type_numbers p t) (type_numbers p' t) (type_pointers t))
    (fun n => amongn (named_numbers p n) (named_numbers p' n) (named_pointers n))
    (fun c => amongn (component_numbers p c) (component_numbers p' c) (component_pointers c))
    (fun c => amongn (constraint_numbers p c) (constraint_numbers p' c) (constraint_pointers c))
    (fun e => amongn (elements_numbers p e) (elements_numbers p' e) (elements_pointers e))
    (fun i => amongn (intersection_numbers p i) (intersection_numbers p' i) (intersection_pointers i)).
  Proof.
    constructor; try (intros; apply among_more; exact (among_same _ _ _)).
    - intros n H. exact H.
    - intros a e A B. cbn. apply among_app; apply among_flats; [assumption|].
      eapply Forall_impl; [|exact B]. intros [n|]; [cbn; auto|intros _; apply among_same].
    - intros c e A B. cbn. apply among_app; apply among_flats; assumption.
    - intros c e A B. cbn. apply among_app; apply among_flats; assumption.
    - intros tg t z b H. cbn. apply among_app; [|exact H]. apply among_more. apply among_same.
    - intros t H. exact H.
    - intros t H. exact H.
    - intros t c A B. cbn. now apply among_app.
    - intros s t H. exact H.
    - intros n o d H. cbn. apply among_app; [exact H|]. destruct d as [v|]; [|apply among_same].
      intros x I. right. cbn. now rewrite app_nil_r.
    - intros t H. exact H.
    - intros l A. cbn. now apply among_flats.
    - intros l A. cbn. apply among_flats. eapply Forall_impl; [|exact A]. intros k B. now apply among_flats.
    - intros e H. exact H.
    - intros t H. exact H.
    - intros c H. exact H.
    - intros e x A B. cbn. now apply among_app.
  Qed.

  Lemma numbers_behind (m : ModuleDefinition P R) : amongn (module_numbers p m) (module_numbers p' m) (module_pointers m).
  Proof.
    unfold module_numbers, module_pointers, mb_numbers, mb_pointers. apply among_pre.
    apply among_app; apply among_flats; apply Forall_forall.
    - intros x _. apply among_more. apply among_same.
    - intros [|n a|n a v] _; cbn; [apply among_same| |apply among_app; [|apply among_more; apply among_same]];
        apply (type_ind2 _ _ _ _ _ _ numbers_behind_cases).
  Qed.
End NumbersBehind.

Lemma plain_in (m : Module_) x : In x (plain_numbers m) -> In x (numbers m).
Proof.
  intros I. destruct (numbers_behind (fun _ => []) value_numbers m x I) as [J|J]; [exact J|].
  apply in_flat_map in J as ([v|d] & _ & []).
Qed.

(** ** Words: two readings of the same pointers *)

Section Two.
  Context {P R : Type} (f f' : P -> Value) (g g' : R -> DefinedValue).
  Notation tw := (type_words vw dw). Notation nw := (named_words vw dw). Notation cw := (component_words vw dw).
  Notation csw := (constraint_words vw dw). Notation ew := (elements_words vw dw). Notation iw := (intersection_words vw dw).
  Notation among := (among (fun a => vw (f a)) (fun b => dw (g b))).
  Notation among_same := (among_same (fun a => vw (f a)) (fun b => dw (g b))).

  Lemma value_among v : among (vw (value_map g v)) (vw (value_map g' v)) (value_pointers v).
  Proof.
    destruct v as [|n|r|b|d|s|l]; try apply among_same. cbn [value_map]. unfold value_pointers. cbn [value_references value_words].
    induction l as [|[n i r] l IH]; [apply among_same|]. cbn [map flat_map oe_words oe_Name oe_Reference oe_ID] in *.
    rewrite map_app. apply among_app; [|exact IH].
    destruct r as [r|]; cbn; [|apply among_same]. intros x [<-|H]; [now left; left|]. right. cbn. tauto.
  Qed.

  Lemma among_cases : @cases P R
    (fun t => among (tw (tmap f g t)) (tw (tmap f' g' t)) (type_pointers t))
    (fun n => among (nw (nmap f g n)) (nw (nmap f' g' n)) (named_pointers n))
    (fun c => among (cw (cmap f g c)) (cw (cmap f' g' c)) (component_pointers c))
    (fun c => among (csw (csmap f g c)) (csw (csmap f' g' c)) (constraint_pointers c))
    (fun e => among (ew (emap f g e)) (ew (emap f' g' e)) (elements_pointers e))
    (fun i => among (iw (imap f g i)) (iw (imap f' g' i)) (intersection_pointers i)).
  Proof.
    constructor; try (intros; exact (among_same _)).
    - intros n H. exact H.
    - intros a e A B. cbn. apply among_cons. apply among_app; apply among_flat; [assumption|].
      eapply Forall_impl; [|exact B]. intros [n|]; [cbn; auto|intros _; apply among_same].
    - intros c e A B. cbn. apply among_cons. apply among_app; apply among_flat; assumption.
    - intros c e A B. cbn. apply among_cons. apply among_app; apply among_flat; assumption.
    - intros tg t z b H. cbn. apply among_app; [|now apply among_pre]. unfold tag_words. cbn. apply among_pre. apply value_among.
    - intros t H. cbn. now repeat apply among_cons.
    - intros t H. cbn. now repeat apply among_cons.
    - intros l. cbn. do 2 apply among_cons. apply among_flat. apply Forall_forall. intros b _. unfold nb_words. apply among_cons.
      apply value_among.
    - intros t c A B. cbn. now apply among_app.
    - intros s t H. cbn. now apply among_cons.
    - intros n o d H. cbn. apply among_app; [exact H|]. apply among_pre. destruct d as [v|]; [|apply among_same].
      cbn. apply among_cons. intros x I. right. cbn. now rewrite app_nil_r.
    - intros t H. cbn. now repeat apply among_cons.
    - intros l A. cbn. now apply among_flat.
    - intros l A. cbn. apply among_flat. eapply Forall_impl; [|exact A]. intros k B. now apply among_flat.
    - intros e H. cbn. now apply among_cons.
    - intros v. apply value_among.
    - intros a b. cbn. apply among_app; apply value_among.
    - intros t H. exact H.
    - intros c H. cbn. now apply among_cons.
    - intros e x A B.
      change (among (ew (emap f g e) ++ except_word (emap f g x) ++ ew (emap f g x))
        (ew (emap f' g' e) ++ except_word (emap f' g' x) ++ ew (emap f' g' x)) (elements_pointers e ++ elements_pointers x)).
      assert (E : except_word (emap f g x) = except_word (emap f' g' x)) by now destruct x. rewrite E.
      apply among_app; [exact A|]. now apply among_pre.
  Qed.

  Lemma words_among m : among (words (md_map f g m)) (words (md_map f' g' m)) (module_pointers m).
  Proof.
    destruct m as [i t e [l s]]. unfold words, module_words, mb_words, module_pointers, mb_pointers.
    cbn [md_map mb_map md_ModuleIdentifier md_TagDefault md_ExtensibilityImplied md_ModuleBody mb_Imports mb_AssignmentList].
    do 3 apply among_pre. apply among_app; apply among_flat; apply Forall_forall.
    - intros x _. unfold sfm_words. cbn. apply among_pre. apply among_cons. unfold gmr_words. apply among_cons. apply value_among.
    - intros [|n a|n a v] _; [apply among_same| |]; cbn; apply among_cons; [|apply among_app; [|apply value_among]];
        apply (type_ind2 _ _ _ _ _ _ among_cases).
  Qed.
End Two.

(** ** Where words come from *)

Section From.
  Context (G : string -> Prop) (G0 : G "").

  Definition wfact (i : item) : Prop :=
    match i with Tk t => Forall G (token_words t) | Nt N v => Forall G (sem_words v) end.

  Lemma except_good (e : Elements Value DefinedValue) : G "EXCEPT" -> Forall G (except_word e).
  Proof. intros H. destruct e; cbn; repeat constructor; assumption. Qed.

  Ltac one_token :=
    match goal with
    | [ B : Forall G (token_words ?t), K : tk_kind ?t = ?k |- _ ] =>
        rewrite (token_kind t k K) in B;
        let w := eval cbv -[tk_name] in (kind_words k (tk_name t)) in change (kind_words k (tk_name t)) with w in B; clear K
    end.
  Ltac wfacts :=
    repeat match goal with
    | [ F : Forall wfact [] |- _ ] => clear F
    | [ F : Forall wfact (_ :: _) |- _ ] => inversion_clear F
    | [ F : wfact _ |- _ ] => unfold wfact in F
    end.
  Ltac refold :=
    fold (type_words vw dw) (named_words vw dw) (component_words vw dw)
      (constraint_words vw dw) (elements_words vw dw) (intersection_words vw dw).
  Ltac open_words :=
    unfold words, module_words, mb_words, mi_words, gmr_words, sfm_words, nn_words, nb_words, et_words, tag_words, re_words, oe_words,
      SingleElementConstraint in *.
  Ltac whyps := repeat match goal with
    | [ F : Forall _ (_ ++ _) |- _ ] => apply Forall_app in F; destruct F
    | [ F : Forall _ (_ :: _) |- _ ] => inversion_clear F
    | [ F : Forall _ [] |- _ ] => clear F
    end.
  Ltac wsplit :=
    repeat first [assumption | exact I | rewrite flat_map_app | rewrite map_app | rewrite Forall_app | apply Forall_nil | split |
      apply Forall_cons | rewrite app_nil_r | rewrite flat_one | apply except_good].

  Lemma words_table : Forall (fun R : nonterm -> list item -> sem -> Prop => forall N its v,
    R N its v -> Forall wfact its -> Forall G (sem_words v)) rule_table.
  Proof.
    unfold rule_table. apply Forall_cons; [contradiction|].
    repeat (apply Forall_cons; [
      let N := fresh in let its := fresh in let v := fresh in let H := fresh in let F := fresh in
      intros N its v H F; destruct H; wfacts; repeat one_token; cbn [sem_words] in *; cbn -[except_word]; refold; open_words;
      cbn -[type_words named_words component_words constraint_words elements_words intersection_words defined_words except_word] in *;
      unfold defined_words in *; cbn [dv_ModuleName dv_ValueName] in *;
      change (except_word (@ENil (value DefinedValue) DefinedValue)) with (@nil string);
      whyps; wsplit; auto; fail|]).
    constructor.
  Qed.

  Lemma tree_words T i : yields T i -> Forall (fun t => Forall G (token_words t)) (leaves T) -> wfact i.
  Proof.
    revert T i. apply (yields_rect (fun T i => Forall (fun t => Forall G (token_words t)) (leaves T) -> wfact i)).
    - intros t H. now inversion_clear H.
    - intros n N its v l R _ IH H. cbn [leaves] in H.
      assert (F : Forall wfact its).
      { clear R. induction IH as [|T i l its P _ IHl]; constructor.
        - apply P. cbn [flat_map] in H. now apply Forall_app in H.
        - apply IHl. cbn [flat_map] in H. now apply Forall_app in H. }
      destruct (rule_numbered n N its v R) as (Q & I & HQ & _).
      pose proof words_table as C. rewrite Forall_forall in C. apply (C Q) with (N := N) (its := its); [|exact HQ|exact F].
      apply in_combine_r in I. exact I.
  Qed.
End From.

(** ** Texts *)

Lemma part_leaves w ts (Q : token -> Prop) : part_of w ts -> Forall Q ts -> Forall Q w.
Proof. intros (a & b & ->) H. apply Forall_app in H as [_ H]. now apply Forall_app in H. Qed.

Lemma phrase_words ts N w v x : part_of w ts -> derives N w v -> In x (sem_words v) -> x = "" \/ In x (text_words ts).
Proof.
  intros Pw (T & Y & L) I.
  assert (F : Forall (fun t => Forall (fun x => x = "" \/ In x (text_words ts)) (token_words t)) (leaves T)).
  { rewrite L. apply (part_leaves w ts); [exact Pw|]. apply Forall_forall. intros t It. apply Forall_forall. intros y Iy. right.
    apply in_flat_map. eauto. }
  pose proof (tree_words (fun x => x = "" \/ In x (text_words ts)) (or_introl eq_refl) T _ Y F) as H. cbn [wfact] in H.
  rewrite Forall_forall in H. now apply H.
Qed.

Lemma same_words v v' x : same_but_references v v' -> In x (vw v) -> In x (vw v') \/ exists d, In d (value_references v) /\ In x (dw d).
Proof.
  unfold same_but_references. intros E I. destruct v as [|n|r|b|d|s|l], v' as [|n'|r'|b'|d'|s'|l']; try discriminate E; try destruct I;
    try (injection E as ->; left; assumption); try (left; subst; cbn in *; injection E as ->; auto; fail).
  cbn [value_words value_references] in *. injection E as E. revert l' E.
  induction l as [|[n i r] l IH]; intros [|[n' i' r'] l'] E; try discriminate E; [destruct I|].
  injection E as E1 E2 E3 E4. cbn [flat_map oe_words oe_Name oe_Reference] in *. apply in_app_or in I as [[I|I]|I].
  - left. left. cbn in I |- *. congruence.
  - right. destruct r as [r|]; [|destruct I]. exists r. split; [|exact I]. apply in_or_app. left. now left.
  - destruct (IH I l' E4) as [J|(d & J & K)]; [left; apply in_or_app; now right|right].
    exists d. split; [|exact K]. apply in_or_app. now right.
Qed.

Lemma reference_words ts d x : reference_ok ts d -> In x (dw d) -> x = "" \/ In x (text_words ts).
Proof.
  intros [-> |(w & Pw & D)] I; [cbn in I; intuition congruence|]. exact (phrase_words ts _ _ _ x Pw D I).
Qed.

Section Texts.
  Context (U : unicode_tables).

  (** Every word of the tree is empty or in the text. *)
  Theorem words_from_text s m ts x : parses U s (ParseOk (Some m)) -> reads_all U s ts -> In x (words m) ->
    x = "" \/ In x (text_words ts).
  Proof.
    intros P R I. pose proof (text_pointers U s m ts P R) as H.
    destruct (memory_outcome U s m ts P R) as (L & ps & m0 & -> & D & Me). unfold resolve in *.
    destruct (words_among (deref_V (arrays ps)) snapV (deref_D (arrays ps)) snapD m0 x I) as [J|J].
    - apply (phrase_words ts N_ModuleDefinition ts (S_module (snapM m0)) x); [exists [], []; now rewrite app_nil_r|exact D|exact J].
    - apply in_flat_map in J as (q & J & K). rewrite module_pointers_map, Forall_map, Forall_forall in H. specialize (H q J).
      destruct q as [p|d]; cbn [sum_map behind] in *; [|exact (reference_words ts _ x H K)].
      destruct H as [[E|(v' & (N & w & Pw & Dv) & Sm)] Fr]; [rewrite E in K; destruct K|].
      destruct (same_words _ _ x Sm K) as [Z|(d & Id & Z)]; [exact (phrase_words ts N w _ x Pw Dv Z)|].
      rewrite Forall_forall in Fr. exact (reference_words ts d x (Fr d Id) Z).
  Qed.

  (** Every number of the tree is 0 or in the text, up to its sign. *)
  Theorem numbers_from_text (G : Z -> Prop) s m ts z : G 0 -> (forall z, G z -> G (wrap64 (- z))) -> Forall (gtoken G) ts ->
    parses U s (ParseOk (Some m)) -> reads_all U s ts -> In (Whole z) (numbers m) -> G z.
  Proof.
    intros G0 Gopp F P R I. destruct (numbers_behind value_numbers (fun _ => []) m (Whole z) I) as [J|J].
    - destruct (parses_outcome U s _ P) as [(e & E)|(m1 & us & m' & E & R' & (T & Y & L) & Sh)]; [discriminate E|].
      assert (m1 = m) as -> by congruence. clear E. 
      assert (us = ts) as ->.
      { apply reads_all_tokens in R, R'. exact (tokens_det U _ _ _ R _ R'). }
      change (In (Whole z) (plain_numbers m)) in J. rewrite (shape_numbers m m' Sh) in J. rewrite <- L in F.
      pose proof (tree_numbers G G0 Gopp T _ Y F) as H. cbn [gfact sem_numbers] in H. rewrite Forall_forall in H.
      exact (H (Whole z) J).
    - apply in_flat_map in J as ([v|d] & J & K); [|destruct K]. cbn [behind] in K.
      pose proof (text_pointers U s m ts P R) as H. rewrite Forall_forall in H. destruct (H _ J) as [[-> |(v' & (N & w & Pw & T & Y & L) & Sm)] _]; [destruct K|].
      rewrite <- (value_numbers_map (fun _ => tt) v), Sm, value_numbers_map in K.
      pose proof (part_leaves w ts _ Pw F) as Fw. rewrite <- L in Fw.
      pose proof (tree_numbers G G0 Gopp T _ Y Fw) as Hn. cbn [gfact sem_numbers] in Hn. rewrite Forall_forall in Hn.
      exact (Hn (Whole z) K).
  Qed.
End Texts.
