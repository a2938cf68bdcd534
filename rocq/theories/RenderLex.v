(** Reading a text of words with spaces between them. *)
From Coq Require Import ZArith String Ascii Bool List Lia.
From Verif Require Import GoBase Utf8 Unicode Reader Stream Tokens Reserved Lexer Grammar Ast LexErr LexSpec LexEq LexRuns LexFacts LexWords
  LexProps GoifyFacts CodegenSpec CodegenTag Render.
Import ListNotations.
Local Open Scope string_scope.
Local Open Scope list_scope.
Local Open Scope Z_scope.

(** The token of a printed word. *)
Definition tok (w : string) : token :=
  match assoc_word w symbols with
  | Some c => plain_token c
  | None =>
      match assoc_word w RESERVED_WORDS with
      | Some c => plain_token c
      | None =>
          let b := hd 0 (bytes_of_string w) in
          if ascii_digit b then {| tk_kind := T_NUMBER; tk_name := w; tk_number := decimal (bytes_of_string w) |}
          else {| tk_kind := if ascii_upper b then T_TYPEORMODULEREFERENCE else T_VALUEIDENTIFIER;
                  tk_name := w; tk_number := 0 |}
      end
  end.

(** What follows a printed word. *)
Definition stop (q : list Z) : Prop := q = [] \/ exists q', q = 32 :: q'.

Section Good.
  Context (U : unicode_tables).

  Definition good (w : string) : Prop :=
    Forall (fun b => b < 128) (bytes_of_string w) /\
    forall q, stop q -> exists n, next U false (bytes_of_string w ++ q) = Tok (tok w) n q.

  Lemma stop_tail ws : stop (flat_map (fun w => 32 :: bytes_of_string w) ws).
  Proof. destruct ws as [|w ws]; [now left|]. right. cbn [flat_map app]. eauto. Qed.

  Lemma tokens_tail ws : Forall good ws -> forall n, tokens U n (flat_map (fun w => 32 :: bytes_of_string w) ws) (map tok ws).
  Proof.
    induction 1 as [|w ws G F IH]; intros n.
    - constructor. reflexivity.
    - cbn [flat_map map]. destruct G as [_ G]. destruct (G _ (stop_tail ws)) as [n' E].
      apply (tokens_cons U n _ _ n' _ _) with (2 := IH n').
      rewrite <- E. refine (next_layout U [32] _ n _ _); [|discriminate]. constructor; [reflexivity|constructor].
  Qed.

  Lemma concat_bytes w ws : bytes_of_string (String.concat " " (w :: ws)) =
    bytes_of_string w ++ flat_map (fun w => 32 :: bytes_of_string w) ws.
  Proof.
    revert w. induction ws as [|x ws IH]; intros w.
    - cbn. now rewrite app_nil_r.
    - change (String.concat " " (w :: x :: ws)) with (w ++ (" " ++ String.concat " " (x :: ws)))%string.
      assert (A : forall a b, bytes_of_string (a ++ b)%string = bytes_of_string a ++ bytes_of_string b).
      { clear. induction a as [|c a IH]; intros b; [reflexivity|]. cbn [String.append bytes_of_string app]. now rewrite IH. }
      rewrite A, A, IH. reflexivity.
  Qed.

  Lemma runes_ascii bs : Forall (fun b => b < 128) bs -> runes bs = bs.
  Proof. intros H. unfold runes, decode_all. now apply decode_ascii. Qed.

  Lemma reads_words ws : ws <> [] -> Forall good ws -> reads_all U (String.concat " " ws) (map tok ws).
  Proof.
    intros N F. destruct ws as [|w ws]; [contradiction|]. apply reads_all_tokens.
    rewrite concat_bytes. rewrite runes_ascii.
    - inversion F as [|? ? G F']; subst. destruct G as [_ G]. destruct (G _ (stop_tail ws)) as [n E].
      cbn [map]. eapply tokens_cons; [exact E|]. now apply tokens_tail.
    - inversion F as [|? ? [G _] F']; subst. apply Forall_app. split; [exact G|].
      clear -F'. induction F' as [|w ws [G _] F IH]; cbn [flat_map]; [constructor|]. constructor; [reflexivity|].
      apply Forall_app. auto.
  Qed.

  (** ** Words that are good *)

  Lemma ascii_letter_low r : is_letter ascii_tables r = true -> r < 128 /\ is_letter U r = true.
  Proof. unfold is_letter. destruct (r <? 128) eqn:E; [intros H; apply Z.ltb_lt in E; auto|]. destruct (r =? 65533); discriminate. Qed.

  Lemma ascii_digit_low r : is_digit ascii_tables r = true -> r < 128 /\ is_digit U r = true.
  Proof. unfold is_digit. destruct (r <? 128) eqn:E; [intros H; apply Z.ltb_lt in E; auto|]. destruct (r =? 65533); discriminate. Qed.

  Lemma ascii_name_low r : name_char ascii_tables r = true -> r < 128 /\ name_char U r = true.
  Proof.
    unfold name_char. intros H. apply orb_true_iff in H as [H|H]; [apply orb_true_iff in H as [H|H]|].
    - apply ascii_letter_low in H as [? ->]. auto.
    - apply ascii_digit_low in H as [? ->]. rewrite orb_true_r. auto.
    - rewrite H, orb_true_r. apply Z.eqb_eq in H. subst r. split; [reflexivity|reflexivity].
  Qed.

  Lemma word_low w : word ascii_tables w = true -> Forall (fun b => b < 128) w /\ word U w = true.
  Proof.
    destruct w as [|r w]; [discriminate|]. cbn [word]. intros H. apply andb_true_iff in H as [H HY].
    apply andb_true_iff in H as [L N]. apply ascii_letter_low in L as [A ->]. rewrite HY, andb_true_r. cbn [andb].
    assert (G : Forall (fun b => b < 128) w /\ forallb (name_char U) w = true).
    { clear -N. induction w as [|a w IH]; [split; [constructor|reflexivity]|]. cbn [forallb] in *.
      apply andb_true_iff in N as [N1 N2]. apply ascii_name_low in N1 as [B ->]. destruct (IH N2) as [C ->]. auto. }
    destruct G as [G ->]. split; [now constructor|reflexivity].
  Qed.

  Lemma stop_word q : stop q -> word_stops U q = true.
  Proof. intros [->|[q' ->]]; reflexivity. Qed.

  Lemma bytes_range s : Forall (fun b => 0 <= b < 256) (bytes_of_string s).
  Proof. induction s as [|c s IH]; [constructor|]. cbn [bytes_of_string]. constructor; [apply byte_range|exact IH]. Qed.

  Lemma text_ascii s : Forall (fun b => b < 128) (bytes_of_string s) -> text (bytes_of_string s) = s.
  Proof.
    intros H. unfold text. rewrite encode_ascii.
    - apply string_bytes.
    - pose proof (bytes_range s) as R. rewrite Forall_forall in *. intros b I. specialize (H b I). specialize (R b I). lia.
  Qed.

  Lemma word_good s : word ascii_tables (bytes_of_string s) = true ->
    tok s = word_token U (hd 0 (bytes_of_string s)) s -> good s.
  Proof.
    intros W E. apply word_low in W as [A W]. split; [exact A|]. intros q Q. exists false.
    rewrite <- (app_nil_l (bytes_of_string s ++ q)).
    rewrite (next_word U [] (bytes_of_string s) q false (layout_nil) W (stop_word q Q)) by discriminate.
    now rewrite text_ascii, E.
  Qed.

  Lemma no_symbol s : word ascii_tables (bytes_of_string s) = true -> assoc_word s symbols = None.
  Proof.
    intros W. destruct (assoc_word s symbols) as [c|] eqn:E; [exfalso|reflexivity].
    unfold symbols in E. cbn [assoc_word] in E.
    repeat match type of E with (if String.eqb ?a ?b then _ else _) = _ => destruct (String.eqb_spec a b) as [->|];
      [first [discriminate W | vm_compute in W; discriminate W]|] end.
    discriminate E.
  Qed.

  Lemma ident_tok s : is_ident s = true -> good s /\ tok s = {| tk_kind := T_VALUEIDENTIFIER; tk_name := s; tk_number := 0 |}.
  Proof.
    intros H. apply andb_true_iff in H as [W L].
    assert (D : ascii_upper (hd 0 (bytes_of_string s)) = false /\ ascii_digit (hd 0 (bytes_of_string s)) = false
      /\ hd 0 (bytes_of_string s) <? 128 = true).
    { unfold ascii_lower, ascii_upper, ascii_digit in *. apply andb_true_iff in L as [L1 L2]. apply Z.leb_le in L1, L2.
      repeat split; first [apply andb_false_iff; rewrite ?Z.leb_gt; lia | apply Z.ltb_lt; lia]. }
    destruct D as (D1 & D2 & D3).
    assert (E : tok s = {| tk_kind := T_VALUEIDENTIFIER; tk_name := s; tk_number := 0 |}).
    { unfold tok. rewrite no_symbol by exact W. replace (assoc_word s RESERVED_WORDS) with (@None Z).
      - cbv zeta. now rewrite D2, D1.
      - symmetry. clear -D1. destruct (assoc_word s RESERVED_WORDS) as [c|] eqn:E; [exfalso|reflexivity].
        assert (C : forallb (fun p => ascii_upper (hd 0 (bytes_of_string (fst p)))) RESERVED_WORDS = true) by (vm_compute; reflexivity).
        rewrite forallb_forall in C. apply assoc_word_In in E. specialize (C _ E). cbn [fst] in C. congruence. }
    split; [|exact E]. apply word_good; [exact W|]. rewrite E. unfold word_token, is_upper. now rewrite D3, D1.
  Qed.

  Lemma typeref_tok s : is_typeref s = true ->
    good s /\ tok s = {| tk_kind := T_TYPEORMODULEREFERENCE; tk_name := s; tk_number := 0 |}.
  Proof.
    intros H. apply andb_true_iff in H as [H R]. apply andb_true_iff in H as [W L].
    assert (D : ascii_digit (hd 0 (bytes_of_string s)) = false /\ hd 0 (bytes_of_string s) <? 128 = true).
    { unfold ascii_lower, ascii_upper, ascii_digit in *. apply andb_true_iff in L as [L1 L2]. apply Z.leb_le in L1, L2.
      repeat split; first [apply andb_false_iff; rewrite ?Z.leb_gt; lia | apply Z.ltb_lt; lia]. }
    destruct D as (D2 & D3).
    assert (N : assoc_word s RESERVED_WORDS = None).
    { destruct (assoc_word s RESERVED_WORDS) as [c|] eqn:E; [exfalso|reflexivity]. apply assoc_word_In in E.
      apply negb_true_iff in R. apply not_true_iff_false in R. apply R. apply existsb_exists. exists s.
      split; [exact (in_map fst _ _ E)|apply String.eqb_refl]. }
    assert (E : tok s = {| tk_kind := T_TYPEORMODULEREFERENCE; tk_name := s; tk_number := 0 |}).
    { unfold tok. rewrite no_symbol, N by exact W. cbv zeta. now rewrite D2, L. }
    split; [|exact E]. apply word_good; [exact W|]. rewrite E. unfold word_token, is_upper. now rewrite D3, L, N.
  Qed.

  Lemma number_tok n : 0 <= n -> n < 2 ^ 63 -> good (sprint_int n) /\
    tok (sprint_int n) = {| tk_kind := T_NUMBER; tk_name := sprint_int n; tk_number := n |}.
  Proof.
    intros N L. rewrite sprint_int_eq. replace (n <? 0) with false by (symmetry; apply Z.ltb_ge; lia).
    pose proof (dec_digits_nonempty (S (Z.to_nat (Z.log2 n))) n "" (or_intror (Nat.lt_0_succ _))) as Hn.
    pose proof (dec_digits_digits (S (Z.to_nat (Z.log2 n))) n "" ad_nil) as Hd.
    pose proof (digits_of_val n N) as Hv. fold (digits_of n) in *. set (s := digits_of n) in *. clearbody s.
    assert (F : Forall (fun d => 48 <= d <= 57) (bytes_of_string s)).
    { clear -Hd. induction Hd; cbn [bytes_of_string]; constructor; assumption. }
    assert (V : decimal (bytes_of_string s) = n).
    { unfold decimal. clear -Hd Hv. revert Hv. generalize 0. induction Hd as [|c s R D IH]; intros a H.
      - cbn in H |- *. congruence.
      - cbn [bytes_of_string fold_left]. apply IH. cbn [dec_val] in H.
        replace ((48 <=? byte_of_ascii c) && (byte_of_ascii c <=? 57)) with true in H; [exact H|].
        symmetry. apply andb_true_iff. rewrite !Z.leb_le. exact R. }
    assert (E : tok s = {| tk_kind := T_NUMBER; tk_name := s; tk_number := n |}).
    { assert (DG : ascii_digit (hd 0 (bytes_of_string s)) = true).
      { destruct s as [|c s]; [contradiction|]. cbn [bytes_of_string hd] in *. inversion F; subst. unfold ascii_digit.
        apply andb_true_iff. rewrite !Z.leb_le. assumption. }
      assert (A : forall l, forallb (fun p => negb (ascii_digit (hd 0 (bytes_of_string (fst p))))) l = true -> assoc_word s l = None).
      { intros l C. destruct (assoc_word s l) as [c|] eqn:Q; [exfalso|reflexivity]. apply assoc_word_In in Q.
        rewrite forallb_forall in C. specialize (C _ Q). cbn [fst] in C. rewrite DG in C. discriminate C. }
      unfold tok. rewrite (A symbols), (A RESERVED_WORDS) by (vm_compute; reflexivity). cbv zeta. now rewrite DG, V. }
    split; [|exact E]. split.
    - eapply Forall_impl; [|exact F]. cbn. lia.
    - intros q Q. exists true.
      assert (NE : bytes_of_string s <> []) by (destruct s; [contradiction|discriminate]).
      assert (DG : digits U (bytes_of_string s) = true).
      { unfold digits. destruct (bytes_of_string s) as [|b bs] eqn:B; [contradiction|]. apply forallb_forall. intros d I.
        rewrite Forall_forall in F. apply digit_low. now apply F. }
      assert (NL : is_letter U (hd 0 (bytes_of_string s)) = false).
      { destruct (bytes_of_string s) as [|b bs] eqn:B; [contradiction|]. cbn [hd]. inversion F as [|? ? R _]; subst.
        unfold is_letter, ascii_upper, ascii_lower. replace (b <? 128) with true by (symmetry; apply Z.ltb_lt; lia).
        apply orb_false_iff. split; apply andb_false_iff; rewrite ?Z.leb_gt; lia. }
      assert (DS : digits_stop U q = true) by (destruct Q as [->|[q' ->]]; reflexivity).
      rewrite <- (app_nil_l (bytes_of_string s ++ q)).
      destruct (next_digits U [] (bytes_of_string s) q false layout_nil DG NL DS) as [(_ & _ & ->)|([X|X] & _)].
      + rewrite E, V, text_ascii; [reflexivity|]. eapply Forall_impl; [|exact F]. cbn. lia.
      + exfalso. apply Exists_exists in X as (d & I & X). rewrite Forall_forall in F. specialize (F d I). cbn in F. lia.
      + lia.
  Qed.

  (** Reserved words and symbols. *)
  Definition fixed (w : string) : bool :=
    match assoc_word w symbols with
    | Some _ => true
    | None => match assoc_word w RESERVED_WORDS with Some _ => true | None => false end
    end.

  Lemma symbols_good : Forall (fun p => good (fst p)) symbols.
  Proof.
    unfold symbols. repeat constructor; cbn [fst]; intros q [->|[q' ->]]; eexists; vm_compute; reflexivity.
  Qed.

  Lemma reserved_words_check : forallb (fun p => word ascii_tables (bytes_of_string (fst p))
    && ascii_upper (hd 0 (bytes_of_string (fst p))) && (hd 0 (bytes_of_string (fst p)) <? 128)) RESERVED_WORDS = true.
  Proof. vm_compute. reflexivity. Qed.

  Lemma fixed_good w : fixed w = true -> good w.
  Proof.
    unfold fixed. destruct (assoc_word w symbols) as [c|] eqn:E.
    - intros _. apply assoc_word_In in E. pose proof symbols_good as G. rewrite Forall_forall in G. exact (G _ E).
    - destruct (assoc_word w RESERVED_WORDS) as [c|] eqn:R; [|discriminate]. intros _.
      pose proof (assoc_word_In _ _ _ R) as I. pose proof reserved_words_check as C. rewrite forallb_forall in C.
      specialize (C _ I). cbn [fst] in C. apply andb_true_iff in C as [C C3]. apply andb_true_iff in C as [C1 C2].
      apply word_good; [exact C1|]. unfold tok, word_token, is_upper. now rewrite E, R, C3, C2.
  Qed.
End Good.
