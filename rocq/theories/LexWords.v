(** Words, numbers and symbols: the text of a token. *)
From Coq Require Import ZArith String Ascii Bool List Lia.
From Verif Require Import GoBase Utf8 Unicode Tokens Reserved Lexer Grammar LexSpec LexErr LexEq LexFacts GoifyFacts.
Import ListNotations.
Local Open Scope string_scope.
Local Open Scope list_scope.
Local Open Scope Z_scope.

(** ** Vocabulary of the properties *)

Section Vocabulary.
  Context (U : unicode_tables).

  (** Letters, digits and hyphens (X.680 11.2.1). *)
  Definition name_char (r : Z) : bool := is_letter U r || is_digit U r || (r =? ch "-").

  (** After [prev], the text [w] has no two adjacent hyphens and does not end with
      one. *)
  Fixpoint hyphens_ok (prev : Z) (w : list Z) : bool :=
    match w with
    | [] => negb (prev =? ch "-")
    | r :: w' => negb ((prev =? ch "-") && (r =? ch "-")) && hyphens_ok r w'
    end.

  (** A word: starts with a letter, consists of letters, digits and single hyphens,
      does not end with a hyphen (X.680 11.2.1, 11.3). *)
  Definition word (w : list Z) : bool :=
    match w with
    | [] => false
    | r :: w' => is_letter U r && forallb name_char w' && hyphens_ok r w'
    end.

  (** Digits. *)
  Definition digits (w : list Z) : bool :=
    match w with [] => false | _ => forallb (is_digit U) w end.

  (** Does the text go on with something that is no name character / no digit? *)
  Definition word_stops (q : list Z) : bool := match q with [] => true | r :: _ => negb (name_char r) end.
  Definition digits_stop (q : list Z) : bool := match q with [] => true | r :: _ => negb (is_digit U r) end.
End Vocabulary.

(** Value of decimal digits. *)
Definition decimal (w : list Z) : Z := fold_left (fun n d => 10 * n + (d - 48)) w 0.

(** The symbols and their tokens (X.680 11.15 ff.). *)
Definition symbols : list (string * Z) :=
  [("::=", T_ASSIGNMENT); ("...", T_ELLIPSIS); ("..", T_RANGE_SEPARATOR); ("[[", T_LEFT_VERSION_BRACKETS);
   ("]]", T_RIGHT_VERSION_BRACKETS); ("{", T_OPEN_CURLY); ("}", T_CLOSE_CURLY); ("<", T_LESS);
   (">", T_GREATER); (",", T_COMMA); (".", T_DOT); ("(", T_OPEN_ROUND); (")", T_CLOSE_ROUND);
   ("[", T_OPEN_SQUARE); ("]", T_CLOSE_SQUARE); ("-", T_MINUS); (":", T_COLON); ("=", T_EQUALS);
   ("""", T_QUOTATION_MARK); ("'", T_APOSTROPHE); (";", T_SEMICOLON);
   ("@", T_AT); ("|", T_PIPE); ("!", T_EXCLAMATION); ("^", T_CARET)].

(** The text [w] of a token and the token. *)
Inductive lexeme (U : unicode_tables) : list Z -> token -> Prop :=
| lexeme_keyword w code : word U w = true -> is_upper U (hd 0 w) = true ->
    In (text w, code) RESERVED_WORDS -> lexeme U w (plain_token code)
| lexeme_reference w : word U w = true -> is_upper U (hd 0 w) = true ->
    ~ In (text w) (map fst RESERVED_WORDS) ->
    lexeme U w {| tk_kind := T_TYPEORMODULEREFERENCE; tk_name := text w; tk_number := 0 |}
| lexeme_identifier w : word U w = true -> is_upper U (hd 0 w) = false ->
    lexeme U w {| tk_kind := T_VALUEIDENTIFIER; tk_name := text w; tk_number := 0 |}
| lexeme_number w : w <> [] -> Forall (fun d => 48 <= d <= 57) w -> decimal w < 2 ^ 63 ->
    lexeme U w {| tk_kind := T_NUMBER; tk_name := text w; tk_number := decimal w |}
| lexeme_exponent r : r = ch "e" \/ r = ch "E" -> lexeme U [r] (plain_token T_EXPONENT)
| lexeme_symbol s code : In (s, code) symbols -> lexeme U (bytes_of_string s) (plain_token code).

(** ** Facts *)

Lemma name_char_eq U r : name_char U r = isIdentifierChar U r.
Proof. reflexivity. Qed.

Section Words.
  Context (U : unicode_tables).

  Lemma word_scan_ok : forall p w l q, forallb (name_char U) p = true -> hyphens_ok l p = true ->
    word_stops U q = true -> word_scan U w l (p ++ q) = (inr (w ++ p), q).
  Proof.
    induction p as [|r p IH]; intros w l q P H S1; cbn [app].
    - rewrite app_nil_r. cbn [hyphens_ok] in H. apply negb_true_iff in H. destruct q as [|r q]; cbn [word_scan].
      + now rewrite H.
      + cbn [word_stops] in S1. rewrite name_char_eq in S1. apply negb_true_iff in S1. now rewrite S1, H.
    - cbn [forallb hyphens_ok] in *. apply andb_true_iff in P as [P1 P2]. apply andb_true_iff in H as [H1 H2].
      cbn [word_scan]. rewrite <- name_char_eq, P1. apply negb_true_iff in H1. rewrite H1.
      rewrite IH by assumption. now rewrite <- app_assoc.
  Qed.

  Lemma word_scan_inv : forall rs w l w' q, word_scan U w l rs = (inr w', q) ->
    exists p, w' = w ++ p /\ rs = p ++ q /\ forallb (name_char U) p = true /\ hyphens_ok l p = true /\
      word_stops U q = true.
  Proof.
    induction rs as [|r rs IH]; intros w l w' q; cbn [word_scan].
    - destruct (l =? ch "-") eqn:E; [discriminate|]. intros H. injection H as <- <-. exists [].
      rewrite app_nil_r. cbn [hyphens_ok app forallb word_stops]. rewrite E. auto.
    - destruct (isIdentifierChar U r) eqn:I.
      + destruct ((l =? ch "-") && (r =? ch "-")) eqn:D; [discriminate|]. intros H.
        destruct (IH _ _ _ _ H) as (p & -> & -> & P & Q & S1). exists (r :: p). rewrite <- app_assoc.
        cbn [forallb hyphens_ok app]. rewrite name_char_eq, I, P, D, Q. auto.
      + destruct (l =? ch "-") eqn:E; [discriminate|]. intros H. injection H as <- <-. exists [].
        rewrite app_nil_r. cbn [hyphens_ok app forallb word_stops]. rewrite E, name_char_eq, I. auto.
  Qed.

  Lemma digits_scan_ok : forall p w q, forallb (is_digit U) p = true -> digits_stop U q = true ->
    digits_scan U w (p ++ q) = (w ++ p, q).
  Proof.
    induction p as [|r p IH]; intros w q P S1; cbn [app].
    - rewrite app_nil_r. destruct q as [|r q]; [reflexivity|]. cbn [digits_stop] in S1. apply negb_true_iff in S1.
      cbn [digits_scan]. now rewrite S1.
    - cbn [forallb] in P. apply andb_true_iff in P as [P1 P2]. cbn [digits_scan]. rewrite P1, IH by assumption.
      now rewrite <- app_assoc.
  Qed.

  Lemma digits_scan_inv : forall rs w w' q, digits_scan U w rs = (w', q) ->
    exists p, w' = w ++ p /\ rs = p ++ q /\ forallb (is_digit U) p = true /\ digits_stop U q = true.
  Proof.
    induction rs as [|r rs IH]; intros w w' q; cbn [digits_scan].
    - intros H. injection H as <- <-. exists []. rewrite app_nil_r. auto.
    - destruct (is_digit U r) eqn:D.
      + intros H. destruct (IH _ _ _ H) as (p & -> & -> & P & S1). exists (r :: p). rewrite <- app_assoc.
        cbn [forallb app]. rewrite D, P. auto.
      + intros H. injection H as <- <-. exists []. rewrite app_nil_r. cbn [digits_stop]. rewrite D. auto.
  Qed.

  (** ** Text *)

  Lemma bytes_string : forall bs, Forall byte bs -> bytes_of_string (string_of_bytes bs) = bs.
  Proof.
    induction 1 as [|b bs B F IH]; [reflexivity|]. cbn [string_of_bytes bytes_of_string].
    rewrite IH. f_equal. now apply byte_of_ascii_of.
  Qed.

  Lemma encode_byte r : Forall byte (encode_rune r).
  Proof.
    unfold encode_rune, byte.
    repeat match goal with |- context [if ?b then _ else _] => destruct b eqn:? end;
      repeat match goal with H : _ && _ = true |- _ => apply andb_true_iff in H as [? ?]
        | H : _ || _ = false |- _ => apply orb_false_iff in H as [? ?] end;
      repeat constructor; Z.div_mod_to_equations; lia.
  Qed.

  Lemma encode_bytes w : Forall byte (encode_all w).
  Proof. unfold encode_all. induction w; cbn; [constructor|]. apply Forall_app. split; [apply encode_byte|assumption]. Qed.

  Lemma bytes_text w : bytes_of_string (text w) = encode_all w.
  Proof. apply bytes_string, encode_bytes. Qed.

  Lemma digits_value_dec : forall w a, Forall (fun d => 48 <= d <= 57) w ->
    digits_value a w = Some (fold_left (fun n d => 10 * n + (d - 48)) w a).
  Proof.
    induction w as [|d w IH]; intros a H; [reflexivity|]. apply Forall_cons_iff in H as [D H]. cbn [digits_value fold_left].
    unfold is_ascii_digit. replace ((48 <=? d) && (d <=? 57)) with true by (symmetry; apply andb_true_iff; lia).
    now apply IH.
  Qed.

  Lemma digits_value_high : forall w a, Exists (fun b => 128 <= b) w -> digits_value a w = None.
  Proof.
    intros w a H. revert a. induction H as [b w B|b w H IH]; intros a; cbn [digits_value].
    - unfold is_ascii_digit. now replace ((48 <=? b) && (b <=? 57)) with false by (symmetry; apply andb_false_iff; lia).
    - destruct (is_ascii_digit b); [apply IH|reflexivity].
  Qed.

  Lemma is_digit_cases r : is_digit U r = true -> 48 <= r <= 57 \/ 128 <= r.
  Proof.
    unfold is_digit. destruct (r <? 128) eqn:E; [|lia]. unfold ascii_digit. intros H. apply andb_true_iff in H. lia.
  Qed.

  Lemma digit_low d : 48 <= d <= 57 -> is_digit U d = true.
  Proof.
    intros H. unfold is_digit, ascii_digit. replace (d <? 128) with true by (symmetry; apply Z.ltb_lt; lia).
    apply andb_true_iff. lia.
  Qed.

  Lemma encode_digits w : Forall (fun d => 48 <= d <= 57) w -> encode_all w = w.
  Proof. intros H. apply encode_ascii. eapply Forall_impl; [|exact H]. cbn. lia. Qed.

  Lemma decimal_nonneg : forall w a, 0 <= a -> Forall (fun d => 48 <= d <= 57) w ->
    0 <= fold_left (fun n d => 10 * n + (d - 48)) w a.
  Proof.
    induction w as [|d w IH]; intros a A H; [exact A|]. apply Forall_cons_iff in H as [D H]. cbn [fold_left].
    apply IH; [lia|exact H].
  Qed.

  Lemma atoi_digits w : Forall (fun d => 48 <= d <= 57) w ->
    atoi (text w) = if decimal w <? 2 ^ 63 then AtoiOk (decimal w) else AtoiRange.
  Proof.
    intros H. unfold atoi. rewrite bytes_text, encode_digits, digits_value_dec by exact H. fold (decimal w).
    unfold max_int. destruct (decimal w <? 2 ^ 63) eqn:E; [apply Z.ltb_lt in E|apply Z.ltb_ge in E].
    - replace (decimal w <=? _) with true; [reflexivity|symmetry; apply Z.leb_le; lia].
    - replace (decimal w <=? _) with false; [reflexivity|symmetry; apply Z.leb_gt; lia].
  Qed.

  Lemma encode_high r : 128 <= r -> Exists (fun b => 128 <= b) (encode_rune r).
  Proof.
    intros H. destruct (encode_last r) as (l & b & -> & [[-> B]|[B _]]); [lia|].
    apply Exists_exists. exists b. split; [apply in_or_app; right; now left|lia].
  Qed.

  Lemma atoi_high w : Exists (fun d => 128 <= d) w -> atoi (text w) = AtoiSyntax.
  Proof.
    intros H. unfold atoi. rewrite bytes_text, digits_value_high; [reflexivity|].
    induction H as [d w D|d w H IH]; unfold encode_all in *; cbn [flat_map]; apply Exists_app; [left|right]; auto.
    now apply encode_high.
  Qed.

  Lemma digits_split w : forallb (is_digit U) w = true ->
    Forall (fun d => 48 <= d <= 57) w \/ Exists (fun d => 128 <= d) w.
  Proof.
    induction w as [|d w IH]; cbn [forallb]; [auto|]. intros H. apply andb_true_iff in H as [D H].
    destruct (is_digit_cases _ D) as [E|E]; [|right; now constructor].
    destruct (IH H) as [Q|Q]; [left; now constructor|right; now constructor 2].
  Qed.

  (** ** The text of a token *)

  Lemma skip_suffix m : forall rs, exists g, rs = g ++ fst (skip m rs).
  Proof.
    intros rs. revert m. induction rs as [|r rs IH]; intros m; [exists []; now destruct m|].
    assert (G : forall m', exists g, r :: rs = g ++ fst (skip m' rs)).
    { intros m'. destruct (IH m') as (g & E). exists (r :: g). cbn [app]. now rewrite <- E. }
    destruct m as [|hy|d sl sr]; cbn [skip].
    - repeat match goal with |- context [if ?b then _ else _] => destruct b; [cbn [fst]; apply G|] end. exists []. reflexivity.
    - repeat match goal with |- context [if ?b then _ else _] => destruct b; try (cbn [fst]; apply G) end.
    - repeat match goal with |- context [if ?b then _ else _] => destruct b; try (cbn [fst]; apply G) 
         | |- context [match ?b with O => _ | S _ => _ end] => destruct b; try (cbn [fst]; apply G) end.
  Qed.

  Lemma assoc_none s l : assoc_word s l = None -> ~ In s (map fst l).
  Proof.
    induction l as [|[k v] l IH]; [intros _ []|]. cbn [assoc_word map fst]. destruct (String.eqb_spec s k) as [->|N]; [discriminate|].
    intros H [E|E]; [congruence|]. now apply IH.
  Qed.

  Lemma letter_high_or r : is_letter U r = true -> r <> ch "-".
  Proof. intros H ->. discriminate H. Qed.

  Lemma symbol_code_lexeme r code : symbol_code r = Some code -> r <> 32 -> lexeme U [r] (plain_token code).
  Proof.
    intros H N.
    destruct (Z_lt_dec r 0) as [L|L]; [|destruct (Z_lt_dec r 128) as [L2|L2]].
    - exfalso. revert H. unfold symbol_code. replace (text [r]) with (string_of_bytes [239; 191; 189]); [discriminate|].
      unfold text, encode_all. cbn [flat_map]. unfold encode_rune.
      replace ((0 <=? r) && (r <? 128)) with false by (symmetry; apply andb_false_iff; lia).
      replace ((0 <=? r) && (r <? 2048)) with false by (symmetry; apply andb_false_iff; lia).
      replace (r <? 0) with true by (symmetry; apply Z.ltb_lt; lia). reflexivity.
    - assert (C : forallb (fun r => match symbol_code r with
        | Some c => (r =? 32) || existsb (fun p => (String.eqb (text [r]) (fst p)) && (snd p =? c)) symbols
        | None => true end) (map Z.of_nat (seq 0 128)) = true) by (vm_compute; reflexivity).
      rewrite forallb_forall in C. specialize (C r). rewrite H in C.
      assert (I : In r (map Z.of_nat (seq 0 128))).
      { apply in_map_iff. exists (Z.to_nat r). split; [lia|]. apply in_seq. lia. }
      apply C in I. clear C. apply orb_true_iff in I as [I|I]; [apply Z.eqb_eq in I; congruence|].
      apply existsb_exists in I as ([s c] & I1 & I2). cbn [fst snd] in I2. apply andb_true_iff in I2 as [E1 E2].
      apply String.eqb_eq in E1. apply Z.eqb_eq in E2. subst c.
      replace [r] with (bytes_of_string s); [now apply lexeme_symbol|]. rewrite <- E1, bytes_text. unfold encode_all. cbn [flat_map].
      unfold encode_rune. replace ((0 <=? r) && (r <? 128)) with true by (symmetry; apply andb_true_iff; lia). reflexivity.
    - exfalso. revert H. unfold symbol_code. rewrite text_one. destruct (rune_high r ltac:(lia)) as (c & s & -> & B).
      cbn [assoc_word]. repeat match goal with |- context [String.eqb (String c s) ?k] =>
        replace (String.eqb (String c s) k) with false by
          (symmetry; apply String.eqb_neq; intros E; injection E as -> _; vm_compute in B; congruence) end.
      discriminate.
  Qed.

  Lemma starts_inv p rs : starts p rs = true -> rs = p ++ skipn (length p) rs.
  Proof.
    revert rs. induction p as [|a p IH]; intros rs; [reflexivity|]. destruct rs as [|b rs]; [discriminate|].
    cbn [starts length skipn app]. intros H. apply andb_true_iff in H as [E H]. apply Z.eqb_eq in E. subst b. f_equal. now apply IH.
  Qed.

  Lemma reserved_not_number s : ~ In (s, T_NUMBER) RESERVED_WORDS.
  Proof.
    intros H. assert (C : forallb (fun p => negb (snd p =? T_NUMBER)) RESERVED_WORDS = true) by (vm_compute; reflexivity).
    rewrite forallb_forall in C. apply C in H. discriminate H.
  Qed.

  Lemma symbols_not_number s : ~ In (s, T_NUMBER) symbols.
  Proof.
    intros H. assert (C : forallb (fun p => negb (snd p =? T_NUMBER)) symbols = true) by (vm_compute; reflexivity).
    rewrite forallb_forall in C. apply C in H. discriminate H.
  Qed.

  Lemma reserved_not_name s code : In (s, code) RESERVED_WORDS -> ~ (code = T_TYPEORMODULEREFERENCE \/ code = T_VALUEIDENTIFIER).
  Proof.
    intros H. assert (C : forallb (fun p => negb (snd p =? T_TYPEORMODULEREFERENCE) && negb (snd p =? T_VALUEIDENTIFIER)) RESERVED_WORDS = true) by (vm_compute; reflexivity).
    rewrite forallb_forall in C. apply C in H. cbn [snd] in H. intros [-> | ->]; discriminate H.
  Qed.

  Lemma symbols_not_name s code : In (s, code) symbols -> ~ (code = T_TYPEORMODULEREFERENCE \/ code = T_VALUEIDENTIFIER).
  Proof.
    intros H. assert (C : forallb (fun p => negb (snd p =? T_TYPEORMODULEREFERENCE) && negb (snd p =? T_VALUEIDENTIFIER)) symbols = true) by (vm_compute; reflexivity).
    rewrite forallb_forall in C. apply C in H. cbn [snd] in H. intros [-> | ->]; discriminate H.
  Qed.

  Lemma token_lexeme f r rs t n' q : r <> 32 -> token_at U f r rs = Tok t n' q ->
    exists w, r :: rs = w ++ q /\ w <> [] /\ lexeme U w t /\ (n' = true <-> tk_kind t = T_NUMBER).
  Proof.
    intros N. unfold token_at. destruct (is_letter U r) eqn:L.
    { destruct (f && _) eqn:E.
      - intros H. injection H as <- <- <-. exists [r]. split; [reflexivity|]. split; [discriminate|]. split; [|now split].
        apply lexeme_exponent. apply andb_true_iff in E as [_ E]. apply orb_true_iff in E as [E|E]; apply Z.eqb_eq in E; auto.
      - destruct (word_scan U [r] r rs) as [[m|w] z] eqn:W; [discriminate|]. intros H. injection H as <- <- <-.
        destruct (word_scan_inv _ _ _ _ _ W) as (p & -> & -> & P & Q & S1). exists (r :: p).
        split; [reflexivity|]. split; [discriminate|].
        assert (WD : word U (r :: p) = true) by (cbn [word]; now rewrite L, P, Q).
        change ([r] ++ p) with (r :: p). unfold word_token. destruct (is_upper U r) eqn:UP.
        + destruct (assoc_word (text (r :: p)) RESERVED_WORDS) as [code|] eqn:A.
          * split; [apply lexeme_keyword; auto; exact (assoc_word_In _ _ _ A)|]. apply assoc_word_In in A.
            split; [discriminate|]. cbn [plain_token tk_kind]. intros ->. exact (False_ind _ (reserved_not_number _ A)).
          * split; [apply lexeme_reference; auto; now apply assoc_none|]. split; discriminate.
        + split; [now apply lexeme_identifier|]. split; discriminate. }
    destruct (is_digit U r) eqn:D.
    { destruct (digits_scan U [r] rs) as [w z] eqn:W. destruct (digits_scan_inv _ _ _ _ W) as (p & -> & -> & P & S1).
      assert (DW : forallb (is_digit U) (r :: p) = true) by (cbn [forallb]; now rewrite D, P).
      change ([r] ++ p) with (r :: p). destruct (digits_split _ DW) as [F|F].
      - rewrite atoi_digits by exact F. destruct (decimal (r :: p) <? 2 ^ 63) eqn:LT; [|discriminate].
        intros H. injection H as <- <- <-. exists (r :: p). split; [reflexivity|]. split; [discriminate|].
        split; [|now split]. apply lexeme_number; [discriminate|exact F|now apply Z.ltb_lt].
      - rewrite atoi_high by exact F. discriminate. }
    assert (K : forall c p code, r = c -> starts p rs = true ->
      lexeme U (c :: p) (plain_token code) -> code <> T_NUMBER ->
      forall n'', n'' = false -> exists w, r :: rs = w ++ skipn (length p) rs /\ w <> [] /\ lexeme U w (plain_token code) /\ (n'' = true <-> code = T_NUMBER)).
    { intros c p code -> E X NN n'' ->. exists (c :: p). split; [cbn [app]; f_equal; now apply starts_inv|]. split; [discriminate|].
      split; [exact X|]. split; [discriminate|congruence]. }
    destruct ((r =? ch ":") && starts [ch ":"; ch "="] rs) eqn:E1.
    { intros H. assert (A1 : t = plain_token T_ASSIGNMENT) by congruence. assert (A2 : n' = false) by congruence.
      assert (A3 : q = skipn 2 rs) by congruence. subst. apply andb_true_iff in E1 as [E1 E2]. apply Z.eqb_eq in E1.
      apply (K _ _ _ E1 E2); auto; [|discriminate]. apply (lexeme_symbol U "::="). cbn; tauto. }
    destruct ((r =? ch ".") && starts [ch "."; ch "."] rs) eqn:E2.
    { intros H. assert (A1 : t = plain_token T_ELLIPSIS) by congruence. assert (A2 : n' = false) by congruence.
      assert (A3 : q = skipn 2 rs) by congruence. subst. apply andb_true_iff in E2 as [E2 E3]. apply Z.eqb_eq in E2.
      apply (K _ _ _ E2 E3); auto; [|discriminate]. apply (lexeme_symbol U "..."). cbn; tauto. }
    destruct ((r =? ch ".") && starts [ch "."] rs) eqn:E3.
    { intros H. assert (A1 : t = plain_token T_RANGE_SEPARATOR) by congruence. assert (A2 : n' = false) by congruence.
      assert (A3 : q = skipn 1 rs) by congruence. subst. apply andb_true_iff in E3 as [E3 E4]. apply Z.eqb_eq in E3.
      apply (K _ _ _ E3 E4); auto; [|discriminate]. apply (lexeme_symbol U ".."). cbn; tauto. }
    destruct ((r =? ch "[") && starts [ch "["] rs) eqn:E4.
    { intros H. assert (A1 : t = plain_token T_LEFT_VERSION_BRACKETS) by congruence. assert (A2 : n' = false) by congruence.
      assert (A3 : q = skipn 1 rs) by congruence. subst. apply andb_true_iff in E4 as [E4 E5]. apply Z.eqb_eq in E4.
      apply (K _ _ _ E4 E5); auto; [|discriminate]. apply (lexeme_symbol U "[["). cbn; tauto. }
    destruct ((r =? ch "]") && starts [ch "]"] rs) eqn:E5.
    { intros H. assert (A1 : t = plain_token T_RIGHT_VERSION_BRACKETS) by congruence. assert (A2 : n' = false) by congruence.
      assert (A3 : q = skipn 1 rs) by congruence. subst. apply andb_true_iff in E5 as [E5 E6]. apply Z.eqb_eq in E5.
      apply (K _ _ _ E5 E6); auto; [|discriminate]. apply (lexeme_symbol U "]]"). cbn; tauto. }
    destruct (symbol_code r) as [c|] eqn:SC; [|discriminate]. intros H. injection H as <- <- <-.
    exists [r]. split; [reflexivity|]. split; [discriminate|]. split; [now apply symbol_code_lexeme|].
    split; [discriminate|]. cbn [plain_token tk_kind]. intros ->. exfalso.
    unfold symbol_code in SC. apply assoc_word_In in SC.
    match type of SC with In (_, _) ?l =>
      assert (C : forallb (fun p => negb (snd p =? T_NUMBER)) l = true) by (vm_compute; reflexivity) end.
    rewrite forallb_forall in C. apply C in SC. discriminate SC.
  Qed.

  Lemma skip_not_space rs r q s : skip Plain rs = (r :: q, s) -> isWhitespace r = false.
  Proof.
    assert (G : forall rs m r q, fst (skip m rs) = r :: q -> isWhitespace r = false).
    { clear. induction rs as [|a rs IH]; intros m r q; [destruct m; discriminate|].
      destruct m as [|hy|d sl sr]; cbn [skip].
      - destruct (isWhitespace a) eqn:W; [apply IH|].
        repeat match goal with |- context [if ?b then _ else _] => destruct b; [cbn [fst]; apply IH|] end.
        cbn [fst]. intros H. injection H as <- _. exact W.
      - repeat match goal with |- context [if ?b then _ else _] => destruct b; try (cbn [fst]; apply IH) end.
      - repeat match goal with |- context [if ?b then _ else _] => destruct b; try (cbn [fst]; apply IH)
          | |- context [match ?b with O => _ | S _ => _ end] => destruct b; try (cbn [fst]; apply IH) end. }
    intros H. apply (G rs Plain r q). exact (f_equal fst H).
  Qed.

  Theorem next_lexeme n rs t n' q : next U n rs = Tok t n' q ->
    exists g w, rs = g ++ w ++ q /\ fst (skip Plain rs) = w ++ q /\ w <> [] /\ lexeme U w t /\
      (n' = true <-> tk_kind t = T_NUMBER).
  Proof.
    unfold next. destruct (skip Plain rs) as [[|r z] s] eqn:E; [discriminate|]. intros H.
    pose proof (skip_not_space _ _ _ _ E) as W.
    assert (N : r <> 32) by (intros ->; discriminate W).
    destruct (token_lexeme _ _ _ _ _ _ N H) as (w & E1 & E2 & E3 & E4).
    destruct (skip_suffix Plain rs) as (g & G). rewrite E in G. cbn [fst] in G. exists g, w.
    rewrite <- E1. auto.
  Qed.
End Words.
