(** goifyName on names spelled in ASCII. *)
From Coq Require Import ZArith String Ascii List Bool Lia.
From Verif Require Import GoBase Utf8 Unicode Tokens Ast GoAst Codegen CodegenSpec CodegenFacts.
Import ListNotations.
Local Open Scope string_scope.
Local Open Scope Z_scope.

Lemma ascii_of_byte_of : forall c, ascii_of_byte (byte_of_ascii c) = c.
Proof. intro c. unfold ascii_of_byte, byte_of_ascii. rewrite N2Z.id. apply ascii_N_embedding. Qed.

Lemma byte_range : forall c, 0 <= byte_of_ascii c < 256.
Proof.
  intro c. unfold byte_of_ascii. pose proof (N_ascii_bounded c). lia.
Qed.

Lemma string_bytes : forall s, string_of_bytes (bytes_of_string s) = s.
Proof. induction s as [|c s IH]; [reflexivity|]. cbn. now rewrite ascii_of_byte_of, IH. Qed.

Lemma decode_ascii : forall n l, (length l <= n)%nat -> Forall (fun b => b < 128) l -> map fst (decode_fuel n l) = l.
Proof.
  induction n as [|n IH]; intros l Hl Hf; destruct l as [|b l]; try reflexivity; [cbn in Hl; lia|].
  inv Hf. cbn [decode_fuel decode_rune]. unfold rune_self.
  destruct (Z.ltb_spec b 128) as [_|]; [|lia]. cbn [skipn map fst]. f_equal. apply IH; [cbn in Hl; lia|assumption].
Qed.

Lemma encode_ascii : forall l, Forall (fun b => 0 <= b < 128) l -> encode_all l = l.
Proof.
  induction 1 as [|b l Hb Hl IH]; [reflexivity|]. unfold encode_all in *. cbn [flat_map]. rewrite IH.
  unfold encode_rune. destruct (Z.leb_spec 0 b); [|lia]. destruct (Z.ltb_spec b 128); [|lia]. reflexivity.
Qed.

Definition word_byte (b : Z) : Prop := ascii_digit b = true \/ ascii_lower b = true \/ ascii_upper b = true \/ b = 95.

Lemma word_byte_range : forall b, word_byte b -> 0 <= b < 128.
Proof.
  intros b H. unfold word_byte, ascii_digit, ascii_lower, ascii_upper in H.
  rewrite !andb_true_iff, !Z.leb_le in H. lia.
Qed.

Lemma not_separator : forall U b, word_byte b -> isSeparator U b = false.
Proof.
  intros U b H. pose proof (word_byte_range b H). unfold isSeparator.
  destruct (Z.ltb_spec b 128); [|lia]. apply negb_false_iff.
  destruct H as [->|[->|[->| ->]]]; rewrite ?orb_true_r; reflexivity.
Qed.

Lemma title_same : forall U l p, Forall word_byte l -> word_byte p -> title_runes U p l = l.
Proof.
  intros U l. induction l as [|b l IH]; intros p Hl Hp; [reflexivity|]. inv Hl.
  cbn [title_runes]. rewrite not_separator by assumption. f_equal. now apply IH.
Qed.

Definition up (c : ascii) : ascii :=
  if ascii_lower (byte_of_ascii c) then ascii_of_byte (byte_of_ascii c - 32) else c.

Lemma letter_byte : forall c, ascii_letter c = true -> word_byte (byte_of_ascii c).
Proof.
  intros c H. unfold ascii_letter in H. apply orb_prop in H. unfold word_byte. tauto.
Qed.

Lemma hyphen_word : forall s, all_chars ascii_name_char s = true -> Forall word_byte (bytes_of_string (replace_hyphen s)).
Proof.
  induction s as [|c s IH]; intro H; [constructor|]. cbn in H. apply andb_prop in H as [Hc Hs].
  cbn. constructor; [|now apply IH].
  destruct (Ascii.eqb_spec c "-") as [->|Hn].
  - right; right; right. reflexivity.
  - unfold ascii_name_char in Hc. apply orb_prop in Hc as [Hc|Hc].
    + apply orb_prop in Hc as [Hc|Hc]; [now apply letter_byte|now left].
    + apply Ascii.eqb_eq in Hc. contradiction.
Qed.

Lemma letter_not_hyphen : forall c, ascii_letter c = true -> Ascii.eqb c "-" = false.
Proof. intros c H. destruct (Ascii.eqb_spec c "-") as [->|]; [discriminate|reflexivity]. Qed.

Lemma goify_ascii : forall U c s, ascii_letter c = true -> all_chars ascii_name_char s = true ->
  goifyName U (String c s) = String (up c) (replace_hyphen s).
Proof.
  intros U c s Hc Hs. unfold goifyName, str_title. cbn [replace_hyphen].
  rewrite letter_not_hyphen by assumption. cbn [bytes_of_string].
  pose proof (hyphen_word s Hs) as Hw. pose proof (letter_byte c Hc) as Hb.
  set (b := byte_of_ascii c) in *. set (l := bytes_of_string (replace_hyphen s)) in *.
  unfold decode_all. rewrite decode_ascii; [|lia|].
  2:{ constructor; [apply word_byte_range in Hb; lia|]. eapply Forall_impl; [|exact Hw].
      intros x Hx. apply word_byte_range in Hx. lia. }
  cbn [title_runes]. replace (isSeparator U 32) with true by reflexivity.
  rewrite title_same by assumption.
  assert (Ht : byte_of_ascii (up c) = to_title U b).
  { unfold up, to_title. fold b. pose proof (word_byte_range b Hb).
    destruct (Z.ltb_spec b 128); [|lia]. destruct (ascii_lower b) eqn:El; [|reflexivity].
    unfold ascii_lower in El. apply andb_prop in El as [E1 E2]. apply Z.leb_le in E1. apply Z.leb_le in E2.
    unfold byte_of_ascii, ascii_of_byte. rewrite N_ascii_embedding by lia. lia. }
  assert (Hr : 0 <= to_title U b < 128).
  { pose proof (word_byte_range b Hb). unfold to_title. destruct (Z.ltb_spec b 128); [|lia].
    destruct (ascii_lower b) eqn:El; [|lia]. unfold ascii_lower in El. apply andb_prop in El as [E1 E2].
    apply Z.leb_le in E1. lia. }
  rewrite encode_ascii.
  2:{ constructor; [assumption|]. eapply Forall_impl; [|exact Hw]. intros x Hx. now apply word_byte_range. }
  cbn [string_of_bytes]. rewrite <- Ht, ascii_of_byte_of. f_equal. apply string_bytes.
Qed.

Lemma up_upper : forall c, ascii_letter c = true -> ascii_upper (byte_of_ascii (up c)) = true.
Proof.
  intros c H. unfold up. destruct (ascii_lower (byte_of_ascii c)) eqn:El.
  - unfold ascii_lower in El. apply andb_prop in El as [E1 E2]. apply Z.leb_le in E1. apply Z.leb_le in E2.
    unfold byte_of_ascii at 1, ascii_of_byte. rewrite N_ascii_embedding by lia.
    unfold ascii_upper. apply andb_true_intro. split; apply Z.leb_le; lia.
  - unfold ascii_letter in H. rewrite El, orb_false_r in H. exact H.
Qed.

Lemma up_id : forall c, ascii_upper (byte_of_ascii c) = true -> up c = c.
Proof.
  intros c H. unfold up. destruct (ascii_lower (byte_of_ascii c)) eqn:El; [|reflexivity].
  unfold ascii_lower, ascii_upper in *. apply andb_prop in El as [E1 E2]. apply andb_prop in H as [H1 H2].
  apply Z.leb_le in E1. apply Z.leb_le in H2. lia.
Qed.

Lemma up_inj_lower : forall c d, ascii_lower (byte_of_ascii c) = true -> ascii_lower (byte_of_ascii d) = true ->
  up c = up d -> c = d.
Proof.
  intros c d Hc Hd H. unfold up in H. rewrite Hc, Hd in H.
  apply (f_equal byte_of_ascii) in H. unfold ascii_lower in *.
  apply andb_prop in Hc as [C1 C2]. apply andb_prop in Hd as [D1 D2].
  apply Z.leb_le in C1, C2, D1, D2.
  unfold byte_of_ascii at 1, ascii_of_byte at 1 in H. rewrite N_ascii_embedding in H by lia.
  unfold byte_of_ascii at 2, ascii_of_byte in H. rewrite N_ascii_embedding in H by lia.
  rewrite <- (ascii_of_byte_of c), <- (ascii_of_byte_of d). f_equal. lia.
Qed.

Lemma hyphen_inj : forall a b, all_chars ascii_name_char a = true -> all_chars ascii_name_char b = true ->
  replace_hyphen a = replace_hyphen b -> a = b.
Proof.
  induction a as [|c a IH]; intros [|d b] Ha Hb H; try discriminate; [reflexivity|].
  cbn in Ha, Hb. apply andb_prop in Ha as [Hc Ha]. apply andb_prop in Hb as [Hd Hb].
  cbn in H. injection H as H1 H2. f_equal; [|now apply IH].
  destruct (Ascii.eqb_spec c "-") as [->|Hn], (Ascii.eqb_spec d "-") as [->|Hm]; try reflexivity; try assumption;
    subst; discriminate.
Qed.

Lemma goify_exported : forall U s, ascii_name s -> exported_identifier (goifyName U s).
Proof.
  intros U [|c s]; [intros []|]. intros [Hc Hs]. rewrite goify_ascii by assumption. cbn.
  split; [now apply up_upper|]. revert Hs. clear. induction s as [|c s IH]; intro H; [reflexivity|].
  cbn in *. apply andb_prop in H as [Hc Hs]. rewrite IH by assumption. rewrite andb_true_r.
  unfold ascii_name_char in Hc. destruct (Ascii.eqb_spec c "-") as [->|Hn]; [reflexivity|].
  rewrite orb_false_r in Hc. now rewrite Hc.
Qed.

Lemma goify_inj_value : forall U a b, ascii_value_name a -> ascii_value_name b ->
  goifyName U a = goifyName U b -> a = b.
Proof.
  intros U [|c a] [|d b] [Ha Hla] [Hb Hlb] H; try contradiction. destruct Ha as [Hc Ha], Hb as [Hd Hb].
  rewrite !goify_ascii in H by assumption. injection H as H1 H2.
  f_equal; [now apply up_inj_lower|now apply hyphen_inj].
Qed.

Lemma goify_inj_type : forall U a b, ascii_type_name a -> ascii_type_name b ->
  goifyName U a = goifyName U b -> a = b.
Proof.
  intros U [|c a] [|d b] [Ha Hla] [Hb Hlb] H; try contradiction. destruct Ha as [Hc Ha], Hb as [Hd Hb].
  rewrite !goify_ascii in H by assumption. injection H as H1 H2.
  rewrite !up_id in H1 by assumption. f_equal; [assumption|now apply hyphen_inj].
Qed.

(** A type name is only changed in its hyphens. *)
Lemma goify_type_name : forall U s, ascii_type_name s -> goifyName U s = replace_hyphen s.
Proof.
  intros U [|c s] [H Hu]; [contradiction|]. destruct H as [Hc Hs]. rewrite goify_ascii by assumption.
  cbn. rewrite letter_not_hyphen by assumption. now rewrite up_id.
Qed.
