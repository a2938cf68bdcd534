(** Properties C10-C17 and C48: the lexer.  The vocabulary ([call], [reads],
    [reads_all], [unread]; [layout], [line_end], [block_end]; [word], [digits],
    [decimal], [lexeme]; [parses], [same_result], [visited]) is in the first
    sections of [LexRuns.v], [LexFacts.v], [LexWords.v] and [ParserRuns.v]. *)
From Coq Require Import ZArith String Ascii Bool List Lia.
From Verif Require Import GoBase Utf8 Unicode Reader Stream Tokens Tables Reserved Ast Lexer Grammar Driver Parser
  LexErr LexTotal LexSpec LexEq LexRuns LexFacts LexWords LexProps Utf8Facts DriverSound ParserFacts ParserRuns.
Import ListNotations.
Local Open Scope string_scope.
Local Open Scope list_scope.
Local Open Scope Z_scope.

(** * C10: tokens do not depend on layout *)

(** False in general: two hyphens that start a comment right behind a word are
    taken for part of the word. *)
Theorem C10_layout_refuted : exists s1 s2 a g1 g2 b ts v x,
  runes (bytes_of_string s1) = a ++ g1 ++ b /\ runes (bytes_of_string s2) = a ++ g2 ++ b /\
  layout g1 /\ g1 <> [] /\ layout g2 /\ g2 <> [] /\
  reads ascii_tables s1 ts v x /\ unread x = g1 ++ b /\
  (exists us, reads_all ascii_tables s1 us) /\ ~ exists us, reads_all ascii_tables s2 us.
Proof.
  assert (Lx : lexes ascii_tables false (runes (bytes_of_string "A B"))
    [{| tk_kind := T_TYPEORMODULEREFERENCE; tk_name := "A"; tk_number := 0 |}] false (bytes_of_string " B")).
  { econstructor; [vm_compute; reflexivity|constructor]. }
  destruct (lexes_reads _ _ _ _ _ Lx) as (v & x & R & S1).
  exists "A B", "A--c--B", (bytes_of_string "A"), (bytes_of_string " "), (bytes_of_string "--c--"), (bytes_of_string "B").
  eexists _, v, x. split; [vm_compute; reflexivity|]. split; [vm_compute; reflexivity|].
  split; [apply (layout_space 32 []); [reflexivity|constructor]|]. split; [discriminate|].
  split; [apply (layout_line (bytes_of_string "c--") []); [reflexivity|discriminate|constructor]|]. split; [discriminate|].
  split; [exact R|]. split; [exact (st_unread _ _ _ _ _ S1)|]. split.
  - eexists. apply reads_all_tokens. econstructor; [vm_compute; reflexivity|]. econstructor; [vm_compute; reflexivity|].
    constructor. vm_compute. reflexivity.
  - intros (us & T). apply reads_all_tokens in T.
    assert (N : next ascii_tables false (runes (bytes_of_string "A--c--B"))
      = Bad "token can not contain two hyphens in a row, got A--" (bytes_of_string "c--B")) by (vm_compute; reflexivity).
    inversion T; congruence.
Qed.
Print Assumptions C10_layout_refuted.

(** True when neither layout starts with two hyphens: the text then consists of the
    same tokens, and the parser gives the same result (apart from line numbers in an
    error).  [reads ... x] and [unread x = g1 ++ b] say that [g1] is where a token
    has ended. *)
Theorem C10_layout_partial : forall U s1 s2 a g1 g2 b us v x,
  runes (bytes_of_string s1) = a ++ g1 ++ b ->
  runes (bytes_of_string s2) = a ++ g2 ++ b ->
  layout g1 -> g1 <> [] -> firstn 2 g1 <> [ch "-"; ch "-"] ->
  layout g2 -> g2 <> [] -> firstn 2 g2 <> [ch "-"; ch "-"] ->
  reads U s1 us v x -> unread x = g1 ++ b ->
  (forall ts, reads_all U s1 ts <-> reads_all U s2 ts) /\
  (forall ts r, reads_all U s1 ts -> parses U s1 r -> exists r', parses U s2 r' /\ same_result r r').
Proof.
  intros U s1 s2 a g1 g2 b us v x E1 E2 L1 N1 H1 L2 N2 H2 R X.
  assert (SP : forall g b, layout g -> g <> [] -> firstn 2 g <> [ch "-"; ch "-"] -> blank U (g ++ b)).
  { clear. intros g b L N H. apply sep_blank. inversion L; subst.
    - congruence.
    - cbn. now left.
    - exfalso. apply H. reflexivity.
    - cbn. right. split; reflexivity. }
  assert (T : forall ts, reads_all U s1 ts <-> reads_all U s2 ts).
  { assert (LX : forall s s' a g g' b n, runes (bytes_of_string s) = a ++ g ++ b -> runes (bytes_of_string s') = a ++ g' ++ b ->
      layout g -> g <> [] -> layout g' -> g' <> [] -> lexes U false (runes (bytes_of_string s)) us n (g ++ b) ->
      lexes U false (runes (bytes_of_string s')) us n (g' ++ b) ->
      forall ts, reads_all U s ts -> reads_all U s' ts).
    { clear. intros s s' a g g' b n E E' L N L' N' X X' ts T. apply reads_all_tokens. apply reads_all_tokens in T.
      revert T X'. generalize (runes (bytes_of_string s')) as rs'. clear E E' a. revert ts.
      remember (g ++ b) as q eqn:Q in X. induction X as [m rs|m rs t m' r1 ts0 m2 rest NX X IH]; intros ts rs' T X'.
      - inversion X'; subst. inversion T as [? ? E|? ? t m' rest ts' E T']; subst.
        + constructor. rewrite next_layout in * by assumption. exact E.
        + econstructor; [|exact T']. rewrite next_layout in * by assumption. exact E.
      - inversion X' as [|? ? ? m1 r1' ? ? ? NX' X'']; subst. inversion T as [|? ? ? ? ? us' E T']; subst; [congruence|].
        rewrite NX in E. injection E as <- <- <-. econstructor; [exact NX'|].
        assert (m1 = m').
        { destruct (next_lexeme U _ _ _ _ _ NX) as (_ & _ & _ & _ & _ & _ & K1).
          destruct (next_lexeme U _ _ _ _ _ NX') as (_ & _ & _ & _ & _ & _ & K2).
          destruct m1, m'; intuition congruence. }
        subst m1. exact (IH eq_refl _ _ T' X''). }
    destruct (reads_st U _ _ _ _ R) as (n & Lx & _). rewrite X in Lx.
    assert (Lx' : lexes U false (runes (bytes_of_string s2)) us n (g2 ++ b)).
    { rewrite E2. eapply lexes_local; [exact Lx|now apply SP|exact E1|now apply SP]. }
    intros ts. split.
    - exact (LX _ _ _ _ _ _ _ E1 E2 L1 N1 L2 N2 Lx Lx' ts).
    - exact (LX _ _ _ _ _ _ _ E2 E1 L2 N2 L1 N1 Lx' Lx ts). }
  split; [exact T|]. intros ts r A P. eapply same_tokens; [exact A|now apply T|exact P].
Qed.
Print Assumptions C10_layout_partial.

Example C10_example :
  let s1 := "M DEFINITIONS ::= BEGIN A ::= INTEGER END" in
  let s2 := "M DEFINITIONS ::= BEGIN A ::=/* any **/ -- layout
 INTEGER END" in
  let g1 := bytes_of_string " " in
  let g2 := bytes_of_string "/* any **/ -- layout
 " in
  let b := bytes_of_string "INTEGER END" in
  layout g1 /\ layout g2 /\ firstn 2 g2 <> [ch "-"; ch "-"] /\
  runes (bytes_of_string s2) = bytes_of_string "M DEFINITIONS ::= BEGIN A ::=" ++ g2 ++ b /\
  (exists us v x, reads ascii_tables s1 us v x /\ unread x = g1 ++ b) /\
  (exists m, ParseString ascii_tables 1000 s1 = Ok (ParseOk (Some m)) /\ ParseString ascii_tables 1000 s2 = Ok (ParseOk (Some m))).
Proof.
  cbv zeta. split; [apply (layout_space 32 []); [reflexivity|constructor]|].
  split.
  { apply (layout_block (bytes_of_string " any **/")); [reflexivity|discriminate|].
    apply layout_space; [reflexivity|]. apply (layout_line (bytes_of_string " layout
")); [reflexivity|discriminate|]. apply layout_space; [reflexivity|constructor]. }
  split; [discriminate|]. split; [vm_compute; reflexivity|]. split.
  - assert (Lx : exists ts n, lexes ascii_tables false (runes (bytes_of_string "M DEFINITIONS ::= BEGIN A ::= INTEGER END")) ts n
      (bytes_of_string " INTEGER END")).
    { eexists _, _. do 6 (econstructor; [vm_compute; reflexivity|]). constructor. }
    destruct Lx as (ts & n & Lx). destruct (lexes_reads _ _ _ _ _ Lx) as (v & x & R & S1).
    exists ts, v, x. split; [exact R|exact (st_unread _ _ _ _ _ S1)].
  - eexists. split; vm_compute; reflexivity.
Qed.

(** * C11: reserved words *)

(** X.680 11.27, and the words ANY and DEFINED of the former X.208. *)
Definition reserved : list string :=
  ["ABSENT"; "ABSTRACT-SYNTAX"; "ALL"; "ANY"; "APPLICATION"; "AUTOMATIC"; "BEGIN"; "BIT"; "BMPString"; "BOOLEAN"; "BY";
   "CHARACTER"; "CHOICE"; "CLASS"; "COMPONENT"; "COMPONENTS"; "CONSTRAINED"; "CONTAINING"; "DEFAULT"; "DEFINED";
   "DEFINITIONS"; "EMBEDDED"; "ENCODED"; "END"; "ENUMERATED"; "EXCEPT"; "EXPLICIT"; "EXPORTS"; "EXTENSIBILITY";
   "EXTERNAL"; "FALSE"; "FROM"; "GeneralString"; "GeneralizedTime"; "GraphicString"; "IA5String"; "IDENTIFIER";
   "IMPLICIT"; "IMPLIED"; "IMPORTS"; "INCLUDES"; "INSTANCE"; "INTEGER"; "INTERSECTION"; "ISO646String"; "MAX"; "MIN";
   "MINUS-INFINITY"; "NULL"; "NumericString"; "OBJECT"; "OCTET"; "OF"; "OPTIONAL"; "ObjectDescriptor"; "PATTERN";
   "PDV"; "PLUS-INFINITY"; "PRESENT"; "PRIVATE"; "PrintableString"; "REAL"; "RELATIVE-OID"; "SEQUENCE"; "SET"; "SIZE";
   "STRING"; "SYNTAX"; "T61String"; "TAGS"; "TRUE"; "TYPE-IDENTIFIER"; "TeletexString"; "UNION"; "UNIQUE"; "UNIVERSAL";
   "UTCTime"; "UTF8String"; "UniversalString"; "VideotexString"; "VisibleString"; "WITH"].

(** The name of a token in asn1.y (yyToknames, y.go:201-328). *)
Definition token_name (c : Z) : string := nth (Z.to_nat (c - 57346 + 3)) yyToknames "".

(** RELATIVE-OID is called RELATIVE_OID in asn1.y. *)
Fixpoint underscores (s : string) : string :=
  match s with
  | EmptyString => EmptyString
  | String c s' => String (if Ascii.eqb c "-" then "_"%char else c) (underscores s')
  end.

Lemma reserved_check :
  forallb (fun p => existsb (String.eqb (fst p)) reserved && String.eqb (token_name (snd p)) (underscores (fst p))
    && (57346 <=? snd p) && ascii_upper (hd 0 (bytes_of_string (fst p)))) RESERVED_WORDS = true /\
  forallb (fun w => match assoc_word w RESERVED_WORDS with Some _ => true | None => false end) reserved = true.
Proof. split; vm_compute; reflexivity. Qed.

Lemma reserved_spec w : match assoc_word w RESERVED_WORDS with
  | Some c => In w reserved /\ token_name c = underscores w
  | None => ~ In w reserved
  end.
Proof.
  destruct reserved_check as [C1 C2]. rewrite forallb_forall in C1, C2.
  destruct (assoc_word w RESERVED_WORDS) as [c|] eqn:E.
  - specialize (C1 _ (assoc_word_In _ _ _ E)). cbn [fst snd] in C1.
    apply andb_true_iff in C1 as [C1 _]. apply andb_true_iff in C1 as [C1 _]. apply andb_true_iff in C1 as [C1 C3].
    apply existsb_exists in C1 as (w' & I & Q). apply String.eqb_eq in Q. subst w'. split; [exact I|now apply String.eqb_eq].
  - intros I. specialize (C2 _ I). rewrite E in C2. discriminate C2.
Qed.

Lemma reserved_upper U w : word U w = true -> In (text w) reserved -> is_upper U (hd 0 w) = true.
Proof.
  intros W I. destruct reserved_check as [C1 C2]. rewrite forallb_forall in C1, C2. specialize (C2 _ I).
  destruct (assoc_word (text w) RESERVED_WORDS) as [c|] eqn:E; [|discriminate C2]. clear C2 I.
  specialize (C1 _ (assoc_word_In _ _ _ E)). cbn [fst snd] in C1. apply andb_true_iff in C1 as [_ C1].
  rewrite bytes_text in C1. destruct w as [|r w]; [discriminate W|]. cbn [hd].
  unfold encode_all in C1. cbn [flat_map] in C1. unfold ascii_upper in C1. apply andb_true_iff in C1 as [C1 C2].
  revert C1 C2. unfold encode_rune.
  repeat match goal with |- context [if ?b then _ else _] => destruct b eqn:? end; cbn [app hd]; intros C1 C2;
    repeat match goal with H : _ && _ = true |- _ => apply andb_true_iff in H as [? ?]
      | H : _ || _ = false |- _ => apply orb_false_iff in H as [? ?] end;
    try (exfalso; Z.div_mod_to_equations; lia).
  unfold is_upper, ascii_upper. replace (r <? 128) with true by (symmetry; apply Z.ltb_lt; lia). apply andb_true_iff. lia.
Qed.

(** A word in the text, after any tokens and layout, is read as the token of that
    name if it is reserved, and else as a reference or identifier with its text.
    The exception is an e right behind a number. *)
Theorem C11_reserved_words : forall U s ts v x g w q,
  reads U s ts v x -> unread x = g ++ w ++ q -> layout g -> word U w = true -> word_stops U q = true ->
  (g = [] -> after_number ts -> hd 0 w <> ch "e" /\ hd 0 w <> ch "E") ->
  exists c v' x', call U x v c v' x' /\ unread x' = q /\ 0 < c /\
    (In (text w) reserved -> token_name c = underscores (text w)) /\
    (~ In (text w) reserved -> lv_name v' = text w /\
       c = if is_upper U (hd 0 w) then T_TYPEORMODULEREFERENCE else T_VALUEIDENTIFIER).
Proof.
  intros U s ts v x g w q R X L W S1 E. destruct (reads_st U _ _ _ _ R) as (n & Lx & ST).
  pose proof (next_word U g w q n L W S1) as N. rewrite <- X in N.
  destruct (call_token U x v _ _ _ _ _ _ _ ST (N (fun G n1 => E G (lexes_number U _ _ _ _ _ Lx eq_refl n1)))) as (c & v' & x' & C & P & T & Q & _).
  exists c, v', x'. split; [exact C|]. split; [exact Q|]. split; [exact P|].
  pose proof (reserved_spec (text w)) as RS. unfold word_token in T.
  assert (K : tk_kind (token_of c v') = c) by (unfold token_of; repeat match goal with |- context [if ?b then _ else _] => destruct b end; reflexivity).
  destruct (is_upper U (hd 0 w)) eqn:UP.
  - destruct (assoc_word (text w) RESERVED_WORDS) as [code|].
    + rewrite T in K. cbn [plain_token tk_kind] in K. subst code. split; [now intros _|]. intros N1. now destruct (N1 (proj1 RS)).
    + split; [intros I; now destruct (RS I)|]. intros _. rewrite T in K. cbn [tk_kind] in K. subst c.
      split; [|reflexivity]. exact (f_equal tk_name T).
  - split; [intros I; rewrite (reserved_upper U w W I) in UP; discriminate UP|]. intros _.
    rewrite T in K. cbn [tk_kind] in K. subst c. split; [|reflexivity]. exact (f_equal tk_name T).
Qed.
Print Assumptions C11_reserved_words.

(** No name token carries a reserved word. *)
Theorem C11_names_not_reserved : forall U s ts v x t,
  reads U s ts v x -> In t ts -> tk_kind t = T_TYPEORMODULEREFERENCE \/ tk_kind t = T_VALUEIDENTIFIER ->
  ~ In (tk_name t) reserved.
Proof.
  intros U s ts v x t R I K RV. destruct (reads_lexeme U _ _ _ _ _ R I) as (w & Lx).
  destruct Lx as [w code W UP I2|w W UP NI|w W UP|w W F D|r E|z code I2]; cbn [tk_kind tk_name plain_token] in *.
  - apply (reserved_not_name _ _ I2) in K. exact K.
  - pose proof (reserved_spec (text w)) as RS. destruct (assoc_word (text w) RESERVED_WORDS) as [c|] eqn:A; [|exact (RS RV)].
    apply NI. apply in_map_iff. exists (text w, c). split; [reflexivity|now apply assoc_word_In].
  - rewrite (reserved_upper U w W RV) in UP. discriminate UP.
  - destruct K; discriminate.
  - destruct K; discriminate.
  - apply (symbols_not_name _ _ I2) in K. exact K.
Qed.
Print Assumptions C11_names_not_reserved.

(** The table has every reserved word once, so that each word has one token and
    each token one word. *)
Theorem C11_own_token : forall w1 w2, In w1 reserved -> In w2 reserved -> underscores w1 = underscores w2 -> w1 = w2.
Proof.
  assert (C : forallb (fun w1 => forallb (fun w2 => negb (String.eqb (underscores w1) (underscores w2)) || String.eqb w1 w2) reserved) reserved = true)
    by (vm_compute; reflexivity).
  intros w1 w2 I1 I2 E. rewrite forallb_forall in C. specialize (C _ I1). cbv beta in C. rewrite forallb_forall in C.
  specialize (C _ I2). cbv beta in C. rewrite E, String.eqb_refl in C. now apply String.eqb_eq.
Qed.
Print Assumptions C11_own_token.

Example C11_example :
  let s := "/* kind */ RELATIVE-OID{" in
  reads ascii_tables s [] lexval0 (lexer_of s) /\
  unread (lexer_of s) = bytes_of_string "/* kind */ " ++ bytes_of_string "RELATIVE-OID" ++ bytes_of_string "{" /\
  layout (bytes_of_string "/* kind */ ") /\ word ascii_tables (bytes_of_string "RELATIVE-OID") = true /\
  In (text (bytes_of_string "RELATIVE-OID")) reserved /\ token_name T_RELATIVE_OID = "RELATIVE_OID" /\
  exists x, Lex stream_ops ascii_tables 100 (lexer_of s) lexval0 = Ok (T_RELATIVE_OID, lexval0, x).
Proof.
  cbv zeta. split; [constructor|]. split; [vm_compute; reflexivity|]. split.
  { apply (layout_block (bytes_of_string " kind */")); [reflexivity|discriminate|]. apply layout_space; [reflexivity|constructor]. }
  split; [vm_compute; reflexivity|]. split; [vm_compute; tauto|]. split; [vm_compute; reflexivity|].
  eexists. vm_compute. reflexivity.
Qed.

(** * C12: names are well formed *)

Theorem C12_names_well_formed : forall U s ts v x t,
  reads U s ts v x -> In t ts ->
  (tk_kind t = T_TYPEORMODULEREFERENCE ->
     exists w, tk_name t = text w /\ word U w = true /\ is_upper U (hd 0 w) = true) /\
  (tk_kind t = T_VALUEIDENTIFIER ->
     exists w, tk_name t = text w /\ word U w = true /\ is_upper U (hd 0 w) = false).
Proof.
  intros U s ts v x t R I. destruct (reads_lexeme U _ _ _ _ _ R I) as (w & Lx).
  destruct Lx as [w code W UP I2|w W UP NI|w W UP|w W F D|r E|z code I2]; cbn [tk_kind tk_name plain_token].
  - split; intros K; exfalso; apply (reserved_not_name _ _ I2); auto.
  - split; [eauto|discriminate].
  - split; [discriminate|eauto].
  - split; discriminate.
  - split; discriminate.
  - split; intros K; exfalso; apply (symbols_not_name _ _ I2); auto.
Qed.
Print Assumptions C12_names_well_formed.

(** [word], read without the definitions: letters, digits and hyphens, a letter
    first, no two hyphens next to each other, no hyphen at the end. *)
Theorem C12_word_meaning : forall U w, word U w = true <->
  (exists r w', w = r :: w' /\ is_letter U r = true) /\
  Forall (fun r => is_letter U r = true \/ is_digit U r = true \/ r = ch "-") w /\
  (forall a b, w <> a ++ ch "-" :: ch "-" :: b) /\ (forall a, w <> a ++ [ch "-"]).
Proof.
  intros U w. split.
  - destruct w as [|r w]; [discriminate|]. cbn [word]. intros H. apply andb_true_iff in H as [H HO]. apply andb_true_iff in H as [L F].
    split; [eauto|]. split.
    + constructor; [auto|]. rewrite forallb_forall in F. apply Forall_forall. intros r' I. specialize (F _ I).
      unfold name_char in F. apply orb_true_iff in F as [F|F]; [apply orb_true_iff in F as [F|F]; auto|].
      apply Z.eqb_eq in F. auto.
    + assert (G : forall p w, hyphens_ok p w = true ->
        (forall a b, p :: w <> a ++ ch "-" :: ch "-" :: b) /\ (forall a, p :: w <> a ++ [ch "-"])).
      { clear. intros p w. revert p. induction w as [|r w IH]; intros p; cbn [hyphens_ok]; intros H.
        - apply negb_true_iff, Z.eqb_neq in H. split; [intros [|? [|? ?]] ? E; discriminate|].
          intros [|? [|? ?]] E; try discriminate. injection E as ->. congruence.
        - apply andb_true_iff in H as [H1 H2]. apply IH in H2 as [H2 H3]. split.
          + intros [|c a] b E; cbn [app] in E.
            * injection E as -> -> _. discriminate H1.
            * apply (H2 a b). congruence.
          + intros [|c a] E; cbn [app] in E; [discriminate E|]. apply (H3 a). congruence. }
      exact (G r w HO).
  - intros ((r & w' & -> & L) & F & H1 & H2). cbn [word]. rewrite L. cbn [andb]. apply andb_true_iff. split.
    + apply forallb_forall. intros r' I. rewrite Forall_forall in F. specialize (F r' (or_intror I)). unfold name_char.
      destruct F as [F|[F| ->]]; [now rewrite F|now rewrite F, orb_true_r|]. now rewrite Z.eqb_refl, orb_true_r.
    + clear F L. revert r H1 H2. induction w' as [|b w IH]; intros r H1 H2; cbn [hyphens_ok].
      * apply negb_true_iff, Z.eqb_neq. intros ->. exact (H2 [] eq_refl).
      * apply andb_true_iff. split.
        -- apply negb_true_iff, not_true_iff_false. intros E. apply andb_true_iff in E as [E1 E2].
           apply Z.eqb_eq in E1, E2. subst. exact (H1 [] w eq_refl).
        -- apply IH; [intros a c E; apply (H1 (r :: a) c)|intros a E; apply (H2 (r :: a))]; cbn [app]; now rewrite E.
Qed.
Print Assumptions C12_word_meaning.

Example C12_example : exists v x,
  reads ascii_tables "a-b2 Type" [ {| tk_kind := T_VALUEIDENTIFIER; tk_name := "a-b2"; tk_number := 0 |};
    {| tk_kind := T_TYPEORMODULEREFERENCE; tk_name := "Type"; tk_number := 0 |}] v x /\
  text (bytes_of_string "a-b2") = "a-b2" /\ word ascii_tables (bytes_of_string "a-b2") = true.
Proof.
  assert (Lx : exists n, lexes ascii_tables false (runes (bytes_of_string "a-b2 Type"))
    [ {| tk_kind := T_VALUEIDENTIFIER; tk_name := "a-b2"; tk_number := 0 |};
      {| tk_kind := T_TYPEORMODULEREFERENCE; tk_name := "Type"; tk_number := 0 |}] n []).
  { eexists. do 2 (econstructor; [vm_compute; reflexivity|]). constructor. }
  destruct Lx as (n & Lx). destruct (lexes_reads _ _ _ _ _ Lx) as (v & x & R & S1). exists v, x.
  split; [exact R|]. split; vm_compute; reflexivity.
Qed.

(** * C13: numbers *)

(** Digits in the text, after any tokens and layout: their decimal value if they
    are ASCII digits and it is less than 2^63, else an error.  Digits are not
    letters, which holds of the tables of Go. *)
Theorem C13_number_value : forall U s ts v x g w q,
  (forall r, is_digit U r = true -> is_letter U r = false) ->
  reads U s ts v x -> unread x = g ++ w ++ q -> layout g -> digits U w = true -> digits_stop U q = true ->
  (Forall (fun d => 48 <= d <= 57) w -> decimal w < 2 ^ 63 ->
     exists v' x', call U x v T_NUMBER v' x' /\ lv_Number v' = decimal w /\ unread x' = q) /\
  (~ (Forall (fun d => 48 <= d <= 57) w /\ decimal w < 2 ^ 63) ->
     exists v' x' e, call U x v (-1) v' x' /\ lx_err x' = Some e /\ unread x' = q).
Proof.
  intros U s ts v x g w q DJ R X L W S1. destruct (reads_st U _ _ _ _ R) as (n & Lx & ST).
  assert (NL : is_letter U (hd 0 w) = false).
  { destruct w as [|r w]; [discriminate W|]. cbn in W. apply DJ. now apply andb_true_iff in W as [W _]. }
  destruct (next_digits U g w q n L W NL S1) as [(F & D & N)|(B & msg & N)]; rewrite <- X in N.
  - split; [|tauto]. intros _ _.
    destruct (call_token U x v _ _ _ _ _ _ _ ST N) as (c & v' & x' & C & P & T & Q & _).
    assert (K : tk_kind (token_of c v') = c) by (unfold token_of; repeat match goal with |- context [if ?b then _ else _] => destruct b end; reflexivity).
    rewrite T in K. cbn [tk_kind] in K. subst c. exists v', x'. split; [exact C|]. split; [exact (f_equal tk_number T)|exact Q].
  - split.
    + intros F D. exfalso. destruct B as [B|B]; [|lia]. rewrite Forall_forall in F. apply Exists_exists in B as (d & I & B).
      specialize (F d I). lia.
    + intros _. destruct (call_bad U x v _ _ _ _ _ _ ST N) as (x' & C & Q & E). exists v, x'. eexists.
      split; [exact C|]. split; [exact E|exact Q].
Qed.
Print Assumptions C13_number_value.

(** Every number token has the value of a sequence of decimal digits, in the range
    of a Go int. *)
Theorem C13_number_tokens : forall U s ts v x t,
  reads U s ts v x -> In t ts -> tk_kind t = T_NUMBER ->
  exists w, w <> [] /\ Forall (fun d => 48 <= d <= 57) w /\ tk_name t = text w /\ tk_number t = decimal w /\
    0 <= tk_number t < 2 ^ 63.
Proof.
  intros U s ts v x t R I K. destruct (reads_lexeme U _ _ _ _ _ R I) as (w & Lx).
  destruct Lx as [w code W UP I2|w W UP NI|w W UP|w W F D|r E|z code I2]; cbn [tk_kind tk_name tk_number plain_token] in *; try discriminate K.
  - subst code. now destruct (reserved_not_number _ I2).
  - exists w. repeat (split; [assumption||reflexivity|]). split; [|exact D]. apply decimal_nonneg; [lia|exact F].
  - subst code. now destruct (symbols_not_number _ I2).
Qed.
Print Assumptions C13_number_tokens.

Example C13_example :
  let s := " 9223372036854775807}" in let s' := " 9223372036854775808}" in
  reads ascii_tables s [] lexval0 (lexer_of s) /\
  unread (lexer_of s) = [32] ++ bytes_of_string "9223372036854775807" ++ [ch "}"] /\
  digits ascii_tables (bytes_of_string "9223372036854775807") = true /\
  decimal (bytes_of_string "9223372036854775807") = 2 ^ 63 - 1 /\
  decimal (bytes_of_string "9223372036854775808") = 2 ^ 63 /\
  (exists v x, Lex stream_ops ascii_tables 100 (lexer_of s) lexval0 = Ok (T_NUMBER, v, x) /\ lv_Number v = 2 ^ 63 - 1) /\
  (exists v x, Lex stream_ops ascii_tables 100 (lexer_of s') lexval0 = Ok (-1, v, x)).
Proof.
  cbv zeta. split; [constructor|]. split; [vm_compute; reflexivity|]. split; [vm_compute; reflexivity|].
  split; [vm_compute; reflexivity|]. split; [vm_compute; reflexivity|].
  split; [eexists _, _; split; vm_compute; reflexivity|eexists _, _; vm_compute; reflexivity].
Qed.

(** * C14: line numbers *)

(** Number of LF, VT, FF and CR characters (X.680 11.1.6). *)
Definition line_breaks (rs : list Z) : Z := Z.of_nat (length (filter newline_char rs)).

Lemma line_breaks_eq rs : line_breaks rs = breaks rs.
Proof.
  unfold line_breaks. induction rs as [|r rs IH]; [reflexivity|]. cbn [filter breaks]. rewrite <- newline_char_eq.
  destruct (newline_char r); cbn [length]; lia.
Qed.

(** At every moment of a parse the line counter is the number of line breaks in the
    text that has been read. *)
Theorem C14_line_counter : forall U s x, visited U s x ->
  exists consumed, runes (bytes_of_string s) = consumed ++ unread x /\ lx_lineNo x = line_breaks consumed.
Proof.
  intros U s x V. destruct (visited_st U s x V) as (e & n & co & S1 & E & _). exists co. split; [exact E|].
  rewrite (st_line _ _ _ _ _ S1). rewrite E at 1. rewrite breaks_app, line_breaks_eq. lia.
Qed.
Print Assumptions C14_line_counter.

(** The error of a parse names the line where the lexer was when it (or the parser)
    reported it. *)
Theorem C14_error_line : forall U s e, parses U s (ParseErr e) ->
  exists x msg consumed, visited U s x /\ lx_err x = Some e /\ runes (bytes_of_string s) = consumed ++ unread x /\
    e = ("line " ++ sprint_int (1 + line_breaks consumed) ++ ": " ++ msg)%string.
Proof.
  intros U s e P. destruct (parse_error_line U s e P) as (x & msg & be & V & L & E & Q). exists x, msg, be.
  rewrite line_breaks_eq. auto.
Qed.
Print Assumptions C14_error_line.

(** An error of the lexer names the line where the offending text ends. *)
Theorem C14_lexer_error_line : forall U s ts v x v' x', reads U s ts v x -> call U x v (-1) v' x' ->
  exists msg consumed, runes (bytes_of_string s) = consumed ++ unread x' /\
    lx_err x' = Some ("line " ++ sprint_int (1 + line_breaks consumed) ++ ": " ++ msg)%string.
Proof.
  intros U s ts v x v' x' R C. assert (V : visited U s x').
  { econstructor; [|exact C]. clear C. induction R; [constructor|]. econstructor; eassumption. }
  destruct (reads_error U _ _ _ _ _ _ _ R C ltac:(lia)) as (n & msg & rest & _ & _ & E & Q).
  destruct (C14_line_counter U s x' V) as (co & E2 & _). exists msg, co. split; [exact E2|].
  rewrite Q. unfold located. rewrite E2, E, breaks_app, line_breaks_eq.
  replace (breaks co + breaks rest - breaks rest + 1) with (1 + breaks co) by lia. reflexivity.
Qed.
Print Assumptions C14_lexer_error_line.

Example C14_example :
  let s := ("M DEFINITIONS ::= BEGIN" ++ String "010" (" /* " ++ String "012" "*/ ") ++ "$ END")%string in
  ParseString ascii_tables 1000 s = Ok (ParseErr "line 3: Unexpected character: $") /\
  line_breaks (bytes_of_string s) = 2.
Proof. split; vm_compute; reflexivity. Qed.

(** * C15: CRLF *)

(** Number of CR LF pairs. *)
Fixpoint crlf_pairs (rs : list Z) : Z :=
  match rs with
  | 13 :: ((10 :: _) as rs') => 1 + crlf_pairs rs'
  | _ :: rs' => crlf_pairs rs'
  | [] => 0
  end.

(** All line breaks are CR LF pairs. *)
Fixpoint crlf_text (rs : list Z) : bool :=
  match rs with
  | [] => true
  | 13 :: rs' => match rs' with 10 :: rs2 => crlf_text rs2 | _ => false end
  | r :: rs' => negb (newline_char r) && crlf_text rs'
  end.

(** False: each CR LF counts as two lines. *)
Theorem C15_crlf_refuted : exists s msg,
  crlf_text (runes (bytes_of_string s)) = true /\ crlf_pairs (runes (bytes_of_string s)) = 1 /\
  parses ascii_tables s (ParseErr ("line 3: " ++ msg)).
Proof.
  exists ("M DEFINITIONS ::= BEGIN" ++ String "013" (String "010" "$ END"))%string, "Unexpected character: $".
  split; [vm_compute; reflexivity|]. split; [vm_compute; reflexivity|].
  apply (ParseString_parses ascii_tables 1000). vm_compute. reflexivity.
Qed.
Print Assumptions C15_crlf_refuted.

(** True of a text whose line breaks are all LF: the line is one more than the
    number of LF before the place of the error.  In a CR LF text it is one more than
    the number of CR plus the number of LF. *)
Theorem C15_line_partial : forall U s e, parses U s (ParseErr e) ->
  exists x msg consumed, visited U s x /\ lx_err x = Some e /\ runes (bytes_of_string s) = consumed ++ unread x /\
    (Forall (fun r => newline_char r = true -> r = 10) (runes (bytes_of_string s)) ->
       e = ("line " ++ sprint_int (1 + Z.of_nat (count_occ Z.eq_dec consumed 10)) ++ ": " ++ msg)%string) /\
    (Forall (fun r => newline_char r = true -> r = 10 \/ r = 13) (runes (bytes_of_string s)) ->
       e = ("line " ++ sprint_int (1 + Z.of_nat (count_occ Z.eq_dec consumed 13) + Z.of_nat (count_occ Z.eq_dec consumed 10))
            ++ ": " ++ msg)%string).
Proof.
  intros U s e P. destruct (C14_error_line U s e P) as (x & msg & co & V & L & E & Q). exists x, msg, co.
  split; [exact V|]. split; [exact L|]. split; [exact E|]. rewrite E.
  assert (G1 : forall c, Forall (fun r => newline_char r = true -> r = 10) c -> line_breaks c = Z.of_nat (count_occ Z.eq_dec c 10)).
  { clear. unfold line_breaks. induction 1 as [|r c H F IH]; [reflexivity|]. cbn [filter count_occ].
    destruct (newline_char r) eqn:N; destruct (Z.eq_dec r 10) as [->|NE]; cbn [length]; try lia; try discriminate N.
    all: destruct (H eq_refl); congruence. }
  assert (G2 : forall c, Forall (fun r => newline_char r = true -> r = 10 \/ r = 13) c ->
    line_breaks c = Z.of_nat (count_occ Z.eq_dec c 13) + Z.of_nat (count_occ Z.eq_dec c 10)).
  { clear. unfold line_breaks. induction 1 as [|r c H F IH]; [reflexivity|]. cbn [filter count_occ].
    destruct (newline_char r) eqn:N; destruct (Z.eq_dec r 10) as [E1|NE], (Z.eq_dec r 13) as [E2|NE2]; cbn [length]; try lia; subst; discriminate N. }
  split; intros F; apply Forall_app in F as [F _]; rewrite Q; [rewrite (G1 _ F)|rewrite (G2 _ F)]; [reflexivity|].
  now rewrite Z.add_assoc.
Qed.
Print Assumptions C15_line_partial.

Example C15_example :
  let s := ("M DEFINITIONS ::= BEGIN" ++ String "010" (String "010" "$ END"))%string in
  Forall (fun r => newline_char r = true -> r = 10) (runes (bytes_of_string s)) /\
  ParseString ascii_tables 1000 s = Ok (ParseErr "line 3: Unexpected character: $").
Proof. split; [vm_compute; repeat constructor; try discriminate; auto|vm_compute; reflexivity]. Qed.

(** * C16: comments that start with two hyphens *)

(** Where the comment ends is compared with a text that has a space instead of the
    comment: reading on gives the same.  [rest_of (line_end c)] is the text after the
    comment (nothing if it does not end). *)

(** False: in [--- a] the first three hyphens are read as a whole comment. *)
Theorem C16_line_comment_refuted : exists s c s' k1 v1 x1 k2 v2 x2,
  reads ascii_tables s [] lexval0 (lexer_of s) /\ unread (lexer_of s) = ch "-" :: ch "-" :: c /\
  reads ascii_tables s' [] lexval0 (lexer_of s') /\ unread (lexer_of s') = 32 :: rest_of (line_end c) /\
  call ascii_tables (lexer_of s) lexval0 k1 v1 x1 /\ call ascii_tables (lexer_of s') lexval0 k2 v2 x2 /\ k1 <> k2.
Proof.
  exists "--- a", (bytes_of_string "- a"), " ", T_VALUEIDENTIFIER.
  assert (A : exists v1 x1, Lex stream_ops ascii_tables 50 (lexer_of "--- a") lexval0 = Ok (T_VALUEIDENTIFIER, v1, x1))
    by (eexists _, _; vm_compute; reflexivity).
  assert (B : exists v1 x1, Lex stream_ops ascii_tables 50 (lexer_of " ") lexval0 = Ok (0, v1, x1))
    by (eexists _, _; vm_compute; reflexivity).
  destruct A as (v1 & x1 & A), B as (v2 & x2 & B). exists v1, x1, 0, v2, x2.
  split; [constructor|]. split; [vm_compute; reflexivity|]. split; [constructor|]. split; [vm_compute; reflexivity|].
  split; [exact (Lex_call _ _ _ _ _ _ _ A)|]. split; [exact (Lex_call _ _ _ _ _ _ _ B)|discriminate].
Qed.
Print Assumptions C16_line_comment_refuted.

(** What the lexer does for every comment: it looks for the end from the second
    hyphen of the opening on. *)
Theorem C16_line_comment_exact : forall U s ts v x c s' ts' v0 y,
  reads U s ts v x -> unread x = ch "-" :: ch "-" :: c ->
  reads U s' ts' v0 y -> unread y = 32 :: rest_of (line_end (ch "-" :: c)) ->
  forall k v' x', call U x v k v' x' ->
  exists y', call U y v k v' y' /\ unread y' = unread x' /\ (0 <= k -> lx_lastWasNumber y' = lx_lastWasNumber x').
Proof.
  intros U s ts v x c s' ts' v0 y R X R' Y. destruct (reads_st U _ _ _ _ R) as (n & _ & S1).
  destruct (reads_st U _ _ _ _ R') as (n' & _ & S2). apply (call_same U x y v _ _ _ _ _ _ _ _ S1 S2). rewrite X, Y.
  change (32 :: rest_of (line_end (ch "-" :: c))) with ([32] ++ rest_of (line_end (ch "-" :: c))).
  rewrite next_layout; [|apply layout_space; [reflexivity|constructor]|discriminate].
  unfold next. change (skip Plain (ch "-" :: ch "-" :: c)) with (fst (skip (Line false) (ch "-" :: c)), true).
  rewrite skip_line. destruct (skip Plain (rest_of (line_end (ch "-" :: c)))) as [[|r q] b]; cbn [fst]; [reflexivity|].
  now rewrite andb_false_r.
Qed.
Print Assumptions C16_line_comment_exact.

(** Hence as X.680 says whenever the text of the comment does not start with a
    hyphen.  Missing from C16: comments that start with three hyphens. *)
Theorem C16_line_comment_partial : forall U s ts v x c s' ts' v0 y,
  reads U s ts v x -> unread x = ch "-" :: ch "-" :: c -> hd 0 c <> ch "-" ->
  reads U s' ts' v0 y -> unread y = 32 :: rest_of (line_end c) ->
  forall k v' x', call U x v k v' x' ->
  exists y', call U y v k v' y' /\ unread y' = unread x' /\ (0 <= k -> lx_lastWasNumber y' = lx_lastWasNumber x').
Proof.
  intros U s ts v x c s' ts' v0 y R X H R' Y. apply (C16_line_comment_exact U s ts v x c s' ts' v0 y R X R').
  rewrite Y. cbn [line_end]. change (newline_char (ch "-")) with false. change (ch "-" =? ch "-") with true. cbn [andb].
  now rewrite (proj2 (Z.eqb_neq _ _) H).
Qed.
Print Assumptions C16_line_comment_partial.

Example C16_example :
  let s := "-- a - b--c" in let c := bytes_of_string " a - b--c" in
  reads ascii_tables s [] lexval0 (lexer_of s) /\ unread (lexer_of s) = ch "-" :: ch "-" :: c /\ hd 0 c <> ch "-" /\
  line_end c = Some (bytes_of_string "c") /\ unread (lexer_of " c") = 32 :: rest_of (line_end c) /\
  exists v x x', Lex stream_ops ascii_tables 50 (lexer_of s) lexval0 = Ok (T_VALUEIDENTIFIER, v, x) /\
    Lex stream_ops ascii_tables 50 (lexer_of " c") lexval0 = Ok (T_VALUEIDENTIFIER, v, x') /\ lv_name v = "c".
Proof.
  cbv zeta. split; [constructor|]. split; [vm_compute; reflexivity|]. split; [discriminate|].
  split; [vm_compute; reflexivity|]. split; [vm_compute; reflexivity|]. eexists _, _, _. split; [vm_compute; reflexivity|].
  split; vm_compute; reflexivity.
Qed.

(** * C17: block comments *)

(** False: in [/*/ a */] the opening is read as a whole comment, ... *)
Theorem C17_opening_refuted : exists s c q s' k1 v1 x1 k2 v2 x2,
  reads ascii_tables s [] lexval0 (lexer_of s) /\ unread (lexer_of s) = ch "/" :: ch "*" :: c /\
  block_end 0 c = Some q /\
  reads ascii_tables s' [] lexval0 (lexer_of s') /\ unread (lexer_of s') = 32 :: q /\
  call ascii_tables (lexer_of s) lexval0 k1 v1 x1 /\ call ascii_tables (lexer_of s') lexval0 k2 v2 x2 /\ k1 <> k2.
Proof.
  exists "/*/ a */", (bytes_of_string "/ a */"), [], " ", T_VALUEIDENTIFIER.
  assert (A : exists v1 x1, Lex stream_ops ascii_tables 50 (lexer_of "/*/ a */") lexval0 = Ok (T_VALUEIDENTIFIER, v1, x1))
    by (eexists _, _; vm_compute; reflexivity).
  assert (B : exists v1 x1, Lex stream_ops ascii_tables 50 (lexer_of " ") lexval0 = Ok (0, v1, x1))
    by (eexists _, _; vm_compute; reflexivity).
  destruct A as (v1 & x1 & A), B as (v2 & x2 & B). exists v1, x1, 0, v2, x2.
  split; [constructor|]. split; [vm_compute; reflexivity|]. split; [vm_compute; reflexivity|].
  split; [constructor|]. split; [vm_compute; reflexivity|].
  split; [exact (Lex_call _ _ _ _ _ _ _ A)|]. split; [exact (Lex_call _ _ _ _ _ _ _ B)|discriminate].
Qed.
Print Assumptions C17_opening_refuted.

(** ... and a comment that does not end is no error. *)
Theorem C17_unterminated_refuted : exists s ts v x c m,
  reads ascii_tables s ts v x /\ unread x = ch "/" :: ch "*" :: c /\ block_end 0 c = None /\
  parses ascii_tables s (ParseOk (Some m)).
Proof.
  assert (Lx : exists ts n, lexes ascii_tables false (runes (bytes_of_string "M DEFINITIONS ::= BEGIN END/* */*")) ts n (bytes_of_string "/* */*")).
  { eexists _, _. do 5 (econstructor; [vm_compute; reflexivity|]). constructor. }
  assert (Lx2 : exists ts n, lexes ascii_tables false (runes (bytes_of_string "M DEFINITIONS ::= BEGIN END/* ")) ts n (bytes_of_string "/* ")).
  { eexists _, _. do 5 (econstructor; [vm_compute; reflexivity|]). constructor. }
  destruct Lx2 as (ts & n & Lx2). destruct (lexes_reads _ _ _ _ _ Lx2) as (v & x & R & S1).
  assert (P : exists m, ParseString ascii_tables 1000 "M DEFINITIONS ::= BEGIN END/* " = Ok (ParseOk (Some m)))
    by (eexists; vm_compute; reflexivity).
  destruct P as (m & P). exists "M DEFINITIONS ::= BEGIN END/* ", ts, v, x, (bytes_of_string " "), m.
  split; [exact R|]. split; [exact (st_unread _ _ _ _ _ S1)|]. split; [reflexivity|]. exact (ParseString_parses _ _ _ _ P).
Qed.
Print Assumptions C17_unterminated_refuted.

(** What the lexer does for every comment: it looks for the end from the star of
    the opening on; a comment that does not end takes the rest of the text. *)
Theorem C17_block_comment_exact : forall U s ts v x c s' ts' v0 y,
  reads U s ts v x -> unread x = ch "/" :: ch "*" :: c ->
  reads U s' ts' v0 y -> unread y = 32 :: rest_of (block_end 0 (ch "*" :: c)) ->
  forall k v' x', call U x v k v' x' ->
  exists y', call U y v k v' y' /\ unread y' = unread x' /\ (0 <= k -> lx_lastWasNumber y' = lx_lastWasNumber x').
Proof.
  intros U s ts v x c s' ts' v0 y R X R' Y. destruct (reads_st U _ _ _ _ R) as (n & _ & S1).
  destruct (reads_st U _ _ _ _ R') as (n' & _ & S2). apply (call_same U x y v _ _ _ _ _ _ _ _ S1 S2). rewrite X, Y.
  change (32 :: rest_of (block_end 0 (ch "*" :: c))) with ([32] ++ rest_of (block_end 0 (ch "*" :: c))).
  rewrite next_layout; [|apply layout_space; [reflexivity|constructor]|discriminate].
  unfold next. change (skip Plain (ch "/" :: ch "*" :: c)) with (fst (skip (Block 0 false false) (ch "*" :: c)), true).
  rewrite (skip_block _ _ _ (le_n _)). destruct (skip Plain (rest_of (block_end 0 (ch "*" :: c)))) as [[|r q] b]; cbn [fst]; [reflexivity|].
  now rewrite andb_false_r.
Qed.
Print Assumptions C17_block_comment_exact.

(** Hence as X.680 says, nested comments included, for a comment that ends and
    whose text does not start with a slash. *)
Theorem C17_block_comment_partial : forall U s ts v x c q s' ts' v0 y,
  reads U s ts v x -> unread x = ch "/" :: ch "*" :: c -> hd 0 c <> ch "/" -> block_end 0 c = Some q ->
  reads U s' ts' v0 y -> unread y = 32 :: q ->
  forall k v' x', call U x v k v' x' ->
  exists y', call U y v k v' y' /\ unread y' = unread x' /\ (0 <= k -> lx_lastWasNumber y' = lx_lastWasNumber x').
Proof.
  intros U s ts v x c q s' ts' v0 y R X H E R' Y. apply (C17_block_comment_exact U s ts v x c s' ts' v0 y R X R').
  rewrite Y. destruct c as [|r c]; [discriminate E|]. rewrite block_end_eq. cbn [hd] in H.
  rewrite (proj2 (Z.eqb_neq _ _) H). rewrite andb_false_r. change (ch "*" =? ch "/") with false. cbn [andb]. now rewrite E.
Qed.
Print Assumptions C17_block_comment_partial.

Example C17_example :
  let s := "/* a /* b **/ - */c" in let c := bytes_of_string " a /* b **/ - */c" in
  reads ascii_tables s [] lexval0 (lexer_of s) /\ unread (lexer_of s) = ch "/" :: ch "*" :: c /\ hd 0 c <> ch "/" /\
  block_end 0 c = Some (bytes_of_string "c") /\ unread (lexer_of " c") = 32 :: bytes_of_string "c" /\
  exists v x x', Lex stream_ops ascii_tables 50 (lexer_of s) lexval0 = Ok (T_VALUEIDENTIFIER, v, x) /\
    Lex stream_ops ascii_tables 50 (lexer_of " c") lexval0 = Ok (T_VALUEIDENTIFIER, v, x') /\ lv_name v = "c".
Proof.
  cbv zeta. split; [constructor|]. split; [vm_compute; reflexivity|]. split; [discriminate|].
  split; [vm_compute; reflexivity|]. split; [vm_compute; reflexivity|]. eexists _, _, _. split; [vm_compute; reflexivity|].
  split; vm_compute; reflexivity.
Qed.

(** * C48: text outside comments is valid UTF-8 *)

(** Bytes that are not valid UTF-8 are read as U+FFFD, valid UTF-8 as its text. *)
Theorem C48_runes : forall s,
  (forall rs, Forall scalar rs -> bytes_of_string s = encode_all rs -> runes (bytes_of_string s) = rs) /\
  (~ valid_utf8 (bytes_of_string s) -> In 65533 (runes (bytes_of_string s))).
Proof.
  intros s. split.
  - intros rs F ->. now apply runes_encode.
  - intros V. destruct (in_dec Z.eq_dec 65533 (runes (bytes_of_string s))) as [I|N]; [exact I|]. exfalso. apply V.
    pose proof (string_bytes s) as B.
    destruct (runes_valid _ B N) as [E F]. exists (runes (bytes_of_string s)). auto.
Qed.
Print Assumptions C48_runes.

(** An invalid byte after any tokens and layout makes the parse fail, ... *)
Theorem C48_invalid_rejected : forall U s ts v x g q r,
  reads U s ts v x -> unread x = g ++ 65533 :: q -> layout g -> parses U s r -> exists e, r = ParseErr e.
Proof.
  intros U s ts v x g q r R X L P. destruct (reads_st U _ _ _ _ R) as (n & Lx & ST).
  pose proof (next_invalid U g q n L) as N. rewrite <- X in N.
  destruct (call_bad U x v _ _ _ _ _ _ ST N) as (x' & C & _). refine (error_rejected U _ _ _ _ _ _ _ _ R C _ P). lia.
Qed.
Print Assumptions C48_invalid_rejected.

(** ... and an accepted text is made of gaps and of tokens without invalid bytes. *)
Theorem C48_accepted_valid : forall U s m, parses U s (ParseOk m) ->
  exists l last, pieces U (runes (bytes_of_string s)) l last /\ Forall (fun '(g, w, t) => ~ In 65533 w) l.
Proof.
  intros U s m P. destruct (parses_outcome U s _ P) as [(e & E)|(m' & ts & m2 & _ & A & _)]; [discriminate E|].
  apply reads_all_tokens in A. destruct (tokens_pieces U _ _ _ A) as (l & last & PC & _). exists l, last. split; [exact PC|].
  destruct PC as (_ & F & _). eapply Forall_impl; [|exact F]. intros [[g w] t] [_ H]. exact (lexeme_valid U w t H).
Qed.
Print Assumptions C48_accepted_valid.

Example C48_example :
  let s := ("M DEFINITIONS -- " ++ String "255" (" -- ::= BEGIN END"))%string in
  let s' := ("M DEFINITIONS " ++ String "255" (" ::= BEGIN END"))%string in
  In 65533 (runes (bytes_of_string s)) /\
  (exists m, ParseString ascii_tables 1000 s = Ok (ParseOk (Some m))) /\
  (exists e, ParseString ascii_tables 1000 s' = Ok (ParseErr e)).
Proof.
  split; [vm_compute; tauto|]. split; eexists; vm_compute; reflexivity.
Qed.
