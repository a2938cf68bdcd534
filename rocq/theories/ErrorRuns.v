(** Errors of whole parses: which token they name, and what may stand in its place. *)
From Coq Require Import ZArith String Ascii Bool List Lia.
From Verif Require Import GoBase Utf8 Unicode Reader Stream Tokens Tables Reserved Ast Lexer Grammar Driver Parser
  LexErr LexTotal LexSpec LexEq LexRuns LexFacts LexWords Automaton DriverTables GrammarFacts DriverSound DriverSim AstFacts
  ParserFacts ParserRuns Viable ErrorToken.
Import ListNotations.
Local Open Scope string_scope.
Local Open Scope list_scope.
Local Open Scope Z_scope.

(** ** Vocabulary of the properties *)

(** The tokens of asn1.y by name (y.go:75-199). *)
Definition token_names : list (string * Z) := [
  ("WHITESPACE", T_WHITESPACE); ("NEWLINE", T_NEWLINE); ("TYPEORMODULEREFERENCE", T_TYPEORMODULEREFERENCE); ("VALUEIDENTIFIER", T_VALUEIDENTIFIER);
  ("NUMBER", T_NUMBER); ("BSTRING", T_BSTRING); ("XMLBSTRING", T_XMLBSTRING); ("HSTRING", T_HSTRING); ("XMLHSTRING", T_XMLHSTRING);
  ("CSTRING", T_CSTRING); ("XMLCSTRING", T_XMLCSTRING); ("ASSIGNMENT", T_ASSIGNMENT); ("RANGE_SEPARATOR", T_RANGE_SEPARATOR); ("ELLIPSIS", T_ELLIPSIS);
  ("LEFT_VERSION_BRACKETS", T_LEFT_VERSION_BRACKETS); ("RIGHT_VERSION_BRACKETS", T_RIGHT_VERSION_BRACKETS); ("XML_END_TAG_START", T_XML_END_TAG_START);
  ("XML_SINGLE_START_END", T_XML_SINGLE_START_END); ("XML_BOOLEAN_TRUE", T_XML_BOOLEAN_TRUE); ("XML_BOOLEAN_FALSE", T_XML_BOOLEAN_FALSE);
  ("XMLASN1TYPENAME", T_XMLASN1TYPENAME); ("EXPONENT", T_EXPONENT); ("OPEN_CURLY", T_OPEN_CURLY); ("CLOSE_CURLY", T_CLOSE_CURLY); ("LESS", T_LESS);
  ("GREATER", T_GREATER); ("COMMA", T_COMMA); ("DOT", T_DOT); ("OPEN_ROUND", T_OPEN_ROUND); ("CLOSE_ROUND", T_CLOSE_ROUND);
  ("OPEN_SQUARE", T_OPEN_SQUARE); ("CLOSE_SQUARE", T_CLOSE_SQUARE); ("MINUS", T_MINUS); ("COLON", T_COLON); ("EQUALS", T_EQUALS);
  ("QUOTATION_MARK", T_QUOTATION_MARK); ("APOSTROPHE", T_APOSTROPHE); ("SPACE", T_SPACE); ("SEMICOLON", T_SEMICOLON); ("AT", T_AT); ("PIPE", T_PIPE);
  ("EXCLAMATION", T_EXCLAMATION); ("CARET", T_CARET); ("ABSENT", T_ABSENT); ("ENCODED", T_ENCODED); ("INTEGER", T_INTEGER);
  ("RELATIVE_OID", T_RELATIVE_OID); ("ABSTRACT_SYNTAX", T_ABSTRACT_SYNTAX); ("END", T_END); ("INTERSECTION", T_INTERSECTION); ("SEQUENCE", T_SEQUENCE);
  ("ALL", T_ALL); ("ENUMERATED", T_ENUMERATED); ("ISO646String", T_ISO646String); ("SET", T_SET); ("APPLICATION", T_APPLICATION); ("EXCEPT", T_EXCEPT);
  ("MAX", T_MAX); ("SIZE", T_SIZE); ("AUTOMATIC", T_AUTOMATIC); ("EXPLICIT", T_EXPLICIT); ("MIN", T_MIN); ("STRING", T_STRING); ("BEGIN", T_BEGIN);
  ("EXPORTS", T_EXPORTS); ("MINUS_INFINITY", T_MINUS_INFINITY); ("SYNTAX", T_SYNTAX); ("BIT", T_BIT); ("EXTENSIBILITY", T_EXTENSIBILITY);
  ("NULL", T_NULL); ("T61String", T_T61String); ("BMPString", T_BMPString); ("EXTERNAL", T_EXTERNAL); ("NumericString", T_NumericString);
  ("TAGS", T_TAGS); ("BOOLEAN", T_BOOLEAN); ("FALSE", T_FALSE); ("OBJECT", T_OBJECT); ("TeletexString", T_TeletexString); ("BY", T_BY);
  ("FROM", T_FROM); ("ObjectDescriptor", T_ObjectDescriptor); ("TRUE", T_TRUE); ("CHARACTER", T_CHARACTER); ("GeneralizedTime", T_GeneralizedTime);
  ("OCTET", T_OCTET); ("TYPE_IDENTIFIER", T_TYPE_IDENTIFIER); ("CHOICE", T_CHOICE); ("GeneralString", T_GeneralString); ("OF", T_OF);
  ("UNION", T_UNION); ("CLASS", T_CLASS); ("GraphicString", T_GraphicString); ("OPTIONAL", T_OPTIONAL); ("UNIQUE", T_UNIQUE);
  ("COMPONENT", T_COMPONENT); ("IA5String", T_IA5String); ("PATTERN", T_PATTERN); ("UNIVERSAL", T_UNIVERSAL); ("COMPONENTS", T_COMPONENTS);
  ("IDENTIFIER", T_IDENTIFIER); ("PDV", T_PDV); ("UniversalString", T_UniversalString); ("CONSTRAINED", T_CONSTRAINED); ("IMPLICIT", T_IMPLICIT);
  ("PLUS_INFINITY", T_PLUS_INFINITY); ("UTCTime", T_UTCTime); ("CONTAINING", T_CONTAINING); ("IMPLIED", T_IMPLIED); ("PRESENT", T_PRESENT);
  ("UTF8String", T_UTF8String); ("DEFAULT", T_DEFAULT); ("IMPORTS", T_IMPORTS); ("PrintableString", T_PrintableString);
  ("VideotexString", T_VideotexString); ("DEFINITIONS", T_DEFINITIONS); ("INCLUDES", T_INCLUDES); ("PRIVATE", T_PRIVATE);
  ("VisibleString", T_VisibleString); ("EMBEDDED", T_EMBEDDED); ("INSTANCE", T_INSTANCE); ("REAL", T_REAL); ("WITH", T_WITH); ("ANY", T_ANY);
  ("DEFINED", T_DEFINED)]%string.

(** What messages call a token with the code [c]: its name; [$end] at the end of the
    text, and also for the error of the lexer; [$unk] for the codes that no token has. *)
Definition token_called (c : Z) : string :=
  match find (fun p => snd p =? c) token_names with
  | Some p => fst p
  | None => if c <=? 0 then "$end" else "$unk"
  end.

(** The end of a message that names the tokens [ks]. *)
Definition expecting (ks : list Z) : string :=
  match ks with
  | [] => ""
  | k :: r => ", expecting " ++ token_called k ++ fold_right (fun k s => " or " ++ token_called k ++ s) "" r
  end%string.

(** [ts] begins a module: something can be appended to it so that the grammar derives
    the result. *)
Definition begins_module (ts : list token) : Prop := exists ts' m, derives N_ModuleDefinition (ts ++ ts') (S_module m).

(** The states of the lexer of the text [s] between calls of Lex, as long as the parser
    has reported nothing. *)
Inductive scanned (U : unicode_tables) (s : string) : lexer stream -> Prop :=
| scanned_start : scanned U s (lexer_of s)
| scanned_call x v c v' x' : scanned U s x -> call U x v c v' x' -> scanned U s x'.

(** ** Facts *)

Lemma names_check : forallb (fun k => String.eqb (yyTokname (Z.of_nat k + 4)) (token_called (Z.of_nat k + 57346))) (seq 0 125) = true.
Proof. vm_compute. reflexivity. Qed.

Lemma names_range : forallb (fun p => (57346 <=? snd p) && (snd p <? 57471)) token_names = true.
Proof. vm_compute. reflexivity. Qed.

Lemma kind_name k : 4 <= k <= 128 -> yyTokname k = token_called (k + 57342).
Proof.
  intros H. pose proof names_check as C. rewrite forallb_forall in C. specialize (C (Z.to_nat (k - 4))). cbv beta in C.
  rewrite Z2Nat.id in C by lia. replace (k - 4 + 4) with k in C by lia. replace (k - 4 + 57346) with (k + 57342) in C by lia.
  apply String.eqb_eq, C, in_seq. lia.
Qed.

Lemma name_none c : ~ 57346 <= c < 57471 -> token_called c = (if c <=? 0 then "$end" else "$unk").
Proof.
  intros H. unfold token_called. destruct (find _ token_names) as [p|] eqn:E; [|reflexivity].
  apply find_some in E as [I E]. cbv beta in E. apply Z.eqb_eq in E. pose proof names_range as R. rewrite forallb_forall in R.
  specialize (R p I). cbv beta in R. apply andb_true_iff in R as [R1 R2]. apply Z.leb_le in R1. apply Z.ltb_lt in R2. lia.
Qed.

Lemma look_name c t : yytranslate c = Ok t -> c <= 0 \/ 57346 <= c -> yyTokname t = token_called c.
Proof.
  intros T C. destruct (Z_le_dec 57346 c) as [H|H]; [destruct (Z_lt_dec c 57471) as [H'|H']|].
  - assert (E : t = c - 57342).
    { unfold yytranslate in T. replace (c <=? 0) with false in T by (symmetry; apply Z.leb_gt; lia).
      destruct (translate_val c t) as [A|[A|A]]; try lia.
      - unfold yytranslate. replace (c <=? 0) with false by (symmetry; apply Z.leb_gt; lia). exact T.
      - exfalso. destruct A as [_ ->]. revert T. clear -H H'.
        replace (c <? Z.of_nat (length yyTok1)) with false by (symmetry; apply Z.ltb_ge; cbn; lia).
        replace ((yyPrivate <=? c) && (c <? yyPrivate + Z.of_nat (length yyTok2))) with true
          by (symmetry; apply andb_true_iff; split; [apply Z.leb_le|apply Z.ltb_lt]; unfold yyPrivate; cbn; lia).
        assert (G : forallb (fun k => match tab yyTok2 (Z.of_nat k + 57346 - yyPrivate) with Some v => 3 <? v | None => false end) (seq 0 125) = true)
          by (vm_compute; reflexivity).
        rewrite forallb_forall in G. specialize (G (Z.to_nat (c - 57346))). cbv beta in G. rewrite Z2Nat.id in G by lia.
        replace (c - 57346 + 57346) with c in G by lia. specialize (G ltac:(apply in_seq; lia)).
        destruct (tab yyTok2 (c - yyPrivate)) as [v|]; [|discriminate G]. apply Z.ltb_lt in G. cbn [rtab rbind].
        replace (v =? 0) with false by (symmetry; apply Z.eqb_neq; lia). intros T. injection T as T. lia. }
    subst t. rewrite kind_name by lia. f_equal. lia.
  - destruct (translate_val c t T) as [A|[A|[_ ->]]]; try lia. rewrite name_none by lia.
    replace (c <=? 0) with false by (symmetry; apply Z.leb_gt; lia). reflexivity.
  - destruct (translate_val c t T) as [[A ->]|[A|A]]; try lia. rewrite name_none by lia.
    replace (c <=? 0) with true by (symmetry; apply Z.leb_le; lia). reflexivity.
Qed.

Lemma expecting_eq l : Forall (fun k => 4 <= k <= 128) l -> expecting_text true l = expecting (map (fun k => k + 57342) l).
Proof.
  destruct l as [|k l]; [reflexivity|]. intros F. inversion F as [|? ? K F']; subst. cbn [expecting_text map expecting].
  rewrite (kind_name k K). do 2 f_equal. clear F K k. induction l as [|k l IH]; [reflexivity|].
  inversion F' as [|? ? K F]; subst. cbn [expecting_text map fold_right]. rewrite (kind_name k K), (IH F). reflexivity.
Qed.

Section Runs.
  Context (U : unicode_tables).

  Lemma call_st s x v c v' x' : scanned U s x -> call U x v c v' x' -> (c <= 0 \/ 57346 <= c) /\ (0 <= c -> lx_err x' = lx_err x).
  Proof.
    intros V C. assert (V' : visited U s x) by (clear -V; induction V; econstructor; eassumption).
    destruct (visited_st U s x V') as (e & n & co & S1 & _).
    destruct (call_next U x v _ _ _ _ S1) as (c1 & v1 & x1 & C1 & Q). destruct (call_det U _ _ _ _ _ _ _ _ C C1) as (<- & <- & <-).
    rewrite (st_err _ _ _ _ _ S1). destruct (next U n (unread x)); cbn [lexed] in Q.
    - destruct Q as (-> & _ & Q). split; [lia|]. intros _. exact (st_err _ _ _ _ _ Q).
    - destruct Q as (_ & Q0 & _ & Q). split; [lia|]. intros _. exact (st_err _ _ _ _ _ Q).
    - destruct Q as (-> & _). split; lia.
  Qed.

  Lemma scanned_visited s x : scanned U s x -> visited U s x.
  Proof. intros V. induction V; econstructor; eassumption. Qed.

  Lemma scanned_err s x e : scanned U s x -> lx_err x = Some e ->
    exists x0 v c v' x', scanned U s x0 /\ call U x0 v c v' x' /\ c < 0 /\ lx_err x' = Some e.
  Proof.
    intros V. induction V as [|x v c v' x' V IH C]; [discriminate|]. intros E.
    destruct (Z_lt_dec c 0) as [N|N]; [exists x, v, c, v', x'; auto|].
    apply IH. rewrite <- E. symmetry. apply (call_st s x v c v' x' V C). lia.
  Qed.

  (** The position of the lexer, and the message it makes there. *)
  Lemma Error_text s x m : visited U s x -> exists before, runes (bytes_of_string s) = before ++ unread x /\
    lx_err (Error x m) = Some ("line " ++ sprint_int (1 + breaks before) ++ ": " ++ m)%string.
  Proof.
    intros V. destruct (visited_st U s x V) as (e & n & co & S1 & E & _). exists co. split; [exact E|].
    pose proof (st_err _ _ _ _ _ (st_Error _ _ _ _ _ m S1)) as L. rewrite L. unfold located. rewrite E at 1. rewrite breaks_app.
    do 4 f_equal. lia.
  Qed.

  Lemma message_text s c t m l : yytranslate c = Ok t -> c <= 0 \/ 57346 <= c -> yyErrorMessage s t = Ok m ->
    Forall (fun k => 4 <= k <= 128) (named s) -> l = map (fun k => k + 57342) (named s) ->
    m = ("syntax error: unexpected " ++ token_called c ++ expecting l)%string.
  Proof.
    intros T C M F ->. rewrite (message_named _ _ _ M), (look_name c t T C), expecting_eq by exact F. reflexivity.
  Qed.

  (** The run of the parser that returned an error. *)
  Lemma parses_run s e : parses U s (ParseErr e) -> exists f c ps,
    yyParse (Lex stream_ops U f) Error f (lexer_of s) = Ok (c, ps) /\ lx_err (ps_lx ps) = Some e.
  Proof.
    intros [n H]. specialize (H n (le_n _)). unfold ParseString, ParseStream, ParseReader in H. fold (lexer_of s) in H.
    destruct (yyParse (Lex stream_ops U n) Error n (lexer_of s)) as [[c ps]| |] eqn:P; try discriminate H.
    cbn [rbind] in H. exists n, c, ps. split; [exact P|]. destruct (lx_err (ps_lx ps)) as [e'|]; [|discriminate H].
    now injection H as ->.
  Qed.

  Theorem error_named s e : parses U s (ParseErr e) ->
    exists x v c v' x', scanned U s x /\ call U x v c v' x' /\
      ((c < 0 /\ lx_err x' = Some e) \/
       exists before ks, runes (bytes_of_string s) = before ++ unread x' /\ (length ks <= 4)%nat /\
         e = ("line " ++ sprint_int (1 + breaks before) ++ ": syntax error: unexpected " ++ token_called c ++ expecting ks)%string).
  Proof.
    intros H. destruct (parses_run s e H) as (f & c0 & ps & P & LE).
    assert (VL : forall x v c v' x', scanned U s x -> Lex stream_ops U f x v = Ok (c, v', x') -> scanned U s x').
    { intros x v c v' x' V E. econstructor; [exact V|]. exact (Lex_call U _ _ _ _ _ _ E). }
    destruct (parse_announced (Lex stream_ops U f) Error (scanned U s) VL f (lexer_of s) c0 ps (scanned_start U s) P)
      as [V|(x & v & c & v' & x' & q & t & m & V & E & T & Hq & M & Q)].
    - destruct (scanned_err s _ e V LE) as (x & v & c & v' & x' & V1 & C & N & L). exists x, v, c, v', x'. auto.
    - pose proof (Lex_call U _ _ _ _ _ _ E) as C. exists x, v, c, v', x'. split; [exact V|]. split; [exact C|]. right.
      destruct (named_few q Hq) as [F L]. destruct (call_st s x v c v' x' V C) as [R _].
      destruct (Error_text s x' m (scanned_visited s x' (scanned_call U s x v c v' x' V C))) as (before & B & TX).
      exists before, (map (fun k => k + 57342) (named q)). split; [exact B|]. split; [now rewrite map_length|].
      rewrite Q, TX in LE. rewrite (message_text q c t m _ T R M F eq_refl) in LE.
      exact (f_equal (fun o => match o with Some a => a | None => e end) (eq_sym LE)).
  Qed.

  Lemma feed_reads s f ts x v : feed (Lex stream_ops U f) (lexer_of s) lexval0 ts x v -> reads U s ts v x.
  Proof.
    remember (lexer_of s) as x0 eqn:X. remember lexval0 as v0 eqn:W. intros F.
    induction F as [x0 v0|x0 v0 ts x v c v' x' F IH E C]; subst; [constructor|].
    eapply reads_token; [now apply IH|exact (Lex_call U _ _ _ _ _ _ E)|exact C].
  Qed.

  Lemma reads_scanned s ts v x : reads U s ts v x -> scanned U s x.
  Proof. intros R. induction R; econstructor; eassumption. Qed.

  Theorem error_viable s e : parses U s (ParseErr e) ->
    exists ts v x c v' x', begins_module ts /\ reads U s ts v x /\ call U x v c v' x' /\
      (c < 0 \/ (0 <= c /\ exists before ks, runes (bytes_of_string s) = before ++ unread x' /\ (length ks <= 4)%nat /\
         e = ("line " ++ sprint_int (1 + breaks before) ++ ": syntax error: unexpected " ++ token_called c ++ expecting ks)%string /\
         forall tok, In (tk_kind tok) ks -> begins_module (ts ++ [tok]))).
  Proof.
    intros H. destruct (parses_run s e H) as (f & c0 & ps & P & LE).
    assert (BM : forall ts, begins ts -> begins_module ts).
    { intros ts (ts' & m & D). exists ts', m. exact D. }
    destruct (parse_reported (Lex stream_ops U f) Error (lexer_of s) f c0 ps P)
      as [(ts & x & v & c & v' & x' & B & F & E & C)|[(x & v & v' & E & ts & F)|(ts & x & v & c & v' & x' & m & q & t & B & F & E & C & T & Hq & M & Q & X)]].
    - exists ts, v, x, c, v', x'. split; [now apply BM|]. split; [now apply (feed_reads s f)|]. split; [exact (Lex_call U _ _ _ _ _ _ E)|]. now left.
    - exfalso. apply feed_reads in F. destruct (reads_st U s ts v x F) as (n & _ & S1). pose proof (Lex_call U _ _ _ _ _ _ E) as K.
      destruct (call_st s x v _ _ _ (reads_scanned s ts v x F) K) as [_ L]. rewrite (L ltac:(lia)), (st_err _ _ _ _ _ S1) in LE. discriminate LE.
    - apply feed_reads in F. pose proof (Lex_call U _ _ _ _ _ _ E) as K. pose proof (reads_scanned s ts v x F) as V.
      exists ts, v, x, c, v', x'. split; [now apply BM|]. split; [exact F|]. split; [exact K|]. right. split; [exact C|].
      destruct (named_few q Hq) as [Fm L]. destruct (call_st s x v c v' x' V K) as [R _].
      destruct (Error_text s x' m (scanned_visited s x' (scanned_call U s x v c v' x' V K))) as (before & Bf & TX).
      exists before, (map (fun k => k + 57342) (named q)). split; [exact Bf|]. split; [now rewrite map_length|]. split.
      + rewrite Q, TX in LE. rewrite (message_text q c t m _ T R M Fm eq_refl) in LE.
        exact (f_equal (fun o => match o with Some a => a | None => e end) (eq_sym LE)).
      + intros tok I. apply in_map_iff in I as (k & K1 & K2). apply BM, (X k tok K2). lia.
  Qed.

  Lemma lexes_prefix n rs ts n' rest us : lexes U n rs ts n' rest -> tokens U n rs us -> exists post, us = ts ++ post /\ tokens U n' rest post.
  Proof.
    intros L. revert us. induction L as [n rs|n rs t n1 r1 ts n2 rest N L IH]; intros us T.
    - now exists us.
    - inversion T as [? ? N'|? ? t' n1' r1' us' N' T']; subst; rewrite N in N'; [discriminate N'|]. injection N' as <- <- <-.
      destruct (IH us' T') as (post & -> & P). now exists post.
  Qed.

  Theorem error_tokens s ts e : reads_all U s ts -> parses U s (ParseErr e) ->
    exists pre post line ks, ts = pre ++ post /\ begins_module pre /\ (length ks <= 4)%nat /\
      e = ("line " ++ sprint_int line ++ ": syntax error: unexpected " ++
           token_called (match post with [] => 0 | t :: _ => tk_kind t end) ++ expecting ks)%string /\
      forall tok, In (tk_kind tok) ks -> begins_module (pre ++ [tok]).
  Proof.
    intros A P. destruct (error_viable s e P) as (pre & v & x & c & v' & x' & B & R & C & Q). apply reads_all_tokens in A.
    destruct (reads_st U s pre v x R) as (n & L & S1). destruct (lexes_prefix _ _ _ _ _ _ L A) as (post & -> & T).
    destruct (call_next U x v _ _ _ _ S1) as (c1 & v1 & x1 & C1 & X). destruct (call_det U _ _ _ _ _ _ _ _ C C1) as (<- & <- & <-).
    assert (E : c = match post with [] => 0 | t :: _ => tk_kind t end /\ 0 <= c).
    { inversion T as [? ? N'|? ? t' n1' r1' us' N' T']; subst; rewrite N' in X; cbn [lexed] in X.
      - destruct X as (-> & _). split; [reflexivity|lia].
      - destruct X as (X1 & (X2 & _) & _). split; [exact X1|lia]. }
    destruct E as [E N]. destruct Q as [Q|(_ & before & ks & _ & K & EE & X2)]; [lia|].
    exists pre, post, (1 + breaks before), ks. split; [reflexivity|]. split; [exact B|]. split; [exact K|]. split; [|exact X2].
    rewrite <- E. exact EE.
  Qed.
End Runs.
