(** Lexical structure as pure functions on lists of runes: what the tokens of a
    text are.  Specification for the lexer of [Lexer.v], which works on a stream of
    bytes with reads, unreads and peeks; that both agree is proved in [LexEq.v].

    Where the lexer deviates from X.680 the functions follow the lexer (comments,
    see [skip]); [PropsLexer.v] states the deviations. *)
From Coq Require Import ZArith String Ascii Bool List.
From Verif Require Import GoBase Utf8 Unicode Tokens Reserved Lexer Grammar.
Import ListNotations.
Local Open Scope string_scope.
Local Open Scope Z_scope.

(** The runes of a text: what ReadRune delivers (lexer.go:254). *)
Definition runes (bs : list Z) : list Z := map fst (decode_all bs).

(** The text of a sequence of runes (bytes.Buffer of lexer.go:346-374, 378-397). *)
Definition text (rs : list Z) : string := string_of_bytes (encode_all rs).

(** Number of line-break characters (lexer.go:255-257, 439-456). *)
Fixpoint breaks (rs : list Z) : Z :=
  match rs with
  | [] => 0
  | r :: rs' => (if isNewline r then 1 else 0) + breaks rs'
  end.

(** Where a scan over white space and comments is: outside comments, in a comment
    started by two hyphens ([hy]: the last rune was a hyphen), or in a block comment
    inside [depth] others ([slash], [star]: the last runes may start or end a
    comment). *)
Inductive mode : Type :=
| Plain
| Line (hy : bool)
| Block (depth : nat) (slash star : bool).

(** Skipping white space and comments (lexer.go:119-140, 300-343): the rest, and
    whether anything was skipped.  The second rune of an opening is only looked at,
    so it counts as the first rune of the comment. *)
Fixpoint skip (m : mode) (rs : list Z) : list Z * bool :=
  match rs with
  | [] => ([], match m with Plain => false | _ => true end)
  | r :: rs' =>
      match m with
      | Plain =>
          if isWhitespace r then (fst (skip Plain rs'), true)
          else if (r =? ch "-") && (hd 0 rs' =? ch "-") then (fst (skip (Line false) rs'), true)
          else if (r =? ch "/") && (hd 0 rs' =? ch "*") then (fst (skip (Block 0 false false) rs'), true)
          else (rs, false)
      | Line hy =>
          if isNewline r then (fst (skip Plain rs'), true)
          else if r =? ch "-" then
            if hy then (fst (skip Plain rs'), true) else (fst (skip (Line true) rs'), true)
          else (fst (skip (Line false) rs'), true)
      | Block depth slash star =>
          if r =? ch "/" then
            if star then
              match depth with
              | O => (fst (skip Plain rs'), true)
              | S d => (fst (skip (Block d false false) rs'), true)
              end
            else (fst (skip (Block depth true star) rs'), true)
          else if r =? ch "*" then
            if slash then (fst (skip (Block (S depth) false false) rs'), true)
            else (fst (skip (Block depth slash true) rs'), true)
          else (fst (skip (Block depth false false) rs'), true)
      end
  end.

(** One lexical item of a text: its end, a token (with the flag that it is a
    number, and the rest of the text), or an error. *)
Inductive item : Type :=
| End
| Tok (t : token) (number : bool) (rest : list Z)
| Bad (msg : string) (rest : list Z).

(** A token without text. *)
Definition plain_token (c : Z) : token := {| tk_kind := c; tk_name := ""; tk_number := 0 |}.

Section Spec.
  Context (U : unicode_tables).

  (** The word that starts with the runes [w], the last of which is [last]
      (lexer.go:345-375): all identifier characters; two adjacent hyphens and a
      hyphen at the end are errors. *)
  Fixpoint word_scan (w : list Z) (last : Z) (rs : list Z) : (string + list Z) * list Z :=
    match rs with
    | [] =>
        if last =? ch "-" then (inl ("token can not end on hyphen, got " ++ text w), [])
        else (inr w, [])
    | r :: rs' =>
        if isIdentifierChar U r then
          if (last =? ch "-") && (r =? ch "-") then
            (inl ("token can not contain two hyphens in a row, got " ++ text (w ++ [r])%list), rs')
          else word_scan (w ++ [r]) r rs'
        else if last =? ch "-" then (inl ("token can not end on hyphen, got " ++ text w), rs')
        else (inr w, rs)
    end.

  (** The digits that start with [w] (lexer.go:377-407). *)
  Fixpoint digits_scan (w : list Z) (rs : list Z) : list Z * list Z :=
    match rs with
    | r :: rs' => if is_digit U r then digits_scan (w ++ [r]) rs' else (w, rs)
    | [] => (w, [])
    end.

  (** Token of a word (lexer.go:154-163). *)
  Definition word_token (first : Z) (w : string) : token :=
    if is_upper U first then
      match assoc_word w RESERVED_WORDS with
      | Some code => plain_token code
      | None => {| tk_kind := T_TYPEORMODULEREFERENCE; tk_name := w; tk_number := 0 |}
      end
    else {| tk_kind := T_VALUEIDENTIFIER; tk_name := w; tk_number := 0 |}.

  (** Single symbols (lexer.go:191-239). *)
  Definition symbol_code (r : Z) : option Z :=
    assoc_word (text [r])
      [("{", T_OPEN_CURLY); ("}", T_CLOSE_CURLY); ("<", T_LESS); (">", T_GREATER); (",", T_COMMA);
       (".", T_DOT); ("(", T_OPEN_ROUND); (")", T_CLOSE_ROUND); ("[", T_OPEN_SQUARE);
       ("]", T_CLOSE_SQUARE); ("-", T_MINUS); (":", T_COLON); ("=", T_EQUALS);
       ("""", T_QUOTATION_MARK); ("'", T_APOSTROPHE); (" ", T_SPACE); (";", T_SEMICOLON);
       ("@", T_AT); ("|", T_PIPE); ("!", T_EXCLAMATION); ("^", T_CARET)].

  (** Does the text begin with these runes? *)
  Fixpoint starts (p rs : list Z) : bool :=
    match p, rs with
    | [], _ => true
    | a :: p', b :: rs' => (a =? b) && starts p' rs'
    | _ :: _, [] => false
    end.

  (** The token that starts with [r], followed by [rs] (lexer.go:141-188); [afternum]:
      a number ends right before it. *)
  Definition token_at (afternum : bool) (r : Z) (rs : list Z) : item :=
    if is_letter U r then
      if afternum && ((r =? ch "e") || (r =? ch "E")) then Tok (plain_token T_EXPONENT) false rs
      else
        match word_scan [r] r rs with
        | (inr w, rest) => Tok (word_token r (text w)) false rest
        | (inl msg, rest) => Bad msg rest
        end
    else if is_digit U r then
      let '(w, rest) := digits_scan [r] rs in
      match atoi (text w) with
      | AtoiOk n => Tok {| tk_kind := T_NUMBER; tk_name := text w; tk_number := n |} true rest
      | AtoiSyntax => Bad ("Failed to parse number: " ++ atoi_error_text (text w) false) rest
      | AtoiRange => Bad ("Failed to parse number: " ++ atoi_error_text (text w) true) rest
      end
    else if (r =? ch ":") && starts [ch ":"; ch "="] rs then Tok (plain_token T_ASSIGNMENT) false (skipn 2 rs)
    else if (r =? ch ".") && starts [ch "."; ch "."] rs then Tok (plain_token T_ELLIPSIS) false (skipn 2 rs)
    else if (r =? ch ".") && starts [ch "."] rs then Tok (plain_token T_RANGE_SEPARATOR) false (skipn 1 rs)
    else if (r =? ch "[") && starts [ch "["] rs then Tok (plain_token T_LEFT_VERSION_BRACKETS) false (skipn 1 rs)
    else if (r =? ch "]") && starts [ch "]"] rs then Tok (plain_token T_RIGHT_VERSION_BRACKETS) false (skipn 1 rs)
    else
      match symbol_code r with
      | Some c => Tok (plain_token c) false rs
      | None => Bad ("Unexpected character: " ++ text [r]) rs
      end.

  (** The next lexical item; [num]: a number ends right before the text. *)
  Definition next (num : bool) (rs : list Z) : item :=
    match skip Plain rs with
    | ([], _) => End
    | (r :: rs', skipped) => token_at (num && negb skipped) r rs'
    end.

  (** [tokens num rs ts]: the text [rs] consists of the tokens [ts], without lexical
      errors. *)
  Inductive tokens : bool -> list Z -> list token -> Prop :=
  | tokens_nil num rs : next num rs = End -> tokens num rs []
  | tokens_cons num rs t num' rest ts :
      next num rs = Tok t num' rest -> tokens num' rest ts -> tokens num rs (t :: ts).

  (** [lexes num rs ts num' rest]: the text [rs] begins with the tokens [ts]; [rest]
      is the text after them. *)
  Inductive lexes : bool -> list Z -> list token -> bool -> list Z -> Prop :=
  | lexes_nil num rs : lexes num rs [] num rs
  | lexes_cons num rs t num' rs' ts num'' rest :
      next num rs = Tok t num' rs' -> lexes num' rs' ts num'' rest ->
      lexes num rs (t :: ts) num'' rest.

  Lemma lexes_app a rs ts b rs' us c rest :
    lexes a rs ts b rs' -> lexes b rs' us c rest -> lexes a rs (ts ++ us) c rest.
  Proof. induction 1; intros; cbn; [assumption|]. econstructor; eauto. Qed.

  Lemma lexes_tokens a rs ts : tokens a rs ts <-> exists b rest, lexes a rs ts b rest /\ next b rest = End.
  Proof.
    split.
    - induction 1 as [num rs E|num rs t num' rest ts E T (b & r & H & Q)].
      + exists num, rs. split; [constructor|exact E].
      + exists b, r. split; [econstructor; eassumption|exact Q].
    - intros (b & rest & H & Q). induction H; econstructor; eauto.
  Qed.

  (** [lex_error num rs msg rest]: after some tokens comes the lexical error [msg];
      [rest] is the text after it. *)
  Inductive lex_error : bool -> list Z -> string -> list Z -> Prop :=
  | lex_error_here num rs msg rest : next num rs = Bad msg rest -> lex_error num rs msg rest
  | lex_error_later num rs t num' rs' msg rest :
      next num rs = Tok t num' rs' -> lex_error num' rs' msg rest -> lex_error num rs msg rest.
End Spec.
