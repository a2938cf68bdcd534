(** Model of lexer.go: the lexer [MyLexer], function by function.

    Every loop takes [fuel]; [OutOfFuel] means that the loop has not finished
    after that many iterations.  The lexer is parameterised by the reader
    operations ([Reader.v]) and by the Unicode tables. *)
From Coq Require Import ZArith String Ascii Bool List.
From Verif Require Import GoBase Utf8 Unicode Reader Tokens Reserved.
Import ListNotations.
Local Open Scope string_scope.
Local Open Scope Z_scope.

(** The fields of yySymType (y.go:14-74) that the lexer writes: [name],
    [numberRepr], [Number]. *)
Record lexval : Type := {
  lv_name : string;
  lv_numberRepr : string;
  lv_Number : Z
}.

(** Zero value of the fields above. *)
Definition lexval0 : lexval := {| lv_name := ""; lv_numberRepr := ""; lv_Number := 0 |}.

(** lval.name = s (lexer.go:159, 163). *)
Definition lv_set_name (v : lexval) (s : string) : lexval :=
  {| lv_name := s; lv_numberRepr := lv_numberRepr v; lv_Number := lv_Number v |}.

(** lval.numberRepr = repr; lval.Number = Number(i) (lexer.go:398-399). *)
Definition lv_set_number (v : lexval) (repr : string) (n : Z) : lexval :=
  {| lv_name := lv_name v; lv_numberRepr := repr; lv_Number := n |}.

(** isWhitespace, lexer.go:414-437 *)
Definition isWhitespace (r : Z) : bool :=
  (r =? 9) || (r =? 10) || (r =? 11) || (r =? 12) || (r =? 13) || (r =? 32).

(** isNewline, lexer.go:439-456 *)
Definition isNewline (r : Z) : bool :=
  (r =? 10) || (r =? 11) || (r =? 12) || (r =? 13).

(** map lookup RESERVED_WORDS[content], lexer.go:155 *)
Fixpoint assoc_word (w : string) (l : list (string * Z)) : option Z :=
  match l with
  | [] => None
  | (k, v) :: l' => if String.eqb w k then Some v else assoc_word w l'
  end.

(** The rune as text (fmt's %c, bytes.Buffer.WriteRune). *)
Definition string_of_rune (r : Z) : string := string_of_bytes (encode_rune r).

(** err.Error() of a read error (io.EOF is "EOF"). *)
Definition rd_err_text (e : rd_err) : string :=
  match e with EOF => "EOF" | IOErr m => m end.

(** Text of the error of strconv.Atoi on [repr] (strconv.NumError.Error; the
    quoting is plain because [repr] consists of digits, which are printable). *)
Definition atoi_error_text (repr : string) (range : bool) : string :=
  "strconv.Atoi: parsing " ++ String """" (repr ++ String """" "") ++ ": "
  ++ (if range then "value out of range" else "invalid syntax").

Section Lexer.
  Context {R : Type} (ops : reader_ops R) (U : unicode_tables).

  (** MyLexer, lexer.go:101-111 (the field [result] is part of the parser state
      in [Driver.v]). *)
  Record lexer : Type := {
    lx_rd : R;
    lx_err : option string;
    lx_lastWasNumber : bool;
    lx_lineNo : Z
  }.

  (** Field update bufReader. *)
  Definition with_rd (x : lexer) (r : R) : lexer :=
    {| lx_rd := r; lx_err := lx_err x; lx_lastWasNumber := lx_lastWasNumber x;
       lx_lineNo := lx_lineNo x |}.
  (** Field update lineNo. *)
  Definition with_lineNo (x : lexer) (n : Z) : lexer :=
    {| lx_rd := lx_rd x; lx_err := lx_err x; lx_lastWasNumber := lx_lastWasNumber x;
       lx_lineNo := n |}.
  (** Field update lastWasNumber. *)
  Definition with_lastWasNumber (x : lexer) (b : bool) : lexer :=
    {| lx_rd := lx_rd x; lx_err := lx_err x; lx_lastWasNumber := b;
       lx_lineNo := lx_lineNo x |}.

  (** MyLexer.Error, lexer.go:410-412 *)
  Definition Error (x : lexer) (e : string) : lexer :=
    {| lx_rd := lx_rd x;
       lx_err := Some ("line " ++ sprint_int (lx_lineNo x + 1) ++ ": " ++ e);
       lx_lastWasNumber := lx_lastWasNumber x;
       lx_lineNo := lx_lineNo x |}.

  (** bufReader.ReadRune used directly, lexer.go:293, 346, 378 *)
  Definition bufReadRune (x : lexer) : lexer * (Z * option rd_err) :=
    let '(r', out) := rd_rune ops (lx_rd x) in (with_rd x r', out).

  (** MyLexer.readRune, lexer.go:253-259 *)
  Definition readRune (x : lexer) : lexer * (Z * option rd_err) :=
    let '(x1, (r, e)) := bufReadRune x in
    ((if isNewline r then with_lineNo x1 (lx_lineNo x1 + 1) else x1), (r, e)).

  (** MyLexer.peekRuneE, lexer.go:292-298; the result of UnreadRune is ignored
      by the Go code (if it failed the rune would stay consumed). *)
  Definition peekRuneE (x : lexer) : lexer * (Z * option rd_err) :=
    let '(x1, (r, e)) := bufReadRune x in
    match e with
    | None =>
        match rd_unread ops (lx_rd x1) with
        | Some rd => (with_rd x1 rd, (r, e))
        | None => (x1, (r, e))
        end
    | Some _ => (x1, (r, e))
    end.

  (** MyLexer.peekRune, lexer.go:261-264 *)
  Definition peekRune (x : lexer) : lexer * Z :=
    let '(x1, (r, _)) := peekRuneE x in (x1, r).

  (** MyLexer.unreadRune, lexer.go:241-251; panics if UnreadRune fails. *)
  Definition unreadRune (x : lexer) : res lexer :=
    match rd_unread ops (lx_rd x) with
    | None => Panic "bufio: invalid use of UnreadRune"
    | Some rd =>
        let '(x1, r) := peekRune (with_rd x rd) in
        Ok (if isNewline r then with_lineNo x1 (lx_lineNo x1 - 1) else x1)
    end.

  (** MyLexer.discard, lexer.go:266-268 *)
  Definition discard (x : lexer) (n : nat) : lexer :=
    with_rd x (rd_discard ops n (lx_rd x)).

  (** Result of the inner loop of peekRunes (lexer.go:274-287). *)
  Inductive peek_inner : Type :=
  | PiBreak (r : Z) (size : nat)  (** a full rune was decoded *)
  | PiReturn                      (** EOF: return what has been accumulated *)
  | PiFallOut.                    (** all lengths tried *)

  (** Inner loop of peekRunes, lexer.go:274-287: [ls] are the remaining values
      of l.  The slice expression buf[pos : pos+l] panics beyond the capacity. *)
  Fixpoint peekInner (x : lexer) (pos : nat) (ls : list nat) : res (lexer * peek_inner) :=
    match ls with
    | [] => Ok (x, PiFallOut)
    | l :: ls' =>
        let '(rd, (buf, cap, e)) := rd_peek ops (pos + l) (lx_rd x) in
        let x1 := with_rd x rd in
        if (cap <? pos + l)%nat then Panic "slice bounds out of range"
        else
          let slice := firstn l (skipn pos buf) in
          if (pos + l <=? length buf)%nat && full_rune slice then
            let '(r, size) := decode_rune slice in Ok (x1, PiBreak r size)
          else
            match e with
            | Some EOF => Ok (x1, PiReturn)
            | _ => peekInner x1 pos ls'
            end
    end.

  (** MyLexer.peekRunes, lexer.go:270-290: outer loop; [acc] is the text
      accumulated so far. *)
  Fixpoint peekRunesLoop (fuel : nat) (x : lexer) (n : nat) (pos : nat) (acc : string)
    : res (lexer * string) :=
    match n with
    | O => Ok (x, acc)
    | S n' =>
        match fuel with
        | O => OutOfFuel
        | S f =>
            do (x1, o) <- peekInner x pos [1; 2; 3; 4]%nat;
            match o with
            | PiBreak r size => peekRunesLoop f x1 n' (pos + size)%nat (acc ++ string_of_rune r)
            | PiReturn => Ok (x1, acc)
            | PiFallOut => peekRunesLoop f x1 n pos acc
            end
        end
    end.

  (** MyLexer.peekRunes, lexer.go:270-290 *)
  Definition peekRunes (fuel : nat) (x : lexer) (n : nat) : res (lexer * string) :=
    peekRunesLoop fuel x n 0 "".

  (** MyLexer.skipLineComment, lexer.go:300-315 *)
  Fixpoint skipLineCommentLoop (fuel : nat) (x : lexer) (lastIsHyphen : bool) : res lexer :=
    match fuel with
    | O => OutOfFuel
    | S f =>
        let '(x1, (r, e)) := readRune x in
        if isNewline r || (match e with Some EOF => true | _ => false end) then Ok x1
        else if r =? ch "-" then
          if lastIsHyphen then Ok x1 else skipLineCommentLoop f x1 true
        else skipLineCommentLoop f x1 false
    end.

  (** lexer.go:301: lastIsHyphen := false *)
  Definition skipLineComment (fuel : nat) (x : lexer) : res lexer :=
    skipLineCommentLoop fuel x false.

  (** MyLexer.skipBlockComment, lexer.go:317-343; the recursive call on a nested
      comment is lexer.go:334. *)
  Fixpoint skipBlockCommentLoop (fuel : nat) (x : lexer) (lastIsOpeningSlash lastIsClosingStar : bool)
    : res lexer :=
    match fuel with
    | O => OutOfFuel
    | S f =>
        let '(x1, (r, e)) := readRune x in
        match e with
        | Some EOF => Ok x1
        | _ =>
            if r =? ch "/" then
              if lastIsClosingStar then Ok x1
              else skipBlockCommentLoop f x1 true lastIsClosingStar
            else if r =? ch "*" then
              if lastIsOpeningSlash then
                do x2 <- skipBlockCommentLoop f x1 false false;
                skipBlockCommentLoop f x2 false false
              else skipBlockCommentLoop f x1 lastIsOpeningSlash true
            else skipBlockCommentLoop f x1 false false
        end
    end.

  (** lexer.go:318-319 *)
  Definition skipBlockComment (fuel : nat) (x : lexer) : res lexer :=
    skipBlockCommentLoop fuel x false false.

  (** isIdentifierChar, lexer.go:458-460 *)
  Definition isIdentifierChar (r : Z) : bool :=
    is_letter U r || is_digit U r || (r =? ch "-").

  (** Does the (non-empty) Go string end with the byte '-'?  lexer.go:354 *)
  Fixpoint ends_with_hyphen (s : string) : bool :=
    match s with
    | EmptyString => false
    | String c EmptyString => Ascii.eqb c "-"
    | String _ s' => ends_with_hyphen s'
    end.

  (** Result of consumeWord: the word or the error text. *)
  Inductive word_result : Type :=
  | WordOk (w : string)
  | WordErr (e : string).

  (** Loop of consumeWord, lexer.go:350-374.  The test at lexer.go:362 for a
      read error is reached only when the failed read returned an identifier
      character, and lexer.go:365 never (the first condition covers it); both are
      kept. *)
  Fixpoint consumeWordLoop (fuel : nat) (x : lexer) (acc : string) (lastR : Z)
    : res (lexer * word_result) :=
    match fuel with
    | O => OutOfFuel
    | S f =>
        let '(x1, (r, e)) := readRune x in
        if (match e with Some EOF => true | _ => false end) || isWhitespace r
           || negb (isIdentifierChar r) then
          if ends_with_hyphen acc then
            Ok (x1, WordErr ("token can not end on hyphen, got " ++ acc))
          else
            match e with
            | None => do x2 <- unreadRune x1; Ok (x2, WordOk acc)
            | Some _ => Ok (x1, WordOk acc)
            end
        else
          match e with
          | Some er => Ok (x1, WordErr ("failed to read: " ++ rd_err_text er))
          | None =>
              let acc' := acc ++ string_of_rune r in
              if negb (isIdentifierChar r) then
                Ok (x1, WordErr ("expected valid identifier char, got '" ++ string_of_rune r
                                 ++ "' while reading '" ++ acc' ++ "'"))
              else if (lastR =? ch "-") && (r =? ch "-") then
                Ok (x1, WordErr ("token can not contain two hyphens in a row, got " ++ acc'))
              else consumeWordLoop f x1 acc' r
          end
    end.

  (** MyLexer.consumeWord, lexer.go:345-375 *)
  Definition consumeWord (fuel : nat) (x : lexer) : res (lexer * word_result) :=
    let '(x1, (r, _)) := bufReadRune x in
    consumeWordLoop fuel x1 (string_of_rune r) r.

  (** Loop of consumeNumber, lexer.go:385-406. *)
  Fixpoint consumeNumberLoop (fuel : nat) (x : lexer) (lval : lexval) (acc : string)
    : res (Z * lexval * lexer) :=
    match fuel with
    | O => OutOfFuel
    | S f =>
        let '(x1, (r, e)) := readRune x in
        if (match e with Some EOF => true | _ => false end) || negb (is_digit U r) then
          do x2 <- (match e with
                    | None => if negb (is_digit U r) then unreadRune x1 else Ok x1
                    | Some _ => Ok x1
                    end);
          match atoi acc with
          | AtoiOk i => Ok (T_NUMBER, lv_set_number lval acc i, x2)
          | AtoiSyntax =>
              Ok (-1, lval, Error x2 ("Failed to parse number: " ++ atoi_error_text acc false))
          | AtoiRange =>
              Ok (-1, lval, Error x2 ("Failed to parse number: " ++ atoi_error_text acc true))
          end
        else
          match e with
          | Some er => Ok (-1, lval, Error x1 ("Failed to read: " ++ rd_err_text er))
          | None => consumeNumberLoop f x1 lval (acc ++ string_of_rune r)
          end
    end.

  (** MyLexer.consumeNumber, lexer.go:377-407 *)
  Definition consumeNumber (fuel : nat) (x : lexer) (lval : lexval) : res (Z * lexval * lexer) :=
    let '(x1, (r, e)) := bufReadRune x in
    match e with
    | Some er => Ok (-1, lval, Error x1 (rd_err_text er))
    | None => consumeNumberLoop fuel x1 lval (string_of_rune r)
    end.

  (** MyLexer.consumeSingleSymbol, lexer.go:191-239 *)
  Definition consumeSingleSymbol (x : lexer) (r : Z) : Z * lexer :=
    if r =? ch "{" then (T_OPEN_CURLY, x)
    else if r =? ch "}" then (T_CLOSE_CURLY, x)
    else if r =? ch "<" then (T_LESS, x)
    else if r =? ch ">" then (T_GREATER, x)
    else if r =? ch "," then (T_COMMA, x)
    else if r =? ch "." then (T_DOT, x)
    else if r =? ch "(" then (T_OPEN_ROUND, x)
    else if r =? ch ")" then (T_CLOSE_ROUND, x)
    else if r =? ch "[" then (T_OPEN_SQUARE, x)
    else if r =? ch "]" then (T_CLOSE_SQUARE, x)
    else if r =? ch "-" then (T_MINUS, x)
    else if r =? ch ":" then (T_COLON, x)
    else if r =? ch "=" then (T_EQUALS, x)
    else if r =? ch """" then (T_QUOTATION_MARK, x)
    else if r =? ch "'" then (T_APOSTROPHE, x)
    else if r =? ch " " then (T_SPACE, x)
    else if r =? ch ";" then (T_SEMICOLON, x)
    else if r =? ch "@" then (T_AT, x)
    else if r =? ch "|" then (T_PIPE, x)
    else if r =? ch "!" then (T_EXCLAMATION, x)
    else if r =? ch "^" then (T_CARET, x)
    else (-1, Error x ("Unexpected character: " ++ string_of_rune r)).

  (** The part of Lex that starts a lexem with rune [r], lexer.go:141-188.
      The Go conditions [r == c && lex.peekRune() == d] evaluate the peek only if
      the first test holds. *)
  Definition lexToken (fuel : nat) (x : lexer) (lval : lexval) (lastWasNumber : bool) (r : Z)
    : res (Z * lexval * lexer) :=
    if is_letter U r then
      if lastWasNumber && ((r =? ch "e") || (r =? ch "E")) then Ok (T_EXPONENT, lval, x)
      else
        do x1 <- unreadRune x;
        do (x2, w) <- consumeWord fuel x1;
        match w with
        | WordErr e => Ok (-1, lval, Error x2 e)
        | WordOk content =>
            if is_upper U r then
              match assoc_word content RESERVED_WORDS with
              | Some code => Ok (code, lval, x2)
              | None => Ok (T_TYPEORMODULEREFERENCE, lv_set_name lval content, x2)
              end
            else Ok (T_VALUEIDENTIFIER, lv_set_name lval content, x2)
        end
    else if is_digit U r then
      do x1 <- unreadRune x;
      consumeNumber fuel (with_lastWasNumber x1 true) lval
    else
      do (x1, isAssign) <-
        (if r =? ch ":" then
           do (x', s) <- peekRunes fuel x 2; Ok (x', String.eqb s ":=")
         else Ok (x, false));
      if isAssign : bool then Ok (T_ASSIGNMENT, lval, discard x1 2)
      else
        do (x2, isEllipsis) <-
          (if r =? ch "." then
             do (x', s) <- peekRunes fuel x1 2; Ok (x', String.eqb s "..")
           else Ok (x1, false));
        if isEllipsis : bool then Ok (T_ELLIPSIS, lval, discard x2 2)
        else
          let '(x3, isRange) :=
            (if r =? ch "." then let '(x', c) := peekRune x2 in (x', c =? ch ".") else (x2, false)) in
          if isRange : bool then Ok (T_RANGE_SEPARATOR, lval, discard x3 1)
          else
            let '(x4, isLeft) :=
              (if r =? ch "[" then let '(x', c) := peekRune x3 in (x', c =? ch "[") else (x3, false)) in
            if isLeft : bool then Ok (T_LEFT_VERSION_BRACKETS, lval, discard x4 1)
            else
              let '(x5, isRight) :=
                (if r =? ch "]" then let '(x', c) := peekRune x4 in (x', c =? ch "]") else (x4, false)) in
              if isRight : bool then Ok (T_RIGHT_VERSION_BRACKETS, lval, discard x5 1)
              else
                let '(code, x6) := consumeSingleSymbol x5 r in Ok (code, lval, x6).

  (** Main loop of Lex, lexer.go:119-188. *)
  Fixpoint lexLoop (fuel : nat) (x : lexer) (lval : lexval) (lastWasNumber : bool)
    : res (Z * lexval * lexer) :=
    match fuel with
    | O => OutOfFuel
    | S f =>
        let '(x1, (r, e)) := readRune x in
        match e with
        | Some EOF => Ok (0, lval, x1)
        | Some er => Ok (-1, lval, Error x1 ("Failed to read: " ++ rd_err_text er))
        | None =>
            if isWhitespace r then lexLoop f x1 lval false
            else
              let '(x2, isLine) :=
                (if r =? ch "-" then let '(x', c) := peekRune x1 in (x', c =? ch "-") else (x1, false)) in
              if isLine : bool then
                do x3 <- skipLineComment fuel x2; lexLoop f x3 lval false
              else
                let '(x4, isBlock) :=
                  (if r =? ch "/" then let '(x', c) := peekRune x2 in (x', c =? ch "*") else (x2, false)) in
                if isBlock : bool then
                  do x5 <- skipBlockComment fuel x4; lexLoop f x5 lval false
                else lexToken fuel x4 lval lastWasNumber r
        end
    end.

  (** MyLexer.Lex, lexer.go:116-189.  Returns the token code, the updated lval
      and the lexer. *)
  Definition Lex (fuel : nat) (x : lexer) (lval : lexval) : res (Z * lexval * lexer) :=
    lexLoop fuel (with_lastWasNumber x false) lval (lx_lastWasNumber x).

  (** &MyLexer{} with its reader, parser.go:22-23. *)
  Definition new_lexer (r : R) : lexer :=
    {| lx_rd := r; lx_err := None; lx_lastWasNumber := false; lx_lineNo := 0 |}.
End Lexer.
Arguments lexer : clear implicits.
