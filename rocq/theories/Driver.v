(** Model of the goyacc driver: y.go:765-2243 (yyTokname, yyErrorMessage, yylex1,
    yyParserImpl.Parse).  Tables are in [Tables.v], actions in [Actions.v].

    The value stack is memory: actions take addresses of its slots.  A pointer is
    an array number and an index; when the stack grows the old array is kept (it
    is still reachable through such pointers) and a copy twice as long becomes the
    current one.  Each pointer also records, as ghost data that the code never
    reads, what it pointed to when it was made. *)
From Coq Require Import ZArith String List Bool.
From Verif Require Import GoBase Tokens Tables Ast Actions Lexer.
Import ListNotations.
Local Open Scope string_scope.
Local Open Scope Z_scope.

(** Pointer to a DefinedValue: a stack slot (y.go:1873, asn1.y rule 188) or a
    fresh variable (rules 194, 196), [None]. *)
Record ptrD : Type := {
  pd_loc : option (nat * nat);
  pd_snap : DefinedValue
}.

(** Pointer to a Value in a stack slot (y.go:1673, rule 152). *)
Record ptrV : Type := {
  pv_arr : nat;
  pv_idx : nat;
  pv_snap : value ptrD
}.

(** The value part of a stack slot. *)
Definition sym : Type := yySymType ptrV ptrD.

(** A stack slot: yySymType with its field yys. *)
Record slot : Type := {
  sl_yys : Z;
  sl_val : sym
}.

(** Zero value of a slot. *)
Definition slot_zero : slot := {| sl_yys := 0; sl_val := yy_zero |}.

(** Access to a table, [None] for an index out of range (a Go panic). *)
Definition tab (t : list Z) (i : Z) : option Z :=
  if i <? 0 then None else nth_error t (Z.to_nat i).

(** Continue with the value of an array access or panic. *)
Definition rtab {A} (o : option A) : res A :=
  match o with Some a => Ok a | None => Panic "index out of range" end.

(** yyTokname, y.go:767-774 *)
Definition yyTokname (c : Z) : string :=
  if (1 <=? c) && (c - 1 <? Z.of_nat (length yyToknames)) then
    let s := nth (Z.to_nat (c - 1)) yyToknames "" in
    if String.eqb s "" then "tok-" ++ sprint_int c else s
  else "tok-" ++ sprint_int c.

(** Collecting expected tokens, y.go:806-813: [Ok None] is the early return when a
    fifth token turns up; [acc] is in order. *)
Fixpoint expected_shifts (base : Z) (toks : list Z) (acc : list Z) : res (option (list Z)) :=
  match toks with
  | [] => Ok (Some acc)
  | tok :: toks' =>
      let n := base + tok in
      if (0 <=? n) && (n <? yyLast) then
        do a <- rtab (tab yyAct n);
        do c <- rtab (tab yyChk a);
        if c =? tok then
          if (length acc =? 4)%nat then Ok None
          else expected_shifts base toks' (acc ++ [tok])
        else expected_shifts base toks' acc
      else expected_shifts base toks' acc
  end.

(** Search of the exception table for the entry of [state]: y.go:817-819 and
    y.go:963-969; gives the index of the marker. *)
Fixpoint exca_find (fuel : nat) (i : Z) (state : Z) : res Z :=
  match fuel with
  | O => OutOfFuel
  | S f =>
      do a <- rtab (tab yyExca i);
      do b <- rtab (tab yyExca (i + 1));
      if (a =? -1) && (b =? state) then Ok i else exca_find f (i + 2) state
  end.

(** y.go:822-831: tokens that are accepted or reduced on; returns also the index
    of the end of the entry. *)
Fixpoint expected_exca (fuel : nat) (i : Z) (acc : list Z) : res (option (Z * list Z)) :=
  match fuel with
  | O => OutOfFuel
  | S f =>
      do a <- rtab (tab yyExca i);
      if a <? 0 then Ok (Some (i, acc))
      else
        do b <- rtab (tab yyExca (i + 1));
        if (a <? 4) || (b =? 0) then expected_exca f (i + 2) acc
        else if (length acc =? 4)%nat then Ok None
        else expected_exca f (i + 2) (acc ++ [a])
  end.

(** y.go:839-846: the text naming the expected tokens. *)
Fixpoint expecting_text (first : bool) (toks : list Z) : string :=
  match toks with
  | [] => ""
  | t :: toks' =>
      (if first then ", expecting " else " or ") ++ yyTokname t ++ expecting_text false toks'
  end.

(** The tokens TOKSTART = 4 .. len(yyToknames), y.go:806. *)
Definition candidate_tokens : list Z :=
  map (fun k => Z.of_nat k + 4) (seq 0 (length yyToknames - 3)).

(** yyErrorMessage, y.go:785-847, with yyErrorVerbose = true (parser.go:12) and the
    empty table yyErrorMessages (y.go:726-730). *)
Definition yyErrorMessage (state lookAhead : Z) : res string :=
  let msg := "syntax error: unexpected " ++ yyTokname lookAhead in
  do base <- rtab (tab yyPact state);
  do shifts <- expected_shifts base candidate_tokens [];
  match shifts with
  | None => Ok msg
  | Some expected =>
      do def <- rtab (tab yyDef state);
      if def =? -2 then
        do i <- exca_find (length yyExca) 0 state;
        do more <- expected_exca (length yyExca) (i + 2) expected;
        match more with
        | None => Ok msg
        | Some (j, expected') =>
            do d <- rtab (tab yyExca (j + 1));
            if d =? 0 then Ok (msg ++ expecting_text true expected') else Ok msg
        end
      else Ok (msg ++ expecting_text true expected)
  end.

(** yylex1 without the call of Lex: translation of the character code to the
    internal token number, y.go:850-881.  yyTok3 is {0}, so its loop (y.go:866-872)
    reads yyTok3[0] = 0, which is not the code, and then yyTok3[1] is not reached. *)
Definition yytranslate (char : Z) : res Z :=
  do token <-
    (if char <=? 0 then rtab (tab yyTok1 0)
     else if char <? Z.of_nat (length yyTok1) then rtab (tab yyTok1 char)
     else if (yyPrivate <=? char) && (char <? yyPrivate + Z.of_nat (length yyTok2)) then
       rtab (tab yyTok2 (char - yyPrivate))
     else Ok 0);
  if token =? 0 then rtab (tab yyTok2 1) else Ok token.

Section Driver.
  (** The lexer: Lex and Error of the interface yyLexer (y.go:740-743). *)
  Context {L : Type}.
  Context (lex_Lex : L -> lexval -> res (Z * lexval * L)).
  Context (lex_Error : L -> string -> L).

  (** Local variables of Parse (y.go:888-907) and the fields of yyParserImpl
      (y.go:750-754); [ps_old] are the arrays the stack has outgrown, [ps_S] is
      yyS.  Nerrs is only counted, never read, and is left out. *)
  Record pstate : Type := {
    ps_old : list (list slot);
    ps_S : list slot;
    ps_p : Z;
    ps_VAL : sym;
    ps_state : Z;
    ps_char : Z;
    ps_token : Z;
    ps_Errflag : Z;
    ps_lval : lexval;
    ps_lx : L;
    ps_result : option (ModuleDefinition ptrV ptrD)
  }.

  (** The labels of Parse. *)
  Inductive label : Type := Lyystack | Lyynewstate | Lyydefault.

  (** What a step does: go on at a label, or return. *)
  Inductive outcome : Type :=
  | Goto (l : label) (ps : pstate)
  | Return (code : Z) (ps : pstate).

  (** Update of the stack variables. *)
  Definition with_stack (ps : pstate) (old : list (list slot)) (yyS : list slot) (p : Z) : pstate :=
    {| ps_old := old; ps_S := yyS; ps_p := p; ps_VAL := ps_VAL ps; ps_state := ps_state ps;
       ps_char := ps_char ps; ps_token := ps_token ps; ps_Errflag := ps_Errflag ps;
       ps_lval := ps_lval ps; ps_lx := ps_lx ps; ps_result := ps_result ps |}.

  (** Update of the lookahead. *)
  Definition with_look (ps : pstate) (char token : Z) (lval : lexval) (lx : L) : pstate :=
    {| ps_old := ps_old ps; ps_S := ps_S ps; ps_p := ps_p ps; ps_VAL := ps_VAL ps;
       ps_state := ps_state ps; ps_char := char; ps_token := token;
       ps_Errflag := ps_Errflag ps; ps_lval := lval; ps_lx := lx; ps_result := ps_result ps |}.

  (** Update of yystate and Errflag. *)
  Definition with_state (ps : pstate) (state errflag : Z) : pstate :=
    {| ps_old := ps_old ps; ps_S := ps_S ps; ps_p := ps_p ps; ps_VAL := ps_VAL ps;
       ps_state := state; ps_char := ps_char ps; ps_token := ps_token ps;
       ps_Errflag := errflag; ps_lval := ps_lval ps; ps_lx := ps_lx ps;
       ps_result := ps_result ps |}.

  (** Update of yyVAL. *)
  Definition with_VAL (ps : pstate) (v : sym) : pstate :=
    {| ps_old := ps_old ps; ps_S := ps_S ps; ps_p := ps_p ps; ps_VAL := v;
       ps_state := ps_state ps; ps_char := ps_char ps; ps_token := ps_token ps;
       ps_Errflag := ps_Errflag ps; ps_lval := ps_lval ps; ps_lx := ps_lx ps;
       ps_result := ps_result ps |}.

  (** Update of lexer.result by the action of rule 1 (y.go:1066). *)
  Definition with_result (ps : pstate) (r : option (ModuleDefinition ptrV ptrD)) : pstate :=
    {| ps_old := ps_old ps; ps_S := ps_S ps; ps_p := ps_p ps; ps_VAL := ps_VAL ps;
       ps_state := ps_state ps; ps_char := ps_char ps; ps_token := ps_token ps;
       ps_Errflag := ps_Errflag ps; ps_lval := ps_lval ps; ps_lx := ps_lx ps;
       ps_result := match r with Some _ => r | None => ps_result ps end |}.

  (** Doubling the stack when index [i] is out of range, y.go:922-926, 1040-1044. *)
  Definition grow (old : list (list slot)) (yyS : list slot) (i : Z)
    : list (list slot) * list slot :=
    if i >=? Z.of_nat (length yyS) then
      (app old [yyS], app yyS (repeat slot_zero (length yyS)))
    else (old, yyS).

  (** yyS[i] = x, for an index in range. *)
  Fixpoint update {A} (l : list A) (i : nat) (x : A) : list A :=
    match l, i with
    | [], _ => []
    | _ :: l', O => x :: l'
    | y :: l', S i' => y :: update l' i' x
    end.

  (** yylex1, y.go:849-882. *)
  Definition yylex1 (ps : pstate) : res pstate :=
    do (char, lval, lx) <- lex_Lex (ps_lx ps) (ps_lval ps);
    do token <- yytranslate char;
    Ok (with_look ps char token lval lx).

  (** y.go:935-937 and 958-960: if yyrcvr.char < 0 { ... = yylex1(...) } *)
  Definition need_token (ps : pstate) : res pstate :=
    if ps_char ps <? 0 then yylex1 ps else Ok ps.

  (** The value the lexer left in yyrcvr.lval, as a stack value (y.go:946,
      "yyVAL = yyrcvr.lval"); the lexer writes only three fields and nothing else
      writes lval. *)
  Definition sym_of_lexval (v : lexval) : sym :=
    set_Number (set_numberRepr (set_name yy_zero (lv_name v)) (lv_numberRepr v)) (lv_Number v).

  (** Label yystack, y.go:915-928. *)
  Definition step_stack (ps : pstate) : res outcome :=
    let p := ps_p ps + 1 in
    let '(old, yyS) := grow (ps_old ps) (ps_S ps) p in
    if p <? 0 then Panic "index out of range"
    else
      let yyS' := update yyS (Z.to_nat p) {| sl_yys := ps_state ps; sl_val := ps_VAL ps |} in
      Ok (Goto Lyynewstate (with_stack ps old yyS' p)).

  (** Label yynewstate, y.go:930-952. *)
  Definition step_newstate (ps : pstate) : res outcome :=
    do n <- rtab (tab yyPact (ps_state ps));
    if n <=? yyFlag then Ok (Goto Lyydefault ps)
    else
      do ps1 <- need_token ps;
      let i := n + ps_token ps1 in
      if (i <? 0) || (i >=? yyLast) then Ok (Goto Lyydefault ps1)
      else
        do a <- rtab (tab yyAct i);
        do c <- rtab (tab yyChk a);
        if c =? ps_token ps1 then
          let ps2 := with_look ps1 (-1) (-1) (ps_lval ps1) (ps_lx ps1) in
          let ps3 := with_VAL ps2 (sym_of_lexval (ps_lval ps2)) in
          let e := ps_Errflag ps3 in
          Ok (Goto Lyystack (with_state ps3 a (if e >? 0 then e - 1 else e)))
        else Ok (Goto Lyydefault ps1).

  (** y.go:970-976: entry of the exception table for the lookahead. *)
  Fixpoint exca_lookup (fuel : nat) (i : Z) (token : Z) : res Z :=
    match fuel with
    | O => OutOfFuel
    | S f =>
        do a <- rtab (tab yyExca i);
        if (a <? 0) || (a =? token) then rtab (tab yyExca (i + 1))
        else exca_lookup f (i + 2) token
    end.

  (** The popping loop of error recovery, y.go:997-1013: [k] is yyp + 1.
      [Some] is a shift of the error token, [None] an empty stack. *)
  Fixpoint error_pop (k : nat) (yyS : list slot) : res (option (Z * Z)) :=
    match k with
    | O => Ok None
    | S k' =>
        do sl <- rtab (nth_error yyS k');
        do n0 <- rtab (tab yyPact (sl_yys sl));
        let n := n0 + yyErrCode in
        if (0 <=? n) && (n <? yyLast) then
          do st <- rtab (tab yyAct n);
          do c <- rtab (tab yyChk st);
          if c =? yyErrCode then Ok (Some (Z.of_nat k', st)) else error_pop k' yyS
        else error_pop k' yyS
    end.

  (** The error branch, y.go:981-1026. *)
  Definition step_error (ps : pstate) : res outcome :=
    let recover (ps : pstate) : res outcome :=
      do o <- error_pop (Z.to_nat (ps_p ps + 1)) (ps_S ps);
      match o with
      | Some (p, st) =>
          Ok (Goto Lyystack (with_state (with_stack ps (ps_old ps) (ps_S ps) p) st 3))
      | None => Ok (Return 1 (with_state (with_stack ps (ps_old ps) (ps_S ps) (-1)) (ps_state ps) 3))
      end in
    if ps_Errflag ps =? 0 then
      do m <- yyErrorMessage (ps_state ps) (ps_token ps);
      recover (with_look ps (ps_char ps) (ps_token ps) (ps_lval ps) (lex_Error (ps_lx ps) m))
    else if (ps_Errflag ps =? 1) || (ps_Errflag ps =? 2) then recover ps
    else if ps_token ps =? yyEofCode then Ok (Return 1 ps)
    else Ok (Goto Lyynewstate (with_look ps (-1) (-1) (ps_lval ps) (ps_lx ps))).

  (** yyS[i].sl_val for the slices yyDollar; an index outside gives the zero slot
      (the bounds are checked by the slice expression, see [step_reduce]). *)
  Definition slot_at (yyS : list slot) (i : Z) : slot :=
    nth (Z.to_nat i) yyS slot_zero.

  (** Reduction by production [n], y.go:1028-1059 and the switch.  The slice
      yyS[yypt-r : yypt+1] and the index yyS[yyp] panic under the same condition
      yypt - r < 0. *)
  Definition step_reduce (ps : pstate) (n : Z) : res outcome :=
    do r <- rtab (tab yyR2 n);
    let pt := ps_p ps in
    let p := pt - r in
    let '(old, yyS) := grow (ps_old ps) (ps_S ps) (p + 1) in
    if (p <? 0) || (pt >=? Z.of_nat (length yyS)) then Panic "index out of range"
    else
      let VAL := sl_val (slot_at yyS (p + 1)) in
      do lhs <- rtab (tab yyR1 n);
      do g <- rtab (tab yyPgo lhs);
      let j := g + sl_yys (slot_at yyS p) + 1 in
      do st <-
        (if j >=? yyLast then rtab (tab yyAct g)
         else
           do a <- rtab (tab yyAct j);
           do c <- rtab (tab yyChk a);
           if c =? - lhs then Ok a else rtab (tab yyAct g));
      do act <- rtab (nth_error
                        (actions
                           (fun k v => {| pv_arr := length old; pv_idx := (Z.to_nat p + k)%nat;
                                          pv_snap := v |})
                           (fun k d => {| pd_loc := Some (length old, (Z.to_nat p + k)%nat);
                                          pd_snap := d |})
                           (fun d => {| pd_loc := None; pd_snap := d |}))
                        (Z.to_nat n));
      let '(v, result) := act (fun k => sl_val (slot_at yyS (p + Z.of_nat k))) VAL in
      let ps1 := with_VAL (with_stack ps old yyS p) v in
      let ps2 := with_result ps1 result in
      Ok (Goto Lyystack (with_state ps2 st (ps_Errflag ps2))).

  (** Label yydefault, y.go:954-980. *)
  Definition step_default (ps : pstate) : res outcome :=
    do n <- rtab (tab yyDef (ps_state ps));
    if n =? -2 then
      do ps1 <- need_token ps;
      do i <- exca_find (length yyExca) 0 (ps_state ps1);
      do n1 <- exca_lookup (length yyExca) (i + 2) (ps_token ps1);
      if n1 <? 0 then Ok (Return 0 ps1)
      else if n1 =? 0 then step_error ps1
      else step_reduce ps1 n1
    else if n =? 0 then step_error ps
    else step_reduce ps n.

  (** One step at a label. *)
  Definition step (l : label) (ps : pstate) : res outcome :=
    match l with
    | Lyystack => step_stack ps
    | Lyynewstate => step_newstate ps
    | Lyydefault => step_default ps
    end.

  (** Running the goto program. *)
  Fixpoint run (fuel : nat) (l : label) (ps : pstate) : res (Z * pstate) :=
    match fuel with
    | O => OutOfFuel
    | S f =>
        do o <- step l ps;
        match o with
        | Goto l' ps' => run f l' ps'
        | Return c ps' => Ok (c, ps')
        end
    end.

  (** Initial state of Parse, y.go:888-907. *)
  Definition init (lx : L) : pstate := {|
    ps_old := [];
    ps_S := repeat slot_zero (yyInitialStackSize);
    ps_p := -1;
    ps_VAL := yy_zero;
    ps_state := 0;
    ps_char := -1;
    ps_token := -1;
    ps_Errflag := 0;
    ps_lval := lexval0;
    ps_lx := lx;
    ps_result := None
  |}.

  (** yyParse, y.go:884-886. *)
  Definition yyParse (fuel : nat) (lx : L) : res (Z * pstate) := run fuel Lyystack (init lx).

  (** Memory left behind by the parser: all arrays, the current one last. *)
  Definition arrays (ps : pstate) : list (list slot) := app (ps_old ps) [ps_S ps].
End Driver.
Arguments pstate : clear implicits.
Arguments outcome : clear implicits.

(** The slot a pointer refers to. *)
Definition mem_slot (mem : list (list slot)) (a i : nat) : slot :=
  nth i (nth a mem []) slot_zero.

(** Reading through a *DefinedValue. *)
Definition deref_D (mem : list (list slot)) (p : ptrD) : DefinedValue :=
  match pd_loc p with
  | None => pd_snap p
  | Some (a, i) => yy_DefinedValue (sl_val (mem_slot mem a i))
  end.

(** Reading through a *Value. *)
Definition deref_V (mem : list (list slot)) (p : ptrV) : Value :=
  value_map (deref_D mem) (yy_Value (sl_val (mem_slot mem (pv_arr p) (pv_idx p)))).

(** The tree as the caller of ParseStream sees it: pointers followed in the memory
    the parser left. *)
Definition resolve (mem : list (list slot)) (m : ModuleDefinition ptrV ptrD) : Module_ :=
  md_map (deref_V mem) (deref_D mem) m.
