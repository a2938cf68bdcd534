(** Properties C41-C45, C49 and C79: the readers of hex dumps and times, the command
    line program and MarshalToFile.  The specification vocabulary (dump text, [denotes],
    [other_file], ...) is in the sections "Specification" of [WiresharkFacts.v],
    [WiresharkTimeFacts.v] and [CliFacts.v]. *)
From Coq Require Import ZArith String Ascii List Bool SpecFloat.
From Verif Require Import GoBase Unicode Reader Stream Ast Lexer Driver Parser GoAst Codegen
  Wireshark WiresharkFacts WiresharkTime WiresharkTimeFacts Cli CliFacts.
Import ListNotations.
Local Open Scope string_scope.
Local Open Scope Z_scope.

(** * C41: parsing a dump gives back its bytes *)

Theorem C41_wireshark_round_trip : forall lines,
  lines <> [] -> dump_ok lines ->
  ParseWiresharkHex (dump_text lines) = Ok (dump_bytes lines).
Proof. exact dump_parses. Qed.
Print Assumptions C41_wireshark_round_trip.

Definition c41_lines : list dump_line :=
  [ {| dl_offset := ""; dl_cols := []; dl_trail := 0 |};
    {| dl_offset := "0000";
       dl_cols := [ {| c_spaces := 2; c_upper := false; c_byte := 106 |};
                    {| c_spaces := 0; c_upper := true; c_byte := 173 |};
                    {| c_spaces := 0; c_upper := false; c_byte := 0 |} ]; dl_trail := 1 |};
    {| dl_offset := "0010"; dl_cols := [ {| c_spaces := 1; c_upper := false; c_byte := 255 |} ];
       dl_trail := 0 |} ].

Example C41_example :
  dump_ok c41_lines /\
  dump_text c41_lines = "
0000   6a AD 00 
0010  ff" /\
  ParseWiresharkHex (dump_text c41_lines) = Ok [106; 173; 0; 255].
Proof.
  split; [|split; reflexivity].
  repeat constructor; cbn; discriminate.
Qed.

(** * C42: only hexadecimal bytes are accepted *)

(** One or two hexadecimal digits. *)
Definition hex_column (w : string) : Prop :=
  exists ds ups, (length ds = 1 \/ length ds = 2)%nat /\ length ups = length ds /\
    Forall (fun d => 0 <= d < 16) ds /\
    w = string_of_list_ascii (map (fun '(u, d) => hex_char u d) (combine ups ds)).

(** False: a sign is accepted ("-1" is read as the byte 255). *)
Theorem C42_strict_refuted : exists lines bs w,
  lines <> [] /\
  Forall (fun l => l <> [] /\
    Forall (fun w => free_of sp w = true /\ free_of newline w = true) l) lines /\
  In w (flat_map line_words lines) /\ ~ hex_column w /\
  ParseWiresharkHex (join newline (map (join sp) lines)) = Ok bs.
Proof.
  exists [["0000"; "-1"]], [255], "-1".
  split; [discriminate|]. split; [repeat constructor; discriminate|].
  split; [now left|]. split; [|reflexivity].
  intros (ds & ups & _ & Hl & HF & E).
  destruct ds as [|d ds], ups as [|u ups]; try discriminate.
  inversion HF; subst. injection E as E _.
  pose proof (hex_digit_char u d) as F. rewrite <- E in F. discriminate F. assumption.
Qed.
Print Assumptions C42_strict_refuted.

(** What is true: the text is accepted exactly when every word after the first of
    its line is a (possibly signed) hexadecimal number in ParseInt's 9-bit range,
    and the bytes are those values modulo 256; otherwise the call panics.  Missing
    from C42: signs and leading zeros are accepted. *)
Theorem C42_accepts_exactly_partial : forall lines,
  lines <> [] ->
  Forall (fun l => l <> [] /\
    Forall (fun w => free_of sp w = true /\ free_of newline w = true) l) lines ->
  (forall bs, ParseWiresharkHex (join newline (map (join sp) lines)) = Ok bs <->
     exists vs, Forall2 denotes (flat_map line_words lines) vs /\
                bs = map (fun v => v mod 256) vs) /\
  (~ (exists vs, Forall2 denotes (flat_map line_words lines) vs) ->
   exists why, ParseWiresharkHex (join newline (map (join sp) lines)) = Panic why).
Proof.
  intros lines Hne HF. split; [intro bs; now apply wireshark_accepts|].
  intro Hn. destruct (ParseWiresharkHex (join newline (map (join sp) lines))) as [bs|why|] eqn:E.
  - apply wireshark_accepts in E as (vs & H & _); try assumption. exfalso. eauto.
  - eauto.
  - exfalso. exact (parse_lines_total _ E).
Qed.
Print Assumptions C42_accepts_exactly_partial.

(** Every text has the form the theorem speaks about. *)
Theorem C42_every_text_has_words : forall s, exists lines,
  s = join newline (map (join sp) lines) /\ lines <> [] /\
  Forall (fun l => l <> [] /\
    Forall (fun w => free_of sp w = true /\ free_of newline w = true) l) lines.
Proof. exact text_words. Qed.
Print Assumptions C42_every_text_has_words.

Example C42_example :
  ParseWiresharkHex "0000 6a zz" = Panic "strconv.ParseInt" /\
  ParseWiresharkHex "0000 6a 100" = Panic "strconv.ParseInt" /\
  ParseWiresharkHex "0000 6a 0ff" = Ok [106; 255] /\
  (exists vs, Forall2 denotes (flat_map line_words [["0000"; "6a"; "+f"]]) vs).
Proof.
  split; [reflexivity|]. split; [reflexivity|]. split; [reflexivity|].
  exists [106; 15]. cbn. repeat constructor; apply parse_int_denotes; reflexivity.
Qed.

(** * C79: reading a date and time *)

(** Every text YYYY-MM-DD hh:mm:ss that names a day of the calendar and a time of day
    is read as that instant: seconds since the first day of the year 1. *)
Theorem C79_reads : forall y m d n h mi s,
  day_number y m d n -> y <= 9999 -> clock h mi s ->
  ParseWiresharkTime (stamp y m d h mi s) = Ok (86400 * n + 3600 * h + 60 * mi + s, 0).
Proof.
  intros y m d n h mi s Hn Hy Hc. unfold ParseWiresharkTime.
  enough (E : parse_time (stamp y m d h mi s) = Some (86400 * n + 3600 * h + 60 * mi + s, 0))
    by now rewrite E.
  apply parse_time_exact. exists y, m, d, h, mi, s, n, O, (two h), "".
  split; [exact Hn|]. split; [exact Hy|]. split; [exact Hc|]. split; [constructor|]. split; [constructor|].
  split; [|reflexivity]. unfold stamp. now rewrite append_nil.
Qed.
Print Assumptions C79_reads.

(** That no other text is accepted is false: the hour may have one digit, there may be
    several spaces and a fraction of a second may follow. *)
Theorem C79_strict_refuted : exists text t,
  ParseWiresharkTime text = Ok t /\ forall y m d h mi s, text <> stamp y m d h mi s.
Proof.
  exists "2018-01-02   6:04:07.5", (63650469847, 500000000). split; [reflexivity|].
  intros y m d h mi s E. apply (f_equal String.length) in E. discriminate E.
Qed.
Print Assumptions C79_strict_refuted.

(** What is true: exactly the texts of this form are accepted, with this meaning; every
    other text makes the call panic.  Missing from C79: one-digit hours, further spaces
    and fractions are accepted, and a fraction of more than nine digits is misread. *)
Theorem C79_accepts_exactly_partial : forall text,
  (forall t ns, ParseWiresharkTime text = Ok (t, ns) <->
     exists y m d h mi s n k ht f,
       day_number y m d n /\ y <= 9999 /\ clock h mi s /\ hour_text h ht /\ fraction_text f ns /\
       text = four y ++ "-" ++ two m ++ "-" ++ two d ++ spaces (S k) ++ ht ++ ":" ++ two mi ++
              ":" ++ two s ++ f /\
       t = 86400 * n + 3600 * h + 60 * mi + s) /\
  ((forall t, ParseWiresharkTime text <> Ok t) -> exists why, ParseWiresharkTime text = Panic why).
Proof.
  intro text. split.
  - intros t ns. rewrite <- parse_time_exact. unfold ParseWiresharkTime.
    destruct (parse_time text) as [[t' ns']|]; split; intro E; try discriminate E; congruence.
  - intro H. unfold ParseWiresharkTime in *. destruct (parse_time text) as [t|]; [|eauto].
    destruct (H t eq_refl).
Qed.
Print Assumptions C79_accepts_exactly_partial.

(** The calendar of the specification: every day of a month of that length has a number,
    and only one. *)
Theorem C79_calendar : forall y m d,
  0 <= y ->
  ((exists n, day_number y m d n) <-> exists l, month_length y m l /\ 1 <= d <= l) /\
  (forall n n', day_number y m d n -> day_number y m d n' -> n = n').
Proof.
  intros y m d Hy. split; [split|].
  - intros [n H]. apply day_numbered in H as (_ & Hm & Hd & _).
    exists (days_in m y). split; [now apply days_month|exact Hd].
  - intros (l & L & Hd). apply month_days in L as (Hm & ->). eexists. now apply every_day.
  - intros n n' H H'. apply day_numbered in H as (_ & _ & _ & ->).
    now apply day_numbered in H' as (_ & _ & _ & ->).
Qed.
Print Assumptions C79_calendar.

(** The times of the Kerberos tests, rfc4120_test.go:82,109-110. *)
Example C79_example :
  (exists n, day_number 2018 1 3 n /\ clock 6 4 7 /\
     86400 * n + 3600 * 6 + 60 * 4 + 7 = 63650556247) /\
  stamp 2018 1 3 6 4 7 = "2018-01-03 06:04:07" /\
  ParseWiresharkTime "2018-01-03 06:04:07" = Ok (63650556247, 0) /\
  ParseWiresharkTime "2024-02-29 00:00:00" = Ok (63844761600, 0) /\
  ParseWiresharkTime "2023-02-29 00:00:00" = Panic "time.Parse" /\
  ParseWiresharkTime "2018-01-03 24:00:00" = Panic "time.Parse" /\
  ParseWiresharkTime "2018-01-03 6:04:07.25" = Ok (63650556247, 250000000).
Proof.
  split; [|repeat split; reflexivity].
  exists (day_of 2018 1 3). split; [|split; [|reflexivity]].
  - apply every_day; vm_compute; repeat split; discriminate.
  - unfold clock. repeat split; discriminate || reflexivity.
Qed.

(** * A concrete environment for the examples of C43-C45 *)

Definition ex_print (f : gofile) : string := "package " ++ gf_name f.

Definition ex_world : world := {|
  w_open_in := fun _ => None;
  w_open_out := fun _ => None;
  w_truncate := None;
  w_in_term := TEof;
  w_write := None;
  w_print := ex_print;
  w_gen_text := fun _ => "errors generating Go AST from module";
  w_stdin := stream_of_bytes []
|}.

(** Files "in" and "out", with the given contents. *)
Definition ex_fs (i o : string) : fsys := {|
  fs_inode := fun p => if String.eqb p "in" then Some 0%nat
                       else if String.eqb p "out" then Some 1%nat
                       else if String.eqb p "other" then Some 2%nat else None;
  fs_data := fun k => match k with 0%nat => i | 1%nat => o | _ => "precious" end;
  fs_next := 3%nat
|}.

Lemma ex_fs_ok : forall i o, fs_ok (ex_fs i o).
Proof.
  intros i o p k H. cbn in *.
  destruct (String.eqb p "in"); [injection H as <-; auto|].
  destruct (String.eqb p "out"); [injection H as <-; auto|].
  destruct (String.eqb p "other"); [injection H as <-; auto|discriminate].
Qed.

Definition ex_run (i o : string) (args : list string) : res proc :=
  asn1go_main ascii_tables (fun _ => "1") (fun s => s) ex_world 1000 "" "int64" args (ex_fs i o).

(** * C43: a failing run leaves the output file as it was *)

(** False: the output file is truncated before the input is parsed. *)
Theorem C43_output_intact_refuted :
  exists U fmt exotic w fuel pkg repr inn out fs p old,
    fs_ok fs /\ inn <> out /\
    asn1go_main U fmt exotic w fuel pkg repr [inn; out] fs = Ok p /\
    pr_exit p = 1 /\
    fs_get fs out = Some old /\ fs_get (pr_fs p) out <> Some old.
Proof.
  exists ascii_tables, (fun _ => "1"), (fun s => s), ex_world, 1000%nat, "", "int64", "in", "out",
    (ex_fs "not a module" "package good").
  eexists. exists "package good".
  split; [apply ex_fs_ok|]. split; [discriminate|].
  split; [vm_compute; reflexivity|]. split; [reflexivity|]. split; [reflexivity|].
  vm_compute. discriminate.
Qed.
Print Assumptions C43_output_intact_refuted.

(** What is true: no other file is ever changed, and if the input cannot be opened,
    the output cannot be opened, or an existing output cannot be truncated, the run
    fails and no existing file is changed.  Missing from C43: parse and generation
    errors. *)
Theorem C43_output_intact_partial : forall U fmt exotic w fuel pkg repr inn out fs,
  fs_ok fs -> inn <> "" -> out <> "" ->
  (forall p q, asn1go_main U fmt exotic w fuel pkg repr [inn; out] fs = Ok p ->
     other_file fs out q -> fs_get (pr_fs p) q = fs_get fs q) /\
  (w_open_in w inn <> None \/ fs_inode fs inn = None \/ w_open_out w out <> None \/
     (w_truncate w <> None /\ fs_inode fs out <> None) ->
   exists p, asn1go_main U fmt exotic w fuel pkg repr [inn; out] fs = Ok p /\
     pr_exit p = 1 /\ forall q, fs_get (pr_fs p) q = fs_get fs q).
Proof.
  intros U fmt exotic w fuel pkg repr inn out fs Hok Hinn Hout.
  split; [intros p q; now apply main_other_files|].
  intro Hc. unfold asn1go_main.
  cbn [parseArgs fl_inputName fl_outputName fl_packageName fl_defaultIntRepr].
  destruct (openChannels w inn out fs) as [[[i o] fs1]|[m fs1]] eqn:Eo.
  - exfalso. unfold openChannels in Eo.
    destruct (String.eqb_spec inn ""); [congruence|].
    destruct (String.eqb_spec out ""); [congruence|].
    destruct (w_open_in w inn); [discriminate|].
    destruct (fs_inode fs inn); [|discriminate].
    destruct (w_open_out w out); [discriminate|].
    destruct (fs_create fs out) as [j fs2].
    destruct (w_truncate w); [discriminate|].
    destruct Hc as [H|[H|[H|[H _]]]]; congruence.
  - eexists. split; [reflexivity|]. split; [reflexivity|]. cbn.
    unfold openChannels in Eo.
    destruct (String.eqb_spec inn ""); [congruence|].
    destruct (String.eqb_spec out ""); [congruence|].
    destruct (w_open_in w inn); [injection Eo as _ <-; reflexivity|].
    destruct (fs_inode fs inn); [|injection Eo as _ <-; reflexivity].
    destruct (w_open_out w out); [injection Eo as _ <-; reflexivity|].
    destruct Hc as [H|[H|[H|[H H']]]]; try congruence.
    unfold fs_create in Eo. destruct (fs_inode fs out); [|congruence].
    destruct (w_truncate w); [|discriminate]. injection Eo as _ <-. reflexivity.
Qed.
Print Assumptions C43_output_intact_partial.

Example C43_example :
  exists p, ex_run "not a module" "package good" ["in"; "out"] = Ok p /\
    pr_exit p = 1 /\ fs_get (pr_fs p) "out" = Some "" /\
    fs_get (pr_fs p) "other" = Some "precious" /\
    other_file (ex_fs "not a module" "package good") "out" "other".
Proof.
  eexists. split; [vm_compute; reflexivity|].
  split; [reflexivity|]. split; [reflexivity|]. split; [reflexivity|].
  split; [discriminate|]. intros (i & H1 & H2). cbn in *. congruence.
Qed.

(** * C44: a successful run writes exactly the generated code *)

(** With an output file: exit status 0 means that the input text (what the input
    file holds after the output was truncated, i.e. nothing if both are one file)
    was parsed to a module, that the generator produced a Go file for it, that the
    output file holds exactly its text, and that nothing else has changed. *)
Theorem C44_success_writes_output : forall U fmt exotic w fuel pkg repr inn out fs p,
  fs_ok fs -> inn <> "" -> out <> "" ->
  asn1go_main U fmt exotic w fuel pkg repr [inn; out] fs = Ok p -> pr_exit p = 0 ->
  (exists text m f,
     (~ same_file fs inn out -> fs_get fs inn = Some text) /\
     (same_file fs inn out -> text = "") /\
     ParseStream U fuel {| s_ev := map EvByte (bytes_of_string text);
                           s_term := w_in_term w; s_last := None |} = Ok (ParseOk (Some m)) /\
     Generate U fmt {| gp_Package := pkg; gp_IntegerRepr := repr |} fuel m = Ok (GenOk f) /\
     fs_get (pr_fs p) out = Some (w_print w f) /\
     pr_stdout p = "" /\ pr_stderr p = "") /\
  (forall q, other_file fs out q -> fs_get (pr_fs p) q = fs_get fs q).
Proof.
  intros U fmt exotic w fuel pkg repr inn out fs p Hok Hi Ho H Hex.
  split; [exact (main_two_args_success U fmt exotic w _ _ _ _ _ _ _ Hok Hi Ho H Hex)|].
  intros q Hq. exact (main_other_files U fmt exotic w _ _ _ _ _ _ _ _ Hok H Hq).
Qed.
Print Assumptions C44_success_writes_output.

(** Without an output file: the code goes to standard output and no file changes. *)
Theorem C44_success_writes_stdout : forall U fmt exotic w fuel pkg repr args fs p,
  fs_ok fs -> (args = [] \/ exists inn, inn <> "" /\ args = [inn]) ->
  asn1go_main U fmt exotic w fuel pkg repr args fs = Ok p -> pr_exit p = 0 ->
  exists m f,
    ParseStream U fuel
      (match args with
       | [] => w_stdin w
       | inn :: _ => {| s_ev := map EvByte (bytes_of_string
                                  (match fs_get fs inn with Some t => t | None => "" end));
                        s_term := w_in_term w; s_last := None |}
       end) = Ok (ParseOk (Some m)) /\
    Generate U fmt {| gp_Package := pkg; gp_IntegerRepr := repr |} fuel m = Ok (GenOk f) /\
    pr_stdout p = w_print w f /\ pr_stderr p = "" /\ pr_fs p = fs.
Proof. exact main_stdout_success. Qed.
Print Assumptions C44_success_writes_stdout.

Example C44_example :
  (exists p, ex_run "My-Mod DEFINITIONS ::= BEGIN A ::= INTEGER END" "old" ["in"; "out"] = Ok p /\
    pr_exit p = 0 /\ fs_get (pr_fs p) "out" = Some "package My_Mod") /\
  (exists p, ex_run "My-Mod DEFINITIONS ::= BEGIN A ::= INTEGER END" "old" ["in"] = Ok p /\
    pr_exit p = 0 /\ pr_stdout p = "package My_Mod" /\ fs_get (pr_fs p) "out" = Some "old").
Proof.
  split; (eexists; split; [vm_compute; reflexivity|]; repeat split; reflexivity).
Qed.

(** * C45: the error text is printed verbatim *)

(** False: the error text is used as a format string. *)
Theorem C45_error_verbatim_refuted :
  exists U fmt exotic w fuel pkg repr args fs p i o fs1 flags e,
    parseArgs pkg repr args = Some flags /\
    openChannels w (fl_inputName flags) (fl_outputName flags) fs = inl (i, o, fs1) /\
    ParseStream U fuel (inputStream w i fs1) = Ok (ParseErr e) /\
    asn1go_main U fmt exotic w fuel pkg repr args fs = Ok p /\
    pr_stderr p <> e ++ nl.
Proof.
  exists ascii_tables, (fun _ => "1"), (fun s => s), ex_world, 1000%nat, "", "int64", ["in"],
    (ex_fs "A DEFINITIONS ::= BEGIN % END" "").
  do 6 eexists.
  split; [reflexivity|]. split; [reflexivity|].
  split; [vm_compute; reflexivity|]. split; [vm_compute; reflexivity|].
  vm_compute. discriminate.
Qed.
Print Assumptions C45_error_verbatim_refuted.

(** What is true: verbatim if the text has no percent sign.  Missing from C45: texts
    with one. *)
Theorem C45_error_verbatim_partial :
  forall U fmt exotic w fuel pkg repr args fs p i o fs1 flags e,
    parseArgs pkg repr args = Some flags ->
    openChannels w (fl_inputName flags) (fl_outputName flags) fs = inl (i, o, fs1) ->
    ParseStream U fuel (inputStream w i fs1) = Ok (ParseErr e) ->
    asn1go_main U fmt exotic w fuel pkg repr args fs = Ok p ->
    no_percent e = true ->
    pr_exit p = 1 /\ pr_stderr p = e ++ nl.
Proof.
  intros U fmt exotic w fuel pkg repr args fs p i o fs1 flags e Ha Ho Hp H Hn.
  rewrite <- (sprintf0_no_percent exotic e Hn) at 1.
  exact (main_parse_error U fmt exotic w _ _ _ _ _ _ _ _ _ _ _ Ha Ho Hp H).
Qed.
Print Assumptions C45_error_verbatim_partial.

Example C45_example :
  (exists p, ex_run "A DEFINITIONS ::= BEGIN % END" "" ["in"] = Ok p /\
     pr_stderr p = "line 1: Unexpected character: %!(NOVERB)" ++ nl) /\
  (exists p, ex_run "A DEFINITIONS ::= BEGIN 1 END" "" ["in"] = Ok p /\
     no_percent "line 1: syntax error: unexpected NUMBER, expecting IMPORTS or END or VALUEIDENTIFIER or TYPEORMODULEREFERENCE" = true /\
     exists t, pr_stderr p = "line 1: syntax error: unexpected NUMBER" ++ t).
Proof.
  split; (eexists; split; [vm_compute; reflexivity|]).
  - reflexivity.
  - split; [reflexivity|]. eexists. reflexivity.
Qed.

(** * C49: MarshalToFile *)

(** No error is lost (marshalling, opening, writing, closing); without an error the
    file holds exactly the marshalled bytes; if marshalling fails nothing is touched;
    no other file is ever touched. *)
Theorem C49_marshal_to_file : forall marshalled open_err wr close_err path fs err fs',
  fs_ok fs ->
  MarshalToFile marshalled open_err wr close_err path fs = (err, fs') ->
  (forall e, marshalled = inr e -> err = Some e /\ fs' = fs) /\
  (err = None -> exists data, marshalled = inl data /\ fs_get fs' path = Some data) /\
  (err = None <-> (exists data, marshalled = inl data) /\ open_err = None /\ wr = None /\ close_err = None) /\
  (forall q, other_file fs path q -> fs_get fs' q = fs_get fs q).
Proof.
  intros marshalled oe wr ce path fs err fs' Hok H.
  destruct (marshal_spec _ _ _ _ _ _ _ _ Hok H) as (H1 & H2 & H3).
  split; [exact H1|]. split; [exact H2|]. split; [|exact H3]. clear H1 H2 H3.
  unfold MarshalToFile, WriteFile in H. destruct marshalled as [data|e].
  - destruct oe; [injection H as <- _; split; [discriminate|intros (_ & N & _); discriminate N]|].
    destruct (fs_create fs path) as [i fs1]. destruct wr as [[n e]|]; injection H as <- _.
    + split; [discriminate|]. intros (_ & _ & N & _). discriminate N.
    + split; [intros ->; eauto|]. intros (_ & _ & _ & N). exact N.
  - injection H as <- _. split; [discriminate|]. intros ((d & N) & _). discriminate N.
Qed.
Print Assumptions C49_marshal_to_file.

Example C49_example :
  fs_get (snd (MarshalToFile (inl "data") None None None "out" (ex_fs "a" "b"))) "out" = Some "data" /\
  fs_get (snd (MarshalToFile (inl "data") None None None "new" (ex_fs "a" "b"))) "new" = Some "data" /\
  fs_get (snd (MarshalToFile (inl "data") None (Some (2%nat, "disk full")) None "out" (ex_fs "a" "b"))) "out"
    = Some "da" /\
  fst (MarshalToFile (inl "data") None None (Some "disk full") "out" (ex_fs "a" "b")) = Some "disk full" /\
  MarshalToFile (inr "bad") None None None "out" (ex_fs "a" "b") = (Some "bad", ex_fs "a" "b").
Proof. repeat split; reflexivity. Qed.
