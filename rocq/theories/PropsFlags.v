(** Properties C60 to C62: the command line of asn1go and the messages about its
    files. *)
From Coq Require Import ZArith String Ascii List Bool Lia SpecFloat.
From Verif Require Import GoBase Unicode Reader Stream Ast Parser GoAst Codegen Cli CliFacts Flags PropsTools.
Import ListNotations.
Local Open Scope string_scope.
Local Open Scope list_scope.
Local Open Scope Z_scope.

(** ** Specification of command lines *)

Inductive flag_name : Type := FPackage | FRepr.

Definition flag_text (f : flag_name) : string :=
  match f with FPackage => "package" | FRepr => "default-integer-repr" end.

(** A setting of a flag: with one or two hyphens; the value after an equals sign or in
    the next argument. *)
Record setting : Type := {
  se_flag : flag_name;
  se_double : bool;
  se_joined : bool;
  se_value : string
}.

Definition setting_words (s : setting) : list string :=
  let name := ((if se_double s then "--" else "-") ++ flag_text (se_flag s))%string in
  if se_joined s then [(name ++ "=" ++ se_value s)%string] else [name; se_value s].

(** An argument that begins with a hyphen and does not only consist of it. *)
Definition flag_like (s : string) : Prop := exists c r, s = String "-" (String c r).

(** A command line: settings, then files; the files follow two hyphens, or the first of
    them is not like a flag. *)
Definition command (args : list string) (settings : list setting) (files : list string) : Prop :=
  args = flat_map setting_words settings ++ "--" :: files \/
  (args = flat_map setting_words settings ++ files /\ match files with [] => True | f :: _ => ~ flag_like f end).

Definition same_flag (a b : flag_name) : bool :=
  match a, b with FPackage, FPackage => true | FRepr, FRepr => true | _, _ => false end.

(** The last value a flag is set to. *)
Definition last_value (f : flag_name) (default : string) (settings : list setting) : string :=
  fold_left (fun v s => if same_flag f (se_flag s) then se_value s else v) settings default.

(** A request for help. *)
Definition help_word (s : string) : Prop :=
  exists d n x, (d = "-" \/ d = "--") /\ (n = "h" \/ n = "help") /\ (x = "" \/ exists v, x = "=" ++ v)%string /\
    s = (d ++ n ++ x)%string.

(** ** Facts *)

Lemma split_some : forall s n x, split_equals s = (n, Some x) -> s = (n ++ "=" ++ x)%string.
Proof.
  induction s as [|c s IH]; intros n x H; cbn [split_equals] in H; [discriminate H|].
  destruct (Ascii.eqb_spec c "=") as [->|_]; [injection H as <- <-; reflexivity|].
  destruct (split_equals s) as [n0 v0]. injection H as <- ->. cbn [append]. f_equal. now apply IH.
Qed.

Lemma split_none : forall s n, split_equals s = (n, None) -> s = n.
Proof.
  induction s as [|c s IH]; intros n H; cbn [split_equals] in H; [now injection H|].
  destruct (Ascii.eqb_spec c "=") as [->|_]; [discriminate H|].
  destruct (split_equals s) as [n0 v0]. injection H as <- ->. f_equal. now apply IH.
Qed.

Definition set_of (f : flag_name) (x : string) (v : flag_values) : flag_values :=
  match f with
  | FPackage => {| fv_package := x; fv_intRepr := fv_intRepr v |}
  | FRepr => {| fv_package := fv_package v; fv_intRepr := x |}
  end.

Lemma setter_name name set : flag_setter name = Some set -> exists f, name = flag_text f /\ forall x v, set x v = set_of f x v.
Proof.
  unfold flag_setter. destruct (String.eqb_spec name "package"); [intros H; injection H as <-; exists FPackage; auto|].
  destruct (String.eqb_spec name "default-integer-repr"); [intros H; injection H as <-; exists FRepr; auto|discriminate].
Qed.

Lemma parse_setting p v s args :
  flag_parse p v (setting_words s ++ args) = flag_parse p (set_of (se_flag s) (se_value s) v) args.
Proof. destruct s as [[|] [|] [|] x]; reflexivity. Qed.

Lemma parse_settings p args : forall ss v,
  flag_parse p v (flat_map setting_words ss ++ args) =
  flag_parse p (fold_left (fun v s => set_of (se_flag s) (se_value s) v) ss v) args.
Proof.
  induction ss as [|s ss IH]; intros v; [reflexivity|]. cbn [flat_map fold_left]. rewrite <- app_assoc, parse_setting. apply IH.
Qed.

Lemma fold_values : forall ss v,
  fold_left (fun v s => set_of (se_flag s) (se_value s) v) ss v =
  {| fv_package := last_value FPackage (fv_package v) ss; fv_intRepr := last_value FRepr (fv_intRepr v) ss |}.
Proof.
  induction ss as [|s ss IH]; intros v; [now destruct v|]. cbn [fold_left]. rewrite IH. unfold last_value. cbn [fold_left].
  destruct (se_flag s); reflexivity.
Qed.

Lemma parse_plain p v files : match files with [] => True | f :: _ => ~ flag_like f end -> flag_parse p v files = FlagOk v files.
Proof.
  destruct files as [|f files]; [reflexivity|]. intros H. cbn [flag_parse].
  destruct f as [|[[|] [|] [|] [|] [|] [|] [|] [|]] [|c r]]; try reflexivity. exfalso. apply H. now exists c, r.
Qed.

Lemma command_parses p args ss files : command args ss files ->
  flag_parse p flag_defaults args = FlagOk {| fv_package := last_value FPackage "" ss; fv_intRepr := last_value FRepr "int64" ss |} files.
Proof.
  intros [-> |[-> H]]; rewrite parse_settings, fold_values; [reflexivity|]. now apply parse_plain.
Qed.

Lemma command_cons s args ss files : command args ss files -> command (setting_words s ++ args) (s :: ss) files.
Proof.
  intros [-> |[-> H]]; [left|right; split; [|exact H]]; cbn [flat_map]; now rewrite app_assoc.
Qed.

(** What the parser does on any line. *)
Lemma parse_any p : forall n args v, (length args <= n)%nat ->
  (exists ss files, command args ss files) \/
  (exists msg, msg <> "" /\ flag_parse p v args = flag_fail p msg) \/
  (flag_parse p v args = FlagExit 0 (flag_usage p) /\ exists ss h rest, args = flat_map setting_words ss ++ h :: rest /\ help_word h).
Proof.
  assert (LIFT : forall s args v, 
    ((exists ss files, command args ss files) \/
     (exists msg, msg <> "" /\ flag_parse p (set_of (se_flag s) (se_value s) v) args = flag_fail p msg) \/
     (flag_parse p (set_of (se_flag s) (se_value s) v) args = FlagExit 0 (flag_usage p) /\
      exists ss h rest, args = flat_map setting_words ss ++ h :: rest /\ help_word h)) ->
    (exists ss files, command (setting_words s ++ args) ss files) \/
    (exists msg, msg <> "" /\ flag_parse p v (setting_words s ++ args) = flag_fail p msg) \/
    (flag_parse p v (setting_words s ++ args) = FlagExit 0 (flag_usage p) /\
      exists ss h rest, setting_words s ++ args = flat_map setting_words ss ++ h :: rest /\ help_word h)).
  { intros s args v. rewrite parse_setting. intros [(ss & files & C)|[C|(E & ss & h & rest & -> & H)]].
    - left. exists (s :: ss), files. now apply command_cons.
    - auto.
    - right. right. split; [exact E|]. exists (s :: ss), h, rest. cbn [flat_map]. now rewrite app_assoc. }
  induction n as [|n IH]; intros args v L.
  { destruct args; [|cbn in L; lia]. left. exists [], []. right. now split. }
  destruct args as [|s args]; [left; exists [], []; right; now split|]. cbn [length] in L.
  destruct (string_dec s "--") as [->|N2]; [left; exists [], args; now left|].
  assert (D : flag_like s \/ ~ flag_like s).
  { destruct s as [|a [|c r]]; [right; intros (? & ? & E); discriminate E..|].
    destruct (Ascii.eqb_spec a "-") as [->|N]; [left; now exists c, r|right; intros (? & ? & E); congruence]. }
  destruct D as [(c & r & ->)|D]; [|left; exists [], (s :: args); right; now split].
  assert (NAME : exists d name, (d = "-" \/ d = "--") /\ String "-" (String c r) = (d ++ name)%string /\
    name = (if Ascii.eqb c "-" then r else String c r)).
  { destruct (Ascii.eqb_spec c "-") as [->|_]; [exists "--", r|exists "-", (String c r)]; auto. }
  destruct NAME as (d & name & Dd & SN & EN).
  assert (CN : Ascii.eqb c "-" && String.eqb r "" = false).
  { destruct (Ascii.eqb_spec c "-") as [->|_]; [|reflexivity]. destruct (String.eqb_spec r "") as [->|_]; [congruence|reflexivity]. }
  assert (DB : d = if String.eqb d "--" then "--" else "-") by (destruct Dd as [-> | ->]; reflexivity).
  destruct name as [|c1 name'].
  { right. left. cbn [flag_parse]. rewrite CN. cbv zeta. rewrite <- EN. eexists. split; [|reflexivity]. discriminate. }
  destruct (Ascii.eqb c1 "-" || Ascii.eqb c1 "=") eqn:C1.
  { right. left. cbn [flag_parse]. rewrite CN. cbv zeta. rewrite <- EN, C1. eexists. split; [|reflexivity]. discriminate. }
  destruct (split_equals name') as [nm given] eqn:SP.
  destruct (flag_setter (String c1 nm)) as [set|] eqn:ST.
  - pose proof (setter_name _ _ ST) as (f & NF & _). destruct given as [x|].
    + apply split_some in SP.
      assert (W : String "-" (String c r) :: args = setting_words {| se_flag := f; se_double := String.eqb d "--"; se_joined := true; se_value := x |} ++ args).
      { unfold setting_words. cbn [se_flag se_double se_joined se_value app]. f_equal. rewrite SN, SP, <- DB, <- NF.
        destruct Dd as [-> | ->]; reflexivity. }
      rewrite W. apply LIFT, IH. lia.
    + destruct args as [|x args].
      { right. left. cbn [flag_parse]. rewrite CN. cbv zeta. rewrite <- EN, C1, SP, ST. eexists. split; [|reflexivity]. discriminate. }
      apply split_none in SP. cbn [length] in L.
      assert (W : String "-" (String c r) :: x :: args = setting_words {| se_flag := f; se_double := String.eqb d "--"; se_joined := false; se_value := x |} ++ args).
      { unfold setting_words. cbn [se_flag se_double se_joined se_value app]. f_equal. rewrite SN, SP, <- DB, <- NF. reflexivity. }
      rewrite W. apply LIFT, IH. lia.
  - destruct (String.eqb (String c1 nm) "help" || String.eqb (String c1 nm) "h") eqn:HP.
    + right. right. split; [cbn [flag_parse]; rewrite CN; cbv zeta; rewrite <- EN, C1, SP, ST, HP; reflexivity|].
      exists [], (String "-" (String c r)), args. split; [reflexivity|].
      exists d, (String c1 nm), (match given with Some x => "=" ++ x | None => "" end)%string.
      split; [exact Dd|]. split.
      { apply orb_true_iff in HP as [HP|HP]; apply String.eqb_eq in HP; auto. }
      rewrite SN. destruct given as [x|].
      * apply split_some in SP. subst name'. split; [eauto|]. destruct Dd as [-> | ->]; reflexivity.
      * apply split_none in SP. subst name'. split; [auto|].
        assert (NIL : forall a, (a ++ "")%string = a) by (induction a as [|? ? IHa]; cbn; [reflexivity|now rewrite IHa]).
        now rewrite NIL.
    + right. left. cbn [flag_parse]. rewrite CN. cbv zeta. rewrite <- EN, C1, SP, ST, HP. eexists. split; [|reflexivity]. discriminate.
Qed.

(** * C60: the command line *)

(** Settings before the files are obeyed in every form, the last one of a flag counts,
    and the defaults are no package and int64; the files are what follows. *)
Theorem C60_command_line : forall U fmt exotic w fuel program args settings files fs,
  command args settings files ->
  asn1go_process U fmt exotic w fuel (program :: args) fs =
  asn1go_main U fmt exotic w fuel (last_value FPackage "" settings) (last_value FRepr "int64" settings) files fs.
Proof.
  intros U fmt exotic w fuel program args settings files fs C. unfold asn1go_process. now rewrite (command_parses program args settings files C).
Qed.
Print Assumptions C60_command_line.

(** Every other command line ends the process without reading or touching a file; the
    status is 2 and the usage is printed after a message, except when help is asked
    for, which gives status 0. *)
Theorem C60_other_lines : forall U fmt exotic w fuel program args fs,
  ~ (exists settings files, command args settings files) ->
  exists p, asn1go_process U fmt exotic w fuel (program :: args) fs = Ok p /\
    pr_fs p = fs /\ pr_stdout p = "" /\
    ((pr_exit p = 2 /\ exists msg, msg <> "" /\ pr_stderr p = (msg ++ nl ++ flag_usage program)%string) \/
     (pr_exit p = 0 /\ pr_stderr p = flag_usage program /\
      exists settings h rest, args = flat_map setting_words settings ++ h :: rest /\ help_word h)).
Proof.
  intros U fmt exotic w fuel program args fs N. unfold asn1go_process.
  destruct (parse_any program (length args) args flag_defaults (le_n _)) as [C|[(msg & M & E)|(E & H)]]; [contradiction|..]; rewrite E; cbn [flag_fail].
  - eexists. split; [reflexivity|]. split; [reflexivity|]. split; [reflexivity|]. left. split; [reflexivity|]. now exists msg.
  - eexists. split; [reflexivity|]. split; [reflexivity|]. split; [reflexivity|]. right. split; [reflexivity|]. split; [reflexivity|exact H].
Qed.
Print Assumptions C60_other_lines.

Example C60_example :
  command ["-package"; "one"; "--default-integer-repr=big.Int"; "--package=two"; "in"; "out"]
    [ {| se_flag := FPackage; se_double := false; se_joined := false; se_value := "one" |};
      {| se_flag := FRepr; se_double := true; se_joined := true; se_value := "big.Int" |};
      {| se_flag := FPackage; se_double := true; se_joined := true; se_value := "two" |} ] ["in"; "out"] /\
  (exists p, asn1go_process ascii_tables (fun _ => "1") (fun s => s) ex_world 1000
     ["asn1go"; "-package"; "one"; "--default-integer-repr=big.Int"; "--package=two"; "in"; "out"]
     (ex_fs "My-Mod DEFINITIONS ::= BEGIN A ::= INTEGER END" "old") = Ok p /\
     pr_exit p = 0 /\ fs_get (pr_fs p) "out" = Some "package two") /\
  ~ (exists settings files, command ["-pkg=x"; "in"] settings files) /\
  (exists p, asn1go_process ascii_tables (fun _ => "1") (fun s => s) ex_world 1000 ["asn1go"; "-pkg=x"; "in"] (ex_fs "" "old") = Ok p /\
     pr_exit p = 2 /\ pr_stderr p = ("flag provided but not defined: -pkg" ++ nl ++ flag_usage "asn1go")%string).
Proof.
  split; [right; split; [reflexivity|intros (? & ? & E); discriminate E]|].
  split; [eexists; split; [vm_compute; reflexivity|]; split; reflexivity|].
  split; [|eexists; split; [vm_compute; reflexivity|]; split; reflexivity].
  intros (ss & files & C). pose proof (command_parses "asn1go" _ _ _ C) as E. discriminate E.
Qed.

(** * C61: flags and file names *)

(** False: a flag after a file name is taken as the name of the output file.  The flag
    is not obeyed, and the code is written to a file that has the flag as its name. *)
Theorem C61_flag_as_file_refuted : exists U fmt exotic w fuel program args fs p,
  In "-package=mine" args /\
  asn1go_process U fmt exotic w fuel (program :: args) fs = Ok p /\ pr_exit p = 0 /\
  fs_get fs "-package=mine" = None /\ fs_get (pr_fs p) "-package=mine" = Some "package My_Mod".
Proof.
  exists ascii_tables, (fun _ => "1"), (fun s => s), ex_world, 1000%nat, "asn1go", ["in"; "-package=mine"],
    (ex_fs "My-Mod DEFINITIONS ::= BEGIN A ::= INTEGER END" "old").
  eexists. split; [cbn; auto|]. split; [vm_compute; reflexivity|]. split; [reflexivity|]. split; reflexivity.
Qed.
Print Assumptions C61_flag_as_file_refuted.

(** What is true: without the argument of two hyphens, the first file name that is left
    for main (the input) is never like a flag.  Missing from C61: the second one. *)
Theorem C61_flag_as_file_partial : forall program v args v' f rest,
  flag_parse program v args = FlagOk v' (f :: rest) -> ~ In "--" args -> ~ flag_like f.
Proof.
  intros program v args v' f rest E N.
  destruct (parse_any program (length args) args v (le_n _)) as [(ss & files & C)|[(msg & _ & E')|(E' & _)]];
    [|rewrite E in E'; discriminate E'..].
  destruct C as [-> |[-> H]]; [exfalso; apply N, in_or_app; right; now left|].
  rewrite parse_settings, parse_plain in E by exact H. injection E as _ ->. exact H.
Qed.
Print Assumptions C61_flag_as_file_partial.

Example C61_example :
  flag_parse "asn1go" flag_defaults ["-package"; "-x"; "in"; "-y"] =
    FlagOk {| fv_package := "-x"; fv_intRepr := "int64" |} ["in"; "-y"] /\
  ~ In "--" ["-package"; "-x"; "in"; "-y"].
Proof. split; [reflexivity|]. cbn. intuition discriminate. Qed.

(** * C62: messages about files name the file *)

(** False: when the output file cannot be opened, the message names the input file. *)
Theorem C62_message_refuted : exists U fmt exotic w fuel program fs p,
  w_open_out w "out" = Some "permission denied" /\
  asn1go_process U fmt exotic w fuel [program; "in"; "out"] fs = Ok p /\
  pr_exit p = 1 /\ pr_stderr p = ("File in can not be written: permission denied" ++ nl)%string.
Proof.
  exists ascii_tables, (fun _ => "1"), (fun s => s),
    {| w_open_in := fun _ => None; w_open_out := fun _ => Some "permission denied"; w_truncate := None; w_in_term := TEof;
       w_write := None; w_print := ex_print; w_gen_text := fun _ => ""; w_stdin := stream_of_bytes [] |},
    1000%nat, "asn1go", (ex_fs "" "").
  eexists. split; [reflexivity|]. split; [vm_compute; reflexivity|]. split; reflexivity.
Qed.
Print Assumptions C62_message_refuted.

(** What is true: if the input cannot be opened, the process fails with a message that
    names it and ends with what the system reported; if the output cannot be opened, or
    truncated, the message ends with what the system reported. *)
Theorem C62_message_partial : forall U fmt exotic w fuel program args settings inn out fs,
  command args settings [inn; out] -> inn <> "" -> out <> "" ->
  (forall e, w_open_in w inn = Some e ->
     exists p, asn1go_process U fmt exotic w fuel (program :: args) fs = Ok p /\ pr_exit p = 1 /\ pr_fs p = fs /\
       pr_stderr p = ("Can't open " ++ inn ++ " for reading: " ++ e ++ nl)%string) /\
  (w_open_in w inn = None -> fs_get fs inn = None ->
     exists p, asn1go_process U fmt exotic w fuel (program :: args) fs = Ok p /\ pr_exit p = 1 /\ pr_fs p = fs /\
       pr_stderr p = ("Can't open " ++ inn ++ " for reading: open " ++ inn ++ ": no such file or directory" ++ nl)%string) /\
  (forall e, w_open_in w inn = None -> fs_get fs inn <> None ->
     w_open_out w out = Some e \/ (w_open_out w out = None /\ w_truncate w = Some e) ->
     exists p msg, asn1go_process U fmt exotic w fuel (program :: args) fs = Ok p /\ pr_exit p = 1 /\
       pr_stderr p = (msg ++ e ++ nl)%string).
Proof.
  intros U fmt exotic w fuel program args settings inn out fs C Ni No.
  assert (AA : forall a b c, ((a ++ b) ++ c = a ++ (b ++ c))%string) by (induction a as [|? ? IHa]; intros; cbn; [reflexivity|now rewrite IHa]).
  rewrite (C60_command_line U fmt exotic w fuel program args settings [inn; out] fs C).
  unfold asn1go_main. cbn [parseArgs fl_inputName fl_outputName fl_packageName fl_defaultIntRepr]. unfold openChannels, fs_get.
  destruct (String.eqb_spec inn ""); [contradiction|]. destruct (String.eqb_spec out ""); [contradiction|].
  split; [|split].
  - intros e ->. eexists. split; [reflexivity|]. split; [reflexivity|]. split; [reflexivity|]. cbn [failWith pr_stderr]. now rewrite !AA.
  - intros -> H. destruct (fs_inode fs inn); [discriminate H|]. eexists. split; [reflexivity|]. split; [reflexivity|]. split; [reflexivity|].
    cbn [failWith pr_stderr]. now rewrite !AA.
  - intros e -> H. destruct (fs_inode fs inn) as [i|]; [|now contradiction H]. intros [-> |[-> H2]].
    + eexists _, ("File " ++ inn ++ " can not be written: ")%string. split; [reflexivity|]. split; [reflexivity|].
      cbn [failWith pr_stderr]. now rewrite !AA.
    + destruct (fs_create fs out) as [o fs1]. rewrite H2. eexists _, "Failed to truncate file: ". split; [reflexivity|].
      split; [reflexivity|]. cbn [failWith pr_stderr]. now rewrite !AA.
Qed.
Print Assumptions C62_message_partial.

Example C62_example :
  command ["--"; "nowhere"; "out"] [] ["nowhere"; "out"] /\
  w_open_in ex_world "nowhere" = None /\ fs_get (ex_fs "" "") "nowhere" = None /\
  exists p, asn1go_process ascii_tables (fun _ => "1") (fun s => s) ex_world 1000 ["asn1go"; "--"; "nowhere"; "out"] (ex_fs "" "") = Ok p /\
    pr_stderr p = ("Can't open nowhere for reading: open nowhere: no such file or directory" ++ nl)%string.
Proof. split; [now left|]. split; [reflexivity|]. split; [reflexivity|]. eexists. split; [vm_compute; reflexivity|reflexivity]. Qed.

(** * C63: the exit status *)

Lemma nl_end a : (a ++ nl)%string <> "".
Proof. destruct a; discriminate. Qed.

(** The status is 0, 1 or 2.  It is 0 only if help was asked for, or the command line
    was proper and the whole code of the module read from the input is in the output:
    the file named second, or standard output.  Otherwise there is a message. *)
Theorem C63_exit_status : forall U fmt exotic w fuel program args fs p,
  fs_ok fs -> asn1go_process U fmt exotic w fuel (program :: args) fs = Ok p ->
  (pr_exit p = 0 \/ pr_exit p = 1 \/ pr_exit p = 2) /\
  (pr_exit p <> 0 -> pr_stderr p <> "") /\
  (pr_exit p = 0 ->
    (exists settings h rest, args = flat_map setting_words settings ++ h :: rest /\ help_word h) \/
    (exists settings files, command args settings files /\ (length files <= 2)%nat /\
       (~ In "" files -> exists input m f,
          ParseStream U fuel input = Ok (ParseOk (Some m)) /\
          Generate U fmt {| gp_Package := last_value FPackage "" settings; gp_IntegerRepr := last_value FRepr "int64" settings |} fuel m
            = Ok (GenOk f) /\
          pr_stderr p = "" /\
          match files with
          | [] => input = w_stdin w
          | inn :: rest => exists text,
              input = {| s_ev := map EvByte (bytes_of_string text); s_term := w_in_term w; s_last := None |} /\
              (~ (exists out, rest = [out] /\ same_file fs inn out) -> fs_get fs inn = Some text)
          end /\
          match files with
          | [_; out] => fs_get (pr_fs p) out = Some (w_print w f)
          | _ => pr_stdout p = w_print w f /\ pr_fs p = fs
          end))).
Proof.
  intros U fmt exotic w fuel program args fs p OK H.
  destruct (parse_any program (length args) args flag_defaults (le_n _)) as [(ss & files & C)|[(msg & M & E)|(E & Hh)]].
  2: { unfold asn1go_process in H. rewrite E in H. injection H as <-. cbn. split; [auto|]. split; [|discriminate]. intros _. destruct msg; [congruence|discriminate]. }
  2: { unfold asn1go_process in H. rewrite E in H. injection H as <-. cbn [pr_exit]. split; [auto|]. split; [congruence|]. intros _. left. exact Hh. }
  rewrite (C60_command_line U fmt exotic w fuel program args ss files fs C) in H.
  assert (G : (pr_exit p = 0 \/ pr_exit p = 1) /\ (pr_exit p <> 0 -> pr_stderr p <> "") /\ (pr_exit p = 0 -> (length files <= 2)%nat)).
  { unfold asn1go_main in H. destruct (parseArgs _ _ files) as [flags|] eqn:PA.
    2: { injection H as <-. cbn. split; [auto|]. split; [intros _; discriminate|discriminate]. }
    assert (LF : (length files <= 2)%nat) by (destruct files as [|a [|b [|c files]]]; cbn; try lia; discriminate PA).
    destruct (openChannels _ _ _ _) as [[[i o] fs1]|[m fs1]].
    2: { injection H as <-. cbn [pr_exit pr_stderr failWith]. split; [auto|]. split; [intros _; apply nl_end|discriminate]. }
    destruct (ParseStream _ _ _) as [[[m|]|e]| |]; cbn [rbind] in H; try discriminate H.
    2: { injection H as <-. cbn [pr_exit pr_stderr failWith]. split; [auto|]. split; [intros _; apply nl_end|discriminate]. }
    destruct (Generate _ _ _ _ _) as [[l|f]| |]; cbn [rbind] in H; try discriminate H.
    1: { injection H as <-. cbn [pr_exit pr_stderr failWith]. split; [auto|]. split; [intros _; apply nl_end|discriminate]. }
    destruct (writeOutput _ _ _ _) as [[out fs2] [e|]]; injection H as <-; cbn [pr_exit pr_stderr failWith].
    - split; [auto|]. split; [intros _; apply nl_end|discriminate].
    - split; [auto|]. split; [congruence|auto]. }
  destruct G as (G1 & G2 & G3). split; [tauto|]. split; [exact G2|]. intros Z0. right. exists ss, files. split; [exact C|]. split; [now apply G3|].
  intros NE. specialize (G3 Z0). destruct files as [|inn [|out [|x files]]]; cbn [length] in G3; [..|lia].
  - destruct (main_stdout_success U fmt exotic w fuel _ _ _ _ _ OK (or_introl eq_refl) H Z0) as (m & f & P & G & S1 & S2 & S3).
    exists (w_stdin w), m, f. auto 10.
  - assert (NI : [inn] = [] \/ exists i, i <> "" /\ [inn] = [i]).
    { right. exists inn. split; [|reflexivity]. intros ->. apply NE. now left. }
    destruct (main_stdout_success U fmt exotic w fuel _ _ _ _ _ OK NI H Z0) as (m & f & P & G & S1 & S2 & S3).
    eexists _, m, f. split; [exact P|]. split; [exact G|]. split; [exact S2|]. split; [|auto].
    eexists. split; [reflexivity|]. intros _. destruct (fs_get fs inn) as [t|] eqn:FG; [reflexivity|exfalso].
    unfold asn1go_main in H. cbn [parseArgs fl_inputName fl_outputName] in H. unfold openChannels in H.
    destruct (String.eqb_spec inn "") as [E|_]; [apply NE; left; exact E|]. unfold fs_get in FG.
    destruct (w_open_in w inn); [injection H as <-; discriminate Z0|]. destruct (fs_inode fs inn); [discriminate FG|injection H as <-; discriminate Z0].
  - assert (N1 : inn <> "") by (intros ->; apply NE; now left). assert (N2 : out <> "") by (intros ->; apply NE; right; now left).
    destruct (main_two_args_success U fmt exotic w _ _ _ _ _ _ _ OK N1 N2 H Z0) as (text & m & f & T1 & T2 & P & G & S1 & S2 & S3).
    eexists _, m, f. split; [exact P|]. split; [exact G|]. split; [exact S3|]. split; [|exact S1].
    exists text. split; [reflexivity|]. intros NS. apply T1. intros SF. apply NS. now exists out.
Qed.
Print Assumptions C63_exit_status.

Example C63_example :
  (exists p, asn1go_process ascii_tables (fun _ => "1") (fun s => s) ex_world 1000 ["asn1go"; "-package=x"; "in"]
     (ex_fs "M DEFINITIONS ::= BEGIN A ::= INTEGER END" "") = Ok p /\ pr_exit p = 0 /\ pr_stdout p = "package x") /\
  (exists p, asn1go_process ascii_tables (fun _ => "1") (fun s => s) ex_world 1000 ["asn1go"; "in"] (ex_fs "M" "") = Ok p /\ pr_exit p = 1) /\
  (exists p, asn1go_process ascii_tables (fun _ => "1") (fun s => s) ex_world 1000 ["asn1go"; "-package"] (ex_fs "M" "") = Ok p /\ pr_exit p = 2) /\
  (exists p, asn1go_process ascii_tables (fun _ => "1") (fun s => s) ex_world 1000 ["asn1go"; "--help"] (ex_fs "M" "") = Ok p /\ pr_exit p = 0).
Proof. repeat split; (eexists; split; [vm_compute; reflexivity|]; repeat split; reflexivity). Qed.
