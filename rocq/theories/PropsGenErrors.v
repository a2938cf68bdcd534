(** Property C78: what the error of Generate says. *)
From Coq Require Import ZArith String Ascii List Bool Lia SpecFloat.
From Verif Require Import GoBase Utf8 Unicode Tokens Ast Reader Stream Lexer Parser ParserFacts ParserRuns GoAst Codegen CodegenSpec CodegenFacts CodegenShape
  Cli CliFacts GenText ErrorSpec ErrorFacts PropsTools PropsCodegen.
Import ListNotations.
Local Open Scope string_scope.
Local Open Scope list_scope.
Local Open Scope Z_scope.

(** * C78: a failing Generate names all the problems of the module, and only them *)

(** [st] and [sv] are what fmt's %#v prints. *)
Theorem C78_message : forall st sv U fmt p fuel m l,
  Generate U fmt p fuel m = Ok (GenErr l) ->
  (md_TagDefault m = TAGS_AUTOMATIC /\ error_message st sv l = "AUTOMATIC tagged modules are not supported") \/
  (md_TagDefault m <> TAGS_AUTOMATIC /\
   exists lines, lines <> [] /\
     error_message st sv l = ("errors generating Go AST from module: " ++ nl
       ++ String.concat "" (map (fun x => "  " ++ x ++ nl) lines))%string /\
     forall x, In x lines <-> problem st sv (md_TagDefault m) (assignments m) (integer_repr p) x).
Proof.
  intros st sv U fmt p fuel m l H. destruct (Generate_no_automatic _ _ _ _ _ _ H) as [(E & ->)|(E & Hn & Ha)].
  - left. split; [assumption|reflexivity].
  - right. split; [assumption|]. exists (map (error_text st sv) l). split; [|split].
    + destruct l; [contradiction|discriminate].
    + transitivity (error_lines st sv ("errors generating Go AST from module: " ++ nl) l).
      * destruct l as [|e [|e' l]]; [contradiction| |destruct e; reflexivity].
        destruct e; try reflexivity. exfalso. apply Ha. now left.
      * apply error_lines_concat.
    + intro x. symmetry. exact (Generate_problems st sv _ _ _ _ _ _ H E x).
Qed.
Print Assumptions C78_message.

(** A module for which code is generated has no problem. *)
Theorem C78_no_problem : forall st sv U fmt p fuel m f,
  Generate U fmt p fuel m = Ok (GenOk f) ->
  forall x, ~ problem st sv (md_TagDefault m) (assignments m) (integer_repr p) x.
Proof.
  intros st sv U fmt p fuel m f H x Hx.
  assert (E : md_TagDefault m <> TAGS_AUTOMATIC) by (intro E; unfold Generate, GenerateWith in H; rewrite E in H; discriminate).
  now apply (Generate_problems _ _ _ _ _ _ _ _ H E) in Hx.
Qed.
Print Assumptions C78_no_problem.

Example C78_no_problem_example : exists m f,
  parses ascii_tables "M DEFINITIONS ::= BEGIN A ::= SEQUENCE { x B, y [1] OCTET STRING } B ::= CHOICE { p [1] A, q Gone } END" (ParseOk (Some m)) /\
  Generate ascii_tables (fun _ => "1") ex_params 10 m = Ok (GenOk f).
Proof.
  eexists _, _. split; [apply (ParseString_parses _ 1000); vm_compute; reflexivity|]. vm_compute. reflexivity.
Qed.

(** Six problems at once; the CHOICE is asked about its alternatives up to the first
    tagged one, so that Elsewhere is mentioned and Nowhere is not. *)
Definition c78_text : string :=
  "M DEFINITIONS ::= BEGIN A ::= SEQUENCE { x Missing, COMPONENTS OF B, y [num] INTEGER, z SET OF NULL } "
  ++ "B ::= CHOICE { p Elsewhere, q [1] INTEGER, r Nowhere } C ::= INTEGER { one(Other.uno) } END".

Definition c78_sharp : AType_ -> string := sharp_type_of (fun _ => "?").
Definition c78_sharp_value : Value -> string := sharp_value_of (fun s => s) (fun _ => "?").

Example C78_example : exists m l,
  parses ascii_tables c78_text (ParseOk (Some m)) /\ Generate ascii_tables (fun _ => "1") ex_params 10 m = Ok (GenErr l) /\
  error_message c78_sharp c78_sharp_value l =
    ("errors generating Go AST from module: " ++ nl
     ++ "  can not resolve TypeReference Missing" ++ nl
     ++ "  COMPONENTS OF is not supported" ++ nl
     ++ "  tag value should be Number, got asn1go.DefinedValue{ModuleName:""" ++ """, ValueName:""num""}" ++ nl
     ++ "  ignoring unsupported type asn1go.NullType{}" ++ nl
     ++ "  can not resolve TypeReference Elsewhere" ++ nl
     ++ "  Other.uno: value references from other modules are not supported" ++ nl)%string.
Proof.
  eexists _, _. split; [apply (ParseString_parses _ 1000); vm_compute; reflexivity|].
  split; [vm_compute; reflexivity|]. vm_compute. reflexivity.
Qed.

(** asn1go prints this text on stderr, and the exit status is 1, if the text has no
    percent sign (it is used as a format, as in C45). *)
Theorem C78_printed_partial : forall st sv U fmt exotic w fuel pkg repr args fs p i o fs1 flags m l,
  (forall l, w_gen_text w l = error_message st sv l) ->
  parseArgs pkg repr args = Some flags ->
  openChannels w (fl_inputName flags) (fl_outputName flags) fs = inl (i, o, fs1) ->
  ParseStream U fuel (inputStream w i fs1) = Ok (ParseOk (Some m)) ->
  Generate U fmt {| gp_Package := fl_packageName flags; gp_IntegerRepr := fl_defaultIntRepr flags |} fuel m = Ok (GenErr l) ->
  asn1go_main U fmt exotic w fuel pkg repr args fs = Ok p ->
  no_percent (error_message st sv l) = true ->
  pr_exit p = 1 /\ pr_stdout p = "" /\ pr_stderr p = (error_message st sv l ++ nl)%string.
Proof.
  intros st sv U fmt exotic w fuel pkg repr args fs p i o fs1 flags m l Hw Ha Ho Hp Hg H Hn.
  unfold asn1go_main in H. rewrite Ha, Ho, Hp in H. cbn [rbind] in H. rewrite Hg in H. cbn [rbind] in H.
  injection H as <-. cbn. rewrite Hw, (sprintf0_no_percent exotic _ Hn). auto.
Qed.
Print Assumptions C78_printed_partial.

Definition c78_world : world := {|
  w_open_in := fun _ => None; w_open_out := fun _ => None; w_truncate := None; w_in_term := TEof; w_write := None;
  w_print := ex_print; w_gen_text := error_message c78_sharp c78_sharp_value; w_stdin := stream_of_bytes [] |}.

(** With a percent sign it is not: asn1go -default-integer-repr=%d. *)
Theorem C78_printed_refuted : exists st sv U fmt exotic w fuel pkg repr args fs p i o fs1 flags m l,
  (forall l, w_gen_text w l = error_message st sv l) /\
  parseArgs pkg repr args = Some flags /\
  openChannels w (fl_inputName flags) (fl_outputName flags) fs = inl (i, o, fs1) /\
  ParseStream U fuel (inputStream w i fs1) = Ok (ParseOk (Some m)) /\
  Generate U fmt {| gp_Package := fl_packageName flags; gp_IntegerRepr := fl_defaultIntRepr flags |} fuel m = Ok (GenErr l) /\
  asn1go_main U fmt exotic w fuel pkg repr args fs = Ok p /\
  pr_stderr p <> (error_message st sv l ++ nl)%string.
Proof.
  exists c78_sharp, c78_sharp_value, ascii_tables, (fun _ => "1"), (fun s => s), c78_world, 1000%nat, "", "%d", ["in"],
    (ex_fs "M DEFINITIONS ::= BEGIN A ::= INTEGER END" "").
  do 7 eexists. split; [reflexivity|]. split; [reflexivity|]. split; [reflexivity|].
  split; [vm_compute; reflexivity|]. split; [vm_compute; reflexivity|]. split; [vm_compute; reflexivity|].
  vm_compute. discriminate.
Qed.
Print Assumptions C78_printed_refuted.

Example C78_printed_example : exists p,
  asn1go_main ascii_tables (fun _ => "1") (fun s => s) c78_world 1000 "" "int64" ["in"] (ex_fs "M DEFINITIONS ::= BEGIN A ::= B END" "") = Ok p /\
  pr_stderr p = ("errors generating Go AST from module: " ++ nl ++ "  can not resolve TypeReference B" ++ nl ++ nl)%string.
Proof. eexists. split; [vm_compute; reflexivity|]. reflexivity. Qed.
