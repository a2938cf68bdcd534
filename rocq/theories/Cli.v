(** Model of cmd/asn1go/main.go, cmd/ws2bin/main.go, marshal.go and of ParseFile in
    parser.go.

    The file system maps paths to inode numbers and inode numbers to contents, so
    that two names of one file are visible.  Failures of the operating system and
    of the printer are parameters ([world]).  [asn1go_main] starts from the
    flag values and the remaining arguments; flag parsing (main.go:36-39) is in
    [Flags.v]. *)
From Coq Require Import ZArith String Ascii List Bool SpecFloat.
From Verif Require Import GoBase Unicode Reader Stream Ast Lexer Driver Parser GoAst Codegen Wireshark Bufio.
Import ListNotations.
Local Open Scope string_scope.

(** File system: names and contents. *)
Record fsys : Type := {
  fs_inode : string -> option nat;
  fs_data : nat -> string;
  fs_next : nat
}.

(** Contents of a file by name. *)
Definition fs_get (fs : fsys) (path : string) : option string :=
  option_map (fs_data fs) (fs_inode fs path).

(** Replace the contents of an inode. *)
Definition fs_put (fs : fsys) (i : nat) (data : string) : fsys :=
  {| fs_inode := fs_inode fs;
     fs_data := fun j => if Nat.eqb j i then data else fs_data fs j;
     fs_next := fs_next fs |}.

(** Inode of [path], created empty if it does not exist (O_CREATE). *)
Definition fs_create (fs : fsys) (path : string) : nat * fsys :=
  match fs_inode fs path with
  | Some i => (i, fs)
  | None =>
      let i := fs_next fs in
      (i, {| fs_inode := fun p => if String.eqb p path then Some i else fs_inode fs p;
             fs_data := fun j => if Nat.eqb j i then EmptyString else fs_data fs j;
             fs_next := S i |})
  end.

(** A write that may fail: [None] writes everything, [Some (n, e)] writes the
    first [n] bytes and reports [e]. *)
Definition write_outcome : Type := option (nat * string).

(** What the environment decides. *)
Record world : Type := {
  w_open_in : string -> option string;     (* os.Open error, main.go:57 *)
  w_open_out : string -> option string;    (* os.OpenFile error, main.go:63 *)
  w_truncate : option string;              (* Truncate error, main.go:67 *)
  w_in_term : terminal;                    (* how reading the input file ends *)
  w_write : write_outcome;                 (* writing the generated code *)
  w_print : gofile -> string;              (* go/printer *)
  w_gen_text : list gen_error -> string;   (* text of Generate's error *)
  w_stdin : stream
}.

(** State of a finished process. *)
Record proc : Type := {
  pr_exit : Z;
  pr_stdout : string;
  pr_stderr : string;
  pr_fs : fsys
}.

(** A newline. *)
Definition nl : string := String (ascii_of_nat 10) EmptyString.

(** The bytes that start something other than a plain verb in a format: flags,
    width, precision, argument index (fmt/print.go doPrintf). *)
Definition format_special (c : ascii) : bool :=
  existsb (Ascii.eqb c)
    ["#"; "0"; "+"; "-"; " "; "["; "*"; "."; "1"; "2"; "3"; "4"; "5"; "6"; "7"; "8"; "9"]%char
  || (128 <=? nat_of_ascii c)%nat.

(** fmt.Fprintf(w, format) without arguments (fmt/print.go doPrintf).  A '%'
    followed by a flag, width, precision, index or non-ASCII verb is left to
    [exotic]. *)
Fixpoint sprintf0 (exotic : string -> string) (f : string) : string :=
  match f with
  | EmptyString => EmptyString
  | String c f' =>
      if Ascii.eqb c "%" then
        match f' with
        | EmptyString => "%!(NOVERB)"
        | String v f'' =>
            if Ascii.eqb v "%" then String "%" (sprintf0 exotic f'')
            else if format_special v then exotic f
            else "%!" ++ String v ("(MISSING)" ++ sprintf0 exotic f'')
        end
      else String c (sprintf0 exotic f')
  end.

(** failWithError, main.go:29-33, with an already formatted message. *)
Definition failWith (msg : string) (out : string) (fs : fsys) : proc :=
  {| pr_exit := 1; pr_stdout := out; pr_stderr := msg ++ nl; pr_fs := fs |}.

(** usage, main.go:11-20 *)
Definition usage : string :=
  nl ++ "asn1go [[input] output]" ++ nl ++ nl
  ++ "Generates go file from input and writes to output." ++ nl
  ++ "If output is omitted, writes go file to stdout. " ++ nl
  ++ "If input is omitted as well, reads from stdin." ++ nl ++ nl
  ++ "Input should be an ASN.1 module file." ++ nl
  ++ "Output is a go file." ++ nl.

(** flagsType, main.go:22-27 *)
Record flagsType : Type := {
  fl_inputName : string;
  fl_outputName : string;
  fl_packageName : string;
  fl_defaultIntRepr : string
}.

(** The end of parseFlags, main.go:40-48: [None] is the usage failure. *)
Definition parseArgs (package intRepr : string) (args : list string) : option flagsType :=
  match args with
  | [] => Some {| fl_inputName := ""; fl_outputName := "";
                  fl_packageName := package; fl_defaultIntRepr := intRepr |}
  | [i] => Some {| fl_inputName := i; fl_outputName := "";
                   fl_packageName := package; fl_defaultIntRepr := intRepr |}
  | [i; o] => Some {| fl_inputName := i; fl_outputName := o;
                      fl_packageName := package; fl_defaultIntRepr := intRepr |}
  | _ => None
  end.

(** openChannels, main.go:52-72: the input inode ([None] is stdin), the output
    inode ([None] is stdout) and the file system; or the failure message. *)
Definition openChannels (w : world) (inputName outputName : string) (fs : fsys)
  : (option nat * option nat * fsys) + (string * fsys) :=
  let input :=
    if String.eqb inputName "" then inl None
    else
      match w_open_in w inputName, fs_inode fs inputName with
      | Some e, _ => inr ("Can't open " ++ inputName ++ " for reading: " ++ e)%string
      | None, None => inr ("Can't open " ++ inputName ++ " for reading: open " ++ inputName
                           ++ ": no such file or directory")%string
      | None, Some i => inl (Some i)
      end in
  match input with
  | inr msg => inr (msg, fs)
  | inl i =>
      if String.eqb outputName "" then inl (i, None, fs)
      else
        match w_open_out w outputName with
        | Some e => inr (("File " ++ inputName ++ " can not be written: " ++ e)%string, fs)
        | None =>
            let '(o, fs1) := fs_create fs outputName in
            match w_truncate w with
            | Some e => inr (("Failed to truncate file: " ++ e)%string, fs1)
            | None => inl (i, Some o, fs_put fs1 o "")
            end
        end
  end.

(** The input as the parser reads it, main.go:78. *)
Definition inputStream (w : world) (i : option nat) (fs : fsys) : stream :=
  match i with
  | None => w_stdin w
  | Some i =>
      {| s_ev := map EvByte (bytes_of_string (fs_data fs i));
         s_term := w_in_term w; s_last := None |}
  end.

(** First [n] bytes of a string. *)
Definition prefix_bytes (n : nat) (s : string) : string := substring 0 n s.

(** Writing [text] to the output: stdout text, file system, error. *)
Definition writeOutput (w : world) (o : option nat) (text : string) (fs : fsys)
  : string * fsys * option string :=
  let '(data, err) :=
    match w_write w with
    | None => (text, None)
    | Some (n, e) => (prefix_bytes n text, Some e)
    end in
  match o with
  | None => (data, fs, err)
  | Some i => ("", fs_put fs i data, err)
  end.

(** main, main.go:74-94.  [exotic] is as in [sprintf0]. *)
Definition asn1go_main (U : unicode_tables) (fmt_finite : spec_float -> string)
  (exotic : string -> string) (w : world) (fuel : nat)
  (package intRepr : string) (args : list string) (fs : fsys) : res proc :=
  match parseArgs package intRepr args with
  | None => Ok (failWith (sprintf0 exotic usage) "" fs)
  | Some flags =>
      match openChannels w (fl_inputName flags) (fl_outputName flags) fs with
      | inr (msg, fs1) => Ok (failWith msg "" fs1)
      | inl (i, o, fs1) =>
          do r <- ParseStream U fuel (inputStream w i fs1);
          match r with
          | ParseErr e => Ok (failWith (sprintf0 exotic e) "" fs1)
          | ParseOk None => Panic "nil pointer dereference"
          | ParseOk (Some m) =>
              do g <- Generate U fmt_finite
                        {| gp_Package := fl_packageName flags;
                           gp_IntegerRepr := fl_defaultIntRepr flags |} fuel m;
              match g with
              | GenErr l => Ok (failWith (sprintf0 exotic (w_gen_text w l)) "" fs1)
              | GenOk f =>
                  let '(out, fs2, err) := writeOutput w o (w_print w f) fs1 in
                  match err with
                  | Some e => Ok (failWith (sprintf0 exotic e) out fs2)
                  | None => Ok {| pr_exit := 0; pr_stdout := out; pr_stderr := ""; pr_fs := fs2 |}
                  end
              end
          end
      end
  end.

(** main of ws2bin, cmd/ws2bin/main.go:10-20; [input] is the outcome of
    ioutil.ReadAll(os.Stdin), output errors are ignored by the program. *)
Definition ws2bin_main (input : string + string) (fs : fsys) : res proc :=
  match input with
  | inr e => Ok {| pr_exit := 1; pr_stdout := ""; pr_stderr := "Failed to read: " ++ e; pr_fs := fs |}
  | inl s =>
      do bytes <- ParseWiresharkHex s;
      Ok {| pr_exit := 0; pr_stdout := string_of_bytes bytes; pr_stderr := ""; pr_fs := fs |}
  end.

(** ioutil.WriteFile: open with O_TRUNC, write, close; the returned error is the
    write's or else the close's. *)
Definition WriteFile (open_err : option string) (wr : write_outcome) (close_err : option string)
  (path data : string) (fs : fsys) : option string * fsys :=
  match open_err with
  | Some e => (Some e, fs)
  | None =>
      let '(i, fs1) := fs_create fs path in
      match wr with
      | Some (n, e) => (Some e, fs_put fs1 i (prefix_bytes n data))
      | None => (close_err, fs_put fs1 i data)
      end
  end.

(** MarshalToFile, marshal.go:9-19; [marshalled] is the outcome of asn1.Marshal. *)
Definition MarshalToFile (marshalled : string + string)
  (open_err : option string) (wr : write_outcome) (close_err : option string)
  (path : string) (fs : fsys) : option string * fsys :=
  match marshalled with
  | inr e => (Some e, fs)
  | inl data => WriteFile open_err wr close_err path data fs
  end.

(** Read of an open file (os.File.Read): [data] is what the file holds, the state is
    the offset.  At least one and at most len(p) = [k] bytes are delivered, [short]
    says how many more than one the operating system is willing to deliver at an
    offset; at the end of the data every call fails as [t] says. *)
Definition fileRead (t : terminal) (short : nat -> nat) (data : string) (k off : nat)
  : nat * (list Z * option rd_err) :=
  match skipn off (bytes_of_string data) with
  | [] => (off, ([], Some match t with TEof => EOF | TFail m => IOErr m end))
  | rest =>
      let bs := firstn (Nat.min k (S (short off))) rest in
      ((off + length bs)%nat, (bs, None))
  end.

(** ParseFile, parser.go:32-39.  The error of the deferred Close is dropped by the
    code and left out here. *)
Definition ParseFile (U : unicode_tables) (w : world) (short : nat -> nat) (fuel : nat)
  (name : string) (fs : fsys) : res parse_result :=
  match w_open_in w name, fs_get fs name with
  | Some e, _ => Ok (ParseErr e)
  | None, None => Ok (ParseErr ("open " ++ name ++ ": no such file or directory"))
  | None, Some data =>
      ParseReader (bufio_ops (fileRead (w_in_term w) short data)) U fuel (NewReader 0%nat)
  end.
