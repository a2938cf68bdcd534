(** Properties C18, C54 and C55: ParseStream over an arbitrary io.Reader and ParseFile.  What a reader
    delivers ([delivers]) is defined in the first section of [BufioSim.v]; the buffered
    reader itself is in [Bufio.v]. *)
From Coq Require Import ZArith String Ascii Bool List Lia.
From Verif Require Import GoBase Utf8 Unicode Reader Stream Tokens Ast Lexer Driver Parser
  LexErr LexTotal LexSpec LexEq LexRuns ParserFacts ParserRuns Bufio LexSim BufioSim Cli.
Import ListNotations.
Local Open Scope string_scope.
Local Open Scope list_scope.
Local Open Scope Z_scope.

(** ParseStream on the reader [Read] in state [s] returns [r]. *)
Definition stream_parses {S} (Read : nat -> S -> S * (list Z * option rd_err)) (U : unicode_tables) (s : S) (r : parse_result) : Prop :=
  exists n, forall fuel, (n <= fuel)%nat -> ParseReader (bufio_ops Read) U fuel (NewReader s) = Ok r.

Lemma stream_parses_det {S} (Read : nat -> S -> S * (list Z * option rd_err)) U s a b :
  stream_parses Read U s a -> stream_parses Read U s b -> a = b.
Proof.
  intros (n & A) (m & B). specialize (A (n + m)%nat ltac:(lia)). specialize (B (n + m)%nat ltac:(lia)). congruence.
Qed.

(** * C18: chunks *)

(** Whatever the sizes of the reads, wherever the boundaries of the buffer fall. *)
Theorem C18_chunks : forall S (Read : nat -> S -> S * (list Z * option rd_err)) U s text r,
  delivers Read TEof 99 s (map EvByte (bytes_of_string text)) ->
  (stream_parses Read U s r <-> parses U text r).
Proof.
  intros S Read U s text r D.
  assert (F : forall r0, parses U text r0 -> stream_parses Read U s r0).
  { intros r0 (n & H). exists n. intros fuel L. apply (bufio_parses Read TEof U fuel s _ r0 D). exact (H fuel L). }
  split; [|apply F]. intros H. destruct (parses_total U text) as (r1 & H1).
  now rewrite (stream_parses_det Read U s r r1 H (F r1 H1)).
Qed.
Print Assumptions C18_chunks.

(** The same with read errors among the bytes: the result is that of the abstract
    stream, on which the other properties are stated. *)
Theorem C18_stream : forall S (Read : nat -> S -> S * (list Z * option rd_err)) U fuel t s l r,
  delivers Read t 99 s l ->
  ParseStream U fuel {| s_ev := l; s_term := t; s_last := None |} = Ok r ->
  stream_parses Read U s r.
Proof.
  intros S Read U fuel t s l r D H. exists fuel. intros f L.
  refine (ParseReader_mono (bufio_ops Read) U fuel f _ r L _). exact (bufio_parses Read t U fuel s l r D H).
Qed.
Print Assumptions C18_stream.

(** A reader whose state is a list of chunks: one chunk per call, as far as it fits. *)
Definition read_chunks (k : nat) (s : list (list Z)) : list (list Z) * (list Z * option rd_err) :=
  match s with
  | [] => ([], ([], Some EOF))
  | c :: s' =>
      if (length c <=? k)%nat then (s', (c, None)) else (skipn k c :: s', (firstn k c, None))
  end.

Lemma chunks_deliver s : Forall (fun c => c <> []) s -> delivers read_chunks TEof 99 s (map EvByte (concat s)).
Proof.
  intros H. exists (fun i s l => i = 99%nat /\ Forall (fun c => c <> []) s /\ l = map EvByte (concat s)). split; [auto|].
  clear s H. intros i s l (-> & H & ->) k K s' bs e E. destruct s as [|c s]; cbn in E.
  - injection E as <- <- <-. apply ans_end. repeat split. constructor.
  - inversion H; subst. cbn [concat]. rewrite map_app. destruct (length c <=? k)%nat eqn:L.
    + injection E as <- <- <-. apply ans_data; [assumption|now apply Nat.leb_le|auto].
    + apply Nat.leb_gt in L. injection E as <- <- <-. replace (map EvByte c) with (map EvByte (firstn k c) ++ map EvByte (skipn k c)) by (rewrite <- map_app, firstn_skipn; reflexivity). rewrite <- app_assoc.
      apply ans_data.
      * destruct c; [cbn in L; lia|]. destruct k; [lia|]. discriminate.
      * rewrite firstn_length. lia.
      * split; [reflexivity|]. split; [|cbn [concat]; now rewrite map_app].
        constructor; [|assumption]. intros N. apply (f_equal (@length Z)) in N. rewrite skipn_length in N. cbn in N. lia.
Qed.

(** One byte at a time, and in chunks that split tokens. *)
Example C18_example : exists m,
  stream_parses read_chunks ascii_tables (map (fun b => [b]) (bytes_of_string "M DEFINITIONS ::= BEGIN T ::= NULL END")) (ParseOk (Some m)) /\
  stream_parses read_chunks ascii_tables
    [bytes_of_string "M DEFINIT"; bytes_of_string "IONS :"; bytes_of_string ":= BEGIN T ::"; bytes_of_string "= NULL END"] (ParseOk (Some m)).
Proof.
  destruct (parses_total ascii_tables "M DEFINITIONS ::= BEGIN T ::= NULL END") as (r & H).
  assert (E : exists m, r = ParseOk (Some m)).
  { eexists. refine (parses_det ascii_tables _ _ _ H _). apply (ParseString_parses _ 1000). vm_compute. reflexivity. }
  destruct E as (m & ->). exists m.
  split; (apply (C18_chunks _ read_chunks ascii_tables _ "M DEFINITIONS ::= BEGIN T ::= NULL END"); [|exact H]).
  - assert (C : forall l, concat (map (fun b : Z => [b]) l) = l) by (induction l as [|x l IH]; cbn; [reflexivity|now rewrite IH]).
    rewrite <- (C (bytes_of_string "M DEFINITIONS ::= BEGIN T ::= NULL END")) at 2. apply chunks_deliver.
    apply Forall_forall. intros c I. apply in_map_iff in I. destruct I as (x & <- & _). discriminate.
  - set (s := [_; _; _; _]). assert (C : bytes_of_string "M DEFINITIONS ::= BEGIN T ::= NULL END" = concat s) by reflexivity.
    rewrite C. apply chunks_deliver. repeat constructor; discriminate.
Qed.

(** * C54: no reader makes the parser panic *)

(** A call of Read that obeys the contract of io.Reader: at most [k] bytes, with any
    error or none. *)
Definition conforms {S} (Read : nat -> S -> S * (list Z * option rd_err)) : Prop :=
  forall k s s' bs e, Read k s = (s', (bs, e)) -> (length bs <= k)%nat.

(** A reader that returns its bytes together with the final io.EOF, as the contract
    allows. *)
Definition read_once (k : nat) (s : list Z) : list Z * (list Z * option rd_err) :=
  (skipn k s, (firstn k s, match skipn k s with [] => Some EOF | _ => None end)).

(** False: if the text fills the buffer and ends with a colon, the lexer slices behind
    the buffer. *)
Theorem C54_no_panic_refuted : exists S (Read : nat -> S -> S * (list Z * option rd_err)) s fuel why,
  conforms Read /\ ParseReader (bufio_ops Read) ascii_tables fuel (NewReader s) = Panic why.
Proof.
  exists (list Z), read_once, (repeat 32 4095 ++ [58])%list, 5000%nat, "slice bounds out of range". split.
  - intros k s s' bs e E. unfold read_once in E. injection E as _ <- _. rewrite firstn_length. lia.
  - vm_compute. reflexivity.
Qed.
Print Assumptions C54_no_panic_refuted.

(** True of every reader that never returns bytes together with an error and that ends
    with io.EOF (missing: the others). *)
Theorem C54_returns_partial : forall S (Read : nat -> S -> S * (list Z * option rd_err)) U s l,
  delivers Read TEof 99 s l -> exists r, stream_parses Read U s r.
Proof.
  intros S Read U s l D. destruct (stream_total U (120 * length l + 122) {| s_ev := l; s_term := TEof; s_last := None |} eq_refl) as (r & H).
  { cbn [s_ev]. lia. }
  exists r. exact (C18_stream S Read U _ TEof s l r D H).
Qed.
Print Assumptions C54_returns_partial.

Example C54_example : delivers read_chunks TEof 99 [repeat 32 4095; [58]] (map EvByte (repeat 32 4095 ++ [58])).
Proof. apply (chunks_deliver [repeat 32 4095; [58]]). repeat constructor; discriminate. Qed.

(** * C55: ParseFile *)

(** ParseFile on the name [name] returns [r]. *)
Definition file_parses (U : unicode_tables) (w : world) (short : nat -> nat) (name : string) (fs : fsys) (r : parse_result) : Prop :=
  exists n, forall fuel, (n <= fuel)%nat -> ParseFile U w short fuel name fs = Ok r.

Lemma skip_add {A} (l : list A) n k : skipn (n + k) l = skipn k (skipn n l).
Proof. revert l. induction n as [|n IH]; intros [|x l]; cbn; [reflexivity|reflexivity|now rewrite skipn_nil|apply IH]. Qed.

Lemma file_delivers t short data off :
  delivers (fileRead t short data) t 99 off (map EvByte (skipn off (bytes_of_string data))).
Proof.
  exists (fun i off l => i = 99%nat /\ l = map EvByte (skipn off (bytes_of_string data))). split; [auto|].
  clear off. intros i off l (-> & ->) k K s' bs e E. unfold fileRead in E.
  destruct (skipn off (bytes_of_string data)) as [|b rest] eqn:D.
  - injection E as <- <- <-. destruct t; apply ans_end; rewrite D; auto.
  - set (n := Nat.min k (S (short off))) in *. assert (N : (0 < n <= k)%nat) by (unfold n; lia).
    injection E as <- <- <-.
    assert (W : map EvByte (b :: rest) = map EvByte (firstn n (b :: rest)) ++ map EvByte (skipn n (b :: rest)))
      by (rewrite <- map_app, firstn_skipn; reflexivity).
    rewrite W. apply ans_data.
    + destruct n; [lia|]. discriminate.
    + rewrite firstn_length. lia.
    + split; [reflexivity|]. f_equal. rewrite skip_add, D, firstn_length.
      destruct (Nat.min_spec n (length (b :: rest))) as [(_ & ->)|(L & ->)]; [reflexivity|].
      rewrite !skipn_all2; [reflexivity|lia|lia].
Qed.

(** A file that cannot be opened gives the error of the operating system.  A file that
    can be read to its end gives what ParseString gives for its contents, however many
    bytes each read delivers. *)
Theorem C55_parse_file : forall U w short name fs r,
  (forall e, w_open_in w name = Some e -> (file_parses U w short name fs r <-> r = ParseErr e)) /\
  (w_open_in w name = None -> fs_get fs name = None ->
     (file_parses U w short name fs r <-> r = ParseErr ("open " ++ name ++ ": no such file or directory"))) /\
  (forall text, w_open_in w name = None -> fs_get fs name = Some text -> w_in_term w = TEof ->
     (file_parses U w short name fs r <-> parses U text r)).
Proof.
  intros U w short name fs r. unfold file_parses, ParseFile.
  assert (K : forall a, (exists n, forall fuel, (n <= fuel)%nat -> Ok a = Ok r) <-> r = a).
  { intros a. split; [intros (n & H); specialize (H n (le_n n)); congruence|intros ->; exists 0%nat; reflexivity]. }
  split; [intros e ->; apply K|]. split; [intros -> ->; apply K|].
  intros text -> -> T. rewrite T. apply (C18_chunks _ (fileRead TEof short text) U 0%nat text r).
  exact (file_delivers TEof short text 0).
Qed.
Print Assumptions C55_parse_file.

(** A file whose reads fail (a directory, say) never gives a module: the result is an
    error when the parser returns at all on such input (it need not, see C03). *)
Theorem C55_unreadable : forall U w short name fs text fuel msg r,
  w_open_in w name = None -> fs_get fs name = Some text -> w_in_term w = TFail msg ->
  ParseStream U fuel {| s_ev := map EvByte (bytes_of_string text); s_term := TFail msg; s_last := None |} = Ok r ->
  exists e, r = ParseErr e /\ file_parses U w short name fs (ParseErr e).
Proof.
  intros U w short name fs text fuel msg r O G T H.
  destruct (stream_fail_rejected U fuel {| s_ev := map EvByte (bytes_of_string text); s_term := TFail msg; s_last := None |} msg r eq_refl H) as (e & ->). exists e. split; [reflexivity|].
  unfold file_parses, ParseFile. rewrite O, G, T.
  exact (C18_stream _ (fileRead (TFail msg) short text) U fuel (TFail msg) 0%nat _ _ (file_delivers (TFail msg) short text 0) H).
Qed.
Print Assumptions C55_unreadable.

Definition c55_world (t : terminal) : world := {|
  w_open_in := fun p => if String.eqb p "secret" then Some "open secret: permission denied" else None;
  w_open_out := fun _ => None; w_truncate := None; w_in_term := t; w_write := None;
  w_print := fun _ => ""; w_gen_text := fun _ => ""; w_stdin := stream_of_bytes [] |}.

Definition c55_fs : fsys := {|
  fs_inode := fun p => if String.eqb p "m.asn1" then Some 0%nat else if String.eqb p "dir" then Some 1%nat else None;
  fs_data := fun i => match i with O => "M DEFINITIONS ::= BEGIN T ::= NULL END" | _ => "" end;
  fs_next := 2%nat |}.

Example C55_example :
  (exists m, file_parses ascii_tables (c55_world TEof) (fun _ => 6%nat) "m.asn1" c55_fs (ParseOk (Some m))) /\
  file_parses ascii_tables (c55_world TEof) (fun _ => 6%nat) "gone.asn1" c55_fs (ParseErr "open gone.asn1: no such file or directory") /\
  file_parses ascii_tables (c55_world TEof) (fun _ => 6%nat) "secret" c55_fs (ParseErr "open secret: permission denied") /\
  exists e, file_parses ascii_tables (c55_world (TFail "read dir: is a directory")) (fun _ => 6%nat) "dir" c55_fs (ParseErr e).
Proof.
  split; [|split; [|split]].
  - eexists. eapply (proj2 (proj2 (C55_parse_file _ _ _ _ _ _))); [reflexivity|reflexivity|reflexivity|].
    apply (ParseString_parses _ 1000). vm_compute. reflexivity.
  - apply (proj1 (proj2 (C55_parse_file _ _ _ _ _ _))); reflexivity.
  - eapply (proj1 (C55_parse_file _ _ _ _ _ _)); reflexivity.
  - eexists. eapply (C18_stream _ (fileRead (TFail "read dir: is a directory") (fun _ => 6%nat) "") ascii_tables 1000 _ 0%nat).
    + apply (file_delivers (TFail "read dir: is a directory") (fun _ => 6%nat) "" 0).
    + vm_compute. reflexivity.
Qed.
