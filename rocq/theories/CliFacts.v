(** Lemmas about [Cli.v]. *)
From Coq Require Import ZArith String Ascii List Bool SpecFloat Lia.
From Verif Require Import GoBase Unicode Reader Stream Ast Lexer Driver Parser GoAst Codegen Wireshark Cli.
Import ListNotations.
Local Open Scope string_scope.

(** * Specification *)

(** File system invariant: inode numbers in use are below the next free one. *)
Definition fs_ok (fs : fsys) : Prop :=
  forall p i, fs_inode fs p = Some i -> (i < fs_next fs)%nat.

(** Two names of one existing file. *)
Definition same_file (fs : fsys) (p q : string) : Prop :=
  exists i, fs_inode fs p = Some i /\ fs_inode fs q = Some i.

(** [q] is a name other than [p], and not a name of the same file. *)
Definition other_file (fs : fsys) (p q : string) : Prop :=
  p <> q /\ ~ same_file fs p q.

(** No percent sign. *)
Fixpoint no_percent (s : string) : bool :=
  match s with
  | EmptyString => true
  | String c s' => negb (Ascii.eqb c "%") && no_percent s'
  end.

(** * File system *)

Lemma fs_get_put_other : forall fs i d q,
  fs_inode fs q <> Some i -> fs_get (fs_put fs i d) q = fs_get fs q.
Proof.
  intros fs i d q H. unfold fs_get, fs_put; cbn.
  destruct (fs_inode fs q) as [j|]; [|reflexivity]. cbn.
  destruct (Nat.eqb_spec j i); [congruence|reflexivity].
Qed.

Lemma fs_create_spec : forall fs p i fs1, fs_ok fs -> fs_create fs p = (i, fs1) ->
  fs_inode fs1 p = Some i /\
  (forall q, other_file fs p q -> fs_inode fs1 q <> Some i /\ fs_get fs1 q = fs_get fs q) /\
  (fs_inode fs p = Some i \/ (fs_inode fs p = None /\ forall q, fs_inode fs q <> Some i)).
Proof.
  intros fs p i fs1 Hok H. unfold fs_create in H.
  destruct (fs_inode fs p) as [j|] eqn:E; injection H as <- <-.
  - split; [assumption|]. split; [|auto]. intros q [Hn Hs]. split; [|reflexivity].
    intro Hq. apply Hs. exists j. auto.
  - cbn. rewrite String.eqb_refl. split; [reflexivity|]. split.
    + intros q [Hn Hs]. destruct (String.eqb_spec q p); [congruence|].
      split.
      * intro Hq. apply Hok in Hq. lia.
      * unfold fs_get; cbn. destruct (String.eqb_spec q p); [congruence|].
        destruct (fs_inode fs q) as [j|] eqn:Eq; [|reflexivity]. cbn.
        apply Hok in Eq. destruct (Nat.eqb_spec j (fs_next fs)); [lia|reflexivity].
    + right. split; [reflexivity|]. intros q Hq. apply Hok in Hq. lia.
Qed.

Lemma fs_put_get : forall fs i d p, fs_inode fs p = Some i -> fs_get (fs_put fs i d) p = Some d.
Proof. intros fs i d p H. unfold fs_get, fs_put; cbn. rewrite H. cbn. now rewrite Nat.eqb_refl. Qed.

(** * Format strings *)

Lemma sprintf0_no_percent : forall exotic s, no_percent s = true -> sprintf0 exotic s = s.
Proof.
  induction s as [|c s IH]; intro H; [reflexivity|].
  cbn in H. apply andb_prop in H as [H1 H2]. cbn.
  destruct (Ascii.eqb c "%"); [discriminate|]. now rewrite IH.
Qed.

(** * openChannels *)

Lemma openChannels_ok : forall w inn out fs i o fs1, fs_ok fs ->
  openChannels w inn out fs = inl (i, o, fs1) ->
  (inn = "" /\ i = None \/ exists j, i = Some j /\ fs_inode fs inn = Some j) /\
  (out = "" /\ o = None /\ fs1 = fs \/
   out <> "" /\ exists j, o = Some j /\ fs_inode fs1 out = Some j /\ fs_data fs1 j = "" /\
     (forall q, other_file fs out q -> fs_inode fs1 q <> Some j /\ fs_get fs1 q = fs_get fs q) /\
     (forall k, (k < fs_next fs)%nat -> k <> j -> fs_data fs1 k = fs_data fs k) /\
     (forall q, fs_inode fs q = Some j -> fs_inode fs out = Some j)).
Proof.
  intros w inn out fs i o fs1 Hok H. unfold openChannels in H.
  set (input := if String.eqb inn "" then _ else _) in H.
  assert (Hin : forall i0, input = inl i0 ->
     inn = "" /\ i0 = None \/ exists j, i0 = Some j /\ fs_inode fs inn = Some j).
  { unfold input. intro i0. destruct (String.eqb_spec inn "").
    - intro E; injection E as <-. auto.
    - destruct (w_open_in w inn); [discriminate|].
      destruct (fs_inode fs inn) as [j|]; [|discriminate].
      intro E; injection E as <-. right. eauto. }
  destruct input as [i0|m]; [|discriminate]. specialize (Hin i0 eq_refl).
  destruct (String.eqb_spec out "") as [->|Hout].
  - injection H as <- <- <-. split; [assumption|]. left. auto.
  - destruct (w_open_out w out); [discriminate|].
    destruct (fs_create fs out) as [j fs2] eqn:Ec.
    destruct (w_truncate w); [discriminate|]. injection H as <- <- <-.
    split; [assumption|]. right. split; [assumption|].
    destruct (fs_create_spec _ _ _ _ Hok Ec) as (H1 & H2 & H3).
    exists j. split; [reflexivity|]. split; [exact H1|]. split; [|split; [|split]].
    + cbn. now rewrite Nat.eqb_refl.
    + intros q Hq. destruct (H2 q Hq) as [Hn Hg]. split; [exact Hn|].
      rewrite fs_get_put_other by exact Hn. exact Hg.
    + intros k Hk Hne. cbn. destruct (Nat.eqb_spec k j); [congruence|].
      unfold fs_create in Ec. destruct (fs_inode fs out); injection Ec as <- <-; [reflexivity|].
      cbn. destruct (Nat.eqb_spec k (fs_next fs)); [lia|reflexivity].
    + intros q Hq. destruct H3 as [H3|[_ H3]]; [assumption|]. now apply H3 in Hq.
Qed.

Lemma openChannels_fail : forall w inn out fs m fs1, fs_ok fs ->
  openChannels w inn out fs = inr (m, fs1) ->
  (forall q, other_file fs out q -> fs_get fs1 q = fs_get fs q) /\
  (fs_inode fs out <> None -> forall q, fs_get fs1 q = fs_get fs q).
Proof.
  intros w inn out fs m fs1 Hok H. unfold openChannels in H.
  destruct (if String.eqb inn "" then _ else _) as [i0|m0].
  - destruct (String.eqb out ""); [discriminate|].
    destruct (w_open_out w out); [injection H as _ <-; auto|].
    destruct (fs_create fs out) as [j fs2] eqn:Ec.
    destruct (w_truncate w); [|discriminate]. injection H as _ <-.
    destruct (fs_create_spec _ _ _ _ Hok Ec) as (H1 & H2 & H3).
    split; [intros q Hq; now apply H2|].
    intros Hex q. unfold fs_create in Ec. destruct (fs_inode fs out); [|congruence].
    injection Ec as _ <-. reflexivity.
  - injection H as _ <-. auto.
Qed.

Lemma writeOutput_other : forall w o text fs out fs2 err q,
  writeOutput w o text fs = (out, fs2, err) ->
  (forall j, o = Some j -> fs_inode fs q <> Some j) ->
  fs_get fs2 q = fs_get fs q.
Proof.
  intros w o text fs out fs2 err q H Hq. unfold writeOutput in H.
  destruct (match w_write w with None => _ | Some _ => _ end) as [data e].
  destruct o as [j|]; injection H as <- <- <-; [|reflexivity].
  apply fs_get_put_other. now apply Hq.
Qed.

(** * The command *)

Section Main.
  Context (U : unicode_tables) (fmt : spec_float -> string) (exotic : string -> string) (w : world).

  Lemma main_other_files : forall fuel pkg repr inn out fs p q, fs_ok fs ->
    asn1go_main U fmt exotic w fuel pkg repr [inn; out] fs = Ok p ->
    other_file fs out q -> fs_get (pr_fs p) q = fs_get fs q.
  Proof.
    intros fuel pkg repr inn out fs p q Hok H Hq. unfold asn1go_main in H.
    cbn [parseArgs fl_inputName fl_outputName fl_packageName fl_defaultIntRepr] in H.
    destruct (openChannels w inn out fs) as [[[i o] fs1]|[m fs1]] eqn:Eo.
    - destruct (openChannels_ok _ _ _ _ _ _ _ Hok Eo) as [_ Ho].
      assert (H1 : fs_get fs1 q = fs_get fs q /\ forall j, o = Some j -> fs_inode fs1 q <> Some j).
      { destruct Ho as [(_ & -> & ->)|(_ & j & -> & _ & _ & Hoth & _)].
        - split; [reflexivity|discriminate].
        - split; [now apply Hoth|]. intros j' E; injection E as <-. now apply Hoth. }
      destruct H1 as [Hg Hn].
      destruct (ParseStream U fuel (inputStream w i fs1)) as [r| |]; cbn [rbind] in H; try discriminate.
      destruct r as [[m|]|e]; cbn in H; try discriminate.
      + destruct (Generate _ _ _ _ _) as [g| |]; cbn [rbind] in H; try discriminate.
        destruct g as [l|f]; [injection H as <-; exact Hg|].
        destruct (writeOutput w o (w_print w f) fs1) as [[t fs2] err] eqn:Ew.
        pose proof (writeOutput_other _ _ _ _ _ _ _ q Ew Hn) as Hw.
        destruct err; injection H as <-; cbn; congruence.
      + injection H as <-. exact Hg.
    - injection H as <-. cbn. destruct (openChannels_fail _ _ _ _ _ _ Hok Eo) as [A _]. now apply A.
  Qed.

  Lemma main_two_args_success : forall fuel pkg repr inn out fs p, fs_ok fs -> inn <> "" -> out <> "" ->
    asn1go_main U fmt exotic w fuel pkg repr [inn; out] fs = Ok p -> pr_exit p = 0%Z ->
    exists text m f,
      (~ same_file fs inn out -> fs_get fs inn = Some text) /\
      (same_file fs inn out -> text = "") /\
      ParseStream U fuel {| s_ev := map EvByte (bytes_of_string text);
                            s_term := w_in_term w; s_last := None |} = Ok (ParseOk (Some m)) /\
      Generate U fmt {| gp_Package := pkg; gp_IntegerRepr := repr |} fuel m = Ok (GenOk f) /\
      fs_get (pr_fs p) out = Some (w_print w f) /\
      pr_stdout p = "" /\ pr_stderr p = "".
  Proof.
    intros fuel pkg repr inn out fs p Hok Hinn Hout H Hex. unfold asn1go_main in H.
    cbn [parseArgs fl_inputName fl_outputName fl_packageName fl_defaultIntRepr] in H.
    destruct (openChannels w inn out fs) as [[[i o] fs1]|[m fs1]] eqn:Eo.
    2:{ injection H as <-. discriminate Hex. }
    destruct (openChannels_ok _ _ _ _ _ _ _ Hok Eo) as [Hi Ho].
    destruct Hi as [[F _]|(ji & -> & Hji)]; [congruence|].
    destruct Ho as [(F & _)|(_ & jo & -> & Hjo & Hempty & Hoth & Hdata & Hname)]; [congruence|].
    destruct (ParseStream U fuel (inputStream w (Some ji) fs1)) as [r| |] eqn:Ep;
      cbn [rbind] in H; try discriminate.
    destruct r as [[m|]|e]; cbn in H; try discriminate.
    2:{ injection H as <-. discriminate Hex. }
    destruct (Generate _ _ _ _ _) as [g| |] eqn:Eg; cbn [rbind] in H; try discriminate.
    destruct g as [l|f]; [injection H as <-; discriminate Hex|].
    unfold writeOutput in H.
    destruct (w_write w) as [[n e]|]; [injection H as <-; discriminate Hex|].
    injection H as <-.
    exists (fs_data fs1 ji), m, f. split; [|split].
    - intro Hns. unfold fs_get. rewrite Hji. cbn. f_equal. symmetry. apply Hdata.
      + now apply (Hok inn).
      + intro; subst jo. apply Hns. exists ji. split; [assumption|]. now apply (Hname inn).
    - intros (k & Hk1 & Hk2). assert (k = ji) by congruence. subst k.
      destruct (Nat.eq_dec ji jo) as [->|Hne]; [assumption|].
      exfalso. revert Hjo. unfold openChannels in Eo.
      destruct (String.eqb_spec inn ""); [congruence|].
      destruct (w_open_in w inn); [discriminate|]. rewrite Hji in Eo.
      destruct (String.eqb_spec out ""); [congruence|].
      destruct (w_open_out w out); [discriminate|].
      unfold fs_create in Eo. rewrite Hk2 in Eo.
      destruct (w_truncate w); [discriminate|]. injection Eo as <- <-. congruence.
    - split; [exact Ep|]. split; [exact Eg|]. cbn. split; [|auto].
      now apply fs_put_get.
  Qed.

  Lemma main_stdout_success : forall fuel pkg repr args fs p, fs_ok fs ->
    (args = [] \/ exists inn, inn <> "" /\ args = [inn]) ->
    asn1go_main U fmt exotic w fuel pkg repr args fs = Ok p -> pr_exit p = 0%Z ->
    exists m f,
      ParseStream U fuel
        (match args with
         | [] => w_stdin w
         | inn :: _ => {| s_ev := map EvByte (bytes_of_string
                                    (match fs_get fs inn with Some t => t | None => "" end));
                          s_term := w_in_term w; s_last := None |}
         end) = Ok (ParseOk (Some m)) /\
      Generate U fmt {| gp_Package := pkg; gp_IntegerRepr := repr |} fuel m = Ok (GenOk f) /\
      pr_stdout p = w_print w f /\ pr_stderr p = "" /\ pr_fs p = fs.
  Proof.
    intros fuel pkg repr args fs p Hok Hargs H Hex. unfold asn1go_main in H.
    set (inn := match args with [] => "" | a :: _ => a end).
    assert (Hp : parseArgs pkg repr args = Some {| fl_inputName := inn; fl_outputName := "";
              fl_packageName := pkg; fl_defaultIntRepr := repr |})
      by (destruct Hargs as [->|(a & _ & ->)]; reflexivity).
    rewrite Hp in H. cbn [fl_inputName fl_outputName fl_packageName fl_defaultIntRepr] in H.
    destruct (openChannels w inn "" fs) as [[[i o] fs1]|[m fs1]] eqn:Eo.
    2:{ injection H as <-. discriminate Hex. }
    destruct (openChannels_ok _ _ _ _ _ _ _ Hok Eo) as [Hi Ho].
    destruct Ho as [(_ & -> & ->)|(F & _)]; [|congruence].
    destruct (ParseStream U fuel (inputStream w i fs)) as [r| |] eqn:Ep;
      cbn [rbind] in H; try discriminate.
    destruct r as [[m|]|e]; cbn in H; try discriminate.
    2:{ injection H as <-. discriminate Hex. }
    destruct (Generate _ _ _ _ _) as [g| |] eqn:Eg; cbn [rbind] in H; try discriminate.
    destruct g as [l|f]; [injection H as <-; discriminate Hex|].
    unfold writeOutput in H.
    destruct (w_write w) as [[n e]|]; [injection H as <-; discriminate Hex|].
    injection H as <-. exists m, f. split; [|split; [exact Eg|auto]].
    rewrite <- Ep. f_equal. unfold inputStream.
    destruct Hargs as [->|(a & Ha & ->)]; cbn in inn; subst inn.
    - destruct Hi as [[_ ->]|(j & -> & Hj)]; [reflexivity|].
      unfold openChannels in Eo. cbn in Eo. discriminate Eo.
    - destruct Hi as [[F _]|(j & -> & Hj)]; [congruence|].
      unfold fs_get. now rewrite Hj.
  Qed.

  Lemma main_parse_error : forall fuel pkg repr args fs p flags i o fs1 e,
    parseArgs pkg repr args = Some flags ->
    openChannels w (fl_inputName flags) (fl_outputName flags) fs = inl (i, o, fs1) ->
    ParseStream U fuel (inputStream w i fs1) = Ok (ParseErr e) ->
    asn1go_main U fmt exotic w fuel pkg repr args fs = Ok p ->
    pr_exit p = 1%Z /\ pr_stderr p = sprintf0 exotic e ++ nl.
  Proof.
    intros fuel pkg repr args fs p flags i o fs1 e Ha Ho Hp H. unfold asn1go_main in H.
    rewrite Ha, Ho, Hp in H. cbn in H. injection H as <-. auto.
  Qed.
End Main.

Lemma marshal_spec : forall marshalled oe wr ce path fs err fs', fs_ok fs ->
  MarshalToFile marshalled oe wr ce path fs = (err, fs') ->
  (forall e, marshalled = inr e -> err = Some e /\ fs' = fs) /\
  (err = None -> exists data, marshalled = inl data /\ fs_get fs' path = Some data) /\
  (forall q, other_file fs path q -> fs_get fs' q = fs_get fs q).
Proof.
  intros marshalled oe wr ce path fs err fs' Hok H. unfold MarshalToFile, WriteFile in H.
  destruct marshalled as [data|e].
  - split; [discriminate|].
    destruct oe; [injection H as <- <-; split; [discriminate|auto]|].
    destruct (fs_create fs path) as [i fs1] eqn:Ec.
    destruct (fs_create_spec _ _ _ _ Hok Ec) as (H1 & H2 & _).
    split.
    + intros ->. destruct wr as [[n e]|]; [discriminate|]. injection H as _ <-.
      exists data. split; [reflexivity|]. now apply fs_put_get.
    + intros q Hq. destruct (H2 q Hq) as [Hn Hg].
      destruct wr as [[n e]|]; injection H as <- <-; rewrite fs_get_put_other; auto.
  - injection H as <- <-. split; [|split; [discriminate|auto]].
    intros e' E; injection E as <-. auto.
Qed.
