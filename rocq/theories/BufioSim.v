(** The bufio.Reader of [Bufio.v] over any io.Reader that delivers a sequence of
    bytes and failures behaves to the lexer as the abstract stream of [Stream.v]. *)
From Coq Require Import ZArith String List Bool Lia.
From Verif Require Import GoBase Utf8 Unicode Reader Stream Tokens Lexer Driver DriverSim Parser LexEq Bufio LexSim.
Import ListNotations.
Local Open Scope string_scope.
Local Open Scope list_scope.

(** ** What an io.Reader delivers *)

(** The error of a reader that has delivered everything. *)
Definition term_err (t : terminal) : rd_err := match t with TEof => EOF | TFail m => IOErr m end.

(** One call of Read with room for [k] bytes, when the events [l] are still to come and
    up to [idle] more empty reads in a row: some of the bytes and no error; or nothing
    at all; or a failure; or, behind the last event, the final error.  [next] tells
    what is still to come afterwards. *)
Inductive answer (t : terminal) (k : nat) (next : nat -> list event -> Prop)
  : nat -> list event -> list Z -> option rd_err -> Prop :=
| ans_data idle bs l : bs <> [] -> (length bs <= k)%nat -> next 99%nat l ->
    answer t k next idle (map EvByte bs ++ l) bs None
| ans_idle idle l : next idle l -> answer t k next (S idle) l [] None
| ans_fail idle m l : next 99%nat l -> answer t k next idle (EvFail m :: l) [] (Some (IOErr m))
| ans_end idle : next 99%nat [] -> answer t k next idle [] [] (Some (term_err t)).

(** The reader in state [s] delivers the events [l] and then the final error for ever;
    never more than 99 empty reads in a row. *)
Definition delivers {S} (Read : nat -> S -> S * (list Z * option rd_err)) (t : terminal) (idle : nat) (s : S) (l : list event) : Prop :=
  exists Rel : nat -> S -> list event -> Prop, Rel idle s l /\
    forall idle s l, Rel idle s l -> forall k, (0 < k)%nat -> forall s' bs e, Read k s = (s', (bs, e)) ->
      answer t k (fun i l' => Rel i s' l') idle l bs e.

(** ** Facts about decoding *)

Lemma full_decode d x : full_rune d = true -> decode_rune (d ++ x) = decode_rune d.
Proof.
  destruct d as [|b0 d]; [discriminate|]. cbn [full_rune app decode_rune].
  destruct (b0 <? rune_self)%Z; [reflexivity|]. destruct (utf8_first b0) as [[[n lo] hi]|] eqn:F; [|reflexivity].
  assert (N : (2 <= n <= 4)%nat) by exact (first_length _ _ _ _ F).
  destruct (n <=? length (b0 :: d))%nat eqn:L.
  - intros _. apply Nat.leb_le in L. cbn [length] in L.
    assert (L1 : (length (b0 :: d) <? n)%nat = false) by (apply Nat.ltb_ge; cbn [length]; lia).
    assert (L2 : (length (b0 :: d ++ x) <? n)%nat = false) by (apply Nat.ltb_ge; cbn [length]; rewrite app_length; lia).
    destruct d as [|b1 d]; [cbn in L; lia|]. cbn [app]. rewrite L1.
    replace (length (b0 :: b1 :: d ++ x) <? n)%nat with false by (symmetry; apply Nat.ltb_ge; cbn [length]; rewrite app_length; cbn [length] in L; lia).
    destruct (negb (in_range lo b1 hi)); [reflexivity|]. destruct (n =? 2)%nat eqn:N2; [reflexivity|].
    destruct d as [|b2 d]; [apply Nat.eqb_neq in N2; cbn in L; lia|]. cbn [app].
    destruct (negb (in_range 128 b2 191)); [reflexivity|]. destruct (n =? 3)%nat eqn:N3; [reflexivity|].
    destruct d as [|b3 d]; [apply Nat.eqb_neq in N2, N3; cbn in L; lia|]. reflexivity.
  - apply Nat.leb_gt in L. cbn [length] in L. destruct d as [|b1 d]; [discriminate|]. cbn [app].
    replace (length (b0 :: b1 :: d) <? n)%nat with true by (symmetry; apply Nat.ltb_lt; cbn [length] in *; lia).
    destruct (negb (in_range lo b1 hi)) eqn:R1.
    + intros _. now destruct (length _ <? n)%nat.
    + destruct d as [|b2 d]; [discriminate|]. intros R2. cbn [app].
      destruct (length _ <? n)%nat; [reflexivity|]. cbn [length] in L.
      destruct (n =? 2)%nat eqn:N2; [apply Nat.eqb_eq in N2; lia|]. rewrite R2. reflexivity.
Qed.

Lemma decode_size d : d <> [] -> (1 <= snd (decode_rune d) <= length d)%nat /\ (snd (decode_rune d) <= 4)%nat.
Proof.
  intros N. destruct d as [|b0 [|b1 [|b2 [|b3 d]]]]; [contradiction| | | |]; cbn;
    repeat match goal with |- context [if ?c then _ else _] => destruct c; cbn; try lia
           | |- context [match ?c with _ => _ end] => destruct c; cbn; try lia end.
Qed.

(** ** Facts about events *)

Lemma lead_app n : forall d l, lead_bytes n (map EvByte d ++ l) = firstn n d ++ lead_bytes (n - length d) l.
Proof.
  induction n as [|n IH]; intros d l; [reflexivity|]. destruct d as [|b d]; cbn; [reflexivity|]. now rewrite IH.
Qed.

Lemma discard_app n : forall d l, (n <= length d)%nat -> stream_discard_ev n (map EvByte d ++ l) = map EvByte (skipn n d) ++ l.
Proof. induction n as [|n IH]; intros [|b d] l H; cbn in *; try reflexivity; try lia. apply IH. lia. Qed.

Lemma discard_over n : forall d l, (length d <= n)%nat -> stream_discard_ev n (map EvByte d ++ l) = stream_discard_ev (n - length d) l.
Proof. induction n as [|n IH]; intros [|b d] l H; cbn in *; try reflexivity; try lia. apply IH. lia. Qed.

Lemma drop_app : forall d l, drop_fail (map EvByte d ++ l) = map EvByte d ++ drop_fail l.
Proof. induction d as [|b d IH]; intros l; cbn; [reflexivity|]. now rewrite IH. Qed.

Lemma skip_ev n : forall d l, (n <= length d)%nat -> skipn n (map EvByte d ++ l) = map EvByte (skipn n d) ++ l.
Proof. induction n as [|n IH]; intros [|b d] l H; cbn in *; try reflexivity; try lia. apply IH. lia. Qed.

Lemma skip_skip {A} a : forall b (l : list A), skipn a (skipn b l) = skipn (b + a) l.
Proof. intros b. induction b as [|b IH]; intros [|x l]; cbn; try reflexivity; [now rewrite skipn_nil|]. apply IH. Qed.

Lemma big : (100 <= bufSize)%nat.
Proof. unfold bufSize. lia. Qed.
Local Opaque bufSize.

Section Sim.
  Context {St : Type} (Read : nat -> St -> St * (list Z * option rd_err)) (t : terminal).

  Lemma delivers_read idle s l k s' bs e : delivers Read t idle s l -> (0 < k)%nat -> Read k s = (s', (bs, e)) ->
    answer t k (fun i l' => delivers Read t i s' l') idle l bs e.
  Proof.
    pose proof big as Big. intros (Rel & H & C) K E. pose proof (C _ _ _ H k K _ _ _ E) as X.
    assert (L : forall i l', Rel i s' l' -> delivers Read t i s' l') by (intros i l' Y; exists Rel; auto).
    destruct X; constructor; auto.
  Qed.

  (** The events that are still to come: the buffered bytes, the pending error, and what
      the source delivers.  A pending error means that the buffer is nearly empty. *)
  Definition holds (l : list event) (b : bufio St) : Prop :=
    length (b_buf b) = bufSize /\ (b_r b <= b_w b <= bufSize)%nat /\
    match b_err b with
    | None => exists l', delivers Read t 99 (b_src b) l' /\ l = map EvByte (b_data b) ++ l'
    | Some e => (b_w b <= 8)%nat /\
        ((exists m l', e = IOErr m /\ delivers Read t 99 (b_src b) l' /\ l = map EvByte (b_data b) ++ EvFail m :: l') \/
         (e = term_err t /\ delivers Read t 99 (b_src b) [] /\ l = map EvByte (b_data b)))
    end.

  Lemma data_length b l : holds l b -> length (b_data b) = (b_w b - b_r b)%nat.
  Proof. pose proof big as Big. intros (H & I & _). unfold b_data. rewrite firstn_length, skipn_length. lia. Qed.

  Lemma fillLoop_holds i : forall idle b l', length (b_buf b) = bufSize -> b_r b = 0%nat -> (b_w b < 8)%nat -> b_err b = None ->
    delivers Read t idle (b_src b) l' -> (idle < i)%nat ->
    let b' := fillLoop Read i b in
    holds (map EvByte (b_data b) ++ l') b' /\ b_r b' = 0%nat /\ b_last b' = b_last b /\ (b_w b <= b_w b')%nat /\ (b_err b' = None -> b_w b < b_w b')%nat.
  Proof.
    pose proof big as Big. induction i as [|i IH]; intros idle b l' Lb R W E D I; [lia|]. cbn [fillLoop].
    destruct (Read (length (b_buf b) - b_w b) (b_src b)) as [s [bs e]] eqn:X.
    assert (K0 : (0 < length (b_buf b) - b_w b)%nat) by lia. pose proof (delivers_read _ _ _ _ _ _ _ D K0 X) as Y.
    assert (Db : b_data b = firstn (b_w b) (b_buf b)) by (unfold b_data; rewrite R, Nat.sub_0_r; reflexivity).
    assert (Lf : length (firstn (b_w b) (b_buf b)) = b_w b) by (rewrite firstn_length; lia).
    inversion Y; subst.
    - destruct bs as [|b0 bs0]; [congruence|]. remember (b0 :: bs0) as bs eqn:Q.
      assert (Dn : forall er, b_data {| b_buf := firstn (b_w b) (b_buf b) ++ bs ++ skipn (b_w b + length bs) (b_buf b); b_r := b_r b;
                      b_w := b_w b + length bs; b_err := er; b_last := b_last b; b_src := s |} = b_data b ++ bs).
      { intros er. unfold b_data at 1. cbn [b_r b_w b_buf]. rewrite R, Nat.sub_0_r. cbn [skipn].
        rewrite app_assoc, firstn_app, app_length, Lf. replace (b_w b + length bs - (b_w b + length bs))%nat with 0%nat by lia.
        cbn [firstn]. rewrite app_nil_r, firstn_all2 by (rewrite app_length; lia). now rewrite Db. }
      assert (Lbs : (1 <= length bs)%nat) by (subst bs; cbn; lia).
      rewrite E. set (b' := Build_bufio _ _ _ _ _ _) in |- *.
      assert (G : holds (map EvByte (b_data b) ++ map EvByte bs ++ l) b' /\ b_r b' = 0%nat /\ b_last b' = b_last b /\ (b_w b <= b_w b')%nat /\ (b_err b' = None -> b_w b < b_w b')%nat).
      { unfold b', holds. rewrite Dn. cbn [b_buf b_r b_w b_err b_last b_src]. repeat split; try lia.
        - rewrite !app_length, Lf, skipn_length. lia.
        - exists l. split; [assumption|]. now rewrite map_app, app_assoc. }
      subst bs. exact G.
    - rewrite E. cbn [length]. rewrite Nat.add_0_r. cbn [app].
      replace (firstn (b_w b) (b_buf b) ++ skipn (b_w b) (b_buf b)) with (b_buf b) by (symmetry; apply firstn_skipn).
      set (b1 := Build_bufio _ _ _ _ _ _). apply (IH idle0 b1 l'); auto. lia.
    - cbn [length]. rewrite Nat.add_0_r. cbn [app]. rewrite firstn_skipn. unfold holds, b_data. cbn [b_buf b_r b_w b_err b_last b_src].
      repeat split; try lia; try assumption; [|discriminate]. left. exists m, l. auto.
    - cbn [length]. rewrite Nat.add_0_r. cbn [app]. rewrite firstn_skipn. unfold holds, b_data. cbn [b_buf b_r b_w b_err b_last b_src].
      repeat split; try lia; try assumption; [|discriminate]. right. rewrite app_nil_r. auto.
  Qed.

  Lemma fill_holds l b : holds l b -> b_err b = None -> (b_w b - b_r b < 8)%nat ->
    holds l (fill Read b) /\ b_r (fill Read b) = 0%nat /\ b_last (fill Read b) = b_last b /\ (b_w b - b_r b <= b_w (fill Read b))%nat /\
    (b_err (fill Read b) = None -> b_w b - b_r b < b_w (fill Read b))%nat.
  Proof.
    pose proof big as Big. intros H E W. pose proof (data_length _ _ H) as Dl. destruct H as (Lb & I & P). rewrite E in P. destruct P as (l' & D & ->).
    unfold fill. destruct (0 <? b_r b)%nat eqn:Z.
    - set (b1 := Build_bufio _ _ _ _ _ _).
      assert (Db : b_data b1 = b_data b).
      { unfold b_data at 1. unfold b1. cbn [b_r b_w b_buf skipn]. rewrite Nat.sub_0_r, firstn_app, Dl, Nat.sub_diag. cbn [firstn].
        rewrite app_nil_r. apply firstn_all2. lia. }
      rewrite <- Db. apply (fillLoop_holds _ 99 b1 l'); unfold b1; cbn [b_buf b_r b_w b_err b_src]; auto.
rewrite app_length, Dl, skipn_length. lia.
    - apply Nat.ltb_ge in Z. assert (R : b_r b = 0%nat) by lia. rewrite R in *. rewrite Nat.sub_0_r in *.
      apply (fillLoop_holds _ 99 b l'); auto.
  Qed.

  Definition none {A} (o : option A) : bool := match o with None => true | Some _ => false end.

  Lemma with_last_holds l b o : holds l b -> holds l (with_last b o).
  Proof. exact (fun H => H). Qed.

  Lemma runeLoop_holds n : forall l b, holds l b -> (4 <= n + (b_w b - b_r b))%nat ->
    let b' := runeLoop Read n b in
    holds l b' /\ ((b_w b' < b_r b' + 4)%nat -> full_rune (b_data b') = true \/ b_err b' <> None).
  Proof.
    pose proof big as Big. induction n as [|n IH]; intros l b H M; cbn [runeLoop].
    - split; [exact H|]. destruct H as (_ & H & _). lia.
    - destruct (_ && _ && _ && _) eqn:C.
      + apply andb_prop in C. destruct C as [C C4]. apply andb_prop in C. destruct C as [C C3]. apply andb_prop in C. destruct C as [C1 C2].
        assert (E : b_err b = None) by (destruct (b_err b); [discriminate|reflexivity]).
        apply Nat.ltb_lt in C1. destruct (fill_holds l b H E) as (H1 & R1 & _ & W1 & G1); [lia|].
        destruct (b_err (fill Read b)) as [er|] eqn:E1.
        * assert (K : runeLoop Read n (fill Read b) = fill Read b).
          { destruct n; [reflexivity|]. cbn [runeLoop]. rewrite E1, andb_false_r. reflexivity. }
          cbn zeta. rewrite K. split; [exact H1|]. intros _. right. rewrite E1. discriminate.
        * apply IH; [exact H1|]. specialize (G1 eq_refl). lia.
      + split; [exact H|]. intros W. apply Nat.ltb_lt in W. rewrite W in C. cbn [andb] in C.
        destruct (full_rune (b_data b)); [auto|]. cbn [negb andb] in C. right. intros E. rewrite E in C. cbn [andb] in C.
        apply Nat.ltb_ge in C. destruct H as (Lb & I & _). apply Nat.ltb_lt in W. lia.
  Qed.

  Lemma peekLoop_holds i : forall n l b, holds l b -> (n <= i + (b_w b - b_r b))%nat -> (n <= 8)%nat ->
    let b' := peekLoop Read i n b in holds l b' /\ ((b_w b' - b_r b' < n)%nat -> b_err b' <> None).
  Proof.
    pose proof big as Big. induction i as [|i IH]; intros n l b H M N; cbn [peekLoop].
    - split; [exact H|]. lia.
    - destruct (_ && _ && _) eqn:C.
      + apply andb_prop in C. destruct C as [C C3]. apply andb_prop in C. destruct C as [C1 C2].
        assert (E : b_err b = None) by (destruct (b_err b); [discriminate|reflexivity]).
        apply Nat.ltb_lt in C1. destruct (fill_holds l b H E) as (H1 & R1 & _ & W1 & G1); [lia|].
        destruct (b_err (fill Read b)) as [er|] eqn:E1.
        * assert (K : peekLoop Read i n (fill Read b) = fill Read b).
          { destruct i; [reflexivity|]. cbn [peekLoop]. rewrite E1, andb_false_r. reflexivity. }
          cbn zeta. rewrite K. split; [exact H1|]. intros _. rewrite E1. discriminate.
        * apply IH; [exact H1| |exact N]. specialize (G1 eq_refl). lia.
      + split; [exact H|]. intros W E. apply Nat.ltb_lt in W. rewrite W, E in C. cbn [andb] in C. rewrite andb_true_r in C.
        apply Nat.ltb_ge in C. destruct H as (Lb & I & _). apply Nat.ltb_lt in W. lia.
  Qed.

  (** The relation between the abstract stream and the buffer. *)
  Definition sim (s : stream) (b : bufio St) : Prop :=
    s_term s = t /\ holds (s_ev s) b /\
    forall bs, s_last s = Some bs ->
      b_last b = Some (length bs) /\ (length bs <= b_r b)%nat /\ firstn (length bs) (skipn (b_r b - length bs) (b_buf b)) = bs.

  Lemma readErr_holds l b e : holds l b -> b_err b = Some e -> b_data b = [] ->
    exists l', holds l' (fst (readErr b)) /\ stream_err {| s_ev := l; s_term := t; s_last := None |} = (e, l').
  Proof.
    pose proof big as Big. intros (Lb & I & P) E D. rewrite E in P. rewrite D in P. destruct P as (W & [(m & l' & -> & Dl & ->)|(-> & Dl & ->)]).
    - exists l'. split; [|reflexivity]. unfold holds, readErr. cbn [fst b_buf b_r b_w b_err b_src]. repeat split; try lia; try assumption.
      exists l'. split; [exact Dl|]. unfold b_data in *. cbn [b_r b_w b_buf]. now rewrite D.
    - exists []. split; [|cbn; now destruct t]. unfold holds, readErr. cbn [fst b_buf b_r b_w b_err b_src]. repeat split; try lia; try assumption.
      exists []. split; [exact Dl|]. unfold b_data in *. cbn [b_r b_w b_buf]. now rewrite D.
  Qed.

  (** What lies behind the buffered bytes. *)
  Lemma behind l b : holds l b -> exists l', l = map EvByte (b_data b) ++ l' /\ (b_err b <> None -> forall n, lead_bytes n l' = []).
  Proof.
    pose proof big as Big. intros (Lb & I & P). destruct (b_err b).
    - destruct P as (W & [(m & l' & -> & Dl & ->)|(-> & Dl & ->)]).
      + exists (EvFail m :: l'). split; [reflexivity|]. intros _ [|n]; reflexivity.
      + exists []. rewrite app_nil_r. split; [reflexivity|]. intros _ [|n]; reflexivity.
    - destruct P as (l' & _ & ->). exists l'. split; [reflexivity|]. now intros [].
  Qed.

  Lemma advance l b n o : holds l b -> (n <= b_w b - b_r b)%nat ->
    holds (skipn n l) {| b_buf := b_buf b; b_r := b_r b + n; b_w := b_w b; b_err := b_err b; b_last := o; b_src := b_src b |}.
  Proof.
    pose proof big as Big. intros H N. pose proof (data_length _ _ H) as Dl. destruct H as (Lb & I & P). unfold holds. cbn [b_buf b_r b_w b_err b_src].
    assert (D : b_data {| b_buf := b_buf b; b_r := b_r b + n; b_w := b_w b; b_err := b_err b; b_last := o; b_src := b_src b |} = skipn n (b_data b)).
    { unfold b_data. cbn [b_buf b_r b_w]. rewrite skipn_firstn_comm, skip_skip. f_equal. lia. }
    split; [exact Lb|]. split; [lia|]. rewrite D. destruct (b_err b).
    - destruct P as (W & [(m & l' & -> & Dv & ->)|(-> & Dv & ->)]); (split; [exact W|]).
      + left. exists m, l'. rewrite skip_ev by lia. auto.
      + right. split; [reflexivity|]. split; [exact Dv|]. rewrite <- (app_nil_r (map EvByte (b_data b))), skip_ev by lia. apply app_nil_r.
    - destruct P as (l' & Dv & ->). exists l'. rewrite skip_ev by lia. auto.
  Qed.

  Lemma rune_sim s b s' out : sim s b -> stream_rune s = (s', out) -> exists b', ReadRune Read b = (b', out) /\ sim s' b'.
  Proof.
    pose proof big as Big. intros (T & H & _). destruct s as [ev tm la]. cbn [s_term s_ev] in *. subst tm.
    destruct (runeLoop_holds 4 ev b H ltac:(lia)) as (H1 & F). set (b1 := runeLoop Read 4 b) in *.
    unfold ReadRune. fold b1. clearbody b1. cbn zeta. change (b_r (with_last b1 None)) with (b_r b1). change (b_w (with_last b1 None)) with (b_w b1).
    change (b_data (with_last b1 None)) with (b_data b1). pose proof (data_length _ _ H1) as Dl.
    destruct (behind _ _ H1) as (l' & El & Bh). unfold stream_rune. cbn [s_ev s_term s_last].
    destruct (b_r b1 =? b_w b1)%nat eqn:Z.
    - apply Nat.eqb_eq in Z. assert (D0 : b_data b1 = []) by (destruct (b_data b1); [reflexivity|cbn in Dl; lia]).
      assert (Ne : b_err b1 <> None) by (destruct F as [F|F]; [lia|rewrite D0 in F; discriminate|exact F]).
      destruct (b_err b1) as [e|] eqn:Er; [|congruence].
      destruct (readErr_holds ev b1 e H1 Er D0) as (l2 & H2 & Es).
      rewrite El, D0. cbn [map app]. rewrite (Bh Ne). rewrite El, D0 in Es. cbn [map app] in Es.
      unfold stream_err in *. cbn [s_ev s_term] in *. rewrite Es.
      intros X. injection X as <- <-. unfold readErr. cbn [b_err with_last]. rewrite Er.
      eexists. split; [reflexivity|]. split; [reflexivity|]. cbn [s_ev s_last]. split; [|discriminate].
      exact H2.
    - apply Nat.eqb_neq in Z. destruct (proj1 (proj2 H1)) as [Z1 Z2].
      assert (N0 : b_data b1 <> []) by (intros D0; rewrite D0 in Dl; cbn in Dl; lia).
      assert (Dc : decode_rune (lead_bytes 4 ev) = decode_rune (b_data b1)).
      { rewrite El, lead_app. destruct (Nat.leb_spec 4 (length (b_data b1))) as [G|G].
        - replace (4 - length (b_data b1))%nat with 0%nat by lia. cbn [lead_bytes]. rewrite app_nil_r. apply decode_four.
        - rewrite firstn_all2 by lia. destruct F as [F|F]; [lia|now apply full_decode|]. now rewrite (Bh F), app_nil_r. }
      destruct (decode_size _ N0) as [Sz S4]. destruct (decode_rune (b_data b1)) as [r n] eqn:Dr. cbn [snd] in *.
      assert (Le : lead_bytes 4 ev = firstn 4 (b_data b1) ++ lead_bytes (4 - length (b_data b1)) l') by (rewrite El; apply lead_app).
      assert (Fn : firstn n (lead_bytes 4 ev) = firstn n (b_data b1)).
      { rewrite Le, firstn_app, firstn_firstn. rewrite firstn_length.
        replace (n - Nat.min 4 (length (b_data b1)))%nat with 0%nat by lia. cbn [firstn]. rewrite app_nil_r. f_equal. lia. }
      destruct (lead_bytes 4 ev) as [|c cs] eqn:Lc.
      { exfalso. destruct (b_data b1); [congruence|]. cbn in Le. discriminate. }
      rewrite Dc. intros X. injection X as <- <-. eexists. split; [reflexivity|]. split; [reflexivity|].
      cbn [s_ev s_last b_buf b_err b_src with_last]. split; [apply advance; [exact H1|lia]|].
      intros bs E. injection E as <-. cbn [b_last b_r b_buf]. rewrite Fn, firstn_length.
      replace (Nat.min n (length (b_data b1))) with n by lia. split; [reflexivity|]. split; [lia|].
      replace (b_r b1 + n - n)%nat with (b_r b1) by lia. unfold b_data. rewrite firstn_firstn. f_equal. lia.
  Qed.

  Lemma unread_sim s b s' : sim s b -> stream_unread s = Some s' -> exists b', UnreadRune b = Some b' /\ sim s' b'.
  Proof.
    pose proof big as Big. intros (T & H & L). unfold stream_unread. destruct (s_last s) as [bs|] eqn:E; [|discriminate]. intros X. injection X as <-.
    destruct (L bs eq_refl) as (L1 & L2 & L3). unfold UnreadRune. rewrite L1.
    replace (b_r b <? length bs)%nat with false by (symmetry; apply Nat.ltb_ge; exact L2).
    eexists. split; [reflexivity|]. split; [exact T|]. split; [|discriminate]. cbn [s_ev].
    destruct H as (Lb & I & P). unfold holds. cbn [b_buf b_r b_w b_err b_src].
    assert (D : b_data {| b_buf := b_buf b; b_r := b_r b - length bs; b_w := b_w b; b_err := b_err b; b_last := None; b_src := b_src b |} = bs ++ b_data b).
    { unfold b_data. cbn [b_buf b_r b_w]. rewrite <- L3 at 3.
      replace (skipn (b_r b) (b_buf b)) with (skipn (length bs) (skipn (b_r b - length bs) (b_buf b))) by (rewrite skip_skip; f_equal; lia).
      set (m := skipn (b_r b - length bs) (b_buf b)). assert (Lm : (length bs <= length m)%nat) by (unfold m; rewrite skipn_length; lia).
      replace (b_w b - (b_r b - length bs))%nat with (length bs + (b_w b - b_r b))%nat by lia.
      rewrite <- (firstn_skipn (length bs) m) at 1. rewrite firstn_app, firstn_length, (Nat.min_l (length bs) (length m)) by lia.
      rewrite firstn_firstn, (Nat.min_r _ (length bs)) by lia. f_equal. f_equal. lia. }
    split; [exact Lb|]. split; [lia|]. rewrite D, map_app. destruct (b_err b).
    - destruct P as (W & [(m & l' & -> & Dv & ->)|(-> & Dv & ->)]); (split; [exact W|]).
      + left. exists m, l'. rewrite app_assoc. auto.
      + right. auto.
    - destruct P as (l' & Dv & ->). exists l'. rewrite app_assoc. auto.
  Qed.

  Lemma peek_sim n s b s' bs c e : (n <= 8)%nat -> sim s b -> stream_peek n s = (s', (bs, c, e)) ->
    exists b' c', Peek Read n b = (b', (bs, c', e)) /\ sim s' b' /\ (n <= c')%nat.
  Proof.
    pose proof big as Big. intros N (T & H & _). destruct s as [ev tm la]. cbn [s_term s_ev] in *. subst tm.
    destruct (peekLoop_holds n n ev (with_last b None) H ltac:(lia) N) as (H1 & F). set (b1 := peekLoop Read n n (with_last b None)) in *.
    unfold Peek. fold b1. clearbody b1. cbn zeta. pose proof (data_length _ _ H1) as Dl. destruct (behind _ _ H1) as (l' & El & Bh).
    pose proof H1 as (Lb & I & P). rewrite Lb. replace (bufSize <? n)%nat with false by (symmetry; apply Nat.ltb_ge; lia).
    unfold stream_peek. cbn [s_ev s_term]. rewrite El, lead_app.
    destruct (b_w b1 - b_r b1 <? n)%nat eqn:Z.
    - apply Nat.ltb_lt in Z. specialize (F Z). destruct (b_err b1) as [er|] eqn:Er; [|congruence].
      rewrite (Bh F), app_nil_r, firstn_all2 by lia.
      replace (length (b_data b1) =? n)%nat with false by (symmetry; apply Nat.eqb_neq; lia).
      rewrite skipn_app, skipn_all2 by (rewrite map_length; lia). rewrite map_length, Nat.sub_diag. cbn [skipn app].
      destruct (stream_err {| s_ev := l'; s_term := t; s_last := None |}) as [e1 l1] eqn:Es. intros X. injection X as <- <- <- <-.
      unfold readErr. rewrite Er. destruct P as (W & P).
      assert (G : er = e1 /\ exists l2, delivers Read t 99 (b_src b1) l2 /\ drop_fail (map EvByte (b_data b1) ++ l') = map EvByte (b_data b1) ++ l2).
      { rewrite El in P. destruct P as [(m & l2 & -> & Dv & P)|(-> & Dv & P)].
        - apply app_inv_head in P. subst l'. cbn in Es. split; [congruence|]. exists l2. rewrite drop_app. auto.
        - rewrite <- (app_nil_r (map EvByte (b_data b1))) in P at 2. apply app_inv_head in P. subst l'.
          cbn in Es. split; [destruct t; cbn in *; congruence|]. exists []. rewrite drop_app. auto. }
      destruct G as (-> & l2 & Dv & Ed). eexists. eexists. split; [reflexivity|]. split; [|lia].
      split; [reflexivity|]. cbn [s_ev s_last]. split; [|discriminate]. unfold holds. cbn [b_buf b_r b_w b_err b_src].
      repeat split; try lia. exists l2. split; [exact Dv|]. exact Ed.
    - apply Nat.ltb_ge in Z. replace (n - length (b_data b1))%nat with 0%nat by lia. cbn [lead_bytes]. rewrite app_nil_r, firstn_length.
      replace (Nat.min n (length (b_data b1)) =? n)%nat with true by (symmetry; apply Nat.eqb_eq; lia).
      intros X. injection X as <- <- <- <-. eexists. eexists. split; [reflexivity|]. split; [|lia].
      split; [reflexivity|]. cbn [s_ev s_last]. split; [|discriminate]. rewrite <- El. exact H1.
  Qed.

  Lemma discardLoop_holds i : forall remain l b, holds l b -> (0 < remain <= i)%nat -> (b_data b <> [] \/ b_err b = None) ->
    holds (stream_discard_ev remain l) (discardLoop Read i remain b).
  Proof.
    pose proof big as Big. induction i as [|i IH]; intros remain l b H R A; [lia|]. cbn [discardLoop].
    set (b1 := if (b_w b - b_r b =? 0)%nat then fill Read b else b).
    assert (G : holds l b1 /\ ((b_w b1 - b_r b1 = 0)%nat -> b_err b1 <> None)).
    { unfold b1. pose proof (data_length _ _ H) as Dl. destruct (b_w b - b_r b =? 0)%nat eqn:Z.
      - apply Nat.eqb_eq in Z. assert (E : b_err b = None) by (destruct A as [A|A]; [destruct (b_data b); [congruence|cbn in Dl; lia]|exact A]).
        destruct (fill_holds l b H E ltac:(lia)) as (H1 & R1 & _ & W1 & G1). split; [exact H1|]. intros Z1 E1. specialize (G1 E1). lia.
      - apply Nat.eqb_neq in Z. split; [exact H|]. lia. }
    destruct G as (H1 & G1). clearbody b1. pose proof (data_length _ _ H1) as Dl. destruct (behind _ _ H1) as (l' & El & _).
    set (skip := Nat.min (b_w b1 - b_r b1) remain). set (b2 := Build_bufio _ _ _ _ _ _).
    assert (H2 : holds (skipn skip l) b2) by (apply advance; [exact H1|unfold skip; lia]).
    destruct (remain - skip =? 0)%nat eqn:Z.
    - apply Nat.eqb_eq in Z. replace (stream_discard_ev remain l) with (skipn skip l); [exact H2|].
      rewrite El. replace skip with remain by (unfold skip in *; lia). rewrite skip_ev, discard_app by (unfold skip in *; lia). reflexivity.
    - apply Nat.eqb_neq in Z. assert (Sk : skip = length (b_data b1)) by (unfold skip in *; lia).
      assert (Ed : stream_discard_ev remain l = stream_discard_ev (remain - skip) (skipn skip l)).
      { rewrite El, skip_ev by lia. rewrite skipn_all2 by lia. cbn [map app]. rewrite discard_over by lia. now rewrite Sk. }
      rewrite Ed. assert (D2 : b_data b2 = []).
      { pose proof (data_length _ _ H2) as Y. unfold b2 in Y at 2 3. cbn [b_w b_r] in Y. destruct (b_data b2); [reflexivity|cbn in Y; lia]. }
      destruct (b_err b2) as [e|] eqn:E2.
      + destruct (readErr_holds _ _ _ H2 E2 D2) as (l2 & H3 & Es).
        replace (stream_discard_ev (remain - skip) (skipn skip l)) with l2; [exact H3|].
        destruct H2 as (_ & _ & P). rewrite E2, D2 in P. destruct (remain - skip)%nat; [lia|].
        destruct P as (W & [(m & l3 & -> & Dv & P)|(-> & Dv & P)]); rewrite P in *; cbn in Es |- *.
        * congruence.
        * destruct t; congruence.
      + apply IH; [exact H2| |right; exact E2]. split; [lia|].
        assert (1 <= skip)%nat; [|lia]. rewrite Sk, Dl. destruct (b_w b1 - b_r b1)%nat eqn:Y; [|lia].
        exfalso. apply (G1 eq_refl). exact E2.
  Qed.

  (** A byte can be read before the next failure. *)
  Definition some_byte (s : stream) : Prop := exists b l, s_ev s = EvByte b :: l.

  Lemma discard_sim n s b : (n <= 8)%nat -> sim s b -> some_byte s -> sim (stream_discard n s) (Discard Read n b).
  Proof.
    pose proof big as Big. intros N (T & H & _) (c & l & E). split; [exact T|]. split; [|discriminate]. unfold Discard, stream_discard. cbn [s_ev].
    destruct n as [|n]; [exact H|]. apply discardLoop_holds; [exact H|lia|].
    destruct (behind _ _ H) as (l' & El & Bh). destruct (b_data b) as [|x d] eqn:D; [|left; discriminate].
    right. destruct (b_err b); [|reflexivity]. exfalso. specialize (Bh ltac:(discriminate) 1%nat). cbn in El. rewrite <- El, E in Bh. discriminate.
  Qed.

  Lemma rune_back s s' r : stream_rune s = (s', (r, None)) -> exists s'', stream_unread s' = Some s'' /\ some_byte s''.
  Proof.
    pose proof big as Big. unfold stream_rune. destruct (lead_bytes 4 (s_ev s)) as [|c cs] eqn:L; [now destruct (stream_err s)|].
    destruct (decode_size (c :: cs) ltac:(discriminate)) as [Sz _].
    destruct (decode_rune (c :: cs)) as [r0 n]. cbn [snd] in Sz. intros X. injection X as <- _. unfold stream_unread. cbn [s_last].
    eexists. split; [reflexivity|]. destruct n as [|n]; [lia|]. cbn. unfold some_byte. cbn. eauto.
  Qed.

  Lemma rune_zero s s' r e : stream_rune s = (s', (r, Some e)) -> r = 0%Z.
  Proof.
    pose proof big as Big. unfold stream_rune. destruct (lead_bytes 4 (s_ev s)) as [|c cs].
    - destruct (stream_err s). congruence.
    - destruct (decode_rune (c :: cs)). discriminate.
  Qed.

  Lemma peek_some n s s' bs c e : stream_peek n s = (s', (bs, c, e)) -> some_byte s \/ bs <> [] -> some_byte s'.
  Proof.
    pose proof big as Big. intros E H. assert (B : some_byte s).
    { destruct H as [H|H]; [exact H|]. unfold stream_peek in E.
      assert (bs = lead_bytes n (s_ev s)).
      { destruct (_ =? n)%nat; [congruence|]. destruct (stream_err _). congruence. }
      subst bs. unfold some_byte. destruct n; [now contradiction H|]. destruct (s_ev s) as [|[b|m] l]; [now contradiction H|eauto|now contradiction H]. }
    destruct B as (b & l & B). unfold stream_peek in E. rewrite B in E. destruct (_ =? n)%nat.
    - injection E as <- _ _ _. unfold some_byte. cbn. eauto.
    - destruct (stream_err _). injection E as <- _ _ _. unfold some_byte. cbn. eauto.
  Qed.

  Lemma new_sim s l : delivers Read t 99 s l -> sim {| s_ev := l; s_term := t; s_last := None |} (NewReader s).
  Proof.
    pose proof big as Big. intros D. split; [reflexivity|]. split; [|discriminate]. cbn [s_ev]. unfold holds. cbn [b_buf b_r b_w b_err b_src NewReader].
    split; [apply repeat_length|]. split; [lia|]. exists l. split; [exact D|]. reflexivity.
  Qed.

  (** Whatever ParseStream does over the abstract stream, it does over the buffered
      reader. *)
  Theorem bufio_parses U fuel s l r : delivers Read t 99 s l ->
    ParseReader stream_ops U fuel {| s_ev := l; s_term := t; s_last := None |} = Ok r ->
    ParseReader (bufio_ops Read) U fuel (NewReader s) = Ok r.
  Proof.
    pose proof big as Big. intros D. unfold ParseReader. pose proof (new_sim s l D) as N.
    destruct (yyParse (Lex stream_ops U fuel) Error fuel _) as [[c ps]| |] eqn:E; try discriminate. cbn [rbind].
    destruct (yyParse_sim (Lex stream_ops U fuel) Error (Lex (bufio_ops Read) U fuel) Error (like sim)
      (fun x y v c v' x' => Lex_sim stream_ops (bufio_ops Read) U sim some_byte rune_sim unread_sim peek_sim discard_sim rune_back rune_zero peek_some fuel x y v c v' x')
      (fun x y m => like_Error sim x y m) fuel _ _ c ps (like_new sim _ _ N) E) as (y & -> & Q).
    cbn [rbind]. cbn [relx ps_lx ps_result]. rewrite <- (proj1 (proj2 Q)). exact (fun H => H).
  Qed.
End Sim.
