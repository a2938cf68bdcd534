(** Properties C75: numbers, specified in [Numbers.v], and C80: value ranges, specified
    in [Ranges.v]. *)
From Coq Require Import ZArith String List Bool Lia SpecFloat Permutation.
From Verif Require Import GoBase Utf8 Unicode Tokens Tables Ast Lexer LexRuns LexSpec LexWords LexProps Grammar Parser ParserFacts ParserRuns
  Render AstInd AstFacts
  Words Forgotten ForgottenFacts Conflicts Numbers NumbersFacts Numerals NumeralFacts FromText Ranges RangesFacts PropsWords.
Import ListNotations.
Local Open Scope string_scope.
Local Open Scope list_scope.
Local Open Scope Z_scope.

(** Numbers of tokens are ints and not negative. *)
Lemma token_range U s ts : reads_all U s ts -> Forall (fun t => tk_kind t = T_NUMBER -> 0 <= tk_number t < 2 ^ 63) ts.
Proof.
  intros R. apply reads_all_tokens in R. apply tokens_pieces in R as (l & last & (_ & F & _) & <-).
  induction F as [|((g, w), t) l (_ & Lx) _ IH]; [constructor|]. cbn [map snd]. constructor; [|exact IH].
  destruct Lx as [w code W UP I2|w W UP NI|w W UP|w W F' D|r E|z code I2]; cbn [tk_kind tk_number plain_token]; try lia.
  intros _. split; [|exact D]. exact (decimal_nonneg w 0 (Z.le_refl 0) F').
Qed.

(** * C75: numbers *)

(** Every integer in the tree, default values included, is a number of the text, or the
    negative of one, or 0; it is within int64. *)
Theorem C75_from_text : forall U s m ts z, parses U s (ParseOk (Some m)) -> reads_all U s ts -> In (Whole z) (numbers m) ->
  (z = 0 \/ In (Z.abs z) (text_numbers ts)) /\ - 2 ^ 63 < z < 2 ^ 63.
Proof.
  intros U s m ts z P R I. pose proof (token_range U s ts R) as B.
  apply (numbers_from_text U (fun z => (z = 0 \/ In (Z.abs z) (text_numbers ts)) /\ - 2 ^ 63 < z < 2 ^ 63) s m ts z); try assumption.
  - split; [now left|lia].
  - intros y [A C]. unfold wrap64. rewrite Z.mod_small by lia. replace (- y + 2 ^ 63 - 2 ^ 63) with (- y) by lia. split; [|lia].
    destruct A as [->|A]; [now left|right; now rewrite Z.abs_opp].
  - rewrite Forall_forall in *. intros t It K. specialize (B t It K). split; [right|lia].
    replace (Z.abs (tk_number t)) with (tk_number t) by lia. apply in_flat_map. exists t. split; [exact It|].
    unfold token_numbers. rewrite K. now left.
Qed.
Print Assumptions C75_from_text.

(** Every number of the text outside of export lists, exceptions, WITH COMPONENT(S) and
    extension groups is in the tree, as often as it is written, if the tree has no real
    number.  [T] is the derivation tree that the parser follows. *)
Theorem C75_numbers_partial : forall U s m ts, parses U s (ParseOk (Some m)) -> reads_all U s ts ->
  exists T m', yields T (Nt N_ModuleDefinition (S_module m')) /\ kept 0 0 T = true /\ leaves T = ts /\
    shape m' = shape m /\ (no_pointers m -> m' = m) /\
    (existsb traceless ts = false -> outside T = ts) /\
    (all_whole (numbers m') = true -> forall n, 0 < n < 2 ^ 63 -> times n (text_numbers (outside T)) = times_unsigned n (numbers m')).
Proof.
  intros U s m ts P R. pose proof (token_range U s ts R) as B.
  destruct (followed U s m ts P R) as (T & m' & Y & K & L & Sh & Np). exists T, m'.
  repeat split; auto; [subst ts; exact (outside_all T _ Y)|]. intros W n Hn. subst ts. now apply module_times.
Qed.
Print Assumptions C75_numbers_partial.

(** Signs and REAL numbers too: each number other than 0 is in the tree, with its sign,
    as often as it is written outside of these constructs. *)
Theorem C75_values_partial : forall U s m ts, parses U s (ParseOk (Some m)) -> reads_all U s ts ->
  exists T m', yields T (Nt N_ModuleDefinition (S_module m')) /\ kept 0 0 T = true /\ leaves T = ts /\
    shape m' = shape m /\ (no_pointers m -> m' = m) /\
    (existsb traceless ts = false -> remembered T = T) /\
    forall x, x <> Whole 0 -> numeral_count x (written_numbers (remembered T)) = numeral_count x (numbers m').
Proof.
  intros U s m ts P R. pose proof (token_range U s ts R) as B.
  destruct (followed U s m ts P R) as (T & m' & Y & K & L & Sh & Np). exists T, m'.
  repeat split; auto; [subst ts; exact (remembered_all T _ Y)|]. intros x Hx. subst ts. now apply module_numerals.
Qed.
Print Assumptions C75_values_partial.

Definition c75_signs : string :=
  "M DEFINITIONS ::= BEGIN x INTEGER ::= -5 y REAL ::= -2.5 z REAL ::= 3E-1 T ::= INTEGER { low(-7) } (5..7 ! 9) w REAL ::= MINUS-INFINITY END".
Example C75_values_example : exists ts m, reads_all ascii_tables c75_signs ts /\ parses ascii_tables c75_signs (ParseOk (Some m)) /\
  numbers m = [Whole (-5); Decimal (S754_finite true 5629499534213120 (-51)); Decimal (S754_finite false 5404319552844596 (-54));
               Whole (-7); Whole 5; Whole 7; Decimal (S754_infinity true)].
Proof.
  unfold c75_signs. eexists _, _.
  split; [apply reads_all_tokens; repeat (eapply tokens_cons; [vm_compute; reflexivity|]); apply tokens_nil; vm_compute; reflexivity|].
  split; [apply (ParseString_parses _ 1000); vm_compute; reflexivity|]. vm_compute. reflexivity.
Qed.

Definition c75_text : string :=
  "M { iso(1) 5 } DEFINITIONS ::= BEGIN
   T ::= SEQUENCE { a [5] INTEGER { low(-5), high(9223372036854775807) }, b BIT STRING { first(0) },
                    c ENUMERATED { red(7) }, d INTEGER (-7..7 | 12) }
   x INTEGER ::= -9223372036854775807
   END".
Definition c75_module : Module_ := Eval vm_compute in
  match ParseString ascii_tables 1000 c75_text with Ok (ParseOk (Some m)) => m | _ => Build_ModuleDefinition _ _ (Build_ModuleIdentifier "" []) 0 false (Build_ModuleBody _ _ [] []) end.

Ltac read_all := apply reads_all_tokens; repeat (eapply tokens_cons; [vm_compute; reflexivity|]); apply tokens_nil; vm_compute; reflexivity.

Example C75_example : exists ts, reads_all ascii_tables c75_text ts /\ existsb traceless ts = false /\
  parses ascii_tables c75_text (ParseOk (Some c75_module)) /\ no_pointers c75_module /\ all_whole (numbers c75_module) = true /\
  numbers c75_module = [Whole 1; Whole 5; Whole 5; Whole (-5); Whole 9223372036854775807; Whole 0; Whole 7; Whole (-7); Whole 7; Whole 12;
                        Whole (-9223372036854775807)] /\
  times 7 (text_numbers ts) = 3%nat.
Proof.
  unfold c75_text. eexists.
  split; [read_all|]. split; [reflexivity|]. split; [apply (ParseString_parses _ 1000); vm_compute; reflexivity|].
  split; [|split; [reflexivity|split; reflexivity]].
  exists {|
    md_ModuleIdentifier :=
      {|
        mi_Reference := "M";
        mi_DefinitiveIdentifier :=
          [{| doc_Name := "iso"; doc_Id := 1 |};
           {| doc_Name := ""; doc_Id := 5 |}]
      |};
    md_TagDefault := 0;
    md_ExtensibilityImplied := false;
    md_ModuleBody :=
      {|
        mb_AssignmentList :=
          [AType "T"
             (TSequence
                [CNamed
                   (Named "a"
                      (TTagged
                         {| tag_Class := 0; tag_ClassNumber := VNumber 5 |}
                         (TInteger
                            [{| nn_Name := "low"; nn_Value := NNumber (-5) |};
                             {|
                               nn_Name := "high";
                               nn_Value := NNumber 9223372036854775807
                             |}]) 0 false)) false None;
                 CNamed
                   (Named "b"
                      (TBitString
                         [{| nb_Name := "first"; nb_Index := VNumber 0 |}]))
                   false None;
                 CNamed
                   (Named "c"
                      (TEnumerated
                         {|
                           et_RootEnumeration :=
                             [EINumber
                                {| nn_Name := "red"; nn_Value := NNumber 7 |}];
                           et_AdditionalEnumeration := []
                         |})) false None;
                 CNamed
                   (Named "d"
                      (TConstrained (TInteger [])
                         (CSSubtype
                            [EUnions
                               [[Intersect
                                   (EValueRange
                                      {|
                                        re_Value := VNumber (-7);
                                        re_IsOpen := false
                                      |}
                                      {|
                                        re_Value := VNumber 7;
                                        re_IsOpen := false
                                      |}) ENil];
                                [Intersect (ESingleValue (VNumber 12)) ENil]]])))
                   false None] []);
           AValue "x" (TInteger []) (VNumber (-9223372036854775807))];
        mb_Imports := []
      |}
  |}.
  reflexivity.
Qed.

(** The numbers of exceptions, for one, are read and forgotten. *)
Theorem C75_numbers_refuted : exists s s' ts ts' m,
  reads_all ascii_tables s ts /\ In 7 (text_numbers ts) /\
  reads_all ascii_tables s' ts' /\ ~ In 7 (text_numbers ts') /\
  parses ascii_tables s (ParseOk (Some m)) /\ parses ascii_tables s' (ParseOk (Some m)).
Proof.
  eexists "M DEFINITIONS ::= BEGIN T ::= INTEGER (1 ! 7) END", "M DEFINITIONS ::= BEGIN T ::= INTEGER (1 ! 8) END", _, _, _.
  split; [read_all|]. split; [cbn; tauto|].
  split; [read_all|]. split; [cbn; intros H; repeat (destruct H as [H|H]; [discriminate H|]); exact H|].
  split; apply (ParseString_parses _ 1000); vm_compute; reflexivity.
Qed.
Print Assumptions C75_numbers_refuted.

(** * C80: value ranges *)

(** Every range of the tree, with what IsUnspecified and IsOpen say of its ends, is one
    of the text. *)
Theorem C80_from_text : forall U s m ts r, parses U s (ParseOk (Some m)) -> reads_all U s ts ->
  (count_occ range_dec (module_ranges m) r <= count_occ range_dec (text_ranges ts) r)%nat.
Proof.
  intros U s m ts r P R.
  destruct (parses_outcome U s _ P) as [(e & E)|(m1 & us & m' & E & R' & D & Sh)]; [discriminate E|].
  assert (m1 = m) as -> by congruence. rewrite (reads_all_det U s us ts R' R) in D. rewrite (shape_ranges m m' Sh).
  exact (module_ranges_from ts m' r D).
Qed.
Print Assumptions C80_from_text.

(** And every range of the text outside of the constructs that leave no trace is in the
    tree. *)
Theorem C80_ranges_partial : forall U s m ts, parses U s (ParseOk (Some m)) -> reads_all U s ts ->
  exists T m', yields T (Nt N_ModuleDefinition (S_module m')) /\ kept 0 0 T = true /\ leaves T = ts /\ shape m' = shape m /\
    (existsb traceless ts = false -> outside T = ts) /\
    Permutation (text_ranges (outside T)) (module_ranges m).
Proof.
  intros U s m ts P R. destruct (followed U s m ts P R) as (T & m' & Y & K & L & Sh & _). exists T, m'.
  repeat split; auto; [subst ts; exact (outside_all T _ Y)|].
  rewrite <- (shape_ranges m' m Sh). now apply module_ranges_all.
Qed.
Print Assumptions C80_ranges_partial.

Definition c80_text : string :=
  "M DEFINITIONS ::= BEGIN
   T ::= SEQUENCE (SIZE (1..MAX)) OF INTEGER (MIN<..<-5 | 0..<low | {1 2}<..MAX, ..., 3)
   U ::= SEQUENCE { a INTEGER (MIN..MAX) OPTIONAL, ..., b SET { c REAL (0.5..<1.5) }, d INTEGER (1..2) }
   END".
Definition c80_module : Module_ := Eval vm_compute in
  match ParseString ascii_tables 1000 c80_text with Ok (ParseOk (Some m)) => m | _ => Build_ModuleDefinition _ _ (Build_ModuleIdentifier "" []) 0 false (Build_ModuleBody _ _ [] []) end.

Example C80_example : exists ts,
  parses ascii_tables c80_text (ParseOk (Some c80_module)) /\ reads_all ascii_tables c80_text ts /\ existsb traceless ts = false /\
  text_ranges ts =
    [Range false false false true; Range true true true false; Range false false true false; Range false true false true;
     Range true false false true; Range false false true false; Range false false false false] /\
  module_ranges c80_module =
    [Range true true true false; Range false false true false; Range false true false true; Range false false false true;
     Range true false false true; Range false false true false; Range false false false false].
Proof.
  eexists. split; [apply (ParseString_parses _ 1000); vm_compute; reflexivity|].
  split; [read_all|]. split; [vm_compute; reflexivity|]. split; vm_compute; reflexivity.
Qed.

(** A range below WITH COMPONENT is read and forgotten. *)
Theorem C80_ranges_refuted : exists s ts m,
  parses ascii_tables s (ParseOk (Some m)) /\ reads_all ascii_tables s ts /\
  text_ranges ts = [Range false false false true] /\ module_ranges m = [].
Proof.
  eexists "M DEFINITIONS ::= BEGIN T ::= L (WITH COMPONENT (0..MAX)) L ::= SEQUENCE OF INTEGER END", _, _.
  split; [apply (ParseString_parses _ 1000); vm_compute; reflexivity|].
  split; [read_all|]. split; vm_compute; reflexivity.
Qed.
Print Assumptions C80_ranges_refuted.
