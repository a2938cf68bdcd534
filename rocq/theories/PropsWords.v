(** Properties C56, C46, C69 and C06 (in part): what is written in a text is in the tree.
    Words and components are specified in [Words.v]. *)
From Coq Require Import ZArith String Ascii Bool List Lia.
From Verif Require Import GoBase Unicode Tokens LexRuns Ast Grammar Parser ParserFacts ParserRuns Render AstInd AstFacts
  LexSpec Words Forgotten ForgottenFacts WordsFacts ComponentFacts Conflicts ParserComplete Structs StructFacts FromText.
Import ListNotations.
Local Open Scope string_scope.
Local Open Scope list_scope.
Local Open Scope Z_scope.

Lemma reads_all_det U s ts us : reads_all U s ts -> reads_all U s us -> ts = us.
Proof. rewrite !reads_all_tokens. intros A B. exact (tokens_det U _ _ _ B _ A). Qed.

(** * C56: every word is in the tree *)

(** The derivation tree of an accepted text that the parser follows, and its value. *)
Lemma followed U s m ts : parses U s (ParseOk (Some m)) -> reads_all U s ts ->
  exists T m', yields T (Nt N_ModuleDefinition (S_module m')) /\ kept 0 0 T = true /\ leaves T = ts /\ shape m' = shape m /\
    (no_pointers m -> m' = m).
Proof.
  intros P R. destruct (proj1 (accepts_exactly U s (shape m)) (ex_intro _ m (conj P eq_refl))) as (T & m' & Y & K & R' & Sh).
  exists T, m'. repeat split; auto; [exact (reads_all_det U s _ _ R' R)|].
  intros (m0 & ->). apply module_same. exact (eq_trans Sh (md_comp _ _ _ _ _)).
Qed.

(** Each word occurs in the tree as often as in the text outside of export lists,
    exceptions (!), WITH COMPONENT(S) and extension groups, where the targets of
    pointers are those of the derivation ([m'], see C06 and C07; a module without
    pointers is [m'] itself).  [T] is the derivation tree that the parser follows. *)
Theorem C56_words_partial : forall U s m ts, parses U s (ParseOk (Some m)) -> reads_all U s ts ->
  exists T m', yields T (Nt N_ModuleDefinition (S_module m')) /\ kept 0 0 T = true /\ leaves T = ts /\
    shape m' = shape m /\ (no_pointers m -> m' = m) /\
    (existsb traceless ts = false -> outside T = ts) /\
    forall x, x <> "" -> occurrences x (text_words (outside T)) = occurrences x (words m').
Proof.
  intros U s m ts P R. destruct (followed U s m ts P R) as (T & m' & Y & K & L & Sh & Np). exists T, m'.
  repeat split; auto; [subst ts; exact (outside_all T _ Y)|]. intros x Hx. now apply module_count.
Qed.
Print Assumptions C56_words_partial.

(** Export lists, for one, are read and forgotten. *)
Theorem C56_words_refuted : exists s s' ts ts' m,
  reads_all ascii_tables s ts /\ In "Secret" (text_words ts) /\
  reads_all ascii_tables s' ts' /\ ~ In "Secret" (text_words ts') /\
  parses ascii_tables s (ParseOk (Some m)) /\ parses ascii_tables s' (ParseOk (Some m)).
Proof.
  eexists "M DEFINITIONS ::= BEGIN EXPORTS Secret; T ::= NULL END", "M DEFINITIONS ::= BEGIN T ::= NULL END", _, _, _.
  split; [apply reads_all_tokens; repeat (eapply tokens_cons; [vm_compute; reflexivity|]); apply tokens_nil; vm_compute; reflexivity|].
  split; [cbn; tauto|].
  split; [apply reads_all_tokens; repeat (eapply tokens_cons; [vm_compute; reflexivity|]); apply tokens_nil; vm_compute; reflexivity|].
  split; [cbn; intros H; repeat (destruct H as [H|H]; [discriminate H|]); exact H|].
  split; apply (ParseString_parses _ 1000); vm_compute; reflexivity.
Qed.
Print Assumptions C56_words_refuted.

Definition c56_text : string :=
  "M DEFINITIONS IMPLICIT TAGS ::= BEGIN IMPORTS A FROM N; T ::= SEQUENCE { a [0] A OPTIONAL, b CHOICE { c BOOLEAN, d SET OF A }, ..., e INTEGER (x | 3 EXCEPT 5) } x INTEGER ::= 4 END".

Example C56_example : exists ts m, reads_all ascii_tables c56_text ts /\ existsb traceless ts = false /\
  parses ascii_tables c56_text (ParseOk (Some m)) /\ occurrences "A" (text_words ts) = 3%nat /\ occurrences "A" (words m) = 3%nat.
Proof.
  unfold c56_text. eexists _, _.
  split; [apply reads_all_tokens; repeat (eapply tokens_cons; [vm_compute; reflexivity|]); apply tokens_nil; vm_compute; reflexivity|].
  split; [reflexivity|]. split; [apply (ParseString_parses _ 1000); vm_compute; reflexivity|]. split; reflexivity.
Qed.

Definition c56_forgetful : string :=
  "M DEFINITIONS ::= BEGIN EXPORTS A, B; B ::= SEQUENCE { a A, ..., [[ g A, h SET { i A } ]], k B } A ::= INTEGER (0..9 ! 7) END".
Example C56_forgetful_example : exists ts m, reads_all ascii_tables c56_forgetful ts /\
  parses ascii_tables c56_forgetful (ParseOk (Some m)) /\ existsb traceless ts = true /\
  occurrences "A" (text_words ts) = 5%nat /\ occurrences "A" (words m) = 2%nat /\ occurrences "B" (words m) = 2%nat.
Proof.
  unfold c56_forgetful. eexists _, _.
  split; [apply reads_all_tokens; repeat (eapply tokens_cons; [vm_compute; reflexivity|]); apply tokens_nil; vm_compute; reflexivity|].
  split; [apply (ParseString_parses _ 1000); vm_compute; reflexivity|]. repeat split; reflexivity.
Qed.

(** Of every accepted text: nothing is made up.  A word of the tree, what the pointers
    point to included, is empty (of what was left out) or a word of the text. *)
Theorem C56_from_text : forall U s m ts x, parses U s (ParseOk (Some m)) -> reads_all U s ts -> In x (words m) ->
  x = "" \/ In x (text_words ts).
Proof. exact words_from_text. Qed.
Print Assumptions C56_from_text.

Example C56_from_text_example : exists ts m,
  reads_all ascii_tables "M DEFINITIONS ::= BEGIN EXPORTS Secret; T ::= SEQUENCE { o OBJECT IDENTIFIER DEFAULT { N.b c(1) d }, ... } END" ts /\
  parses ascii_tables "M DEFINITIONS ::= BEGIN EXPORTS Secret; T ::= SEQUENCE { o OBJECT IDENTIFIER DEFAULT { N.b c(1) d }, ... } END" (ParseOk (Some m)) /\
  words m = ["M"; "T"; "SEQUENCE"; "o"; "OBJECT"; "IDENTIFIER"; "DEFAULT"].
Proof.
  eexists _, _.
  split; [apply reads_all_tokens; repeat (eapply tokens_cons; [vm_compute; reflexivity|]); apply tokens_nil; vm_compute; reflexivity|].
  split; [apply (ParseString_parses _ 1000); vm_compute; reflexivity|]. reflexivity.
Qed.

(** * C46: components in the tree, and C06: where the defaults are *)

(** Every component of a SEQUENCE or SET written outside of the constructs of C56 is in
    the tree, with OPTIONAL and DEFAULT as written; and the tree has no others.  [T] is
    the derivation tree that the parser follows. *)
Theorem C46_components_partial : forall U s m ts, parses U s (ParseOk (Some m)) -> reads_all U s ts ->
  exists T m', yields T (Nt N_ModuleDefinition (S_module m')) /\ kept 0 0 T = true /\ leaves T = ts /\ shape m' = shape m /\
    (existsb traceless ts = false -> remembered T = T) /\
    forall x, component_count x (written_components (remembered T)) = component_count x (module_components m).
Proof.
  intros U s m ts P R. destruct (followed U s m ts P R) as (T & m' & Y & K & L & Sh & _). exists T, m'.
  repeat split; auto; [subst ts; exact (remembered_all T _ Y)|].
  intros x. rewrite <- (shape_components m' m Sh). now apply module_component_count.
Qed.
Print Assumptions C46_components_partial.

Example C46_partial_example : exists ts m, reads_all ascii_tables c56_text ts /\ existsb traceless ts = false /\
  parses ascii_tables c56_text (ParseOk (Some m)) /\
  module_components m = [("a", true, false); ("b", false, false); ("e", false, false)].
Proof.
  unfold c56_text. eexists _, _.
  split; [apply reads_all_tokens; repeat (eapply tokens_cons; [vm_compute; reflexivity|]); apply tokens_nil; vm_compute; reflexivity|].
  split; [reflexivity|]. split; [apply (ParseString_parses _ 1000); vm_compute; reflexivity|]. reflexivity.
Qed.

(** * C69: components come in the order in which they are written *)

(** Outside of the constructs of C56, every SEQUENCE { } and SET { } written in the text
    is in the tree with the same components in the same order, extension additions
    included, and the tree has no others.  [T] is the derivation tree that the parser
    follows.  (asn1.y:688 moves components after a second extension marker before the
    additions; but such texts are rejected, see C51.) *)
Theorem C69_order_partial : forall U s m ts, parses U s (ParseOk (Some m)) -> reads_all U s ts ->
  exists T m', yields T (Nt N_ModuleDefinition (S_module m')) /\ kept 0 0 T = true /\ leaves T = ts /\ shape m' = shape m /\
    (existsb traceless ts = false -> remembered T = T) /\
    forall x, struct_count x (written_structs (remembered T)) = struct_count x (module_structs m).
Proof.
  intros U s m ts P R. destruct (followed U s m ts P R) as (T & m' & Y & K & L & Sh & _). exists T, m'.
  repeat split; auto; [subst ts; exact (remembered_all T _ Y)|].
  intros x. rewrite <- (shape_structs m' m Sh). now apply module_struct_count.
Qed.
Print Assumptions C69_order_partial.

Example C69_forgetful_example : exists ts m, reads_all ascii_tables c56_forgetful ts /\
  parses ascii_tables c56_forgetful (ParseOk (Some m)) /\
  module_structs m = [{| is_set := false; entries := [Component "a" false false; Component "k" false false] |}].
Proof.
  unfold c56_forgetful. eexists _, _.
  split; [apply reads_all_tokens; repeat (eapply tokens_cons; [vm_compute; reflexivity|]); apply tokens_nil; vm_compute; reflexivity|].
  split; [apply (ParseString_parses _ 1000); vm_compute; reflexivity|]. reflexivity.
Qed.

Definition c69_text : string :=
  "M DEFINITIONS ::= BEGIN A ::= SEQUENCE { a INTEGER DEFAULT 5, b SET { c BOOLEAN OPTIONAL, d NULL }, COMPONENTS OF B, ..., e REAL } END".

Example C69_example : exists ts m, reads_all ascii_tables c69_text ts /\ existsb traceless ts = false /\
  parses ascii_tables c69_text (ParseOk (Some m)) /\
  module_structs m =
    [{| is_set := false; entries := [Component "a" false true; Component "b" false false; ComponentsOf; Component "e" false false] |};
     {| is_set := true; entries := [Component "c" true false; Component "d" false false] |}].
Proof.
  unfold c69_text. eexists _, _.
  split; [apply reads_all_tokens; repeat (eapply tokens_cons; [vm_compute; reflexivity|]); apply tokens_nil; vm_compute; reflexivity|].
  split; [reflexivity|]. split; [apply (ParseString_parses _ 1000); vm_compute; reflexivity|]. reflexivity.
Qed.
