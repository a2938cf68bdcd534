(** Properties C85, C86: the parts of a module, specified in [Parts.v]. *)
From Coq Require Import ZArith String List Bool Lia Permutation.
From Verif Require Import GoBase Utf8 Unicode Tokens Tables Ast Lexer LexRuns LexSpec LexWords LexProps Grammar Parser ParserFacts ParserRuns
  Render AstInd AstFacts
  Words Forgotten ForgottenFacts Conflicts Numbers NumbersFacts Numerals NumeralFacts Ranges Structs WrittenTags ItemLists Parts PartsFacts PropsWords PropsNumbers.
Import ListNotations.
Local Open Scope string_scope.
Local Open Scope list_scope.
Local Open Scope Z_scope.

Lemma phrases_weaken {A B} (P Q : A -> B -> Prop) l l' : (forall a b, In a l -> P a b -> Q a b) -> Forall2 P l l' -> Forall2 Q l l'.
Proof. intros H F. induction F; constructor; [apply H; [left; reflexivity|assumption]|apply IHF; intros; apply H; [right|]; assumption]. Qed.

(** * C85: the module consists of the parts of the text, in their order *)

Lemma cut U s m ts : parses U s (ParseOk (Some m)) -> reads_all U s ts ->
  exists m' imports As, shape m' = shape m /\ (no_pointers m -> m' = m) /\ module_text ts m imports As /\
    import_phrases imports (mb_Imports (md_ModuleBody m')) /\ assignment_phrases As (mb_AssignmentList (md_ModuleBody m')) /\
    Forall (fun A => Forall clean (leaves A)) As.
Proof.
  intros P R. destruct (followed U s m ts P R) as (T & m' & Y & K & L & Sh & Np).
  destruct (tree_parts T _ Y (ex_intro _ 0 (ex_intro _ 0 K))) as (_ & _ & imports & As & M & Ip & Ap).
  pose proof (token_range U s ts R) as C. rewrite L in M. exists m', imports, As. repeat split; auto.
  - destruct M as (q & oid & def & mid & asg & beg & el & il & e & M). exists q, oid, def, mid, asg, beg, el, il, e.
    assert (E : md_ModuleIdentifier m' = md_ModuleIdentifier m /\ md_TagDefault m' = md_TagDefault m /\
      md_ExtensibilityImplied m' = md_ExtensibilityImplied m).
    { destruct m, m'. injection Sh as -> -> -> _. auto. }
    destruct E as (<- & <- & <-). exact M.
  - destruct M as (q & oid & def & mid & asg & beg & el & il & e & M & _). subst ts. rewrite M in C. apply Forall_forall. intros A IA.
    apply Forall_forall. intros t It. rewrite Forall_forall in C. refine (C t _). assert (X : In t (flat_map leaves As)) by (apply in_flat_map; eauto).
    cbn [In]. repeat (rewrite in_app_iff; cbn [In]). tauto.
Qed.

(** The text is cut into its head, its exports, its imports and its assignments.  The
    module has the name and the defaults of the head; its imports and assignments are
    those of the text, one for one and in the same order; each import has the names in
    front of its FROM and the module behind it; each assignment has the name and the kind
    that are written. *)
Theorem C85_parts : forall U s m ts, parses U s (ParseOk (Some m)) -> reads_all U s ts ->
  exists imports As, module_text ts m imports As /\
    Forall2 (fun I i => import_text (leaves I) i) imports (mb_Imports (md_ModuleBody m)) /\
    Forall2 (fun A a => assignment_text (leaves A) a) As (mb_AssignmentList (md_ModuleBody m)).
Proof.
  intros U s m ts P R. destruct (cut U s m ts P R) as (m' & imports & As & Sh & _ & M & Ip & Ap & _).
  exists imports, As. split; [exact M|].
  assert (E : map (amap (fun _ => tt) (fun _ => tt)) (mb_AssignmentList (md_ModuleBody m')) =
      map (amap (fun _ => tt) (fun _ => tt)) (mb_AssignmentList (md_ModuleBody m)) /\
    map (sfm_map (fun _ => tt)) (mb_Imports (md_ModuleBody m')) = map (sfm_map (fun _ => tt)) (mb_Imports (md_ModuleBody m))).
  { destruct m as [? ? ? []], m' as [? ? ? []]. injection Sh as _ _ _ E1 E2. split; assumption. }
  destruct E as [E1 E2]. split.
  - apply (proj1 (phrases_map _ (fun I i => import_text (leaves I) i) (sfm_map (fun _ => tt)) _ _ (fun I i => import_text_map (fun _ => tt) (leaves I) i))).
    rewrite <- E2. apply (proj2 (phrases_map _ (fun I i => import_text (leaves I) i) (sfm_map (fun _ => tt)) _ _ (fun I i => import_text_map (fun _ => tt) (leaves I) i))).
    apply (phrases_weaken _ _ _ _ (fun I i _ X => proj2 X) Ip).
  - apply (proj1 (phrases_map _ (fun A a => assignment_text (leaves A) a) (amap (fun _ => tt) (fun _ => tt)) _ _ (fun A a => assignment_text_map (fun _ => tt) (fun _ => tt) (leaves A) a))).
    rewrite <- E1. apply (proj2 (phrases_map _ (fun A a => assignment_text (leaves A) a) (amap (fun _ => tt) (fun _ => tt)) _ _ (fun A a => assignment_text_map (fun _ => tt) (fun _ => tt) (leaves A) a))).
    apply (phrases_weaken _ _ _ _ (fun A a _ X => proj2 (proj2 X)) Ap).
Qed.
Print Assumptions C85_parts.

Definition c85_text : string :=
  "Mod {iso 3} DEFINITIONS AUTOMATIC TAGS EXTENSIBILITY IMPLIED ::= BEGIN
   EXPORTS Age, old;
   IMPORTS Name, kind FROM Other {iso 7} Code FROM Codes other;
   old INTEGER ::= 99
   Age ::= INTEGER (0..old)
   Person ::= SEQUENCE { name [1] Name, age Age OPTIONAL }
   END".
Definition c85_module : Module_ := Eval vm_compute in
  match ParseString ascii_tables 1000 c85_text with Ok (ParseOk (Some m)) => m | _ => Build_ModuleDefinition _ _ (Build_ModuleIdentifier "" []) 0 false (Build_ModuleBody _ _ [] []) end.

Example C85_example : exists ts,
  parses ascii_tables c85_text (ParseOk (Some c85_module)) /\ reads_all ascii_tables c85_text ts /\
  md_TagDefault c85_module = TAGS_AUTOMATIC /\ md_ExtensibilityImplied c85_module = true /\
  map (fun i => (sfm_SymbolList i, gmr_Reference (sfm_Module i))) (mb_Imports (md_ModuleBody c85_module)) =
    [([SymType "Name"; SymValue "kind"], "Other"); ([SymType "Code"], "Codes")] /\
  map (fun a => match a with AType n _ => (n, 1) | AValue n _ _ => (n, 2) | ANil => ("", 0) end) (mb_AssignmentList (md_ModuleBody c85_module)) =
    [("old", 2); ("Age", 1); ("Person", 1)].
Proof.
  eexists. split; [apply (ParseString_parses _ 1000); vm_compute; reflexivity|].
  split; [read_all|]. repeat split; vm_compute; reflexivity.
Qed.

(** * C86: an assignment says what its own text says *)

(** All that is written in the text of an assignment (outside of the constructs that leave
    no trace) is in that assignment of the module, and all that is in it is written there:
    words, numbers, components, SEQUENCE and SET types with their components in order,
    ranges, tags, lists of items (C87), what has which type (C88), values (C89).  Nothing
    moves from one assignment to another.  [m'] is [m] with the targets of pointers as in
    the derivation (C06, C07). *)
Theorem C86_contents_partial : forall U s m ts, parses U s (ParseOk (Some m)) -> reads_all U s ts ->
  exists m' imports As, shape m' = shape m /\ (no_pointers m -> m' = m) /\
    module_text ts m imports As /\
    Forall2 (fun A a => yields A (Nt N_Assignment (S_Assignment a)) /\ assignment_text (leaves A) a /\ same_contents A a)
      As (mb_AssignmentList (md_ModuleBody m')).
Proof.
  intros U s m ts P R. destruct (cut U s m ts P R) as (m' & imports & As & Sh & Np & M & _ & Ap & Cl).
  exists m', imports, As. repeat split; auto. refine (phrases_weaken _ _ _ _ _ Ap). intros A a IA (Ya & Ka & Ta). rewrite Forall_forall in Cl.
  split; [exact Ya|]. split; [exact Ta|]. apply assignment_contents; auto.
Qed.
Print Assumptions C86_contents_partial.

(** The numbers, components, ranges and tags of each assignment of the module above. *)
Example C86_example : exists ts,
  parses ascii_tables c85_text (ParseOk (Some c85_module)) /\ reads_all ascii_tables c85_text ts /\
  map (fun a => (assignment_numbers value_numbers a, assignment_components a, assignment_ranges a, assignment_tags a))
    (mb_AssignmentList (md_ModuleBody c85_module)) =
    [([Whole 99], [], [], []);
     ([Whole 0], [], [Range false false false false], []);
     ([Whole 1], [("name", false, false); ("age", true, false)], [], [(Stamp CLASS_CONTEXT_SPECIFIC (ByNumber 1) None, OnName "Name")])].
Proof.
  eexists. split; [apply (ParseString_parses _ 1000); vm_compute; reflexivity|].
  split; [read_all|]. vm_compute; reflexivity.
Qed.

(** What is said in an exception of an assignment is not in the tree. *)
Theorem C86_contents_refuted : exists s s' m ts ts',
  parses ascii_tables s (ParseOk (Some m)) /\ reads_all ascii_tables s ts /\ In "Secret" (text_words ts) /\
  parses ascii_tables s' (ParseOk (Some m)) /\ reads_all ascii_tables s' ts' /\ ~ In "Secret" (text_words ts').
Proof.
  eexists "M DEFINITIONS ::= BEGIN T ::= INTEGER (1..5, ... ! Secret : 4) END", "M DEFINITIONS ::= BEGIN T ::= INTEGER (1..5, ...) END", _, _, _.
  split; [apply (ParseString_parses _ 1000); vm_compute; reflexivity|].
  split; [read_all|]. split; [cbn; tauto|].
  split; [apply (ParseString_parses _ 1000); vm_compute; reflexivity|].
  split; [read_all|]. cbn. intuition discriminate.
Qed.
Print Assumptions C86_contents_refuted.
