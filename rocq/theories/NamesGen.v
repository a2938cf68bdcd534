(** Names of ASCII texts in generated code. *)
From Coq Require Import ZArith String Ascii List Bool Lia.
From Verif Require Import GoBase Utf8 Unicode Tokens Tables Ast Lexer LexRuns Grammar Parser ParserFacts ParserRuns GoAst Codegen CodegenSpec
  CodegenFacts CodegenShape GoifyFacts LexSpec LexWords LexProps RenderLex NamesFacts.
Import ListNotations.
Local Open Scope string_scope.
Local Open Scope list_scope.
Local Open Scope Z_scope.

(** ** Names of tokens *)

Definition ascii_named (n : named) : Prop := if fst n then ascii_type_name (snd n) else ascii_value_name (snd n).

Lemma ascii_byte b : 0 <= b < 128 -> byte_of_ascii (ascii_of_byte b) = b.
Proof.
  intros B. unfold byte_of_ascii, ascii_of_byte. rewrite N_ascii_embedding by lia. lia.
Qed.

Lemma text_cons r w : 0 <= r < 128 -> text (r :: w) = String (ascii_of_byte r) (text w).
Proof.
  intros B. unfold text, encode_all. cbn [flat_map]. assert (E : encode_rune r = [r]).
  { unfold encode_rune. destruct (0 <=? r) eqn:E; [|lia]. destruct (r <? 128) eqn:E'; [reflexivity|lia]. }
  rewrite E. reflexivity.
Qed.

Section Names.
  Context (U : unicode_tables).

  Lemma name_chars w : Forall (fun r => 0 <= r < 128) w -> forallb (name_char U) w = true -> all_chars ascii_name_char (text w) = true.
  Proof.
    induction 1 as [|r w B _ IH]; [reflexivity|]. cbn [forallb]. intros H. apply andb_true_iff in H as [H1 H2].
    rewrite text_cons by exact B. cbn [all_chars]. rewrite (IH H2), andb_true_r.
    unfold ascii_name_char, ascii_letter. rewrite (ascii_byte r B). unfold name_char, is_letter, is_digit in H1.
    destruct (r <? 128) eqn:E; [|lia]. apply orb_true_iff in H1 as [H1|H1]; [now rewrite H1|].
    apply Z.eqb_eq in H1. subst r. apply orb_true_r.
  Qed.

  Lemma word_named w : Forall (fun r => 0 <= r < 128) w -> word U w = true -> ascii_named (is_upper U (hd 0 w), text w).
  Proof.
    intros B W. destruct w as [|r w]; [discriminate|]. inversion_clear B as [|? ? B1 B2]. cbn [word] in W. apply andb_true_iff in W as [W _].
    apply andb_true_iff in W as [L N]. unfold ascii_named. cbn [fst snd hd]. rewrite text_cons by exact B1.
    unfold is_letter, is_upper in *. destruct (r <? 128) eqn:E; [|lia].
    assert (A : ascii_name (String (ascii_of_byte r) (text w))).
    { split; [unfold ascii_letter; now rewrite (ascii_byte r B1)|now apply name_chars]. }
    destruct (ascii_upper r) eqn:Up; (split; [exact A|]); rewrite (ascii_byte r B1); [exact Up|]. exact L.
  Qed.

  Lemma ascii_token_names s ts : reads_all U s ts -> Forall (fun b => b < 128) (bytes_of_string s) -> Forall (good_token ascii_named) ts.
  Proof.
    intros R A. apply reads_all_tokens in R. rewrite runes_ascii in R by exact A.
    apply tokens_pieces in R as (l & last & (E & F & _) & M). pose proof (bytes_range s) as B.
    assert (Q : Forall (fun r => 0 <= r < 128) (bytes_of_string s)).
    { rewrite Forall_forall in *. intros r I. specialize (A r I). specialize (B r I). lia. }
    clear A B. rewrite E in Q. clear E. rewrite <- M. clear M. apply Forall_app in Q as [Q _].
    induction F as [|((g, w), t) l (_ & Lx) _ IH]; [constructor|]. cbn [flat_map] in Q. apply Forall_app in Q as [Q1 Q2].
    apply Forall_app in Q1 as [_ Q1]. cbn [map snd]. constructor; [|auto]. unfold good_token.
    destruct Lx as [w code W UP I2|w W UP NI|w W UP|w W F D|r E|z code I2]; cbn [tk_kind tk_name plain_token].
    - split; intros K; exfalso; apply (reserved_not_name _ _ I2); auto.
    - split; [intros _|discriminate]. rewrite <- UP. now apply word_named.
    - split; [discriminate|intros _]. rewrite <- UP. now apply word_named.
    - split; discriminate.
    - split; discriminate.
    - split; intros K; exfalso; apply (symbols_not_name _ _ I2); auto.
  Qed.

  Lemma ascii_module s m : parses U s (ParseOk (Some m)) -> Forall (fun b => b < 128) (bytes_of_string s) ->
    Forall ascii_named (module_names m).
  Proof.
    intros P A. destruct (parses_outcome U s _ P) as [(e & E)|(m1 & ts & m' & E & R & (T & Y & L) & Sh)]; [discriminate E|].
    assert (m1 = m) as -> by congruence. rewrite (shape_names m m' Sh). subst ts.
    exact (tree_names ascii_named T _ Y (ascii_token_names s _ R A)).
  Qed.
End Names.

(** ** Specification: all names a generated file declares *)

(** Names of struct fields in an expression, at every depth. *)
Fixpoint field_names (e : goexpr) : list string :=
  match e with
  | ENilExpr | EInterface | EBasicLit _ | EIdent _ => []
  | EStar x | EArray x => field_names x
  | EStruct fs => flat_map (fun f => match f with Field n t _ => n :: field_names t end) fs
  | ECall f args => field_names f ++ flat_map field_names args
  end.

(** The names a declaration introduces: types and variables, and the fields in their
    types and initialisers. *)
Definition spec_names (sp : gospec) : list string :=
  match sp with
  | TypeSpec n _ e => n :: field_names e
  | ValueSpec n t e => n :: field_names t ++ field_names e
  | ImportSpec _ => []
  end.

Definition declared_names (f : gofile) : list string := flat_map spec_names (file_specs f).

(** ** Facts *)

Notation ident_char := (fun c => ascii_letter c || ascii_digit (byte_of_ascii c) || Ascii.eqb c "_").

Lemma all_chars_app p : forall a b, all_chars p (a ++ b)%string = all_chars p a && all_chars p b.
Proof. induction a as [|c a IH]; intros b; [reflexivity|]. cbn [append all_chars]. now rewrite IH, andb_assoc. Qed.

Lemma exported_chars s : exported_identifier s -> all_chars ident_char s = true.
Proof.
  destruct s as [|c s]; [intros []|]. intros [A B]. cbn [all_chars]. rewrite B, andb_true_r.
  unfold ascii_letter. now rewrite A.
Qed.

Lemma exported_app a b : exported_identifier a -> all_chars ident_char b = true -> exported_identifier (a ++ b)%string.
Proof.
  destruct a as [|c a]; [intros []|]. intros [A B] C. split; [exact A|]. now rewrite all_chars_app, B.
Qed.

Lemma val_exported s : exported_identifier s -> exported_identifier ("Val" ++ s)%string.
Proof. intros H. apply (exported_app "Val"); [split; reflexivity|now apply exported_chars]. Qed.

Scheme go_type_mind := Minimality for go_type Sort Prop
  with go_fields_mind := Minimality for go_fields Sort Prop.
Combined Scheme go_type_both from go_type_mind, go_fields_mind.

Section Gen.
  Context (U : unicode_tables) (asg : list Assignment_) (repr : string).

  Lemma named_exported b s : ascii_named (b, s) -> exported_identifier (goifyName U s).
  Proof. destruct b; intros [A _]; now apply goify_exported. Qed.

  Lemma type_fields :
    (forall t e, go_type U asg repr t e -> Forall ascii_named (type_names t) -> Forall exported_identifier (field_names e)) /\
    (forall l fs, go_fields U asg repr l fs -> Forall ascii_named (flat_map component_names l) ->
       Forall exported_identifier (field_names (EStruct fs))).
  Proof.
    apply (go_type_both U asg repr
      (fun t e => Forall ascii_named (type_names t) -> Forall exported_identifier (field_names e))
      (fun l fs => Forall ascii_named (flat_map component_names l) -> Forall exported_identifier (field_names (EStruct fs))));
      try (intros; constructor; fail); try (intros; cbn [field_names]; auto; fail).
    - intros c x fs _ IH H. apply IH. rewrite flat_map_app. exact H.
    - intros c x fs _ IH H. apply IH. rewrite flat_map_app. exact H.
    - intros n t x e _ _ IH H. apply IH. change (Forall ascii_named (((false, n) :: type_names t) ++ [])) in H.
      rewrite app_nil_r in H. now inversion_clear H.
    - intros n t o d l e tag fs _ IH1 _ IH2 H.
      change (Forall ascii_named (((false, n) :: type_names t) ++ flat_map component_names l)) in H. apply Forall_app in H as [H1 H2].
      inversion_clear H1 as [|? ? H3 H4].
      change (Forall exported_identifier ((goifyName U n :: field_names e) ++ field_names (EStruct fs))).
      apply Forall_app. split; [constructor; [exact (named_exported _ _ H3)|auto]|auto].
  Qed.

  Lemma strip_names : forall t : AType_, type_names (strip t) = type_names t.
  Proof.
    fix IH 1. intros t. destruct t; try reflexivity; cbn [strip];
      match goal with |- type_names (strip ?x) = _ => exact (IH x) end.
  Qed.

  Notation good_spec := (fun sp => Forall exported_identifier (spec_names sp)).
  Notation good_decl := (fun d => Forall good_spec (gd_specs d)).

  Lemma type_decl_names n t e d : ascii_named (true, n) -> Forall ascii_named (type_names t) -> go_type U asg repr t e ->
    declares_type (goifyName U n) e d -> good_decl d.
  Proof.
    intros N T G (_ & D). pose proof (named_exported _ _ N) as X. pose proof (proj1 type_fields t e G T) as F.
    destruct D as [(al & ->)| -> ].
    - repeat constructor; assumption.
    - constructor; [|constructor; [|constructor]].
      + constructor; [apply exported_app; [exact X|reflexivity]|exact F].
      + constructor; [exact X|constructor].
  Qed.

  Lemma int_no_fields z e : denotes_int repr z e -> field_names e = [].
  Proof. intros (s & _ & [(_ & ->)|(_ & ->)]); reflexivity. Qed.

  Lemma value_no_fields real v e : value_expr repr real v e -> field_names e = [].
  Proof. intros H. destruct H; try reflexivity. now apply int_no_fields in H. Qed.

  Lemma numbers_names n l specs : ascii_named (true, n) -> Forall ascii_named (map (fun x => (false, nn_Name x)) l) ->
    Forall2 (number_spec U repr n) l specs -> Forall good_spec specs.
  Proof.
    intros N A. induction 1 as [|x sp l specs (e & -> & E) _ IH]; [constructor|]. cbn [map] in A. inversion_clear A as [|? ? A1 A2].
    constructor; [|auto]. cbn [spec_names field_names app].
    assert (F : field_names e = []).
    { destruct (nn_Value x); [now rewrite E|now apply int_no_fields in E|]. destruct E as [_ ->]. reflexivity. }
    rewrite F. constructor; [|constructor]. apply exported_app; [exact (named_exported _ _ N)|].
    apply exported_chars, val_exported. exact (named_exported _ _ A1).
  Qed.
End Gen.

Lemma in_concat_forall2 {A B} (R : A -> list B -> Prop) l gs d : Forall2 R l gs -> In d (concat gs) -> exists a g, In a l /\ R a g /\ In d g.
Proof.
  induction 1 as [|a g l gs H _ IH]; [intros []|]. cbn [concat]. intros I. apply in_app_or in I as [I|I].
  - exists a, g. split; [now left|auto].
  - destruct (IH I) as (a' & g' & ? & ?). exists a', g'. split; [now right|assumption].
Qed.

Lemma generated_names U fmt p fuel m f : Generate U fmt p fuel m = Ok (GenOk f) -> Forall ascii_named (module_names m) ->
  Forall exported_identifier (declared_names f).
Proof.
  intros G A. inversion_clear A as [|? ? _ B]. pose proof (file_go_type U fmt p fuel m f G) as (imps & groups & E & I & F).
  pose proof (file_variables U fmt p fuel m f G) as (vars & EV & FV).
  assert (BA : forall a, In a (mb_AssignmentList (md_ModuleBody m)) -> Forall ascii_named (assignment_names a)).
  { intros a Ia. rewrite Forall_forall in *. intros x Ix. apply B. apply in_flat_map. eauto. }
  assert (V : forall d, In d (gf_decls f) -> gd_tok d = TokVar -> Forall (fun sp => Forall exported_identifier (spec_names sp)) (gd_specs d)).
  { intros d Id K. assert (Id' : In d (concat vars)). { rewrite <- EV. apply filter_In. now rewrite K. }
    destruct (in_concat_forall2 _ _ _ d FV Id') as (a & g & Ia & R & Ig). specialize (BA a Ia). destruct a as [|n t|n t v].
    - subst g. destruct Ig.
    - destruct R as [(l & specs & St & _ & S2 & ->)|(_ & ->)]; [|destruct Ig]. destruct Ig as [<-|[]]. cbn [gd_specs].
      cbn [assignment_names] in BA. inversion_clear BA as [|? ? N T]. eapply numbers_names; [exact N| |exact S2].
      rewrite <- strip_names, St in T. exact T.
    - destruct R as [(te & e & Ve & Gt & ->)|(_ & ->)]; [|destruct Ig]. destruct Ig as [<-|[]]. cbn [gd_specs].
      cbn [assignment_names] in BA. inversion_clear BA as [|? ? N T]. constructor; [|constructor]. cbn [spec_names].
      rewrite (value_no_fields _ _ _ _ Ve), app_nil_r. constructor; [apply val_exported; exact (named_exported _ _ _ N)|].
      exact (proj1 (type_fields U _ _) t te Gt T). }
  assert (D : forall d, In d (gf_decls f) -> Forall (fun sp => Forall exported_identifier (spec_names sp)) (gd_specs d)).
  { intros d Id. pose proof Id as Id0. rewrite E in Id. apply in_app_or in Id as [Id|Id].
    - rewrite Forall_forall in I. destruct (I d Id) as (_ & q & ->). repeat constructor.
    - destruct (in_concat_forall2 _ _ _ d F Id) as (a & g & Ia & R & Ig). specialize (BA a Ia). destruct a as [|n t|n t v].
      + rewrite Forall_forall in R. auto.
      + destruct R as (d' & rest & e & -> & Dt & Rv & Gt). destruct Ig as [->|Ig].
        * cbn [assignment_names] in BA. inversion_clear BA as [|? ? N T]. eapply type_decl_names; eassumption.
        * rewrite Forall_forall in Rv. auto.
      + rewrite Forall_forall in R. auto. }
  unfold declared_names, file_specs. apply Forall_forall. intros x Ix. apply in_flat_map in Ix as (sp & Isp & Ix).
  apply in_flat_map in Isp as (d & Id & Isp). specialize (D d Id). rewrite Forall_forall in D. specialize (D sp Isp).
  rewrite Forall_forall in D. auto.
Qed.
