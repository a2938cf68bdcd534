(** Generated files meet the rules of [GoCheck.v]. *)
From Coq Require Import ZArith String Ascii List Bool Relations SpecFloat Lia.
From Verif Require Import GoBase Utf8 Unicode Tokens Ast GoAst Codegen CodegenSpec CodegenFacts CodegenInv CodegenDecl
  CodegenTag CodegenTerm CodegenSupp GoifyFacts CodegenShape CodegenNames WireFacts NamesFacts NamesGen Recursion GoCheck Numbers.
Import ListNotations.
Local Open Scope string_scope.
Local Open Scope list_scope.
Local Open Scope Z_scope.

(** * Where a spec comes from *)

Section Origin.
  Context (U : unicode_tables) (fmt : spec_float -> string) (p : GenParams) (fuel : nat) (m : Module_) (f : gofile).
  Notation asg := (mb_AssignmentList (md_ModuleBody m)).
  Notation params := (NewCodeGenerator p).
  Notation td := (md_TagDefault m).
  Notation gens := (gens U params td asg fuel).

  Inductive origin (fin : gstate) : gospec -> Prop :=
  | or_import path : origin fin (ImportSpec path)
  | or_type n t s e b s1 sp : In (AType n t) asg -> gens t false s e b s1 -> ext s1 fin -> gs_errors s1 = [] ->
      In sp (gd_specs (type_decl U n e b)) -> origin fin sp
  | or_number n t l x sp : In (AType n t) asg -> strip t = TInteger l -> In x l ->
      number_spec U (integer_repr p) n x sp -> origin fin sp
  | or_value n t v s te b s1 ve : In (AValue n t v) asg -> value_expr (integer_repr p) (fun x s => s = sprint_real fmt x) v ve ->
      gens t false s te b s1 -> ext s1 fin -> gs_errors s1 = [] ->
      origin fin (ValueSpec ("Val" ++ goifyName U n) te ve).

  Hypothesis HG : Generate U fmt p fuel m = Ok (GenOk f).

  Lemma in_groups {A B} (R : A -> list B -> Prop) l gs a : Forall2 R l gs -> In a l -> exists g, In g gs /\ R a g.
  Proof.
    induction 1 as [|x g l gs H _ IH]; intros I; [destruct I|]. destruct I as [<-|I].
    - exists g. split; [now left|exact H].
    - destruct (IH I) as (g' & I' & H'). exists g'. split; [now right|exact H'].
  Qed.

  Lemma origins : exists fin, imports f = gs_modules fin /\
    (forall sp, In sp (file_specs f) -> origin fin sp) /\
    (forall n t, In (AType n t) asg -> exists s e b s1, gens t false s e b s1 /\ ext s1 fin /\ gs_errors s1 = [] /\
       incl (gd_specs (type_decl U n e b)) (file_specs f)) /\
    (forall n t v, In (AValue n t v) asg -> is_literal v -> exists s te b s1 ve,
       value_expr (integer_repr p) (fun x s => s = sprint_real fmt x) v ve /\
       gens t false s te b s1 /\ ext s1 fin /\ gs_errors s1 = [] /\
       In (ValueSpec ("Val" ++ goifyName U n) te ve) (file_specs f)).
  Proof.
    destruct (file_groups _ _ _ _ _ _ HG) as (fin & gs & Hf & He & Hi & Hok & Hg). exists fin. split; [exact Hi|].
    assert (FS : file_specs f = map ImportSpec (gs_modules fin) ++ flat_map gd_specs (concat gs)).
    { unfold file_specs. now rewrite Hf, flat_map_app, import_specs. }
    assert (INC : forall g d sp, In g gs -> In d g -> In sp (gd_specs d) -> In sp (file_specs f)).
    { intros g d sp Ig Id Is. rewrite FS. apply in_or_app. right. apply in_flat_map. exists d. split; [|exact Is].
      apply in_concat. eauto. }
    split; [|split].
    - intros sp I. rewrite FS in I. apply in_app_or in I as [I|I].
      { apply in_map_iff in I as (q & <- & _). constructor. }
      apply in_flat_map in I as (d & Id & I). destruct (in_concat_forall2 _ _ _ d Hg Id) as (a & g & Ia & R & Ig).
      destruct a as [|n t|n t v]; cbn in R.
      + subst g. destruct Ig.
      + destruct R as (s & e & b & s1 & o & s2 & Hgen & Hx & Ha & He2 & ->).
        assert (He1 : gs_errors s1 = []) by (eapply ext_noerr; eassumption).
        destruct Ig as [<-|Ig]; [eapply or_type; eassumption|].
        apply (assoc_numbers _ _ _ _ _ _ _ Ha) in He2.
        destruct He2 as [(l & specs & Hs & Hl & Hf2 & Ho)|[_ Ho]]; rewrite Ho in Ig; [|contradiction].
        destruct Ig as [<-|[]]. cbn [gd_specs] in I.
        assert (Hx2 : exists x, In x l /\ number_spec U (gp_IntegerRepr params) n x sp).
        { clear -Hf2 I. induction Hf2; [contradiction|]. destruct I as [<-|I]; [eexists; split; [now left|eassumption]|].
          destruct (IHHf2 I) as (y' & A & B). exists y'. split; [now right|assumption]. }
        destruct Hx2 as (x & Ix & Nx). rewrite params_repr in Nx. eapply or_number; eassumption.
      + destruct R as [[_ ->]|(ve & te & s & b & s1 & Hv & Hgen & Hx & He1 & ->)]; [destruct Ig|].
        destruct Ig as [<-|[]]. destruct I as [<-|[]]. apply value_expr_of in Hv. rewrite params_repr in Hv.
        eapply or_value; eassumption.
    - intros n t I. destruct (in_groups _ _ _ _ Hg I) as (g & Ig & R). cbn in R.
      destruct R as (s & e & b & s1 & o & s2 & Hgen & Hx & Ha & He2 & ->). exists s, e, b, s1.
      split; [exact Hgen|]. split; [exact Hx|]. split; [eapply ext_noerr; eassumption|].
      intros sp Is. eapply INC; [exact Ig|now left|exact Is].
    - intros n t v I Hl. destruct (in_groups _ _ _ _ Hg I) as (g & Ig & R). cbn in R.
      destruct R as [[Hn _]|(ve & te & s & b & s1 & Hv & Hgen & Hx & He1 & ->)].
      { apply (literal_iff fmt params) in Hl. contradiction. }
      apply value_expr_of in Hv. rewrite params_repr in Hv. exists s, te, b, s1, ve. repeat (split; [assumption|]).
      eapply INC; [exact Ig|now left|now left].
  Qed.
End Origin.

(** * Go types *)

Section Types.
  Context (U : unicode_tables) (asg : list Assignment_) (repr : string).
  Notation go_type := (go_type U asg repr).
  Notation go_fields := (go_fields U asg repr).

  Lemma one_untagged n t : ~ tagged_alt asg t -> ~ tagged_choice asg [Named n t].
  Proof. intros A C. inversion C as [? ? H|? ? H]; subst; [contradiction|inversion H]. Qed.

  (** What is visible shows. *)
  Lemma visible_sub : forall t u, visible asg t u -> forall e, go_type t e ->
    exists e', go_type u e' /\ incl (expr_idents e') (expr_idents e).
  Proof.
    assert (F : forall cs fs, go_fields cs fs -> forall n t o d, In (CNamed (Named n t) o d) cs ->
      exists e, go_type t e /\ incl (expr_idents e) (expr_idents (EStruct fs))).
    { induction 1 as [|k t o d cs e tag fs H1 H2 IH|cs fs H2 IH]; intros n' t' o' d' I; [destruct I| |].
      - destruct I as [E|I].
        + inversion E; subst. exists e. split; [exact H1|]. intros x Hx. cbn. apply in_or_app. now left.
        + destruct (IH _ _ _ _ I) as (e' & T & X). exists e'. split; [exact T|]. intros x Hx. cbn. apply in_or_app. right. now apply X.
      - destruct I as [E|I]; [discriminate|]. eauto. }
    induction 1 as [t|g t z b u V IH|t c u V IH|t u V IH|t u V IH|c x n t o d u I V IH|c x n t o d u I V IH|n t x u A V IH]; intros e T.
    - exists e. split; [exact T|apply incl_refl].
    - inversion T; subst. auto.
    - inversion T; subst. auto.
    - inversion T; subst. destruct (IH _ H0) as (e' & T' & X). exists e'. auto.
    - inversion T; subst. destruct (IH _ H0) as (e' & T' & X). exists e'. auto.
    - inversion T; subst. destruct (F _ _ H2 _ _ _ _ I) as (e1 & T1 & X1). destruct (IH _ T1) as (e' & T' & X).
      exists e'. split; [exact T'|]. eapply incl_tran; eassumption.
    - inversion T; subst. destruct (F _ _ H2 _ _ _ _ I) as (e1 & T1 & X1). destruct (IH _ T1) as (e' & T' & X).
      exists e'. split; [exact T'|]. eapply incl_tran; eassumption.
    - inversion T; subst; [exfalso; eapply one_untagged; eassumption|auto|].
      exfalso. match goal with H : length _ <> _ |- _ => now apply H end.
  Qed.

  (** The names in a Go type. *)
  Definition ident_from (t : AType_) (s : string) : Prop :=
    In s predeclared \/
    (In s ["asn1.BitString"; "asn1.Enumerated"; "asn1.ObjectIdentifier"; "big.Int"; "time.Time"]) \/
    (s = "asn1.RawValue" /\ exists alts x, visible asg t (TChoice alts x) /\ tagged_choice asg alts) \/
    (exists n tn, s = goifyName U n /\ visible asg t (TReference n) /\ defines asg n tn).

  Lemma ident_from_mono t t' s : (forall u, visible asg t u -> visible asg t' u) -> ident_from t s -> ident_from t' s.
  Proof.
    intros V [H|[H|[(E & al & x & H & C)|(n & tn & E & H & D)]]]; unfold ident_from; [auto|auto| |].
    - right; right; left. split; [exact E|]. exists al, x. auto.
    - right; right; right. exists n, tn. auto.
  Qed.

  Lemma idents_from :
    (forall t e, go_type t e -> forall s, In s (expr_idents e) -> ident_from t s) /\
    (forall l fs, go_fields l fs -> forall s, In s (expr_idents (EStruct fs)) ->
       exists n t o d, In (CNamed (Named n t) o d) l /\ ident_from t s).
  Proof.
    apply (go_type_both U asg repr
      (fun t e => forall s, In s (expr_idents e) -> ident_from t s)
      (fun l fs => forall s, In s (expr_idents (EStruct fs)) -> exists n t o d, In (CNamed (Named n t) o d) l /\ ident_from t s));
      try (intros; cbn [expr_idents] in *; unfold ident_from;
           match goal with H : In ?s [_] |- _ => destruct H as [<-|[]]; cbn; auto 12 end; fail).
    - intros s0 s [].
    - intros g t z b e _ IH s Hs. eapply ident_from_mono; [|eapply IH; exact Hs]. intros. now constructor.
    - intros t c e _ IH s Hs. eapply ident_from_mono; [|eapply IH; exact Hs]. intros. now constructor.
    - intros t e _ IH s Hs. eapply ident_from_mono; [|eapply IH; exact Hs]. intros. now constructor.
    - intros t e _ IH s Hs. eapply ident_from_mono; [|eapply IH; exact Hs]. intros. now constructor.
    - intros c x fs _ IH s Hs. destruct (IH s Hs) as (n & t & o & d & I & F).
      eapply ident_from_mono; [|exact F]. intros u Hu. econstructor; eassumption.
    - intros c x fs _ IH s Hs. destruct (IH s Hs) as (n & t & o & d & I & F).
      eapply ident_from_mono; [|exact F]. intros u Hu. econstructor; eassumption.
    - intros n m t St Nt Nb s [<-|[]]. right; right; right.
      destruct (plain_defined _ _ _ _ St Nt) as [u Hu]. exists n, u. split; [reflexivity|]. split; [constructor|exact Hu].
    - intros alts x C s [<-|[]]. right; right; left. split; [reflexivity|]. exists alts, x. split; [constructor|exact C].
    - intros n t x e A _ IH s Hs. eapply ident_from_mono; [|eapply IH; exact Hs]. intros. now constructor.
    - intros alts x _ _ s [].
    - intros s [].
    - intros n t o d l e tag fs _ IH1 _ IH2 s Hs. cbn in Hs. apply in_app_or in Hs as [Hs|Hs].
      + exists n, t, o, d. split; [now left|auto].
      + destruct (IH2 s Hs) as (n' & t' & o' & d' & I & F). exists n', t', o', d'. split; [now right|exact F].
    - intros l fs _ IH s Hs. destruct (IH s Hs) as (n' & t' & o' & d' & I & F). exists n', t', o', d'. split; [now right|exact F].
  Qed.

  (** Struct types. *)
  Lemma structured_type : forall t, structured asg t -> forall e, go_type t e -> exists fs, e = EStruct fs.
  Proof.
    induction 1 as [c x|g t z b H IH|t c H IH|n t x A H IH]; intros e T; inversion T; subst; eauto.
    - exfalso. eapply one_untagged; eassumption.
    - exfalso. match goal with H : length _ <> _ |- _ => now apply H end.
  Qed.

  Lemma fields_names : forall l fs, go_fields l fs -> map field_name fs = map (goifyName U) (flat_map component_name l).
  Proof. induction 1; cbn; congruence. Qed.

  Lemma nodup_goify : forall l, Forall ascii_value_name l -> NoDup l -> NoDup (map (goifyName U) l).
  Proof.
    intros l A N. apply NoDup_map_inj with (P := ascii_value_name); auto. intros. eapply goify_inj_value; eassumption.
  Qed.

  Lemma component_named l : Forall ascii_named (flat_map component_names l) -> Forall ascii_value_name (flat_map component_name l).
  Proof.
    induction l as [|c l IH]; intros H; [constructor|]. cbn [flat_map] in *. apply Forall_app in H as [H1 H2].
    apply Forall_app. split; [|auto]. destruct c as [|[n t] o d|t]; try constructor; [|constructor].
    cbn [component_names] in H1. inversion_clear H1 as [|? ? H3 _]. exact H3.
  Qed.

  Lemma valid_from f :
    (forall t e, go_type t e -> (forall s, In s (expr_idents e) -> valid_type f (EIdent s)) ->
       Forall ascii_named (type_names t) ->
       (forall u cs, visible asg t u -> has_components u cs -> NoDup (flat_map component_name cs)) ->
       valid_type f e) /\
    (forall l fs, go_fields l fs -> (forall s, In s (expr_idents (EStruct fs)) -> valid_type f (EIdent s)) ->
       Forall ascii_named (flat_map component_names l) ->
       (forall n t o d u cs, In (CNamed (Named n t) o d) l -> visible asg t u -> has_components u cs ->
          NoDup (flat_map component_name cs)) ->
       forall n e tag, In (Field n e tag) fs -> valid_type f e).
  Proof.
    apply (go_type_both U asg repr
      (fun t e => (forall s, In s (expr_idents e) -> valid_type f (EIdent s)) ->
         Forall ascii_named (type_names t) ->
         (forall u cs, visible asg t u -> has_components u cs -> NoDup (flat_map component_name cs)) ->
         valid_type f e)
      (fun l fs => (forall s, In s (expr_idents (EStruct fs)) -> valid_type f (EIdent s)) ->
         Forall ascii_named (flat_map component_names l) ->
         (forall n t o d u cs, In (CNamed (Named n t) o d) l -> visible asg t u -> has_components u cs ->
            NoDup (flat_map component_name cs)) ->
         forall n e tag, In (Field n e tag) fs -> valid_type f e));
      try (intros; repeat first [match goal with H : forall s, In s _ -> _ |- valid_type _ (EIdent _) => apply H; cbn; auto; fail end|constructor; fail|apply vt_pointer|apply vt_slice]; fail).
    - intros g t z b e _ IH V A N. apply IH; [exact V|exact A|]. intros u cs Hu. apply N. now constructor.
    - intros t c e _ IH V A N. apply IH; [exact V|exact A|]. intros u cs Hu. apply N. now constructor.
    - intros t e _ IH V A N. constructor. apply IH; [exact V|exact A|]. intros u cs Hu. apply N. now constructor.
    - intros t e _ IH V A N. constructor. apply IH; [exact V|exact A|]. intros u cs Hu. apply N. now constructor.
    - intros c x fs G IH V A N. assert (A' : Forall ascii_named (flat_map component_names (c ++ x))) by (rewrite flat_map_app; exact A).
      constructor.
      + rewrite (fields_names _ _ G). apply nodup_goify; [now apply component_named|].
        eapply N; [apply vi_here|]. exists c, x. auto.
      + apply IH; [exact V|exact A'|]. intros n t o d u cs I Hu. apply N. econstructor; eassumption.
    - intros c x fs G IH V A N. assert (A' : Forall ascii_named (flat_map component_names (c ++ x))) by (rewrite flat_map_app; exact A).
      constructor.
      + rewrite (fields_names _ _ G). apply nodup_goify; [now apply component_named|].
        eapply N; [apply vi_here|]. exists c, x. auto.
      + apply IH; [exact V|exact A'|]. intros n t o d u cs I Hu. apply N. econstructor; eassumption.
    - intros n t x e A0 _ IH V A N. apply IH; [exact V| |].
      + change (Forall ascii_named (((false, n) :: type_names t) ++ [])) in A. rewrite app_nil_r in A. now inversion_clear A.
      + intros u cs Hu. apply N. now constructor.
    - intros _ _ _ n e tag [].
    - intros n t o d l e tag fs _ IH1 _ IH2 V A N n' e' tag' [E|I].
      + inversion E; subst. cbn [flat_map] in A. apply Forall_app in A as [A _]. cbn [component_names] in A. inversion_clear A as [|? ? _ A1].
        apply IH1; [|exact A1|].
        * intros s Hs. apply V. cbn. apply in_or_app. now left.
        * intros u cs Hu. eapply N; [now left|exact Hu].
      + cbn [flat_map] in A. apply Forall_app in A as [_ A]. eapply IH2; [|exact A| |exact I].
        * intros s Hs. apply V. cbn. apply in_or_app. now right.
        * intros k u o' d' w cs I'. eapply N. right. exact I'.
    - intros l fs _ IH V A N. apply IH; [exact V|exact A|]. intros k u o' d' w cs I'. eapply N. right. exact I'.
  Qed.
End Types.

(** * Tags *)

Definition no_quote (s : string) : bool := all_chars (fun c => negb (Ascii.eqb c "`")) s.

Lemma no_quote_app a b : no_quote (a ++ b)%string = no_quote a && no_quote b.
Proof. apply all_chars_app. Qed.

Lemma no_quote_sprint z : no_quote (sprint_int z) = true.
Proof.
  assert (D : forall s, all_digits s -> no_quote s = true).
  { induction 1 as [|c s Hc Hs IH]; [reflexivity|]. unfold no_quote in *. cbn. rewrite IH, andb_true_r.
    destruct (Ascii.eqb_spec c "`"); [|reflexivity]. subst. exfalso. destruct Hc as [A B]. now apply B. }
  rewrite sprint_int_eq. destruct (z <? 0); [change (no_quote (String "-" (digits_of (- z)))) with (no_quote (digits_of (- z)))|];
    apply D, dec_digits_digits; constructor.
Qed.

Lemma no_quote_join l : forallb no_quote l = true -> no_quote (join_comma l) = true.
Proof.
  induction l as [|s l IH]; intros H; [reflexivity|]. cbn [forallb] in H. apply andb_prop in H as [H1 H2].
  destruct l as [|s' l]; [exact H1|]. change (no_quote (s ++ "," ++ join_comma (s' :: l))%string = true).
  rewrite !no_quote_app, H1, IH; auto.
Qed.

Lemma no_quote_parts td x : forallb no_quote (tag_parts td x) = true.
Proof.
  destruct x as [tag mode]. unfold tag_parts, class_parts. cbn [fst snd].
  destruct (tag_Class tag =? CLASS_APPLICATION); [|destruct (tag_Class tag =? CLASS_PRIVATE)];
    (destruct (effective td mode =? TAGS_EXPLICIT)); destruct (tag_ClassNumber tag); try reflexivity;
    cbn [app forallb]; rewrite no_quote_app, no_quote_sprint; reflexivity.
Qed.

Lemma no_quote_flat td l : forallb no_quote (flat_map (tag_parts td) l) = true.
Proof. induction l as [|x l IH]; [reflexivity|]. cbn [flat_map]. now rewrite forallb_app, no_quote_parts, IH. Qed.

Lemma no_quote_default o d : forallb no_quote (defaultComponents o d) = true.
Proof.
  destruct o, d as [[]|]; try reflexivity; cbn [defaultComponents app forallb]; rewrite no_quote_app, no_quote_sprint; reflexivity.
Qed.

Lemma no_quote_type asg fuel t l : typeComponents asg fuel t = Ok l -> forallb no_quote l = true.
Proof.
  intros H. destruct t; cbn in H; try (injection H as <-; reflexivity).
  - bind1 H. injection H as <-. destruct (String.eqb x GeneralizedTimeName); [reflexivity|].
    destruct (String.eqb x UTCTimeName); reflexivity.
  - injection H as <-. destruct (_ =? _); [reflexivity|]. destruct (_ =? _); [reflexivity|].
    destruct (_ =? _); reflexivity.
Qed.

Lemma tag_raw td asg fuel field t o d s tag s' : asn1TagFromType td asg fuel field t o d s = Ok (tag, s') ->
  gs_errors s' = [] -> match tag with Some x => raw_literal x | None => True end.
Proof.
  intros H He. unfold asn1TagFromType in H.
  destruct (unwrapTags td field t (defaultComponents o d) s) as [[cs leaf] s1] eqn:E.
  bind1 H. injection H as <- <-. apply unwrapTags_parts in E as (-> & -> & -> & _); [|assumption].
  assert (Q : forallb no_quote ((defaultComponents o d ++ flat_map (tag_parts td) (tags_of t)) ++ x) = true).
  { rewrite !forallb_app, no_quote_default, no_quote_flat. cbn [andb]. eapply no_quote_type; eassumption. }
  destruct (_ ++ x) as [|c l]; [exact I|]. unfold tagLiteral.
  exists ("asn1:" ++ String """" (join_comma (c :: l) ++ String """" ""))%string. split.
  - assert (X : forall j, (j ++ String """" "`" = (j ++ String """" "") ++ "`")%string).
    { induction j as [|a r IH]; [reflexivity|]. cbn [append]. now rewrite IH. }
    rewrite X. reflexivity.
  - change (no_quote ("asn1:""" ++ (join_comma (c :: l) ++ """"))%string = true).
    rewrite !no_quote_app, no_quote_join; [reflexivity|exact Q].
Qed.

Lemma gens_tags U params td asg fuel :
  (forall t b s e b' s', gens U params td asg fuel t b s e b' s' -> gs_errors s' = [] -> Forall raw_literal (tags_in e)) /\
  (forall l s fs s', genfs U params td asg fuel l s fs s' -> gs_errors s' = [] -> Forall raw_literal (tags_in (EStruct fs))).
Proof.
  apply gens_genfs_ind; intros; auto; try (constructor; fail).
  - destruct t; try contradiction; cbn in s0; subst; constructor.
  - apply resolve_some in e0 as [-> _]. apply special_some in e1 as [(_ & -> & ->)|(_ & _ & -> & ->)]; constructor.
  - pose proof (genfs_ext _ _ _ _ _ _ _ _ _ g0) as He. pose proof (tagOf_errs _ _ _ _ _ _ _ _ _ _ e0) as Ht.
    change (Forall raw_literal ((match tag with Some x => [x] | None => [] end ++ tags_in e) ++ tags_in (EStruct fs))).
    assert (E2 : gs_errors s2 = []) by (eapply ext_noerr; eassumption).
    assert (E1 : gs_errors s1 = []) by (eapply ext_noerr; [apply errs_only_ext; exact Ht|exact E2]).
    apply Forall_app. split; [|exact (H0 H1)]. apply Forall_app. split; [|exact (H E1)].
    pose proof (tag_raw _ _ _ _ _ _ _ _ _ _ e0 E2) as R. destruct tag; [constructor; [exact R|constructor]|constructor].
Qed.

(** * The file *)

Lemma in_defined (asg : list Assignment_) n t : NoDup (flat_map asg_name asg) -> In (AType n t) asg -> defines asg n t.
Proof.
  unfold defines. induction asg as [|a asg IH]; intros N I; [destruct I|]. cbn [flat_map] in N. destruct I as [->|I]; [constructor|].
  destruct a as [|k u|k u v]; cbn [asg_name app] in N.
  - constructor. now apply IH.
  - inversion N as [|? ? N1 N2]; subst. apply fn_skip_type; [|now apply IH]. intros ->. apply N1. apply in_flat_map.
    exists (AType n t). split; [exact I|now left].
  - inversion N as [|? ? N1 N2]; subst. apply fn_skip_value; [|now apply IH]. intros ->. apply N1. apply in_flat_map.
    exists (AType n t). split; [exact I|now left].
Qed.

Lemma exported_go s : exported_identifier s -> go_identifier s.
Proof.
  intros H. destruct s as [|c s]; [destruct H|]. destruct H as [H1 H2]. split; [|split].
  - split; [left; unfold ascii_letter; now rewrite H1|exact H2].
  - intros E. injection E as -> ->. discriminate H1.
  - assert (K : Forall (fun k => match k with String a _ => ascii_upper (byte_of_ascii a) = false | _ => True end) keywords)
      by (repeat constructor).
    intros I. rewrite Forall_forall in K. specialize (K _ I). cbn in K. congruence.
Qed.

Section File.
  Context (U : unicode_tables) (fmt : spec_float -> string) (p : GenParams) (fuel : nat) (m : Module_) (f : gofile).
  Notation asg := (mb_AssignmentList (md_ModuleBody m)).
  Notation params := (NewCodeGenerator p).
  Notation td := (md_TagDefault m).
  Notation repr := (integer_repr p).
  Notation gens := (gens U params td asg fuel).
  Notation go_type := (go_type U asg repr).

  Hypothesis HG : Generate U fmt p fuel m = Ok (GenOk f).
  Hypothesis HA : Forall ascii_named (module_names m).
  Hypothesis HS : sound repr asg.
  Hypothesis HF : forall x, is_finite x -> go_number (fmt x) = true.
  Hypothesis HN : forall z, In (Whole z) (plain_numbers m) -> fits_int64 z.

  Context (fin : gstate).
  Hypothesis Himp : imports f = gs_modules fin.
  Hypothesis Hspec : forall sp, In sp (file_specs f) -> origin U fmt p fuel m fin sp.
  Hypothesis Htype : forall n t, In (AType n t) asg -> exists s e b s1, gens t false s e b s1 /\ ext s1 fin /\ gs_errors s1 = [] /\
    incl (gd_specs (type_decl U n e b)) (file_specs f).
  Hypothesis Hvalue : forall n t v, In (AValue n t v) asg -> is_literal v -> exists s te b s1 ve,
    value_expr repr (fun x s => s = sprint_real fmt x) v ve /\
    gens t false s te b s1 /\ ext s1 fin /\ gs_errors s1 = [] /\
    In (ValueSpec ("Val" ++ goifyName U n) te ve) (file_specs f).

  Lemma names_assignment a : In a asg -> Forall ascii_named (assignment_names a).
  Proof.
    intros I. inversion_clear HA as [|? ? _ B]. rewrite Forall_forall in *. intros x Ix. apply B. apply in_flat_map. eauto.
  Qed.

  Lemma names_type n t : In (AType n t) asg -> ascii_type_name n /\ Forall ascii_named (type_names t).
  Proof. intros I. pose proof (names_assignment _ I) as N. cbn [assignment_names] in N. inversion_clear N as [|? ? N1 N2]. auto. Qed.

  Lemma gens_type t b s e b' s1 : gens t b s e b' s1 -> gs_errors s1 = [] -> go_type t e.
  Proof. intros H E. rewrite <- params_repr. eapply gens_genfs_go_type; eassumption. Qed.

  Lemma type_declared n t : In (AType n t) asg -> In (goifyName U n) (declared_types f).
  Proof.
    intros I. destruct (Htype n t I) as (s & e & b & s1 & _ & _ & _ & J). unfold declared_types. apply in_flat_map.
    unfold type_decl in J. destruct b.
    - exists (TypeSpec (goifyName U n) true (EIdent (goifyName U n ++ "SET"))). split; [apply J; right; now left|now left].
    - eexists (TypeSpec (goifyName U n) _ e). split; [apply J; now left|now left].
  Qed.

  (** A name in a type that a state up to the final one has made. *)
  Lemma ident_valid t b s e b' s1 id : gens t b s e b' s1 -> ext s1 fin -> gs_errors s1 = [] -> In id (expr_idents e) ->
    (exists n tn, In (AType n tn) asg /\ visible asg tn t) \/ (forall alts x, ~ visible asg t (TChoice alts x)) ->
    valid_type f (EIdent id).
  Proof.
    intros G X E I V. pose proof (proj1 (gens_genfs_idents _ _ _ _ _) _ _ _ _ _ _ G E id I) as K.
    destruct K as [K|[(pk & Hp & Hf)|[->|(n & tn & -> & D)]]].
    - now apply vt_predeclared.
    - assert (Ip : In pk (imports f)) by (rewrite Himp; eapply ext_in; eassumption).
      destruct Hf; (eapply vt_imported; [|exact Ip]; cbn; auto 8).
    - destruct (proj1 (idents_from U asg repr) _ _ (gens_type _ _ _ _ _ _ G E) _ I) as [K|[K|[(_ & alts & x & Hv & C)|(n & tn & Eq & _ & D)]]].
      + cbn in K. repeat destruct K as [K|K]; try discriminate K; contradiction.
      + cbn in K. repeat destruct K as [K|K]; try discriminate K; contradiction.
      + destruct V as [(n & tn & In1 & V)|V]; [|now destruct (V alts x)].
        assert (UA : uses_asn1 asg).
        { apply (so_choices _ _ HS). exists n, tn, alts, x. split; [exact In1|]. split; [|exact C].
          clear -V Hv. induction V; auto; try (now constructor; auto); econstructor; eauto. }
        destruct UA as (n2 & t2 & u & I2 & V2 & Q). destruct (Htype n2 t2 I2) as (s2 & e2 & b2 & s3 & G2 & X2 & E2 & _).
        destruct (visible_sub U asg repr _ _ V2 _ (gens_type _ _ _ _ _ _ G2 E2)) as (e' & T' & IC).
        assert (Y : exists id', In id' (expr_idents e') /\ In id' ["asn1.BitString"; "asn1.Enumerated"; "asn1.ObjectIdentifier"]).
        { destruct Q as [(l & ->)|[(y & ->)| ->]]; inversion T'; subst; eexists; (split; [now left|cbn; auto]). }
        destruct Y as (id' & Y1 & Y2). apply IC in Y1.
        destruct (proj1 (gens_genfs_idents _ _ _ _ _) _ _ _ _ _ _ G2 E2 id' Y1) as [K|[(pk & Hp & Hf)|[->|(k & tk & -> & D)]]].
        * exfalso. cbn in K, Y2. repeat destruct Y2 as [<-|Y2]; try contradiction; repeat destruct K as [K|K]; try discriminate K; contradiction.
        * assert (pk = "encoding/asn1") as ->.
          { destruct Hf; try reflexivity; exfalso; cbn in Y2; repeat destruct Y2 as [Y2|Y2]; try discriminate Y2; contradiction. }
          eapply vt_imported; [|rewrite Himp; eapply ext_in; eassumption]. cbn. auto 8.
        * exfalso. cbn in Y2. repeat destruct Y2 as [Y2|Y2]; try discriminate Y2; contradiction.
        * exfalso. apply first_named_in in D. apply names_type in D as [D _]. pose proof (builtin_goify1 U _ D) as B.
          cbn in Y2. repeat destruct Y2 as [Y2|Y2]; try contradiction; rewrite <- Y2 in B; discriminate B.
      + exfalso. apply first_named_in in D. apply names_type in D as [D _]. pose proof (builtin_goify1 U _ D) as B.
        rewrite <- Eq in B. discriminate B.
    - apply vt_declared. apply first_named_in in D. eapply type_declared; eassumption.
  Qed.

  Lemma types_valid n a e : In (TypeSpec n a e) (file_specs f) -> valid_type f e.
  Proof.
    intros I. pose proof (Hspec _ I) as O. inversion O as [|k t s e' b s1 sp Ia G X E Is|k t l x sp _ _ _ (e' & Es & _)|]; subst.
    2:{ discriminate Es. }
    assert (V : valid_type f e').
    { destruct (names_type _ _ Ia) as [_ Nt]. eapply (proj1 (valid_from U asg repr f)); [eapply gens_type; eassumption| |exact Nt|].
      - intros id Hid. eapply ident_valid; try eassumption. left. exists k, t. split; [exact Ia|constructor].
      - intros u cs. exact (so_components _ _ HS k t u cs Ia). }
    unfold type_decl in Is. destruct b; cbn in Is.
    - destruct Is as [Q|[Q|[]]]; inversion Q; subst; [exact V|]. apply vt_declared.
      destruct (Htype k t Ia) as (s2 & e2 & b2 & s3 & G2 & _ & _ & J).
      assert (b2 = true) as -> by (apply gens_set in G; apply gens_set in G2; apply G2, G; reflexivity).
      unfold declared_types. apply in_flat_map. exists (TypeSpec (goifyName U k ++ "SET") false e2). split; [apply J; now left|now left].
    - destruct Is as [Q|[]]; inversion Q; subst. exact V.
  Qed.

  Lemma types_tags n a e : In (TypeSpec n a e) (file_specs f) -> Forall raw_literal (tags_in e).
  Proof.
    intros I. pose proof (Hspec _ I) as O. inversion O as [|k t s e' b s1 sp Ia G X E Is|k t l x sp _ _ _ (e' & Es & _)|]; subst.
    2:{ discriminate Es. }
    pose proof (proj1 (gens_tags _ _ _ _ _) _ _ _ _ _ _ G E) as V.
    unfold type_decl in Is. destruct b; cbn in Is.
    - destruct Is as [Q|[Q|[]]]; inversion Q; subst; [exact V|constructor].
    - destruct Is as [Q|[]]; inversion Q; subst. exact V.
  Qed.

  (** The Go type behind the aliases. *)
  Definition plain (u : AType_) (e : goexpr) : Prop :=
    match u with
    | TInteger _ => (repr = "int64" /\ e = EIdent "int64") \/ (repr = "big.Int" /\ e = EStar (EIdent "big.Int"))
    | TBoolean => e = EIdent "bool"
    | TReal => e = EIdent "float64"
    | _ => False
    end.
  Definition basic (u : AType_) : Prop := match u with TInteger _ | TBoolean | TReal => True | _ => False end.

  Lemma strip_type t e : go_type t e -> go_type (strip t) e.
  Proof. induction 1; cbn [strip]; try (econstructor; eassumption); assumption. Qed.

  Lemma strip_set t : reaches_set asg t -> reaches_set asg (strip t).
  Proof. induction 1; cbn [strip]; try (econstructor; eassumption); assumption. Qed.

  Lemma base_no_set t u : base asg t u -> basic u -> ~ reaches_set asg t.
  Proof.
    intros B Bu R. apply strip_set in R. inversion B as [t0 N0|t0 n0 t0' u0 E0 D0 B0]; subst t0.
    - subst u. destruct (strip t); try contradiction; inversion R.
    - rewrite E0 in R. inversion R.
  Qed.

  Lemma base_leaf t u n : base asg t u -> strip t = TReference n ->
    exists k tk, leaf_of asg n k (Some tk) /\ strip tk = u /\ (exists k0, In (AType k tk) asg /\ k0 = k).
  Proof.
    intros B. revert n. induction B as [t N|t n t' u E D B IH]; intros k E'; [now destruct (N k)|].
    rewrite E in E'. injection E' as <-.
    inversion B as [t0 N0|t0 n0 t0' u0 E0 D0 B0]; subst.
    - exists n, t'. split; [now apply leaf_here|]. split; [reflexivity|]. exists n. split; [|reflexivity].
      eapply first_named_in; exact D.
    - destruct (IH _ E0) as (k & tk & L & S' & X). exists k, tk. split; [eapply leaf_step; eassumption|auto].
  Qed.

  Lemma go_type_plain u e : basic u -> go_type u e -> plain u e.
  Proof. intros B T. destruct u; try contradiction; inversion T; subst; cbn; auto. Qed.

  (** The type of a value: no struct, an alias for the plain type. *)
  Lemma base_expands : forall t u, base asg t u -> basic u -> forall te, go_type t te ->
    exists r, plain u r /\ expands f te r /\ (te = r \/ exists s, te = EIdent s).
  Proof.
    induction 1 as [t N|t n t' u E D B IH]; intros Bu te T.
    - apply strip_type in T. exists te. split; [now apply go_type_plain|]. split; [constructor|auto].
    - apply strip_type in T. rewrite E in T.
      destruct (base_leaf t u n (ba_reference _ _ _ _ _ E D B) E) as (k & tk & L & Sk & (k0 & Ik & _)).
      assert (NT : ~ time_name k) by (eapply so_reserved; eassumption).
      assert (ST : forall k' t'', stands_for asg n k' t'' -> k' = k /\ t'' = tk).
      { intros k' t'' (o & L' & C). destruct (leaf_det _ _ _ _ _ _ L L') as [<- <-]. split; [reflexivity|].
        destruct C as [[C _]|[[C|C] _]]; try discriminate C; [congruence|]. injection C as ->. cbn in Sk. subst u. contradiction. }
      inversion T as [| | | | | | | | | | | | | | | | |n1 m1 t1 S1 T1|n1 m1 t1 l1 S1 T1 B1|n1 m1 t1 S1 T1 B1| | |]; subst.
      + destruct (ST _ _ S1) as [-> _]. contradiction.
      + destruct (ST _ _ S1) as [_ ->]. rewrite B1 in Bu. contradiction.
      + pose proof (first_named_in _ _ _ D) as In1. destruct (Htype n t' In1) as (s & e & b & s1 & G & X & Er & J).
        pose proof (gens_type _ _ _ _ _ _ G Er) as T'. destruct (IH Bu e T') as (r & P & Ex & Sh).
        assert (b = false) as ->.
        { destruct b; [|reflexivity]. exfalso. apply gens_set in G as [G _]. destruct (G eq_refl) as [G'|G']; [discriminate|].
          exact (base_no_set _ _ B Bu G'). }
        exists r. split; [exact P|]. split; [|eauto]. eapply ex_alias; [|exact Ex]. apply J. left.
        unfold type_decl. destruct Sh as [->|(s0 & ->)]; [|reflexivity].
        destruct (strip tk); try contradiction; cbn in P; [destruct P as [[_ ->]|[_ ->]]|subst r|subst r]; reflexivity.
  Qed.

  Lemma visible_strip : forall t u, visible asg t u -> basic (strip t) \/ (exists n, strip t = TReference n) -> strip u = strip t.
  Proof.
    induction 1; cbn [strip]; intros B; auto; exfalso; destruct B as [B|(k & B)]; try contradiction; discriminate B.
  Qed.

  Lemma base_head t u : base asg t u -> basic u -> basic (strip t) \/ (exists n, strip t = TReference n).
  Proof. intros B Bu. inversion B; subst; eauto. Qed.

  (** A type written for a value. *)
  Lemma value_type_valid t u b s te b' s1 : base asg t u -> basic u -> gens t b s te b' s1 -> ext s1 fin -> gs_errors s1 = [] ->
    valid_type f te /\ tags_in te = [].
  Proof.
    intros B Bu G X E. destruct (base_expands _ _ B Bu _ (gens_type _ _ _ _ _ _ G E)) as (r & P & _ & Sh).
    assert (V : forall id, In id (expr_idents te) -> valid_type f (EIdent id)).
    { intros id Hid. eapply ident_valid; try eassumption. right. intros alts x V.
      apply visible_strip in V; [|eapply base_head; eassumption]. cbn [strip] in V.
      destruct (base_head _ _ B Bu) as [H|(n & H)]; rewrite <- V in H; [contradiction|discriminate H]. }
    destruct Sh as [->|(s0 & ->)]; [|split; [apply V; now left|reflexivity]].
    destruct u; try contradiction; cbn in P;
      first [destruct P as [[_ ->]|[_ ->]]; (split; [|reflexivity]); [|apply vt_pointer]; apply V; now left
            |rewrite P in *; split; [apply V; now left|reflexivity]].
  Qed.

  Lemma base_big : forall t u, base asg t u -> forall l, u = TInteger l -> repr = "big.Int" ->
    forall b s te b' s1, gens t b s te b' s1 -> ext s1 fin -> In "math/big" (imports f).
  Proof.
    induction 1 as [t N|t n t' u E D B IH]; intros l El Hr b s te b' s1 G X.
    - rewrite Himp. eapply ext_in; [exact X|]. eapply gens_integer; [exact G|exact El|]. now rewrite params_repr.
    - destruct (Htype n t' (first_named_in _ _ _ D)) as (s2 & e & b2 & s3 & G2 & X2 & _ & _). eapply IH; eassumption.
  Qed.

  Lemma plain_det l l' r r' : plain (TInteger l) r -> plain (TInteger l') r' -> r = r'.
  Proof. cbn. intros [[H ->]|[H ->]] [[H' ->]|[H' ->]]; congruence. Qed.

  (** An integer expression for an INTEGER type. *)
  Lemma int_assignable z ve t l r : denotes_int repr z ve -> fits_int64 z -> plain (TInteger l) r -> expands f t r ->
    (repr = "big.Int" -> In "math/big" (imports f)) -> assignable f ve t.
  Proof.
    intros (s & Hs & D) Fz P X Hb. cbn in P. destruct P as [[Hr ->]|[Hr ->]].
    - destruct D as [[D _]|[_ ->]]; [congruence|]. eapply as_int; eassumption.
    - destruct D as [[_ ->]|[D _]]; [|congruence]. eapply as_big; eauto.
  Qed.

  Lemma literal_typed v ve : value_expr repr (fun x s => s = sprint_real fmt x) v ve -> is_literal v.
  Proof. destruct 1; exact I. Qed.

  Lemma typed_base n t v : In (AValue n t v) asg -> is_literal v -> exists u, base asg t u /\ basic u.
  Proof.
    intros Ia L. pose proof (so_values _ _ HS _ _ _ Ia) as T. destruct v; try contradiction; cbn in T.
    all: first [destruct T as [(l & B)|[B _]]; eexists; (split; [exact B|exact I])
      |destruct T as [B _]; eexists; (split; [exact B|exact I])|eexists; (split; [exact T|exact I])].
  Qed.

  (** The alias of a type assigned to an INTEGER. *)
  Lemma integer_alias n t l : In (AType n t) asg -> strip t = TInteger l -> exists r, plain (TInteger l) r /\
    expands f (EIdent (goifyName U n)) r /\ (repr = "big.Int" -> In "math/big" (imports f)).
  Proof.
    intros Ia St. assert (B : base asg t (TInteger l)).
    { rewrite <- St. apply ba_here. intros k. rewrite St. discriminate. }
    destruct (Htype n t Ia) as (s & e & b & s1 & G & X & Er & J).
    pose proof (gens_type _ _ _ _ _ _ G Er) as T. apply strip_type in T. rewrite St in T. pose proof (go_type_plain (TInteger l) e I T) as P.
    exists e. split; [exact P|]. split; [|intros Hr; eapply base_big; eauto].
    assert (b = false) as ->.
    { destruct b; [|reflexivity]. exfalso. apply gens_set in G as [G _]. destruct (G eq_refl) as [G'|G']; [discriminate|].
      exact (base_no_set _ _ B I G'). }
    eapply ex_alias; [|apply ex_same]. apply J. left. unfold type_decl. cbn in P. destruct P as [[_ ->]|[_ ->]]; reflexivity.
  Qed.

  Lemma strip_numbers x : forall t : AType_, In x (type_numbers (fun _ => []) (strip t)) -> In x (type_numbers (fun _ => []) t).
  Proof. fix IH 1. intros [] H; cbn in *; auto; apply in_or_app; auto. Qed.

  Lemma number_fits n t l x z : In (AType n t) asg -> strip t = TInteger l -> In x l -> nn_Value x = NNumber z -> fits_int64 z.
  Proof.
    intros Ia St Ix Ex. apply HN. unfold plain_numbers, module_numbers, mb_numbers. apply in_or_app. right. apply in_or_app. right.
    apply in_flat_map. exists (AType n t). split; [exact Ia|]. apply strip_numbers. rewrite St. cbn. apply in_flat_map. exists x.
    split; [exact Ix|]. unfold nn_numbers. rewrite Ex. now left.
  Qed.

  Lemma value_fits n t z : In (AValue n t (VNumber z)) asg -> fits_int64 z.
  Proof.
    intros Ia. apply HN. unfold plain_numbers, module_numbers, mb_numbers. apply in_or_app. right. apply in_or_app. right.
    apply in_flat_map. eexists. split; [exact Ia|]. apply in_or_app. right. now left.
  Qed.

  Lemma variables_typed n t v : In (ValueSpec n t v) (file_specs f) -> (valid_type f t /\ tags_in t = []) /\ assignable f v t.
  Proof.
    intros Is. pose proof (Hspec _ Is) as O. inversion O as [|k t0 s e' b s1 sp Ia G X E Isp|k t0 l x sp Ia St Ix (e' & Es & Ev)|k t0 v0 s te b s1 ve Ia Ve G X E]; subst.
    - exfalso. unfold type_decl in Isp. destruct b; cbn in Isp; repeat destruct Isp as [Q|Isp]; try discriminate Q; contradiction.
    - injection Es as E1 E2 E3. subst t e'. split; [split; [apply vt_declared; eapply type_declared; eassumption|reflexivity]|].
      destruct (integer_alias _ _ _ Ia St) as (r & P & Ex & Hb).
      destruct (so_numbers _ _ HS _ _ _ Ia St) as [_ TN]. rewrite Forall_forall in TN. specialize (TN x Ix). unfold typed_number in TN.
      destruct (nn_Value x) as [|z|d] eqn:Ex0; [contradiction|eapply int_assignable; try eassumption; eapply number_fits; eassumption|].
      destruct Ev as [_ ->]. destruct TN as (t' & z & Iv & (l' & B)).
      destruct (Hvalue _ _ _ Iv I) as (s & te & b & s1 & ve & Ve & G & X & E & Iz).
      destruct (base_expands _ _ B I _ (gens_type _ _ _ _ _ _ G E)) as (r' & P' & Ex' & _).
      rewrite (plain_det _ _ _ _ P' P) in Ex'. eapply as_variable; eassumption.
    - pose proof (literal_typed _ _ Ve) as L. split.
      + destruct (typed_base _ _ _ Ia L) as (u & B & Bu). eapply value_type_valid; eassumption.
      + pose proof (so_values _ _ HS _ _ _ Ia) as T. pose proof (gens_type _ _ _ _ _ _ G E) as GT.
        inversion Ve as [z e D| | |x s0 Hx]; subst; cbn in T.
        * destruct T as [(l & B)|[B Nr]]; destruct (base_expands _ _ B I _ GT) as (r & P & Ex & _).
          -- eapply int_assignable; try eassumption; [eapply value_fits; eassumption|]. intros Hr. eapply base_big; eauto.
          -- cbn in P. subst r. destruct D as (lit & Hl & [[D _]|[_ ->]]); [congruence|]. eapply as_int_float; eassumption.
        * destruct (base_expands _ _ T I _ GT) as (r & P & Ex & _). cbn in P. subst r. apply as_bool; auto.
        * destruct (base_expands _ _ T I _ GT) as (r & P & Ex & _). cbn in P. subst r. apply as_bool; auto.
        * destruct T as [B Fx]. destruct (base_expands _ _ B I _ GT) as (r & P & Ex & _). cbn in P. subst r.
          apply as_float; [|exact Ex]. destruct x; try contradiction; cbn; apply HF; exact I.
  Qed.

  (** Names of the file's own do not look like the names from elsewhere. *)
  Lemma low_names s : In s (predeclared ++ ["asn1.BitString"; "asn1.Enumerated"; "asn1.ObjectIdentifier"; "asn1.RawValue"; "big.Int"; "time.Time";
    "big.NewInt"; "big"; "asn1"; "time"]) -> ~ exported_identifier s.
  Proof. cbn. intros H. repeat destruct H as [<-|H]; try contradiction; intros [A _]; discriminate A. Qed.

  Lemma exported_type n t : In (AType n t) asg -> exported_identifier (goifyName U n).
  Proof. intros Ia. apply goify_exported. apply (names_type _ _ Ia). Qed.

  Lemma type_key n t : In (AType n t) asg -> type_ok n.
  Proof. intros Ia. destruct (names_type _ _ Ia). destruct (so_affixes _ _ HS _ _ Ia). repeat split; try assumption; apply H. Qed.

  Lemma alias_name a e : In (TypeSpec a true e) (file_specs f) -> exists n t, In (AType n t) asg /\ a = goifyName U n.
  Proof.
    intros Is. pose proof (Hspec _ Is) as O. inversion O as [|k t s e' b s1 sp Ia G X E Isp|k t l x sp _ _ _ (e' & Es & _)|]; subst; [|discriminate Es].
    exists k, t. split; [exact Ia|]. unfold type_decl in Isp. destruct b; cbn in Isp.
    - destruct Isp as [Q|[Q|[]]]; inversion Q; reflexivity.
    - destruct Isp as [Q|[]]; inversion Q; reflexivity.
  Qed.

  Lemma alias_step_asn a b : alias_step f a b -> (exists e, In (TypeSpec b true e) (file_specs f)) ->
    exists n k tk, In (AType k tk) asg /\ ascii_type_name n /\ a = goifyName U n /\ b = goifyName U k /\ spelled_with asg n k.
  Proof.
    intros (e & Is & Hb) (eb & Ib). destruct (alias_name _ _ Ib) as (nb & tb & Inb & ->).
    pose proof (exported_type _ _ Inb) as Xb. pose proof (Hspec _ Is) as O.
    inversion O as [|n t s e' fl s1 sp Ia G X E Isp|k t l x sp _ _ _ (e' & Es & _)|]; subst; [|discriminate Es].
    unfold type_decl in Isp. destruct fl; cbn in Isp.
    - exfalso. destruct Isp as [Q|[Q|[]]]; inversion Q; subst. destruct Hb as [Hb|[]].
      assert (K : KSet n = KType nb) by (apply (key_inj U); [eapply type_key; eassumption|eapply type_key; eassumption|exact Hb]). discriminate K.
    - destruct Isp as [Q|[]]. inversion Q as [[Q1 Q2 Q3]]. subst a e'.
      pose proof (gens_type _ _ _ _ _ _ G E) as T.
      destruct (proj1 (idents_from U asg repr) _ _ T _ Hb) as [K|[K|[(K & _)|(k & tk & K & V & D)]]].
      + exfalso. eapply low_names; [apply in_or_app; left; exact K|exact Xb].
      + exfalso. eapply low_names; [|exact Xb]. cbn in K |- *. intuition auto 20.
      + exfalso. eapply low_names; [|exact Xb]. rewrite K. cbn. auto 20.
      + exists n, k, tk. split; [exact (first_named_in _ _ _ D)|]. split; [apply (names_type _ _ Ia)|]. split; [reflexivity|]. split; [exact K|].
        exists t. split; [apply in_defined; [apply (so_names _ _ HS)|exact Ia]|]. split; [|split; [|exact V]].
        * intros St. destruct (structured_type U asg repr _ St _ T) as (fs & ->). discriminate Q2.
        * intros Rs. apply gens_set in G as [_ G]. discriminate G. now right.
  Qed.

  Lemma no_alias_cycle : ~ alias_cycle f.
  Proof.
    intros (a & C). apply (so_spelled _ _ HS).
    assert (X : forall a c, clos_trans_1n _ (alias_step f) a c -> (exists e, In (TypeSpec c true e) (file_specs f)) ->
      exists n k tk, In (AType k tk) asg /\ ascii_type_name n /\ a = goifyName U n /\ c = goifyName U k /\ clos_trans _ (spelled_with asg) n k).
    { induction 1 as [x y Hs|x y z Hs Hc IH]; intros Hd.
      - destruct (alias_step_asn _ _ Hs Hd) as (n & k & tk & H1 & H2 & H3 & H4 & H5). exists n, k, tk. repeat (split; [assumption|]). now apply t_step.
      - destruct (IH Hd) as (n' & k' & tk' & A1 & A2 & A3 & A4 & A5).
        assert (Hy : exists e, In (TypeSpec y true e) (file_specs f)).
        { inversion Hc as [? (e & Q & _)|? ? (e & Q & _)]; eauto. }
        destruct (alias_step_asn _ _ Hs Hy) as (n & k & tk & B1 & B2 & B3 & B4 & B5).
        assert (k = n') as ->.
        { apply (goify_inj_type U); [apply (names_type _ _ B1)|exact A2|congruence]. }
        exists n, k', tk'. repeat (split; [assumption|]). eapply t_trans; [apply t_step; exact B5|exact A5]. }
    apply clos_trans_t1n in C.
    assert (Ha : exists e, In (TypeSpec a true e) (file_specs f)).
    { inversion C as [? (e & Q & _)|? ? (e & Q & _)]; eauto. }
    destruct (X _ _ C Ha) as (n & k & tk & B1 & B2 & B3 & B4 & B5).
    assert (k = n) as -> by (apply (goify_inj_type U); [apply (names_type _ _ B1)|exact B2|congruence]). exists n. exact B5.
  Qed.

  Lemma top_exported s : In s (top_names f) -> exported_identifier s.
  Proof.
    intros Is. pose proof (generated_names U fmt p fuel m f HG HA) as N. rewrite Forall_forall in N. apply N.
    apply in_flat_map in Is as (sp & I1 & I2). apply in_flat_map. exists sp. split; [exact I1|].
    destruct sp; [destruct I2 as [<-|[]]; now left|destruct I2 as [<-|[]]; now left|destruct I2].
  Qed.

  Lemma var_exported s : In s (declared_vars f) -> exported_identifier s.
  Proof.
    intros Is. apply top_exported. apply in_flat_map in Is as (sp & I1 & I2). apply in_flat_map. exists sp. split; [exact I1|].
    destruct sp; try contradiction; exact I2.
  Qed.

  (** Only named numbers refer, and only to value assignments. *)
  Lemma init_step_from a b : init_step f a b ->
    exists n t x y d, In (AType n t) asg /\ ascii_value_name x /\ a = key_name U (KNum n x) /\ b = key_name U (KVal d) /\ ascii_value_name d /\ y = tt.
  Proof.
    intros (t & v & Is & Ib & Vb). apply var_exported in Vb.
    assert (NB : b <> "big.NewInt") by (intros ->; eapply low_names; [|exact Vb]; cbn; auto 20).
    assert (ND : forall z, denotes_int repr z v -> False).
    { intros z (s & _ & [[_ ->]|[_ ->]]); cbn in Ib; [destruct Ib as [Ib|[]]; congruence|contradiction]. }
    pose proof (Hspec _ Is) as O.
    inversion O as [|k t0 s e' fl s1 sp Ia G X E Isp|k t0 l x sp Ia St Ix (e' & Es & Ev)|k t0 v0 s te fl s1 ve Ia Ve G X E]; subst.
    - exfalso. unfold type_decl in Isp. destruct fl; cbn in Isp; repeat destruct Isp as [Q|Isp]; try discriminate Q; contradiction.
    - inversion Es; subst. destruct (so_numbers _ _ HS _ _ _ Ia St) as [_ TN]. rewrite Forall_forall in TN. specialize (TN x Ix). unfold typed_number in TN.
      destruct (nn_Value x) as [|z|d]; [contradiction|destruct (ND _ Ev)|]. destruct Ev as [_ ->]. destruct Ib as [<-|[]].
      destruct TN as (t' & z & Iv & _). exists k, t0, (nn_Name x), tt, (dv_ValueName d). split; [exact Ia|]. split; [|split; [reflexivity|split; [reflexivity|split; [|reflexivity]]]].
      + destruct (names_type _ _ Ia) as [_ N]. rewrite <- strip_names, St in N.
        change (Forall ascii_named (map (fun n => (false, nn_Name n)) l)) in N. rewrite Forall_map, Forall_forall in N. exact (N x Ix).
      + pose proof (names_assignment _ Iv) as N. cbn [assignment_names] in N. inversion_clear N as [|? ? N1 _]. exact N1.
    - exfalso. inversion Ve; subst; try contradiction. eauto.
  Qed.

  Lemma no_init_cycle : ~ init_cycle f.
  Proof.
    intros (a & C). apply clos_trans_t1n in C.
    assert (X : forall a b c, init_step f a b -> init_step f b c -> False).
    { intros x y z H1 H2. destruct (init_step_from _ _ H1) as (n & t & k & _ & d & A1 & A2 & A3 & A4 & A5 & _).
      destruct (init_step_from _ _ H2) as (n' & t' & k' & _ & d' & B1 & B2 & B3 & B4 & B5 & _).
      assert (K : KVal d = KNum n' k').
      { apply (key_inj U); [exact A5|split; [eapply type_key; eassumption|exact B2]|congruence]. }
      discriminate K. }
    inversion C as [y H|y z H H']; subst; [exact (X _ _ _ H H)|].
    inversion H' as [? H2|? ? H2]; subst; exact (X _ _ _ H H2).
  Qed.
End File.

Lemma compiles_generated U fmt p fuel m f : Generate U fmt p fuel m = Ok (GenOk f) -> Forall ascii_named (module_names m) ->
  sound (integer_repr p) (mb_AssignmentList (md_ModuleBody m)) -> (forall x, is_finite x -> go_number (fmt x) = true) ->
  (forall z, In (Whole z) (plain_numbers m) -> fits_int64 z) -> go_identifier (gf_name f) -> compiles f.
Proof.
  intros G A S' F HN P. destruct (origins U fmt p fuel m f G) as (fin & H1 & H2 & H3 & H4).
  pose proof (Generate_ok _ _ _ _ _ _ G) as (_ & ds & s & Hd & He & Hf).
  pose proof (gendecls_ok _ _ _ _ _ _ _ _ _ _ Hd) as Hok.
  pose proof (gendecls_pkgs _ _ _ _ _ _ _ _ _ _ Hd ltac:(intros x [])) as Hp. rewrite <- (imports_eq _ _ _ Hf Hok) in Hp.
  destruct (gendecls_ext _ _ _ _ _ _ _ _ _ _ Hd) as (_ & ms & _ & _ & Hn). specialize (Hn (NoDup_nil _)).
  rewrite <- (imports_eq _ _ _ Hf Hok) in Hn.
  assert (NT : NoDup (top_names f)).
  { apply (unique_names U fmt p fuel m f G (so_names _ _ S')). apply Forall_forall. intros a Ia. destruct a as [|n t|n t v]; [exact I| |].
    - split; [eapply type_key; eassumption|]. intros l St. split; [apply (so_numbers _ _ S' _ _ _ Ia St)|].
      destruct (names_type _ A _ _ Ia) as [_ N]. rewrite <- strip_names, St in N.
      change (Forall ascii_named (map (fun n => (false, nn_Name n)) l)) in N. rewrite Forall_map in N |- *. exact N.
    - pose proof (names_assignment _ A _ Ia) as N. cbn [assignment_names] in N. inversion_clear N as [|? ? N1 _]. exact N1. }
  constructor.
  - exact P.
  - exists (importDecls (gs_modules s)), ds. split; [exact Hf|]. split; [eapply imports_are|].
    eapply Forall_impl; [|exact Hok]. intros d Hd1 Hd2. unfold decl_ok in Hd1. now rewrite Hd2 in Hd1.
  - split; [exact Hn|]. apply NoDup_map_inj with (P := fun x => In x ["math/big"; "time"; "encoding/asn1"]); [| |exact Hn].
    + intros x y Hx Hy E. cbn in Hx, Hy. repeat destruct Hx as [<-|Hx]; try contradiction; repeat destruct Hy as [<-|Hy]; try contradiction; try reflexivity; discriminate E.
    + apply Forall_forall. exact Hp.
  - intros path Hpath. rewrite (imports_eq _ _ _ Hf Hok) in Hpath. rewrite (type_idents_eq _ _ _ Hf).
    destruct (gendecls_modules _ _ _ _ _ _ _ _ _ _ Hd path Hpath) as [[]|Hx]. exact Hx.
  - intros d sp Id Isp. rewrite Hf in Id. apply in_app_or in Id as [Id|Id].
    + apply in_map_iff in Id as (x & <- & _). cbn in *. destruct Isp as [<-|[]]. exact I.
    + rewrite Forall_forall in Hok. specialize (Hok d Id). unfold decl_ok in Hok.
      destruct (gd_tok d); try contradiction; rewrite Forall_forall in Hok; destruct (Hok sp Isp) as (a & b & c & ->); exact I.
  - pose proof (generated_names U fmt p fuel m f G A) as N. eapply Forall_impl; [|exact N]. intros x. apply exported_go.
  - exact NT.
  - intros x Hx Ht. pose proof (top_exported U fmt p fuel m f G A x Ht) as X. destruct Hx as [Hx|Hx].
    + eapply low_names; [apply in_or_app; left; exact Hx|exact X].
    + apply in_map_iff in Hx as (q & <- & Hq). apply Hp in Hq. cbn in Hq.
      repeat destruct Hq as [<-|Hq]; try contradiction; (eapply low_names; [|exact X]; vm_compute; auto 20).
  - exact (types_valid U fmt p fuel m f A S' fin H1 H2 H3).
  - exact (types_tags U fmt p fuel m f fin H2).
  - intros R. apply (so_finite _ _ S'). eapply recursive_embeds; [exact G| | |exact R].
    + clear -NT. unfold declared_types, top_names in *. induction (file_specs f) as [|sp l IH]; [constructor|].
      cbn [flat_map] in NT |- *. destruct sp as [n a e|n t v|q]; cbn [app] in *.
      * inversion NT as [|? ? N1 N2]; subst. constructor; [|auto]. intros H. apply N1. clear -H. apply in_flat_map in H as (sp & I1 & I2).
        apply in_flat_map. exists sp. split; [exact I1|]. destruct sp; try contradiction; exact I2.
      * inversion NT; subst. auto.
      * auto.
    + intros n t Ia. apply (names_type _ A _ _ Ia).
  - exact (no_alias_cycle U fmt p fuel m f A S' fin H2).
  - intros n t v Iv. exact (proj1 (variables_typed U fmt p fuel m f A S' F HN fin H1 H2 H3 H4 n t v Iv)).
  - intros n t v Iv. exact (proj2 (variables_typed U fmt p fuel m f A S' F HN fin H1 H2 H3 H4 n t v Iv)).
  - exact (no_init_cycle U fmt p fuel m f G A S' fin H2).
Qed.
