(** What encoding/asn1 makes of values of generated types. *)
From Coq Require Import ZArith String Ascii List Bool Lia Permutation SpecFloat.
From Verif Require Import GoBase Utf8 Unicode Tokens Ast GoAst Codegen CodegenSpec CodegenFacts CodegenInv CodegenDecl
  CodegenTag GoifyFacts CodegenShape Wire.
Import ListNotations.
Local Open Scope string_scope.
Local Open Scope list_scope.
Local Open Scope Z_scope.

(** * Unfolding make_field *)

Section Unfold.
  Context (sorted : list tlv -> list tlv) (f : gofile) (fuel : nat).

  Fixpoint make_fields (fs : list gofield) (vs : list gval) {struct vs} : option (list tlv) :=
    match fs, vs with
    | [], [] => Some []
    | Field _ e' tag' :: fs', v' :: vs' =>
        match make_field sorted f fuel e' (parseFieldParameters (tag_body tag')) v' with
        | None => None
        | Some a => option_map (app a) (make_fields fs' vs')
        end
    | _, _ => None
    end.

  Fixpoint make_elements (e : goexpr) (vs : list gval) : option (list tlv) :=
    match vs with
    | [] => Some []
    | v' :: vs' =>
        match make_field sorted f fuel e fp0 v' with
        | None => None
        | Some a => option_map (app a) (make_elements e vs')
        end
    end.

  (** makeField on a value that is not left out. *)
  Definition make_value (k : gkind) (fp : fieldParameters) (v : gval) : option (list tlv) :=
    match k, v with KRaw, GRaw o => Some [raw_element o] | _, _ =>
    match field_tag fp k v with
    | None => None
    | Some tag =>
        match k, v with
        | KStruct fs, GStruct vs =>
            if forallb exported fs then
              match make_fields fs vs with
              | None => None
              | Some ws => Some [put_tag fp tag (Nested ws)]
              end
            else None
        | KSlice _ e', GSlice o =>
            match make_elements e' (contents_of o) with
            | None => None
            | Some ws => Some [put_tag fp tag (Nested (if tag =? 17 then sorted ws else ws))]
            end
        | _, _ =>
            match prim_body fp k v with
            | None => None
            | Some p => Some [put_tag fp tag (Octets p)]
            end
        end
    end
    end.

  Definition left_out (fp : fieldParameters) (v : gval) : bool :=
    (fp_omitEmpty fp && match v with GSlice (Some []) | GSlice None | GBytes (Some []) | GBytes None => true | _ => false end) ||
    (fp_optional fp && match fp_defaultValue fp with None => is_zero v | Some _ => false end).

  Lemma elements_eq : forall e vs,
    (fix elements (vs : list gval) : option (list tlv) :=
       match vs with
       | [] => Some []
       | v' :: vs' =>
           match make_field sorted f fuel e fp0 v' with
           | None => None
           | Some a => option_map (app a) (elements vs')
           end
       end) vs = make_elements e vs.
  Proof. induction vs as [|v vs IH]; [reflexivity|]. cbn [make_elements]. now rewrite <- IH. Qed.

  (** Not in an interface. *)
  Definition static (v : gval) : Prop := match v with GNil | GDyn _ _ => False | _ => True end.

  Lemma make_field_eq : forall e fp v, static v ->
    make_field sorted f fuel e fp v =
      if left_out fp v then Some []
      else match kind_of f fuel e with
           | None => None
           | Some k => if is_default fp k v then Some [] else make_value k fp v
           end.
  Proof.
    intros e fp v ST. unfold left_out. destruct v; try destruct ST; cbn [make_field];
    match goal with |- (if ?x then _ else (if ?y then _ else _)) = _ => destruct x; [reflexivity|]; destruct y; [reflexivity|] end; cbn [orb];
    (destruct (kind_of f fuel e) as [k|]; [|reflexivity]); destruct (is_default fp k _); try reflexivity;
    unfold make_value; destruct (field_tag fp k _); try reflexivity; destruct k; try reflexivity.
    destruct l as [l|]; cbn [contents_of]; [|reflexivity]. now rewrite elements_eq.
  Qed.

  Lemma make_field_dynamic : forall e fp v, kind_of f fuel e <> Some KAny -> ~ static v -> make_field sorted f fuel e fp v = None.
  Proof.
    intros e fp v K ST. destruct v; try (exfalso; apply ST; exact I); [reflexivity|]. cbn [make_field].
    destruct (kind_of f fuel e) as [[]|]; congruence.
  Qed.

  Lemma static_dec : forall v, static v \/ ~ static v.
  Proof. destruct v; cbn; tauto. Qed.
End Unfold.

(** * More fuel does not change the outcome *)

Lemma kind_mono : forall f k e x, kind_of f k e = Some x -> forall k', (k <= k')%nat -> kind_of f k' e = Some x.
Proof.
  induction k as [|k IH]; intros e x H k' Hk.
  - destruct e; destruct k'; try exact H; cbn [kind_of] in *; destruct (builtin_kind name); (exact H || discriminate H).
  - destruct k' as [|k']; [lia|]. destruct e; try exact H. cbn [kind_of] in *. destruct (builtin_kind name); [exact H|].
    destruct (find_type (file_specs f) name) as [[[|] e']|]; [|destruct (kind_of f k e') eqn:E; [|discriminate]|discriminate].
    + apply IH; [exact H|lia].
    + rewrite (IH _ _ E); [exact H|lia].
Qed.

Section Mono.
  Context (sorted : list tlv -> list tlv) (f : gofile).

  (** Induction over Go values. *)
  Lemma gval_ind2 : forall P : gval -> Prop,
    (forall v, (forall l, v <> GStruct l) -> (forall l, v <> GSlice (Some l)) -> (forall e v', v <> GDyn e v') -> P v) ->
    (forall e v, P v -> P (GDyn e v)) ->
    (forall l, Forall P l -> P (GStruct l)) ->
    (forall l, Forall P l -> P (GSlice (Some l))) ->
    forall v, P v.
  Proof.
    intros P H1 H4 H2 H3. fix IH 1. intro v. destruct v; try (apply H1; discriminate).
    - apply H2. induction l as [|v l IHl]; constructor; [apply IH|exact IHl].
    - destruct l as [l|]; [|apply H1; discriminate]. apply H3. induction l as [|v l IHl]; constructor; [apply IH|exact IHl].
    - apply H4, IH.
  Qed.

  Lemma make_mono : forall v e fp k ws, make_field sorted f k e fp v = Some ws ->
    forall k', (k <= k')%nat -> make_field sorted f k' e fp v = Some ws.
  Proof.
    induction v as [v N1 N2 N3|de v IH|l IH|l IH] using gval_ind2; intros e fp k ws H k' Hk.
    2: { cbn [make_field] in *. destruct (kind_of f k e) as [kd|] eqn:E; [|discriminate]. rewrite (kind_mono _ _ _ _ E _ Hk).
         destruct kd; try discriminate H. exact (IH de fp k ws H k' Hk). }
    1: assert (ST : static v \/ v = GNil) by (destruct v; cbn; tauto || (exfalso; eapply N3; reflexivity)).
    1: destruct ST as [ST|ST]; [|subst v; discriminate H].
    all: (rewrite make_field_eq in H by exact ST || exact I); (rewrite make_field_eq by exact ST || exact I);
      (destruct (left_out fp _); [exact H|]); (destruct (kind_of f k e) as [kd|] eqn:E; [|discriminate]);
      rewrite (kind_mono _ _ _ _ E _ Hk); (destruct (is_default fp kd _); [exact H|]); unfold make_value in *.
    all: match goal with |- context [field_tag ?p ?q ?v] => destruct (field_tag p q v) as [tag|] eqn:FT end;
      [|destruct kd; try exact H; destruct v; try exact H; discriminate H].
    - destruct kd; try exact H; destruct v; try exact H; [|exfalso; eapply N1; reflexivity].
      destruct l as [l|]; [exfalso; eapply N2; reflexivity|]. exact H.
    - destruct kd; try exact H. destruct (forallb exported fields); [|discriminate].
      destruct (make_fields sorted f k fields l) as [ws'|] eqn:F; [|discriminate].
      assert (F' : make_fields sorted f k' fields l = Some ws'); [|rewrite F'; exact H].
      clear - IH F Hk. revert fields ws' F. induction IH as [|v l Hv Hl IHl]; intros fields ws' F.
      + destruct fields; exact F.
      + destruct fields as [|[n e tg] fs]; [exact F|]. cbn [make_fields] in *.
        destruct (make_field sorted f k e (parseFieldParameters (tag_body tg)) v) as [a|] eqn:A; [|discriminate].
        rewrite (Hv _ _ _ _ A _ Hk). destruct (make_fields sorted f k fs l) as [b|] eqn:B; [|discriminate].
        rewrite (IHl _ _ B). exact F.
    - destruct kd; try exact H. cbn [contents_of] in *.
      destruct (make_elements sorted f k elem l) as [ws'|] eqn:F; [|discriminate].
      assert (F' : make_elements sorted f k' elem l = Some ws'); [|rewrite F'; exact H].
      clear - IH F Hk. revert ws' F. induction IH as [|v l Hv Hl IHl]; intros ws' F.
      + exact F.
      + cbn [make_elements] in *.
        destruct (make_field sorted f k elem fp0 v) as [a|] eqn:A; [|discriminate].
        rewrite (Hv _ _ _ _ A _ Hk). destruct (make_elements sorted f k elem l) as [b|] eqn:B; [|discriminate].
        rewrite (IHl _ eq_refl). exact F.
  Qed.
End Mono.

(** * Types, tags and parameters *)

Lemma strip_idem : forall t : AType_, strip (strip t) = strip t.
Proof. induction t using atype_ind'; cbn; auto. Qed.

Lemma strip_constrained : forall t u c, strip t <> TConstrained u c :> AType_.
Proof. induction t using atype_ind'; intros u0 c0 E; cbn in E; try discriminate; eapply IHt; exact E. Qed.

Lemma is_set_strip : forall t : AType_, is_set (strip t) <-> is_set t.
Proof. intro t. unfold is_set. now rewrite strip_idem. Qed.

(** The parameters agree with a component of type [t] (without tags and constraints),
    whatever the tag and the default. *)
Record fits (asg : list Assignment_) (t : AType_) (fp : fieldParameters) : Prop := {
  fi_set : fp_set fp = true <-> is_set t;
  fi_string : fp_stringType fp =
    match t with
    | TRestrictedString z =>
        if z =? T_IA5String then 22 else if z =? T_UTF8String then 12
        else if z =? T_NumericString then 18 else 0
    | _ => 0
    end;
  fi_time : forall n m lt, t = TReference n -> leaf_of asg n m lt ->
    fp_timeType fp = if String.eqb m "GeneralizedTime" then 24 else if String.eqb m "UTCTime" then 23 else 0;
  fi_no_time : (forall n, t <> TReference n) -> fp_timeType fp = 0
}.

Lemma fits_component : forall td asg t o d fp, component_params td asg t o d fp -> fits asg (strip t) fp.
Proof.
  intros td asg t o d fp C. destruct C. constructor.
  - now rewrite is_set_strip.
  - assumption.
  - intros n m lt E L. eapply cp_time; eassumption.
  - assumption.
Qed.

Lemma encodes_strip : forall td asg (t : AType_) a w, tags_of t = [] -> encodes td asg (strip t) a w -> encodes td asg t a w.
Proof. induction t using atype_ind'; intros a0 w T E; try exact E; cbn in T; [discriminate|]. constructor. now apply IHt. Qed.

Lemma encodes_strip_inv : forall td asg (t : AType_) a w, tags_of t = [] -> encodes td asg t a w -> encodes td asg (strip t) a w.
Proof. induction t using atype_ind'; intros a0 w T E; try exact E; cbn in T; [discriminate|]. inv E. now apply IHt. Qed.

(** ** CHOICE *)

Lemma raw_strip asg : forall t, raw_type asg t <-> raw_type asg (strip t).
Proof.
  induction t using atype_ind'; try reflexivity; cbn [strip]; rewrite <- IHt; split; intro R; try (constructor; exact R); now inversion R.
Qed.

Lemma open_strip asg : forall t, tags_of t = [] -> open_type asg t -> open_type asg (strip t).
Proof. induction t using atype_ind'; intros T O; try exact O; cbn in T; [discriminate|]. inv O. now apply IHt. Qed.

Lemma raw_represents td asg repr : forall t v a, represents td asg repr t v a -> raw_type asg t ->
  exists w, v = GRaw (Some w) /\ encodes td asg t a w.
Proof.
  induction 1; intro R; try (inv R; fail).
  - inv R. contradiction.
  - inv R. destruct IHrepresents as (w & E1 & E2); [assumption|]. exists w. split; [exact E1|now constructor].
  - inv R. destruct IHrepresents as (w & E1 & E2); [now rewrite (defines_unique _ _ _ _ H H2)|]. exists w. split; [exact E1|].
    exact (en_reference _ _ n t a w H E2).
  - inv R. exfalso. eapply H. eassumption.
  - eauto.
  - inv R. contradiction.
Qed.

Lemma raw_or_not td asg repr : forall t v a, represents td asg repr t v a -> raw_type asg t \/ ~ raw_type asg t.
Proof.
  induction 1; try (right; intro R; inv R; fail).
  - destruct IHrepresents as [R|R]; [left; now constructor|right; intro R'; inv R'; contradiction].
  - destruct IHrepresents as [R|R]; [left; now constructor|right; intro R'; inv R'; contradiction].
  - destruct IHrepresents as [R|R]; [left; now apply (rw_reference _ n t)|right; intro R'; inv R'].
    now rewrite (defines_unique _ _ _ _ H H2) in R.
  - right. intro R. inv R. eapply H. eassumption.
  - now left.
  - right. intro R. inv R. contradiction.
Qed.

(** A tag as encoding/asn1 puts it is a tag as BER asks for it. *)
Lemma put_tag_encodes : forall td asg t o d fp tag c a, component_params td asg t o d fp -> ~ open_type asg (strip t) ->
  (length (tags_of t) <= 1)%nat -> encodes td asg (strip t) a (universal tag c) -> encodes td asg t a (put_tag fp tag c).
Proof.
  intros td asg t o d fp tag c a C NO L E. destruct (tags_of t) as [|[g mode] [|? ?]] eqn:T; [| |cbn in L; lia].
  - destruct (cp_untagged _ _ _ _ _ _ C T) as [T1 T2]. unfold put_tag. rewrite T1. now apply encodes_strip.
  - destruct (cp_tagged _ _ _ _ _ _ C _ _ T) as ((k & K1 & K2) & K3 & K4).
    unfold put_tag. rewrite K2, K3. clear C L. revert T E NO.
    induction t using atype_ind'; intros T E NO; try discriminate T.
    + cbn in T. injection T as T0 T1 T2. cbn [strip] in E, NO. apply encodes_strip in E; [|exact T2].
      destruct g as [cl num]. cbn in K1, K3 |- *. rewrite T0. subst num. destruct (fp_explicit fp) eqn:X.
      * apply en_explicit; [|exact E]. left. rewrite T1. now apply K4.
      * eapply en_implicit; [|intro O; apply NO; now apply open_strip|exact E]. intro Y. assert (false = true); [|discriminate]. apply K4. now rewrite <- T1.
    + constructor. apply IHt; assumption.
Qed.

Lemma tag_body_source : forall tag fp, tag_params tag fp -> fp = parseFieldParameters (tag_body tag).
Proof.
  intros tag fp H. inv H; [reflexivity|]. f_equal. unfold tag_source, tag_body.
  assert (L : forall n b, String.substring 0 (String.length b) (b ++ n)%string = b).
  { induction b as [|c b IH]; [destruct n; reflexivity|]. cbn. now rewrite IH. }
  assert (N : forall a b, String.length (a ++ b)%string = (String.length a + String.length b)%nat).
  { induction a as [|c a IH]; intro b; [reflexivity|]. cbn. now rewrite IH. }
  cbn [append String.length]. rewrite N. cbn [String.length].
  replace (S (S (S (S (S (S (S (String.length body + 2))))))) - 9)%nat with (String.length body) by lia.
  cbn [String.substring]. symmetry. apply L.
Qed.

Lemma exported_goify : forall U n e tag, ascii_name n -> exported (Field (goifyName U n) e tag) = true.
Proof.
  intros U n e tag H. apply (goify_exported U) in H. cbn. destruct (goifyName U n); [destruct H|]. apply H.
Qed.

Lemma builtin_exported : forall c s, ascii_upper (byte_of_ascii c) = true -> builtin_kind (String c s) = None.
Proof.
  intros c s H. unfold builtin_kind. cbn [String.eqb].
  destruct c as [[|] [|] [|] [|] [|] [|] [|] [|]]; try discriminate H; reflexivity.
Qed.

Lemma builtin_goify : forall U n x, ascii_type_name n -> builtin_kind (goifyName U n ++ x)%string = None.
Proof.
  intros U n x [H _]. apply (goify_exported U) in H. destruct (goifyName U n); [destruct H|].
  cbn [append]. apply builtin_exported. apply H.
Qed.

Lemma builtin_goify1 : forall U n, ascii_type_name n -> builtin_kind (goifyName U n) = None.
Proof.
  intros U n [H _]. apply (goify_exported U) in H. destruct (goifyName U n); [destruct H|].
  apply builtin_exported. apply H.
Qed.

Lemma suffix_set : forall s, has_suffix "SET" (s ++ "SET") = true.
Proof. induction s as [|c s IH]; [reflexivity|]. cbn [append has_suffix]. rewrite IH. apply orb_true_r. Qed.

Lemma find_type_in : forall f, NoDup (declared_types f) -> forall s alias e,
  In (TypeSpec s alias e) (file_specs f) -> find_type (file_specs f) s = Some (alias, e).
Proof.
  intro f. unfold declared_types. generalize (file_specs f). induction l as [|sp l IH]; intros N s alias e H; [destruct H|].
  cbn [flat_map] in N. destruct H as [->|H].
  - cbn. now rewrite String.eqb_refl.
  - destruct sp as [n al e'|n t v|p]; cbn [find_type]; [|now apply IH|now apply IH].
    inv N. destruct (String.eqb_spec n s) as [->|]; [|now apply IH].
    exfalso. apply H2. apply in_flat_map. exists (TypeSpec s alias e). split; [exact H|now left].
Qed.

(** What is known of a component and its field. *)
Definition field_params (td : Z) (asg : list Assignment_) (c : component Value DefinedValue) (fd : gofield) : Prop :=
  match c, fd with
  | CNamed (Named _ t) o d, Field _ _ tag =>
      expressible t d -> exists fp, tag_params tag fp /\ component_params td asg t o d fp
  | _, _ => False
  end.

Scheme represents_mut := Induction for represents Sort Prop
  with represents_all_mut := Induction for represents_all Sort Prop
  with represents_each_mut := Induction for represents_each Sort Prop.
Combined Scheme represents_mutind from represents_mut, represents_all_mut, represents_each_mut.

Definition with_set (fp : fieldParameters) : fieldParameters := {|
  fp_optional := fp_optional fp; fp_explicit := fp_explicit fp; fp_application := fp_application fp;
  fp_private := fp_private fp; fp_defaultValue := fp_defaultValue fp; fp_tag := fp_tag fp;
  fp_stringType := fp_stringType fp; fp_timeType := fp_timeType fp; fp_set := true; fp_omitEmpty := fp_omitEmpty fp |}.

Lemma make_value_static : forall sorted f k kd fp v ws, make_value sorted f k kd fp v = Some ws -> static v.
Proof.
  intros sorted f k kd fp v ws H. destruct v; try exact I; unfold make_value in H; cbn [static];
    destruct (field_tag fp kd _); destruct kd; discriminate H.
Qed.

Lemma zero_static : forall v, is_zero v = true -> v <> GNil -> static v.
Proof. intros v Z N. destruct v; try exact I; [contradiction|discriminate]. Qed.

Section Main.
  Context (U : unicode_tables) (repr : string) (td : Z) (asg : list Assignment_) (f : gofile)
    (sorted : list tlv -> list tlv) (good : string -> Prop).

  Notation Q := (field_params td asg).
  Notation go_type := (go_type U asg repr).
  Notation go_fields := (go_fields U asg repr).
  Notation plain_type := (plain_type asg good).
  Notation component_type := (component_type asg good).
  Notation plain_components := (plain_components asg good).
  Notation make_value := (make_value sorted f).
  Notation encodes := (encodes td asg).
  Notation encodes_all := (encodes_all td asg).

  Hypothesis Hsort : forall l, Permutation l (sorted l).
  Hypothesis Hnodup : NoDup (declared_types f).
  Hypothesis Hfile : forall n t, defines asg n t -> exists e b, go_type t e /\ mirrors Q t e /\
    (b = true <-> reaches_set asg t) /\ incl (gd_specs (type_decl U n e b)) (file_specs f).
  Hypothesis Hgood : wire_names asg good.

  Lemma go_type_strip : forall t e, go_type t e -> go_type (strip t) e.
  Proof. induction t using atype_ind'; intros e0 H1; try exact H1; inv H1; now apply IHt. Qed.

  Lemma mirrors_strip : forall t e, mirrors Q t e -> mirrors Q (strip t) e.
  Proof. induction t using atype_ind'; intros e0 H1; try exact H1; inv H1; try discriminate; now apply IHt. Qed.

  Lemma plain_strip : forall t, plain_type t -> plain_type (strip t) /\ tags_of t = [].
  Proof. induction 1; cbn; try (split; [now constructor|reflexivity]). exact IHplain_type. Qed.

  Lemma tagged_one : forall n (t : AType_), tagged_choice asg [Named n t] -> tagged_alt asg t.
  Proof. intros n t H. inversion H as [? ? H1|? ? H1]; subst; [exact H1|inversion H1]. Qed.

  Lemma plain_no_set : forall t, plain_type t -> ~ reaches_set asg t.
  Proof. induction 1; intro R; inv R; auto. apply tagged_one in H. contradiction. Qed.

  Lemma plain_not_set : forall t, plain_type t -> ~ is_set t.
  Proof.
    intros t H. apply plain_strip in H as [H _]. intros [(c & x & E)|(u & E)]; rewrite E in H; inv H.
  Qed.

  Lemma leaf_good : forall n m lt, leaf_of asg n m lt -> good n -> good m.
  Proof.
    induction 1 as [n|n t|n t m l o D E L IH]; intro G; auto.
    apply IH. destruct (Hgood n G) as (_ & _ & t' & D' & N). rewrite (defines_unique _ _ _ _ D D') in E.
    destruct N as [N|(_ & u & E' & _)]; [|congruence]. apply plain_strip in N as [N _]. rewrite E in N. now inv N.
  Qed.

  Lemma good_time : forall n m lt, good n -> leaf_of asg n m lt ->
    (if String.eqb m "GeneralizedTime" then 24 else if String.eqb m "UTCTime" then 23 else 0) = 0.
  Proof.
    intros n m lt G L. apply leaf_good in L; [|exact G]. destruct (Hgood m L) as (_ & T & _). unfold time_name in T.
    destruct (String.eqb_spec m "GeneralizedTime"); [tauto|]. destruct (String.eqb_spec m "UTCTime"); [tauto|reflexivity].
  Qed.

  (** The parameters of an untagged plain type. *)
  Lemma plain_fits : forall t fp, plain_type t -> fp_set fp = false -> fp_stringType fp = 0 -> fp_timeType fp = 0 ->
    fits asg (strip t) fp.
  Proof.
    intros t fp H E1 E2 E3. pose proof (plain_not_set _ H) as S. apply plain_strip in H as [H _]. constructor.
    - rewrite E1, is_set_strip. split; [discriminate|tauto].
    - rewrite E2. destruct H; reflexivity.
    - intros n m lt E L. rewrite E in H. inv H. rewrite E3. symmetry. eapply good_time; eassumption.
    - intros _. exact E3.
  Qed.

  Definition P (t : AType_) (v : gval) (a : aval) : Prop := ~ raw_type asg t -> forall e fp,
    component_type (strip t) -> go_type (strip t) e -> mirrors Q (strip t) e -> fits asg (strip t) fp ->
    exists k0 kd tag c, kind_of f k0 e = Some kd /\
      (forall k, (k0 <= k)%nat -> make_value k kd fp v = Some [put_tag fp tag c]) /\ encodes (strip t) a (universal tag c).

  Definition P0 (comps : list (component Value DefinedValue)) (vs : list gval) (fs : list (option aval)) : Prop :=
    forall gfs, plain_components comps -> go_fields comps gfs -> Forall2 (mirrors_field Q) (present comps) gfs ->
    exists k0 ws, (forall k, (k0 <= k)%nat -> make_fields sorted f k gfs vs = Some ws) /\
      forallb exported gfs = true /\ encodes_all comps fs ws.

  Definition P1 (t : AType_) (vs : list gval) (l : list aval) : Prop :=
    forall e, plain_type t -> go_type t e -> mirrors Q t e ->
    exists k0 ws, (forall k, (k0 <= k)%nat -> make_elements sorted f k e vs = Some ws) /\ Forall2 (encodes t) l ws.

  (** The kind of a named type. *)
  Lemma kind_named : forall n e k, ascii_type_name n -> incl (gd_specs (type_decl U n e false)) (file_specs f) ->
    forall kd, kind_of f k e = Some kd -> kind_of f (S k) (EIdent (goifyName U n)) = Some kd.
  Proof.
    intros n e k A I kd K. cbn [kind_of]. rewrite (builtin_goify1 U n A).
    assert (J := I _ (or_introl eq_refl)). rewrite (find_type_in _ Hnodup _ _ _ J).
    destruct e; try exact K. destruct k; cbn in K; injection K as <-; reflexivity.
  Qed.

  Lemma kind_named_set : forall n e k, ascii_type_name n -> incl (gd_specs (type_decl U n (EArray e) true)) (file_specs f) ->
    kind_of f k (EArray e) = Some (KSlice false e) -> kind_of f (S (S k)) (EIdent (goifyName U n)) = Some (KSlice true e).
  Proof.
    intros n e k A I K. cbn [kind_of]. rewrite (builtin_goify1 U n A).
    assert (J1 := I _ (or_introl eq_refl)). assert (J2 := I _ (or_intror (or_introl eq_refl))).
    rewrite (find_type_in _ Hnodup _ _ _ J2). rewrite (builtin_goify U n "SET" A).
    rewrite (find_type_in _ Hnodup _ _ _ J1). rewrite K. cbn [option_map defined_kind]. now rewrite suffix_set.
  Qed.

  (** A slice named ...SET is treated like one with the parameter "set". *)
  Lemma set_slice : forall k e kd fp v r, kind_of f k (EArray e) = Some kd -> fp_set fp = false ->
    make_value k kd (with_set fp) v = Some r ->
    kd = KSlice false e /\ make_value k (KSlice true e) fp v = Some r.
  Proof.
    intros k e kd fp v r K F M.
    assert (D : kd = KBytes \/ kd = KSlice false e).
    { destruct k; (destruct e; try (right; cbn in K; congruence)); cbn in K; destruct (String.eqb name "byte"); injection K as <-; auto. }
    unfold WireFacts.make_value, field_tag in *. cbn [with_set fp_timeType fp_stringType fp_set kind_tag] in *. destruct D as [->| ->].
    - exfalso. cbn [kind_tag] in M. destruct (negb (fp_timeType fp =? 0) && _); [discriminate|].
      destruct (fp_stringType fp =? 0) eqn:E; cbn [negb andb Z.eqb Pos.eqb] in M; [|discriminate].
      destruct v; try discriminate M.
      + destruct (all_chars printable_char s); [discriminate|]. destruct (utf8_valid s); discriminate.
      + destruct ((fp_timeType fp =? 24) || outside_utc t); discriminate.
    - split; [reflexivity|]. cbn [kind_tag] in M.
      cbn [Z.eqb Pos.eqb negb] in *. destruct (negb (fp_timeType fp =? 0) && true); [discriminate|].
      destruct (negb (fp_stringType fp =? 0) && true) eqn:E; [discriminate|].
      destruct v; try (destruct (fp_set fp); discriminate M).
      + destruct (fp_stringType fp =? 0); [|discriminate]. destruct (all_chars printable_char s); [discriminate|]. destruct (utf8_valid s); discriminate.
      + destruct ((fp_timeType fp =? 24) || outside_utc t); discriminate.
      + rewrite F. exact M.
  Qed.

  (** References to good names. *)
  Lemma reference_value : forall n t v a fp, good n -> defines asg n t -> P t v a -> ~ raw_type asg t ->
    fp_set fp = false -> fp_stringType fp = 0 -> fp_timeType fp = 0 ->
    exists k0 kd tag c, kind_of f k0 (EIdent (goifyName U n)) = Some kd /\
      (forall k, (k0 <= k)%nat -> make_value k kd fp v = Some [put_tag fp tag c]) /\ encodes t a (universal tag c).
  Proof.
    intros n t v a fp G D HP NR F1 F2 F3. specialize (HP NR). destruct (Hgood n G) as (A & _ & t' & D' & N).
    rewrite <- (defines_unique _ _ _ _ D D') in N. clear t' D'.
    destruct (Hfile n t D) as (e & b & GT & MI & B & I).
    apply go_type_strip in GT. apply mirrors_strip in MI. destruct N as [N|(T & u & E & N)].
    - destruct b; [exfalso; apply (plain_no_set t N), B; reflexivity|].
      destruct (plain_strip t N) as [N' T].
      destruct (HP e fp (ct_plain _ _ _ N') GT MI (plain_fits t fp N F1 F2 F3)) as (k0 & kd & tag & c & K & M & EN).
      exists (S k0), kd, tag, c. split; [exact (kind_named n e k0 A I kd K)|]. split; [|now apply encodes_strip].
      intros k Hk. apply M. lia.
    - assert (b = true) as ->.
      { apply B. clear - T E. revert T E. induction t using atype_ind'; intros T E; try discriminate; constructor; cbn in *; auto. }
      rewrite E in *. inv GT.
      assert (FI : fits asg (strip t) (with_set fp)).
      { rewrite E. constructor; cbn [with_set fp_set fp_stringType fp_timeType].
        - split; intros _; [right; exists u; reflexivity|reflexivity].
        - exact F2.
        - intros; discriminate.
        - intros _. exact F3. }
      pose proof (HP (EArray e0) (with_set fp)) as HP'. rewrite E in FI.
      destruct (HP' (ct_set_of _ _ _ N) (gt_set_of _ _ _ _ _ H0) MI FI) as (k0 & kd & tag & c & K & M & EN).
      assert (W : forall k, (k0 <= k)%nat -> kd = KSlice false e0 /\ make_value k (KSlice true e0) fp v = Some [put_tag fp tag c]).
      { intros k Hk. apply (set_slice k e0 kd fp v); [exact (kind_mono _ _ _ _ K k Hk)|exact F1|exact (M k Hk)]. }
      destruct (W k0) as [-> _]; [lia|].
      exists (S (S k0)), (KSlice true e0), tag, c. split; [now apply kind_named_set|].
      split; [|apply encodes_strip; [exact T|rewrite E; exact EN]]. intros k Hk. apply W. lia.
  Qed.

  Lemma generalized_leaf : forall n, generalized_time asg n -> leaf_of asg n "GeneralizedTime" None.
  Proof. induction 1; [now constructor|]. eapply leaf_step; eassumption. Qed.

  (** A value of an INTEGER in an integer field. *)
  Lemma integer_value : forall t v a, represents td asg repr t v a -> integer_type asg t -> forall k, v = GInt k -> a = AInt k.
  Proof.
    induction 1; intros I k E; try discriminate E.
    - now injection E as ->.
    - inv I; discriminate.
    - apply IHrepresents; [|exact E]. inv I; [eapply it_here; eassumption|eapply it_reference; eassumption].
    - apply IHrepresents; [|exact E]. inv I; [eapply it_here; eassumption|eapply it_reference; eassumption].
    - apply IHrepresents; [|exact E]. inv I; [discriminate|]. cbn in H1. injection H1 as ->.
      now rewrite (defines_unique _ _ _ _ H H2).
  Qed.

  Lemma not_set_param : forall t fp, fits asg t fp -> (forall c x, strip t <> TSet c x) -> (forall u, strip t <> TSetOf u) -> fp_set fp = false.
  Proof.
    intros t fp F N1 N2. destruct (fp_set fp) eqn:E; [|reflexivity]. exfalso.
    destruct (proj1 (fi_set _ _ _ F) E) as [(c & x & H)|(u & H)]; [eapply N1|eapply N2]; eassumption.
  Qed.

  Lemma go_struct : forall t c x e, (t = TSequence c x \/ t = TSet c x) -> go_type t e ->
    exists fs, e = EStruct fs /\ go_fields (c ++ x) fs.
  Proof. intros t c x e [-> | ->] H; inv H; eauto. Qed.

  Lemma mirrors_struct : forall t c x fs, (t = TSequence c x \/ t = TSet c x) -> mirrors Q t (EStruct fs) ->
    Forall2 (mirrors_field Q) (present (c ++ x)) fs.
  Proof. intros t c x fs [-> | ->] H; inv H; (discriminate || assumption). Qed.

  Lemma component_struct : forall t c x, (t = TSequence c x \/ t = TSet c x) -> component_type t -> plain_components (c ++ x).
  Proof.
    intros t c x [-> | ->] H; inversion H as [t' H'|c' x' H'| | |]; subst; try exact H'.
    - inversion H'; assumption.
    - inversion H'.
  Qed.

  Lemma go_slice : forall t u e, (t = TSequenceOf u \/ t = TSetOf u) -> go_type t e -> exists e', e = EArray e' /\ go_type u e'.
  Proof. intros t u e [-> | ->] H; inv H; eauto. Qed.

  Lemma mirrors_slice : forall t u e, (t = TSequenceOf u \/ t = TSetOf u) -> mirrors Q t (EArray e) -> mirrors Q u e.
  Proof. intros t u e [-> | ->] H; inv H; (discriminate || assumption). Qed.

  Lemma component_slice : forall t u, (t = TSequenceOf u \/ t = TSetOf u) -> component_type t -> plain_type u.
  Proof.
    intros t u [-> | ->] H; inversion H as [t' H'| |u' H'| |]; subst; try exact H'; inversion H'; assumption.
  Qed.

  (** No element is a byte. *)
  Lemma slice_kind : forall u e, plain_type u -> go_type u e -> forall k, kind_of f k (EArray e) = Some (KSlice false e).
  Proof.
    intros u e N G k.
    assert (H : e <> EIdent "byte").
    { revert e G. induction N as [| | | | | | |t c N IH| | |n Gn|alts x TC]; intros e G; inversion G; subst; try discriminate; auto.
      2: { exfalso. apply tagged_one in TC. contradiction. }
      destruct (Hgood n Gn) as ([A _] & _). apply (goify_exported U) in A. intro X. injection X as X. rewrite X in A. destruct A. discriminate. }
    destruct k; (destruct e; try reflexivity); cbn; destruct (String.eqb_spec name "byte"); congruence.
  Qed.

  Ltac prim F kd tag p :=
    let S := fresh "S" in let T := fresh "T" in let X := fresh "X" in
    assert (S := not_set_param _ _ F ltac:(discriminate) ltac:(discriminate));
    assert (T := fi_no_time _ _ _ F ltac:(discriminate)); assert (X := fi_string _ _ _ F); cbn in X;
    exists O, kd, tag, (Octets p); split; [reflexivity|]; split;
    [intros k _; unfold WireFacts.make_value, field_tag, prim_body; rewrite S, T, X|].

  (** The leaf of a name with a Go type. *)
  Lemma go_type_leaf : forall n e, go_type (TReference n) e -> exists m lt, leaf_of asg n m lt.
  Proof. intros n e H. inversion H as [| | | | | | | | | | | | | | | | |? m t S|? m t l S|? m t S| | |]; subst; destruct S as (o & L & _); eauto. Qed.

  Lemma time_go_type : forall n e, leaf_of asg n "GeneralizedTime" None -> go_type (TReference n) e -> e = EIdent "time.Time".
  Proof.
    intros n e L H. inversion H as [| | | | | | | | | | | | | | | | |? m t S T|? m t l S T|? m t S T| | |]; subst; [reflexivity| |];
      destruct S as (o & L' & _); destruct (leaf_det _ _ _ _ _ _ L L') as [<- _]; exfalso; apply T; now left.
  Qed.

  (** ** RawValue *)

  Lemma raw_not_time : forall n, generalized_time asg n -> ~ raw_type asg (TReference n).
  Proof.
    induction 1 as [N|n t m D T E G IH]; intro R; inversion R as [| | |n' t' D' R']; subst.
    - exact (N _ D').
    - rewrite <- (defines_unique _ _ _ _ D D') in R'. apply raw_strip in R'. rewrite E in R'. contradiction.
  Qed.

  Lemma raw_leaf : forall n m lt, leaf_of asg n m lt -> raw_type asg (TReference n) -> exists t, lt = Some t /\ raw_type asg (strip t).
  Proof.
    induction 1 as [n N|n t D N|n t m l o D E L IH]; intro R; inversion R as [| | |n' t' D' R']; subst.
    - exfalso. exact (N _ D').
    - rewrite <- (defines_unique _ _ _ _ D D') in R'. exists t. split; [reflexivity|exact (proj1 (raw_strip asg t) R')].
    - rewrite <- (defines_unique _ _ _ _ D D') in R'. apply raw_strip in R'. rewrite E in R'. now apply IH.
  Qed.

  Lemma component_defined : forall n t, component_type (TReference n) -> defines asg n t -> component_type (strip t).
  Proof.
    intros n t C D. inversion C as [t0 P0| | | |n0 T]; subst.
    - inversion P0 as [| | | | | | | | | |n' Gn|]; subst. destruct (Hgood n Gn) as (_ & _ & t' & D' & N).
      rewrite <- (defines_unique _ _ _ _ D D') in N. destruct N as [N|(_ & u & E & N)].
      + apply ct_plain. now apply plain_strip.
      + rewrite E. now apply ct_set_of.
    - inversion T as [N|n1 t1 m D1 T1 E1 G1]; subst; [exfalso; exact (N t D)|].
      rewrite (defines_unique _ _ _ _ D D1), E1. now apply ct_time.
  Qed.

  (** An untagged CHOICE of the fragment is a RawValue. *)
  Lemma open_raw : forall t, open_type asg t -> component_type (strip t) -> raw_type asg t.
  Proof.
    induction 1 as [alts x|s|t c O IH|n t D O IH]; intro C.
    - inversion C as [t0 P0| | | |]; subst. inversion P0; subst. now constructor.
    - inversion C as [t0 P0| | | |]; subst. inversion P0.
    - constructor. now apply IH.
    - apply (rw_reference _ n t D). apply IH. eapply component_defined; eassumption.
  Qed.

  (** A type of the fragment is a RawValue or not. *)
  Lemma raw_dec : forall t e, component_type (strip t) -> go_type (strip t) e -> raw_type asg t \/ ~ raw_type asg t.
  Proof.
    assert (here : forall t, (forall m, strip t <> TReference m) -> component_type (strip t) -> raw_type asg t \/ ~ raw_type asg t).
    { intros t N C. rewrite (raw_strip asg t). inversion C as [t0 C0|c x C0|u C0|z Iz|n T]; try (right; intro R; inversion R; fail).
      - inversion C0; try (right; intro R; inversion R; fail).
        + exfalso. eapply strip_constrained. symmetry. eassumption.
        + exfalso. eapply N. symmetry. eassumption.
        + left. now constructor.
      - exfalso. eapply N. symmetry. eassumption. }
    assert (leaf : forall n m lt, leaf_of asg n m lt -> component_type (TReference n) -> raw_type asg (TReference n) \/ ~ raw_type asg (TReference n)).
    { assert (step : forall n t, defines asg n t -> raw_type asg t \/ ~ raw_type asg t -> raw_type asg (TReference n) \/ ~ raw_type asg (TReference n)).
      { intros n t D [R|R]; [left; now apply (rw_reference _ n t)|right]. intro R'. inversion R' as [| | |n' t' D' R1]; subst.
        rewrite <- (defines_unique _ _ _ _ D D') in R1. contradiction. }
      induction 1 as [n N|n t D N|n t m l o D E L IH]; intro C.
      - right. intro R. inversion R as [| | |n' t' D' R']; subst. exact (N _ D').
      - apply (step n t D), here; [exact N|]. eapply component_defined; eassumption.
      - apply (step n t D). rewrite (raw_strip asg t), E. apply IH. rewrite <- E. eapply component_defined; eassumption. }
    intros t e C G. destruct (strip t) eqn:E; try (apply here; [intros m X; congruence|now rewrite E]).
    rewrite (raw_strip asg t), E. destruct (go_type_leaf _ _ G) as (m & lt & L). exact (leaf _ _ _ L C).
  Qed.

  Lemma raw_kind : forall t, raw_type asg t -> forall e, component_type (strip t) -> go_type (strip t) e ->
    exists k0, forall k, (k0 <= k)%nat -> kind_of f k e = Some KRaw.
  Proof.
    induction 1 as [alts x TC|g t mode has R IH|t c R IH|n t D R IH]; intros e C G; cbn [strip] in *.
    - inversion G; subst; [|apply tagged_one in TC; contradiction|contradiction]. exists O. intros k _. destruct k; reflexivity.
    - now apply IH.
    - now apply IH.
    - assert (RR : raw_type asg (TReference n)) by (apply (rw_reference _ n t); assumption).
      inversion C as [t0 P0| | | |n0 T]; subst; [|exfalso; exact (raw_not_time _ T RR)].
      inversion P0 as [| | | | | | | | | |n' Gn|]; subst. destruct (Hgood n Gn) as (A & _ & t' & D' & N).
      rewrite <- (defines_unique _ _ _ _ D D') in N. clear t' D'. destruct N as [N|(_ & u & E & _)].
      2: { exfalso. apply raw_strip in R. rewrite E in R. inversion R. }
      inversion G as [| | | | | | | | | | | | | | | | |? m t0 SF T|? m t0 l SF T B|? m t0 SF T B| | |]; subst.
      + exfalso. destruct SF as (o & L & _). destruct (Hgood _ (leaf_good _ _ _ L Gn)) as (_ & X & _). auto.
      + exfalso. destruct SF as (o & L & SF). destruct (raw_leaf _ _ _ L RR) as (t1 & -> & R1).
        destruct SF as [[SF _]|([SF|SF] & _ & ->)]; [|discriminate..]. injection SF as ->. rewrite B in R1. inversion R1.
      + destruct (Hfile n t D) as (e & b & GT & _ & B' & I). destruct b; [exfalso; apply (plain_no_set t N), B'; reflexivity|].
        destruct (plain_strip t N) as [N' _].
        destruct (IH e (ct_plain _ _ _ N') (go_type_strip _ _ GT)) as (k0 & K). exists (S k0). intros k Hk.
        destruct k as [|k]; [lia|]. apply (kind_named n e k A I). apply K. lia.
  Qed.

  (** A value that is not left out. *)
  Lemma component_value : forall t o d e fp v a, represents td asg repr t v a -> P t v a -> component_type (strip t) ->
    go_type t e -> mirrors Q t e -> component_params td asg t o d fp -> (length (tags_of t) <= 1)%nat ->
    exists k0 kd w, kind_of f k0 e = Some kd /\ (forall k, (k0 <= k)%nat -> make_value k kd fp v = Some [w]) /\ encodes t a w.
  Proof.
    intros t o d e fp v a R IH CT G M CP L. destruct (raw_or_not _ _ _ _ _ _ R) as [RW|NR].
    - destruct (raw_represents _ _ _ _ _ _ R RW) as (w & -> & E).
      destruct (raw_kind t RW e CT (go_type_strip _ _ G)) as (k0 & K).
      exists k0, KRaw, w. split; [apply K; lia|]. split; [reflexivity|exact E].
    - destruct (IH NR e fp CT (go_type_strip _ _ G) (mirrors_strip _ _ M) (fits_component _ _ _ _ _ _ CP)) as (k1 & kd & tg & c & K & MK & E).
      exists k1, kd, (put_tag fp tg c). split; [exact K|]. split; [exact MK|]. eapply put_tag_encodes; [exact CP| |exact L|exact E].
      intro O. apply NR, raw_strip, open_raw; [exact O|now rewrite strip_idem].
  Qed.

  Lemma element_value : forall t e v a, represents td asg repr t v a -> P t v a -> plain_type t -> go_type t e -> mirrors Q t e ->
    exists k0 kd w, kind_of f k0 e = Some kd /\ (forall k, (k0 <= k)%nat -> make_value k kd fp0 v = Some [w]) /\ encodes t a w.
  Proof.
    intros t e v a R IH C G M. destruct (plain_strip _ C) as [C' T]. destruct (raw_or_not _ _ _ _ _ _ R) as [RW|NR].
    - destruct (raw_represents _ _ _ _ _ _ R RW) as (w & -> & E).
      destruct (raw_kind t RW e (ct_plain _ _ _ C') (go_type_strip _ _ G)) as (k0 & K).
      exists k0, KRaw, w. split; [apply K; lia|]. split; [reflexivity|exact E].
    - destruct (IH NR e fp0 (ct_plain _ _ _ C') (go_type_strip _ _ G) (mirrors_strip _ _ M) (plain_fits t fp0 C eq_refl eq_refl eq_refl))
        as (k1 & kd & tag & c & K & MK & E).
      exists k1, kd, (universal tag c). split; [exact K|]. split; [exact MK|]. now apply encodes_strip.
  Qed.

  Lemma named_make : forall n t v a, good n -> defines asg n t -> represents td asg repr t v a -> P t v a ->
    exists k0 kd w, kind_of f k0 (EIdent (goifyName U n)) = Some kd /\
      (forall k, (k0 <= k)%nat -> make_value k kd fp0 v = Some [w]) /\ encodes t a w.
  Proof.
    intros n t v a Gn D R IH. destruct (raw_or_not _ _ _ _ _ _ R) as [RW|NR].
    - destruct (raw_represents _ _ _ _ _ _ R RW) as (w & -> & E).
      destruct (Hgood n Gn) as (A & _ & t' & D' & N). rewrite <- (defines_unique _ _ _ _ D D') in N. clear t' D'.
      destruct N as [N|(_ & u & Eu & _)]; [|exfalso; apply raw_strip in RW; rewrite Eu in RW; inversion RW].
      destruct (Hfile n t D) as (e & b & GT & _ & B' & I). destruct b; [exfalso; apply (plain_no_set t N), B'; reflexivity|].
      destruct (plain_strip t N) as [N' _].
      destruct (raw_kind t RW e (ct_plain _ _ _ N') (go_type_strip _ _ GT)) as (k0 & K).
      exists (S k0), KRaw, w. split; [apply (kind_named n e k0 A I), K; lia|]. split; [reflexivity|exact E].
    - destruct (reference_value n t v a fp0 Gn D IH NR eq_refl eq_refl eq_refl) as (k0 & kd & tag & c & K & MK & E).
      exists k0, kd, (universal tag c). auto.
  Qed.

  (** A component that is there. *)
  Lemma component_step : forall n t o d l v a vs fs gfs, represents td asg repr t v a -> P t v a -> P0 l vs fs ->
    o = false \/ is_zero v = false ->
    plain_components (CNamed (Named n t) o d :: l) -> go_fields (CNamed (Named n t) o d :: l) gfs ->
    Forall2 (mirrors_field Q) (present (CNamed (Named n t) o d :: l)) gfs ->
    exists k0 ws, (forall k, (k0 <= k)%nat -> make_fields sorted f k gfs (v :: vs) = Some ws) /\
      forallb exported gfs = true /\ encodes_all (CNamed (Named n t) o d :: l) (Some a :: fs) ws.
  Proof.
    intros n t o d l v a vs fs gfs R IH IHs Z C G M.
    inversion C as [|n' t' o' d' l' A CT EX DF C'|]; subst. inversion G as [|n' t' o' d' l' e tag gfs' G1 G2|]; subst.
    cbn [present filter] in M. inversion M as [|c0 g0 l0 gl0 M1 M2]; subst. destruct (IHs gfs' C' G2 M2) as (k2 & ws & K2 & X & E2).
    inversion M1 as [n0 t0 o0 d0 f0 e0 name0 tag0 E0 M0 Q0]; subst. injection E0 as <- <- <-.
    destruct (Q0 EX) as (fp & TP & CP). apply tag_body_source in TP. rewrite TP in CP. clear fp TP.
    set (fp := parseFieldParameters (tag_body tag)) in *.
    destruct (component_value t o d e fp v a R IH CT G1 M0 CP (proj1 EX)) as (k1 & kd & w & K & MK & E).
    assert (L : left_out fp v = false).
    { unfold left_out. rewrite (cp_omitempty _ _ _ _ _ _ CP). cbn [andb orb]. destruct (fp_optional fp) eqn:O; [|reflexivity]. cbn [andb].
      destruct (fp_defaultValue fp) as [z|] eqn:DV; [reflexivity|]. destruct Z as [->|Z]; [|exact Z].
      apply (cp_optional _ _ _ _ _ _ CP) in O. destruct O as [O|O]; [discriminate|]. destruct DF as [DF|(_ & (kk & DF) & _)]; [contradiction|].
      apply (cp_default _ _ _ _ _ _ CP) in DF. congruence. }
    assert (W : forall k, (k1 <= k)%nat -> make_field sorted f k e fp v = if is_default fp kd v then Some [] else Some [w]).
    { intros k Hk. rewrite make_field_eq by exact (make_value_static _ _ _ _ _ _ _ (MK k Hk)). rewrite L, (kind_mono _ _ _ _ K k Hk), (MK k Hk). reflexivity. }
    assert (X' : forallb exported (Field (goifyName U n) e tag :: gfs') = true) by (cbn [forallb]; now rewrite exported_goify, X by assumption).
    destruct (is_default fp kd v) eqn:DE.
    - exists (Nat.max k1 k2), ws. split; [|split; [exact X'|]].
      + intros k Hk. cbn [make_fields]. fold fp. rewrite W by lia. rewrite K2 by lia. reflexivity.
      + unfold is_default in DE. destruct (fp_defaultValue fp) as [dz|] eqn:DV.
        2: { destruct kd, v; discriminate. }
        apply (cp_default _ _ _ _ _ _ CP) in DV. subst d. apply ea_default; [|exact E2].
        destruct DF as [DF|(_ & _ & DF)]; [discriminate|].
        assert (v = GInt dz) as ->.
        { destruct kd, v; try discriminate; apply andb_prop in DE as [_ DE]; apply Z.eqb_eq in DE; now subst. }
        rewrite (integer_value _ _ _ R DF dz eq_refl). constructor.
    - exists (Nat.max k1 k2), (w :: ws). split; [|split; [exact X'|]].
      + intros k Hk. cbn [make_fields]. fold fp. rewrite W by lia. rewrite K2 by lia. reflexivity.
      + now apply ea_present.
  Qed.

  Lemma make_all :
    (forall t v a, represents td asg repr t v a -> P t v a) /\
    (forall comps vs fs, represents_all td asg repr comps vs fs -> P0 comps vs fs) /\
    (forall t vs l, represents_each td asg repr t vs l -> P1 t vs l).
  Proof.
    apply represents_mutind.
    - intros b NR e fp C G M F. cbn [strip] in *. inv G. prim F KBool 1 (PBool b); [reflexivity|constructor].
    - intros l z -> Hz NR e fp C G M F. cbn [strip] in *. inv G; [|discriminate]. prim F KInt 2 (PInt z); [reflexivity|constructor].
    - intros l z -> NR e fp C G M F. cbn [strip] in *. inv G; [discriminate|]. prim F KBig 2 (PInt z); [reflexivity|constructor].
    - intros l o n NR e fp C G M F. cbn [strip] in *. inv G. prim F KBits 3 (PBits (contents_of o) n); [reflexivity|constructor].
    - intros o NR e fp C G M F. cbn [strip] in *. inv G. prim F KBytes 4 (POctets (contents_of o)); [reflexivity|constructor].
    - intros l H NR e fp C G M F. cbn [strip] in *. inv G. prim F KOid 6 (POid l); [cbn; now rewrite H|constructor].
    - intros x z NR e fp C G M F. cbn [strip] in *. inv G. prim F KEnum 10 (PInt z); [reflexivity|constructor].
    - intros s H NR e fp C G M F. cbn [strip] in *. inv G. prim F KString 19 (PString s); [cbn; now rewrite H|now constructor].
    - intros s H NR e fp C G M F. cbn [strip] in *. inv G. prim F KString 22 (PString s); [cbn; now rewrite H|now constructor].
    - intros s H NR e fp C G M F. cbn [strip] in *. inv G. prim F KString 18 (PString s); [cbn; now rewrite H|now constructor].
    - intros s H NR e fp C G M F. cbn [strip] in *. inv G. prim F KString 12 (PString s); [reflexivity|now constructor].
    - (* SEQUENCE *)
      intros comps exts vs fs _ IH NR e fp C G M F. cbn [strip] in *.
      apply (go_struct _ comps exts) in G as (gfs & -> & G); [|now left]. apply (mirrors_struct _ comps exts) in M; [|now left].
      apply (component_struct _ comps exts) in C; [|now left].
      destruct (IH gfs C G M) as (k0 & ws & K & X & E). exists k0, (KStruct gfs), 16, (Nested ws).
      split; [destruct k0; reflexivity|]. split; [|now constructor].
      intros k Hk. unfold WireFacts.make_value, field_tag. rewrite (not_set_param _ _ F), (fi_no_time _ _ _ F), (fi_string _ _ _ F), X by discriminate.
      cbn. now rewrite (K k Hk).
    - (* SET *)
      intros comps exts vs fs _ IH NR e fp C G M F. cbn [strip] in *.
      apply (go_struct _ comps exts) in G as (gfs & -> & G); [|now right]. apply (mirrors_struct _ comps exts) in M; [|now right].
      apply (component_struct _ comps exts) in C; [|now right].
      destruct (IH gfs C G M) as (k0 & ws & K & X & E). exists k0, (KStruct gfs), 17, (Nested ws).
      split; [destruct k0; reflexivity|]. split; [|apply (en_set _ _ _ _ _ _ _ E), Permutation_refl].
      intros k Hk. assert (S : fp_set fp = true) by (apply (fi_set _ _ _ F); left; exists comps, exts; reflexivity).
      unfold WireFacts.make_value, field_tag. rewrite S, (fi_no_time _ _ _ F), (fi_string _ _ _ F), X by discriminate.
      cbn. now rewrite (K k Hk).
    - (* SEQUENCE OF *)
      intros t o l _ IH NR e fp C G M F. cbn [strip] in *.
      apply (go_slice _ t) in G as (e' & -> & G); [|now left]. apply (mirrors_slice _ t) in M; [|now left].
      apply (component_slice _ t) in C; [|now left].
      destruct (IH e' C G M) as (k0 & ws & K & E). exists k0, (KSlice false e'), 16, (Nested ws).
      split; [now apply (slice_kind t)|]. split; [|now constructor].
      intros k Hk. unfold WireFacts.make_value, field_tag. rewrite (not_set_param _ _ F), (fi_no_time _ _ _ F), (fi_string _ _ _ F) by discriminate.
      cbn. now rewrite (K k Hk).
    - (* SET OF *)
      intros t o l _ IH NR e fp C G M F. cbn [strip] in *.
      apply (go_slice _ t) in G as (e' & -> & G); [|now right]. apply (mirrors_slice _ t) in M; [|now right].
      apply (component_slice _ t) in C; [|now right].
      destruct (IH e' C G M) as (k0 & ws & K & E). exists k0, (KSlice false e'), 17, (Nested (sorted ws)).
      split; [now apply (slice_kind t)|]. split; [|apply (en_set_of _ _ _ _ _ _ E), Hsort].
      intros k Hk. assert (S : fp_set fp = true) by (apply (fi_set _ _ _ F); right; exists t; reflexivity).
      unfold WireFacts.make_value, field_tag. rewrite S, (fi_no_time _ _ _ F), (fi_string _ _ _ F) by discriminate.
      cbn. now rewrite (K k Hk).
    - intros g t mode has v a NR _ IH _. exact (IH NR).
    - intros t c v a _ IH NR. apply IH. intro R. apply NR. now constructor.
    - (* a reference *)
      intros n t v a D R IH NR e fp C G M F. cbn [strip] in *.
      assert (NRt : ~ raw_type asg t) by (intro X; apply NR; now apply (rw_reference _ n t)).
      assert (F1 := not_set_param _ _ F ltac:(discriminate) ltac:(discriminate)).
      assert (F2 := fi_string _ _ _ F). cbn in F2.
      inversion C as [t' C'| | | |n' C']; subst.
      + inversion C' as [| | | | | | | | | |n' Gn|]; subst.
        destruct (go_type_leaf _ _ G) as (m0 & lt0 & L0).
        assert (F3 : fp_timeType fp = 0) by (rewrite (fi_time _ _ _ F _ _ _ eq_refl L0); eapply good_time; eassumption).
        inversion G as [| | | | | | | | | | | | | | | | |? m t0 S T|? m t0 l S T B|? m t0 S T B| | |]; subst.
        * exfalso. destruct S as (o & L & _). destruct (Hgood _ (leaf_good _ _ _ L Gn)) as (_ & X & _). auto.
        * destruct (Hgood n Gn) as (_ & _ & t' & D' & N). rewrite <- (defines_unique _ _ _ _ D D') in N. clear t' D'.
          assert (Y : go_type (strip t) (EIdent "asn1.BitString") /\ opaque (strip t) = true /\ (forall u, strip t <> TSetOf u)).
          { destruct S as (o & L & S). inversion L as [? H|? t' H H'|? t' m' ? ? H H' H'']; subst.
            - exfalso. eapply H, D.
            - rewrite <- (defines_unique _ _ _ _ D H) in *. destruct S as [[S _]|(_ & _ & ->)]; [|cbn in B; discriminate B].
              injection S as ->. rewrite B. split; [constructor|]. split; [reflexivity|discriminate].
            - rewrite <- (defines_unique _ _ _ _ D H) in *. rewrite H'. split; [|split; [reflexivity|discriminate]].
              apply (gt_ref_bits _ _ _ _ m t0 l); [exists o; auto|assumption|assumption]. }
          destruct Y as (Y1 & Y2 & Y3). destruct N as [N|(_ & u & E & _)]; [|now apply Y3 in E].
          destruct (plain_strip _ N) as [N' Tg].
          destruct (IH NRt _ fp (ct_plain _ _ _ N') Y1 (mir_opaque _ _ _ Y2) (plain_fits t fp N F1 F2 F3)) as (k0 & kd & tag & c & K & MK & E).
          exists k0, kd, tag, c. split; [exact K|]. split; [exact MK|]. eapply en_reference; [exact D|now apply encodes_strip].
        * destruct (reference_value n t v a fp Gn D IH NRt F1 F2 F3) as (k0 & kd & tag & c & K & MK & E).
          exists k0, kd, tag, c. split; [exact K|]. split; [exact MK|]. eapply en_reference; eassumption.
      + pose proof (generalized_leaf _ C') as L. pose proof (time_go_type _ _ L G) as ->.
        inversion C' as [H|? t' m H H' H'' H3]; subst; [exfalso; eapply H, D|].
        rewrite <- (defines_unique _ _ _ _ D H) in *. pose proof (generalized_leaf _ H3) as Lm.
        unfold P in IH. rewrite H'' in IH.
        destruct (IH NRt (EIdent "time.Time") fp) as (k0 & kd & tag & c & K & MK & E).
        * now apply ct_time.
        * eapply gt_time; [|left; reflexivity]. exists None. split; [exact Lm|]. right. auto.
        * apply mir_opaque. reflexivity.
        * constructor; [|exact F2| |intro X; exfalso; eapply X; reflexivity].
          { rewrite F1. split; [discriminate|]. intros [(c & x & X)|(u & X)]; discriminate. }
          { intros n' m' lt En Ll. injection En as <-. exact (fi_time _ _ _ F n m' lt eq_refl (leaf_step _ _ _ _ _ _ D H'' Ll)). }
        * exists k0, kd, tag, c. split; [exact K|]. split; [exact MK|]. eapply en_reference; [exact D|].
          apply encodes_strip; [exact H'|]. rewrite H''. exact E.
    - (* GeneralizedTime *)
      intros z ND Y NR e fp C G M F. cbn [strip] in *. assert (L : leaf_of asg "GeneralizedTime" "GeneralizedTime" None) by now constructor.
      pose proof (time_go_type _ _ L G) as ->.
      assert (F1 := not_set_param _ _ F ltac:(discriminate) ltac:(discriminate)).
      assert (F2 := fi_string _ _ _ F). cbn in F2.
      assert (F3 := fi_time _ _ _ F _ _ _ eq_refl L). cbn in F3.
      exists O, KTime, 24, (Octets (PGeneralized z)). split; [reflexivity|]. split; [|now constructor].
      intros k _. unfold WireFacts.make_value, field_tag, prim_body. rewrite F1, F2, F3, Y. reflexivity.
    - (* RawValue *)
      intros t a w RW _ NR. contradiction.
    - (* interface{} *)
      intros alts x n t U' e' v a NT _ _ _ _ _ e fp C. cbn [strip] in C. inversion C as [t0 P0'| | | |]; subst. inversion P0'; subst. contradiction.
    - (* no component *)
      intros gfs C G M. inv G. exists O, []. split; [reflexivity|]. split; [reflexivity|constructor].
    - (* required *)
      intros n t d l v a vs fs R IH _ IHs gfs C G M. exact (component_step n t false d l v a vs fs gfs R IH IHs (or_introl eq_refl) C G M).
    - (* present *)
      intros n t d l v a vs fs Z R IH _ IHs gfs C G M. exact (component_step n t true d l v a vs fs gfs R IH IHs (or_intror Z) C G M).
    - (* absent *)
      intros n t d l v vs fs Z NN _ IHs gfs C G M.
      inversion C as [|n' t' o' d' l' A CT EX DF C'|]; subst. inversion G as [|n' t' o' d' l' e tag gfs' G1 G2|]; subst.
      cbn [present filter] in M. inversion M as [|c0 g0 l0 gl0 M1 M2]; subst. destruct (IHs gfs' C' G2 M2) as (k0 & ws & K & X & E).
      inversion M1 as [n0 t0 o0 d0 f0 e0 name0 tag0 E0 M0 Q0]; subst. injection E0 as <- <- <-.
      destruct (Q0 EX) as (fp & TP & CP). apply tag_body_source in TP. subst fp.
      destruct DF as [->|[DF _]]; [|discriminate].
      exists k0, ws. split; [|split].
      + intros k Hk. cbn [make_fields]. rewrite make_field_eq by exact (zero_static v Z NN). unfold left_out.
        assert (O : fp_optional (parseFieldParameters (tag_body tag)) = true) by (apply (cp_optional _ _ _ _ _ _ CP); now left).
        assert (DV : fp_defaultValue (parseFieldParameters (tag_body tag)) = None).
        { destruct (fp_defaultValue _) as [z|] eqn:DV; [|reflexivity]. apply (cp_default _ _ _ _ _ _ CP) in DV. discriminate. }
        rewrite O, DV, Z, orb_true_r. cbn [option_map app]. now rewrite (K k Hk).
      + cbn [forallb]. now rewrite exported_goify, X by assumption.
      + now constructor.
    - (* nil *)
      intros l vs fs _ IHs gfs C G M. inversion C as [| |l' C']; subst. inversion G as [| |l' fs' G']; subst.
      destruct (IHs gfs C' G' M) as (k0 & ws & K & X & E). exists k0, ws. split; [exact K|]. split; [exact X|now constructor].
    - (* no element *)
      intros t e _ _ _. exists O, []. split; [reflexivity|constructor].
    - (* an element *)
      intros t v a vs l R0 IH _ IHs e C G M. destruct (IHs e C G M) as (k2 & ws & K2 & E2).
      destruct (element_value t e v a R0 IH C G M) as (k1 & kd & w & K & MK & E).
      exists (Nat.max k1 k2), (w :: ws). split.
      + intros k Hk. cbn [make_elements]. rewrite make_field_eq by exact (make_value_static _ _ _ _ _ _ _ (MK k ltac:(lia))). cbn [left_out fp0 fp_omitEmpty fp_optional andb orb].
        rewrite (kind_mono _ _ _ _ K k) by lia. assert (is_default fp0 kd v = false) as -> by (destruct kd, v; reflexivity).
        rewrite MK by lia. rewrite K2 by lia. reflexivity.
      + now constructor.
  Qed.
End Main.

(** * Generated files *)

Lemma file_declares : forall U fmt p fuel m f, Generate U fmt p fuel m = Ok (GenOk f) ->
  let asg := mb_AssignmentList (md_ModuleBody m) in
  forall n t, defines asg n t -> exists e b, go_type U asg (integer_repr p) t e /\
    mirrors (field_params (md_TagDefault m) asg) t e /\
    (b = true <-> reaches_set asg t) /\ incl (gd_specs (type_decl U n e b)) (file_specs f).
Proof.
  intros U fmt p fuel m f G asg n t D.
  assert (H : generated U asg f (fun n t d e => exists b, d = type_decl U n e b /\ go_type U asg (integer_repr p) t e /\
    mirrors (field_params (md_TagDefault m) asg) t e /\ (b = true <-> reaches_set asg t))).
  { eapply file_generated; [exact G|]. intros n' t' s e b s1 _ Hg He. exists b. split; [reflexivity|]. split; [|split].
    - rewrite <- params_repr. eapply gens_genfs_go_type; eassumption.
    - refine (proj1 (gens_genfs_mirrors _ _ _ _ _ _ _) _ _ _ _ _ _ Hg He).
      intros n2 t2 o d e2 b2 tag s0 s2 s3 _ Ht He2 Hx. eapply tagOf_means; eassumption.
    - apply gens_set in Hg. split; intro X; [|apply Hg; now right]. apply Hg in X as [X|X]; [discriminate|exact X]. }
  apply first_named_in in D. apply in_split in D as (pre & post & E).
  destruct (generated_at _ _ _ _ H pre n t post E) as (d & e & N & _ & b & -> & X1 & X2 & X3).
  exists e, b. split; [exact X1|]. split; [exact X2|]. split; [exact X3|].
  apply nth_error_In in N. apply filter_In in N as [N _]. intros sp Hs. apply in_flat_map. eauto.
Qed.

(** Marshalling a value of a generated type. *)
Lemma marshal_encodes : forall U fmt p fuel m f sorted good n t v a,
  Generate U fmt p fuel m = Ok (GenOk f) -> NoDup (declared_types f) ->
  (forall l, Permutation l (sorted l)) ->
  wire_names (mb_AssignmentList (md_ModuleBody m)) good -> good n -> defines (mb_AssignmentList (md_ModuleBody m)) n t ->
  represents (md_TagDefault m) (mb_AssignmentList (md_ModuleBody m)) (integer_repr p) t v a ->
  exists w k0, encodes (md_TagDefault m) (mb_AssignmentList (md_ModuleBody m)) t a w /\
    (forall k, (k0 <= k)%nat -> marshal sorted f k (goifyName U n) v = Some [w]) /\
    (forall k ws, marshal sorted f k (goifyName U n) v = Some ws -> ws = [w]).
Proof.
  intros U fmt p fuel m f sorted good n t v a G ND HS W Gn D R. set (asg := mb_AssignmentList (md_ModuleBody m)) in *.
  pose proof (file_declares _ _ _ _ _ _ G) as HF. fold asg in HF. cbn zeta in HF.
  destruct (make_all U (integer_repr p) (md_TagDefault m) asg f sorted good HS ND HF W) as (A & _ & _).
  destruct (named_make U (integer_repr p) (md_TagDefault m) asg f sorted good ND HF W n t v a Gn D R (A t v a R))
    as (k0 & kd & w & K & MK & E).
  exists w, k0. split; [exact E|].
  assert (X : forall k, (k0 <= k)%nat -> marshal sorted f k (goifyName U n) v = Some [w]).
  { intros k Hk. unfold marshal. rewrite make_field_eq by exact (make_value_static _ _ _ _ _ _ _ (MK k Hk)). cbn [left_out fp0 fp_omitEmpty fp_optional andb orb].
    rewrite (kind_mono _ _ _ _ K k Hk). assert (is_default fp0 kd v = false) as -> by (destruct kd, v; reflexivity).
    exact (MK k Hk). }
  split; [exact X|]. intros k ws H. unfold marshal in H. assert (H' := make_mono _ _ _ _ _ _ _ H (Nat.max k k0) ltac:(lia)).
  specialize (X (Nat.max k k0) ltac:(lia)). unfold marshal in X. congruence.
Qed.
