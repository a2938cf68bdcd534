(** What is generated for an assignment depends on that assignment and on the types it
    refers to, not on the rest of the module or on its place. *)
From Coq Require Import ZArith String Ascii List Bool Lia Permutation SpecFloat.
From Verif Require Import GoBase Utf8 Unicode Tokens Ast GoAst Codegen CodegenSpec CodegenFacts CodegenInv CodegenDecl CodegenMono CodegenNames.
Import ListNotations.
Local Open Scope string_scope.
Local Open Scope list_scope.

(** * Effects of the generator: errors and required packages *)

Definition act : Type := (gen_error + string)%type.
Definition run1 (s : gstate) (a : act) : gstate :=
  match a with inl e => appendError e s | inr m => requireModule m s end.
Definition run (acts : list act) (s : gstate) : gstate := fold_left run1 acts s.
Definition errs (acts : list act) : list gen_error := flat_map (fun a => match a with inl e => [e] | inr _ => [] end) acts.
Definition mods (acts : list act) : list string := flat_map (fun a => match a with inl _ => [] | inr m => [m] end) acts.

Lemma run_app : forall a b s, run (a ++ b) s = run b (run a s).
Proof. intros. apply fold_left_app. Qed.
Lemma errs_app : forall a b, errs (a ++ b) = errs a ++ errs b.
Proof. intros. apply flat_map_app. Qed.
Lemma mods_app : forall a b, mods (a ++ b) = mods a ++ mods b.
Proof. intros. apply flat_map_app. Qed.

Lemma require_errors : forall m s, gs_errors (requireModule m s) = gs_errors s.
Proof. intros m s. unfold requireModule. destruct (existsb _ _); reflexivity. Qed.

Lemma run_errors : forall acts s, gs_errors (run acts s) = gs_errors s ++ errs acts.
Proof.
  induction acts as [|[e|m] acts IH]; intro s; cbn [run fold_left run1].
  - now rewrite app_nil_r.
  - change (fold_left run1 acts) with (run acts). rewrite IH. cbn [appendError gs_errors errs flat_map]. now rewrite <- app_assoc.
  - change (fold_left run1 acts) with (run acts). rewrite IH, require_errors. reflexivity.
Qed.

Lemma run_modules : forall acts s x, In x (gs_modules (run acts s)) <-> In x (gs_modules s) \/ In x (mods acts).
Proof.
  induction acts as [|[e|m] acts IH]; intros s x; cbn [run fold_left run1 mods flat_map app].
  - cbn [In]. tauto.
  - change (fold_left run1 acts) with (run acts). rewrite IH. cbn [appendError gs_modules]. tauto.
  - change (fold_left run1 acts) with (run acts). rewrite IH. cbn [In]. fold (mods acts). unfold requireModule.
    destruct (existsb (String.eqb m) (gs_modules s)) eqn:E.
    + apply existsb_exists in E as (y & Hy & Ey). apply String.eqb_eq in Ey. subst y.
      split; [tauto|]. intros [H|[->|H]]; auto.
    + cbn [gs_modules]. rewrite in_app_iff. cbn. tauto.
Qed.

Lemma run_nodup : forall acts s, NoDup (gs_modules s) -> NoDup (gs_modules (run acts s)).
Proof.
  induction acts as [|[e|m] acts IH]; intros s N; cbn [run fold_left run1]; [exact N|apply IH; exact N|].
  apply IH. unfold requireModule. destruct (existsb (String.eqb m) (gs_modules s)) eqn:E; [exact N|].
  cbn [gs_modules]. apply NoDup_Add with (a := m) (l := gs_modules s).
  - rewrite <- (app_nil_r (gs_modules s)) at 1. apply Add_app.
  - split; [exact N|]. intro I. assert (X : existsb (String.eqb m) (gs_modules s) = true); [|congruence].
    apply existsb_exists. exists m. split; [exact I|apply String.eqb_refl].
Qed.

(** * Computations whose result does not depend on the state *)

Definition interp {A} (r : res (A * list act)) (s : gstate) : res (A * gstate) :=
  match r with Ok (a, acts) => Ok (a, run acts s) | Panic w => Panic w | OutOfFuel => OutOfFuel end.

(** [c] is [r] whatever the state; [c'] is the same if [r] has no errors. *)
Definition framed {A} (c c' : gstate -> res (A * gstate)) (r : res (A * list act)) : Prop :=
  (forall s, c s = interp r s) /\
  (forall a acts, r = Ok (a, acts) -> errs acts = [] -> forall s, c' s = interp r s).

Definition fr {A} (c c' : gstate -> res (A * gstate)) : Prop := exists r, framed c c' r.

Lemma fr_ret : forall A (a : A), fr (fun s => Ok (a, s)) (fun s => Ok (a, s)).
Proof. intros A a. exists (Ok (a, [])). split; reflexivity. Qed.

Lemma fr_act : forall A (a : A) x, fr (fun s => Ok (a, run1 s x)) (fun s => Ok (a, run1 s x)).
Proof. intros A a x. exists (Ok (a, [x])). split; reflexivity. Qed.

Lemma fr_fuel : forall A (c' : gstate -> res (A * gstate)), fr (fun _ => OutOfFuel) c'.
Proof. intros A c'. exists OutOfFuel. split; [reflexivity|discriminate]. Qed.

(** An error at once. *)
Lemma fr_error : forall A (a : A) e c', fr (fun s => Ok (a, appendError e s)) c'.
Proof. intros A a e c'. exists (Ok (a, [inl e])). split; [reflexivity|]. intros a' acts E Er. injection E as <- <-. discriminate Er. Qed.

Lemma fr_bind : forall A B (c c' : gstate -> res (A * gstate)) (k k' : A -> gstate -> res (B * gstate)),
  fr c c' -> (forall a, fr (k a) (k' a)) ->
  fr (fun s => rbind (c s) (fun x => k (fst x) (snd x))) (fun s => rbind (c' s) (fun x => k' (fst x) (snd x))).
Proof.
  intros A B c c' k k' (r & H1 & H2) Hk. destruct r as [[a acts]| w|].
  - destruct (Hk a) as (rk & K1 & K2). destruct rk as [[b acts']| w|].
    + exists (Ok (b, acts ++ acts')). split.
      * intro s. rewrite H1. cbn [interp rbind fst snd]. rewrite K1. cbn [interp]. now rewrite run_app.
      * intros b' acts2 E Er s. injection E as <- <-. rewrite errs_app in Er. apply app_eq_nil in Er as [Er1 Er2].
        rewrite (H2 _ _ eq_refl Er1). cbn [interp rbind fst snd]. rewrite (K2 _ _ eq_refl Er2). cbn [interp]. now rewrite run_app.
    + exists (Panic w). split; [|discriminate]. intro s. rewrite H1. cbn [interp rbind fst snd]. now rewrite K1.
    + exists OutOfFuel. split; [|discriminate]. intro s. rewrite H1. cbn [interp rbind fst snd]. now rewrite K1.
  - exists (Panic w). split; [|discriminate]. intro s. now rewrite H1.
  - exists OutOfFuel. split; [|discriminate]. intro s. now rewrite H1.
Qed.

Lemma fr_ext : forall A (c c' d d' : gstate -> res (A * gstate)), (forall s, c s = d s) -> (forall s, c' s = d' s) ->
  fr d d' -> fr c c'.
Proof.
  intros A c c' d d' H H' (r & H1 & H2). exists r. split.
  - intro s. now rewrite H, H1.
  - intros a acts E Er s. rewrite H'. eapply H2; eassumption.
Qed.

(** * Two modules *)

Section Two.
  Context (U : unicode_tables) (fmt : spec_float -> string) (params : GenParams) (tagDefault : Z)
    (asg asg' : list Assignment_).

  Hypothesis Hmore : forall n p, al_GetType asg n = Some p -> al_GetType asg' n = Some p.
  Hypothesis Htime : al_GetType asg' GeneralizedTimeName = al_GetType asg GeneralizedTimeName.

  (** The names are resolved in the same way if they mean anything. *)
  Lemma unwrap_more : forall fuel n m t, unwrapToLeafType asg fuel n = Ok (m, t) ->
    t <> TNil \/ lookupUsefulType m <> None -> unwrapToLeafType asg' fuel n = Ok (m, t).
  Proof.
    induction fuel as [|fuel IH]; intros n m t H C; [discriminate|]. cbn in H |- *.
    destruct (al_GetType asg n) as [[k u]|] eqn:E.
    - rewrite (Hmore _ _ E). destruct (removeWrapperTypes u); auto.
    - injection H as <- <-. destruct C as [C|C]; [congruence|].
      unfold lookupUsefulType in C. destruct (String.eqb_spec n GeneralizedTimeName) as [->|]; [|congruence].
      now rewrite Htime, E.
  Qed.

  Lemma resolve_fr : forall fuel n, fr (resolveTypeReference asg fuel n) (resolveTypeReference asg' fuel n).
  Proof.
    intros fuel n. destruct (unwrapToLeafType asg fuel n) as [[m t]|w|] eqn:E.
    - destruct (match t with TNil => lookupUsefulType m | _ => Some t end) as [u|] eqn:L.
      + assert (E' : unwrapToLeafType asg' fuel n = Ok (m, t)).
        { apply unwrap_more; [exact E|]. destruct t; try (left; discriminate). right. congruence. }
        apply fr_ext with (d := fun s => Ok (Some (m, u), s)) (d' := fun s => Ok (Some (m, u), s)); [| |apply fr_ret];
          intro s; unfold resolveTypeReference; rewrite ?E, ?E'; cbn [rbind]; destruct t; try congruence; rewrite L; reflexivity.
      + apply fr_ext with (d := fun s => Ok (None, appendError (ErrUnresolved n) s)) (d' := resolveTypeReference asg' fuel n);
          [|reflexivity|apply fr_error].
        intro s. unfold resolveTypeReference. rewrite E. cbn [rbind]. destruct t; try discriminate L. now rewrite L.
    - now destruct (unwrap_no_panic _ _ _ _ E).
    - apply fr_ext with (d := fun _ => OutOfFuel) (d' := resolveTypeReference asg' fuel n); [|reflexivity|apply fr_fuel].
      intro s. unfold resolveTypeReference. now rewrite E.
  Qed.

  (** A component whose type has been generated without errors has its tag. *)
  Lemma special_fr : forall n t, fr (fun s => Ok (generateSpecialCase n t s)) (fun s => Ok (generateSpecialCase n t s)).
  Proof.
    intros n t. unfold generateSpecialCase. destruct (_ || _).
    - exact (fr_act _ _ (inr "time")).
    - destruct (removeWrapperTypes t); try apply fr_ret. exact (fr_act _ _ (inr "encoding/asn1")).
  Qed.

  Lemma tagged_fr : forall hops fuel t, fr (taggedChoiceTypeAlternative asg hops fuel t) (taggedChoiceTypeAlternative asg' hops fuel t).
  Proof.
    induction hops as [|hops IH]; intros fuel t; induction t using atype_ind'; try apply fr_ret.
    - cbn. destruct (_ || _); [apply fr_ret|].
      eapply fr_ext; [| |apply (fr_bind _ _ (resolveTypeReference asg fuel n) (resolveTypeReference asg' fuel n)
        (fun o s => match o with None => Ok (false, s) | Some _ => OutOfFuel end)
        (fun o s => match o with None => Ok (false, s) | Some _ => OutOfFuel end)); [apply resolve_fr|]].
      1,2: intro s; cbv beta; match goal with |- rbind ?x _ = _ => destruct x as [[[[? ?]|] ?]| |]; reflexivity end.
      intros [[m u]|]; [apply fr_fuel|apply fr_ret].
    - exact IHt.
    - cbn. destruct (_ || _); [apply fr_ret|].
      eapply fr_ext; [| |apply (fr_bind _ _ (resolveTypeReference asg fuel n) (resolveTypeReference asg' fuel n)
        (fun o s => match o with None => Ok (false, s) | Some (_, t') => taggedChoiceTypeAlternative asg hops fuel t' s end)
        (fun o s => match o with None => Ok (false, s) | Some (_, t') => taggedChoiceTypeAlternative asg' hops fuel t' s end)); [apply resolve_fr|]].
      1,2: intro s; cbv beta; match goal with |- rbind ?x _ = _ => destruct x as [[[[? ?]|] ?]| |]; reflexivity end.
      intros [[m u]|]; [apply IH|apply fr_ret].
    - exact IHt.
  Qed.

  Lemma alternatives_fr : forall fuel l, fr (hasTaggedAlternatives asg fuel l) (hasTaggedAlternatives asg' fuel l).
  Proof.
    intro fuel. induction l as [|[n t] l IH]; [apply fr_ret|]. cbn [hasTaggedAlternatives].
    eapply fr_ext; [| |apply (fr_bind _ _ (taggedChoiceTypeAlternative asg fuel fuel t) (taggedChoiceTypeAlternative asg' fuel fuel t)
        (fun b s => if b then Ok (true, s) else hasTaggedAlternatives asg fuel l s)
        (fun b s => if b then Ok (true, s) else hasTaggedAlternatives asg' fuel l s)); [apply tagged_fr|]].
    1,2: intro s; cbv beta; match goal with |- rbind ?x _ = _ => destruct x as [[? ?]| |]; reflexivity end.
    intros [|]; [apply fr_ret|apply IH].
  Qed.

  Lemma tag_components_acts : forall field tag z h comps, exists comps' acts, forall s,
    tagComponents tagDefault field tag z h comps s = (comps', run acts s).
  Proof.
    intros field tag z h comps. unfold tagComponents.
    set (cs := if (tag_Class tag =? CLASS_APPLICATION)%Z then _ else _).
    set (ty := if h then z else tagDefault).
    assert (X : exists c1 a1, forall s, (if (ty =? TAGS_EXPLICIT)%Z then (cs ++ ["explicit"], s)
      else if (ty =? TAGS_IMPLICIT)%Z then (cs, s)
      else if (ty =? TAGS_AUTOMATIC)%Z then (cs, appendError (ErrAutomaticTag field) s)
      else (cs, s)) = (c1, run a1 s)).
    { destruct (ty =? TAGS_EXPLICIT)%Z; [exists (cs ++ ["explicit"]), []; reflexivity|].
      destruct (ty =? TAGS_IMPLICIT)%Z; [exists cs, []; reflexivity|].
      destruct (ty =? TAGS_AUTOMATIC)%Z; [exists cs, [inl (ErrAutomaticTag field)]; reflexivity|exists cs, []; reflexivity]. }
    destruct X as (c1 & a1 & X).
    destruct (lookupValue (tag_ClassNumber tag)) eqn:V;
      try (eexists c1, (a1 ++ [inl _]); intro s; rewrite X, run_app; reflexivity).
    eexists _, a1. intro s. rewrite X. reflexivity.
  Qed.

  Lemma unwrap_tags_acts : forall field t comps, exists comps' acts, forall s,
    unwrapTags tagDefault field t comps s = (comps', strip t, run acts s).
  Proof.
    intros field t. induction t using atype_ind'; intro comps; try (exists comps, []; reflexivity).
    - destruct (tag_components_acts field g z b comps) as (c1 & a1 & X). destruct (IHt c1) as (c2 & a2 & Y).
      exists c2, (a1 ++ a2). intro s. cbn [unwrapTags]. rewrite X, Y, run_app. reflexivity.
    - exact (IHt comps).
  Qed.

  Notation gen a := (generateTypeBody U params tagDefault a).

  Lemma gen_reference : forall fuel t b s r, gen asg fuel t b s = Ok r -> gs_errors s = [] -> gs_errors (snd r) = [] ->
    forall n, strip t = TReference n ->
    exists m u, unwrapToLeafType asg fuel n = Ok (m, u) /\ (u <> TNil \/ lookupUsefulType m <> None).
  Proof.
    intros fuel t. induction t using atype_ind'; intros bb st r HG E1 E2 k K; try discriminate K.
    - injection K as ->. cbn in HG. destruct (resolveTypeReference asg fuel k st) as [[o s1]| |] eqn:R; [|discriminate|discriminate].
      unfold resolveTypeReference in R. destruct (unwrapToLeafType asg fuel k) as [[m u]| |] eqn:W; [|discriminate|discriminate].
      exists m, u. split; [reflexivity|]. destruct u; try (left; discriminate). right. intro L. cbn [rbind] in R. rewrite L in R.
      injection R as <- <-. cbn in HG. injection HG as <-. cbn in E2. now destruct (gs_errors st).
    - exact (IHt bb st r HG E1 E2 k K).
    - exact (IHt bb st r HG E1 E2 k K).
  Qed.

  Lemma field_fr : forall fuel n t o d,
    fr (gen asg fuel t false) (gen asg' fuel t false) ->
    fr (fun s => do (e, _, s1) <- gen asg fuel t false s;
                 do (tag, s2) <- asn1TagFromType tagDefault asg fuel n t o d s1; Ok ((e, tag), s2))
       (fun s => do (e, _, s1) <- gen asg' fuel t false s;
                 do (tag, s2) <- asn1TagFromType tagDefault asg' fuel n t o d s1; Ok ((e, tag), s2)).
  Proof.
    intros fuel n t o d (r & H1 & H2). destruct r as [[[e b] acts]|w|].
    2: { exists (Panic w). split; [|discriminate]. intro s. now rewrite H1. }
    2: { exists OutOfFuel. split; [|discriminate]. intro s. now rewrite H1. }
    destruct (unwrap_tags_acts n t (defaultComponents o d)) as (cs & ta & X).
    assert (T : forall a s, asn1TagFromType tagDefault a fuel n t o d s =
      rbind (typeComponents a fuel (strip t)) (fun extra => Ok (tagLiteral (cs ++ extra), run ta s))).
    { intros a s. unfold asn1TagFromType. now rewrite X. }
    destruct (typeComponents asg fuel (strip t)) as [extra|w|] eqn:TC.
    - exists (Ok ((e, tagLiteral (cs ++ extra)), acts ++ ta)). split.
      + intro s. rewrite H1. cbn [interp rbind]. rewrite T, TC. cbn [rbind]. now rewrite run_app.
      + intros p acts' E Er s. injection E as <- <-. rewrite errs_app in Er. apply app_eq_nil in Er as [Er1 Er2].
        rewrite (H2 _ _ eq_refl Er1). cbn [interp rbind]. rewrite T.
        assert (TC' : typeComponents asg' fuel (strip t) = Ok extra).
        { destruct (strip t) eqn:S; try exact TC.
          pose (s0 := {| gs_errors := []; gs_modules := [] |}).
          destruct (gen_reference fuel t false s0 _ (H1 s0) eq_refl ltac:(cbn [snd]; now rewrite run_errors, Er1) _ S) as (m & u & W & C).
          cbn [typeComponents] in TC |- *. rewrite W in TC. rewrite (unwrap_more _ _ _ _ W C). exact TC. }
        rewrite TC'. cbn [rbind]. now rewrite run_app.
    - exists (Panic w). split; [|discriminate]. intro s. rewrite H1. cbn [interp rbind]. now rewrite T, TC.
    - exists OutOfFuel. split; [|discriminate]. intro s. rewrite H1. cbn [interp rbind]. now rewrite T, TC.
  Qed.

  Lemma fields_fr : forall fuel l, Forall (comp_P (fun t => forall b, fr (gen asg fuel t b) (gen asg' fuel t b))) l ->
    fr (genFields U params tagDefault asg fuel l) (genFields U params tagDefault asg' fuel l).
  Proof.
    intros fuel l H. induction H as [|c l Hc Hl IH]; [apply fr_ret|]. destruct c as [|[n t] o d|t].
    - exact IH.
    - pose proof (field_fr fuel n t o d (Hc false)) as F.
      eapply fr_ext; [| |apply (fr_bind _ _ _ _
        (fun p s => do (fs, s3) <- genFields U params tagDefault asg fuel l s; Ok (Field (goifyName U n) (fst p) (snd p) :: fs, s3))
        (fun p s => do (fs, s3) <- genFields U params tagDefault asg' fuel l s; Ok (Field (goifyName U n) (fst p) (snd p) :: fs, s3)) F)].
      1,2: intro s; cbv beta; cbn [genFields];
        match goal with |- rbind ?x _ = _ => destruct x as [[[? ?] ?]| |]; cbn [rbind]; try reflexivity end;
        match goal with |- rbind ?x _ = _ => destruct x as [[? ?]| |]; reflexivity end.
      intros [e tag]. eapply fr_ext; [| |apply (fr_bind _ _ _ _
        (fun fs s => Ok (Field (goifyName U n) e tag :: fs, s)) (fun fs s => Ok (Field (goifyName U n) e tag :: fs, s)) IH)].
      1,2: intro s; cbv beta; match goal with |- rbind ?x _ = _ => destruct x as [[? ?]| |]; reflexivity end.
      intro fs. apply fr_ret.
    - cbn [genFields]. destruct IH as (r & I1 & I2). destruct r as [[fs acts]|w|].
      + exists (Ok (fs, inl ErrComponentsOf :: acts)). split; [intro s; now rewrite I1|]. intros a ac E Er. injection E as <- <-. discriminate Er.
      + exists (Panic w). split; [intro s; now rewrite I1|discriminate].
      + exists OutOfFuel. split; [intro s; now rewrite I1|discriminate].
  Qed.

  Lemma gen_fr : forall fuel t b, fr (gen asg fuel t b) (gen asg' fuel t b).
  Proof.
    intros fuel t. induction t using atype_ind'; intro bb; try (apply fr_ret); try (apply fr_error).
    - cbn [generateTypeBody].
      eapply fr_ext; [| |apply (fr_bind _ _ _ _
        (fun x s1 => match x with Some (m, t') => rbind (Ok (generateSpecialCase m t' s1)) (fun y => Ok ((match fst y with Some e => e | None => EIdent (goifyName U n) end, bb), snd y))
                     | None => Ok ((EIdent (goifyName U n), bb), s1) end)
        (fun x s1 => match x with Some (m, t') => rbind (Ok (generateSpecialCase m t' s1)) (fun y => Ok ((match fst y with Some e => e | None => EIdent (goifyName U n) end, bb), snd y))
                     | None => Ok ((EIdent (goifyName U n), bb), s1) end)
        (resolve_fr fuel n))].
      1,2: intro s; cbv beta; match goal with |- rbind ?x _ = _ => destruct x as [[[[m u]|] s1]| |]; cbn [rbind fst snd]; try reflexivity end;
        destruct (generateSpecialCase m u s1) as [[|] ?]; reflexivity.
      intros [[m u]|]; [|apply fr_ret].
      apply (fr_bind _ _ _ _ (fun y s => Ok ((match y with Some e => e | None => EIdent (goifyName U n) end, bb), s))
        (fun y s => Ok ((match y with Some e => e | None => EIdent (goifyName U n) end, bb), s)) (special_fr m u)).
      intro y. apply fr_ret.
    - exact (fr_act _ (EIdent "asn1.ObjectIdentifier", bb) (inr "encoding/asn1")).
    - cbn. destruct (String.eqb (gp_IntegerRepr params) IntegerReprInt64); [apply fr_ret|].
      destruct (String.eqb (gp_IntegerRepr params) IntegerReprBigInt); [|apply fr_error].
      exact (fr_act _ (EStar (EIdent "big.Int"), bb) (inr "math/big")).
    - exact (fr_act _ (EIdent "asn1.Enumerated", bb) (inr "encoding/asn1")).
    - cbn [generateTypeBody].
      eapply fr_ext; [| |apply (fr_bind _ _ _ _
        (fun (tagged : bool) s1 => if tagged then Ok ((EIdent "asn1.RawValue", bb), s1)
           else match a with [Named _ t'] => gen asg fuel t' bb s1 | _ => Ok ((EInterface, bb), s1) end)
        (fun (tagged : bool) s1 => if tagged then Ok ((EIdent "asn1.RawValue", bb), s1)
           else match a with [Named _ t'] => gen asg' fuel t' bb s1 | _ => Ok ((EInterface, bb), s1) end)
        (alternatives_fr fuel a))].
      1,2: intro s; cbv beta; match goal with |- rbind ?x _ = _ => destruct x as [[? ?]| |]; reflexivity end.
      intros [|]; [apply fr_ret|]. destruct a as [|[n t] [|? ?]]; try apply fr_ret.
      inversion H as [|? ? Hn _]; subst. exact (Hn bb).
    - eapply fr_ext; [intro s; apply gen_sequence|intro s; apply gen_sequence|].
      eapply fr_ext; [| |apply (fr_bind _ _ _ _ (fun fs s => Ok ((EStruct fs, bb), s)) (fun fs s => Ok ((EStruct fs, bb), s))
        (fields_fr fuel (c ++ x) (proj2 (Forall_app _ _ _) (conj H H0))))].
      1,2: intro s; cbv beta; rewrite genFields_app;
        match goal with |- rbind ?x _ = _ => destruct x as [[? ?]| |]; cbn [rbind]; try reflexivity end;
        match goal with |- rbind ?x _ = _ => destruct x as [[? ?]| |]; reflexivity end.
      intro fs. apply fr_ret.
    - eapply fr_ext; [intro s; apply gen_set|intro s; apply gen_set|].
      eapply fr_ext; [| |apply (fr_bind _ _ _ _ (fun fs s => Ok ((EStruct fs, true), s)) (fun fs s => Ok ((EStruct fs, true), s))
        (fields_fr fuel (c ++ x) (proj2 (Forall_app _ _ _) (conj H H0))))].
      1,2: intro s; cbv beta; rewrite genFields_app;
        match goal with |- rbind ?x _ = _ => destruct x as [[? ?]| |]; cbn [rbind]; try reflexivity end;
        match goal with |- rbind ?x _ = _ => destruct x as [[? ?]| |]; reflexivity end.
      intro fs. apply fr_ret.
    - exact (IHt bb).
    - cbn [generateTypeBody].
      eapply fr_ext; [| |apply (fr_bind _ _ _ _ (fun p s => Ok ((EArray (fst p), snd p), s)) (fun p s => Ok ((EArray (fst p), snd p), s)) (IHt bb))].
      1,2: intro s; cbv beta; match goal with |- rbind ?x _ = _ => destruct x as [[[? ?] ?]| |]; reflexivity end.
      intro p. apply fr_ret.
    - cbn [generateTypeBody].
      eapply fr_ext; [| |apply (fr_bind _ _ _ _ (fun p s => Ok ((EArray (fst p), snd p), s)) (fun p s => Ok ((EArray (fst p), snd p), s)) (IHt true))].
      1,2: intro s; cbv beta; match goal with |- rbind ?x _ = _ => destruct x as [[[? ?] ?]| |]; reflexivity end.
      intro p. apply fr_ret.
    - exact (fr_act _ (EIdent "asn1.BitString", bb) (inr "encoding/asn1")).
    - exact (IHt bb).
  Qed.

  Lemma named_specs_acts : forall n l, exists specs acts, forall s, namedNumberSpecs U params n l s = (specs, run acts s).
  Proof.
    intros n l. induction l as [|x l (specs & acts & IH)]; [exists [], []; reflexivity|].
    destruct (nn_Value x) as [|z|d] eqn:V.
    - eexists _, acts. intro s. cbn [namedNumberSpecs]. rewrite V, IH. reflexivity.
    - eexists _, acts. intro s. cbn [namedNumberSpecs]. rewrite V, IH. reflexivity.
    - destruct (String.eqb (dv_ModuleName d) "") eqn:M.
      + eexists _, acts. intro s. cbn [namedNumberSpecs]. rewrite V, M, IH. reflexivity.
      + eexists _, (inl _ :: acts). intro s. cbn [namedNumberSpecs]. rewrite V, M, IH. reflexivity.
  Qed.

  Lemma associated_fr : forall n t, fr (fun s => Ok (generateAssociatedValuesIfNeeded U params n t s))
    (fun s => Ok (generateAssociatedValuesIfNeeded U params n t s)).
  Proof.
    intros n t. unfold generateAssociatedValuesIfNeeded. destruct (removeWrapperTypes t) as [| | | | |l| | | | | | | | | | | | | | |]; try apply fr_ret.
    destruct l as [|x l]; [apply fr_ret|].
    destruct (named_specs_acts n (x :: l)) as (specs & acts & H).
    exists (Ok (Some {| gd_tok := TokVar; gd_specs := specs |}, acts)). split; [|intros ? ? _ _]; intro s; now rewrite H.
  Qed.

  Notation gd a := (generateDeclarations U fmt params tagDefault a).

  Lemma decl_fr : forall fuel a, fr (gd asg fuel [a]) (gd asg' fuel [a]).
  Proof.
    intros fuel a. destruct a as [|n t|n t v].
    - apply fr_ret.
    - cbn [generateDeclarations generateTypeDecl].
      eapply fr_ext; [| |apply (fr_bind _ _ _ _
        (fun p s => rbind (Ok (generateAssociatedValuesIfNeeded U params n t s)) (fun x => Ok (type_decl U n (fst p) (snd p) :: opt_cons (fst x) [], snd x)))
        (fun p s => rbind (Ok (generateAssociatedValuesIfNeeded U params n t s)) (fun x => Ok (type_decl U n (fst p) (snd p) :: opt_cons (fst x) [], snd x)))
        (gen_fr fuel t false))].
      1,2: intro s; cbv beta; unfold generateTypeDecl;
        match goal with |- rbind (rbind ?x _) _ = _ => destruct x as [[[e [|]] s1]| |]; cbn [rbind fst snd]; try reflexivity end;
        destruct (generateAssociatedValuesIfNeeded U params n t s1) as [[|] ?]; reflexivity.
      intro p. apply (fr_bind _ _ _ _ (fun o s => Ok (type_decl U n (fst p) (snd p) :: opt_cons o [], s))
        (fun o s => Ok (type_decl U n (fst p) (snd p) :: opt_cons o [], s)) (associated_fr n t)). intro o. apply fr_ret.
    - cbn [generateDeclarations]. unfold tryGenerateValueAssignment. destruct (valueExpr fmt params v) as [e|]; [|apply fr_ret].
      eapply fr_ext; [| |apply (fr_bind _ _ _ _
        (fun p s => Ok ([var_decl U n (fst p) e], s)) (fun p s => Ok ([var_decl U n (fst p) e], s)) (gen_fr fuel t false))].
      1,2: intro s; cbv beta; match goal with |- rbind (rbind ?x _) _ = _ => destruct x as [[[? ?] ?]| |]; reflexivity end.
      intro p. apply fr_ret.
  Qed.
End Two.

Lemma decls_cons : forall U fmt params td asg fuel a l s,
  generateDeclarations U fmt params td asg fuel (a :: l) s =
  (do (ds1, s1) <- generateDeclarations U fmt params td asg fuel [a] s;
   do (ds2, s2) <- generateDeclarations U fmt params td asg fuel l s1;
   Ok (ds1 ++ ds2, s2)).
Proof.
  intros U fmt params td asg fuel a l s. destruct a as [|n t|n t v]; cbn [generateDeclarations rbind].
  - destruct (generateDeclarations _ _ _ _ _ _ l s) as [[? ?]| |]; reflexivity.
  - destruct (generateTypeDecl _ _ _ _ _ _ _ s) as [[d s1]| |]; cbn [rbind]; try reflexivity.
    destruct (generateAssociatedValuesIfNeeded U params n t s1) as [o s2]. cbn [rbind].
    destruct (generateDeclarations _ _ _ _ _ _ l s2) as [[? ?]| |]; cbn [rbind]; try reflexivity. destruct o; reflexivity.
  - destruct (tryGenerateValueAssignment _ _ _ _ _ _ _ _ _ s) as [[o s1]| |]; cbn [rbind]; try reflexivity.
    destruct (generateDeclarations _ _ _ _ _ _ l s1) as [[? ?]| |]; cbn [rbind]; try reflexivity. destruct o; reflexivity.
Qed.

(** The code of one assignment. *)
Definition code_of U fmt params td asg fuel (a : Assignment_) : list godecl :=
  match generateDeclarations U fmt params td asg fuel [a] {| gs_errors := []; gs_modules := [] |} with
  | Ok (ds, _) => ds
  | _ => []
  end.

(** The effects of one assignment. *)
Definition acts_of U fmt params td asg fuel (a : Assignment_) (acts : list act) : Prop :=
  forall s, generateDeclarations U fmt params td asg fuel [a] s = Ok (code_of U fmt params td asg fuel a, run acts s).

Section Equal.
  Context (U : unicode_tables) (fmt : spec_float -> string) (params : GenParams) (tagDefault : Z)
    (asg asg' : list Assignment_).
  Hypothesis Hsame : forall n, al_GetType asg n = al_GetType asg' n.

  Lemma unwrap_eq : forall fuel n, unwrapToLeafType asg fuel n = unwrapToLeafType asg' fuel n.
  Proof.
    induction fuel as [|fuel IH]; intro n; [reflexivity|]. cbn. rewrite Hsame. destruct (al_GetType asg' n) as [[k u]|]; [|reflexivity].
    destruct (removeWrapperTypes u); auto.
  Qed.

  Lemma resolve_eq : forall fuel n s, resolveTypeReference asg fuel n s = resolveTypeReference asg' fuel n s.
  Proof. intros fuel n s. unfold resolveTypeReference. now rewrite unwrap_eq. Qed.

  Lemma tagged_eq : forall hops fuel t s, taggedChoiceTypeAlternative asg hops fuel t s = taggedChoiceTypeAlternative asg' hops fuel t s.
  Proof.
    induction hops as [|hops IH]; intros fuel t; induction t using atype_ind'; intro st; try reflexivity.
    - cbn. now rewrite resolve_eq.
    - exact (IHt st).
    - cbn. destruct (_ || _); [reflexivity|]. rewrite resolve_eq.
      destruct (resolveTypeReference asg' fuel n st) as [[[[m u]|] s1]| |]; cbn [rbind]; try reflexivity. apply IH.
    - exact (IHt st).
  Qed.

  Lemma alternatives_eq : forall fuel l s, hasTaggedAlternatives asg fuel l s = hasTaggedAlternatives asg' fuel l s.
  Proof.
    intros fuel l. induction l as [|[n t] l IH]; intro s; [reflexivity|]. cbn [hasTaggedAlternatives]. rewrite tagged_eq.
    destruct (taggedChoiceTypeAlternative asg' fuel fuel t s) as [[[|] s1]| |]; cbn [rbind]; try reflexivity. apply IH.
  Qed.

  Lemma tag_eq : forall fuel n t o d s, asn1TagFromType tagDefault asg fuel n t o d s = asn1TagFromType tagDefault asg' fuel n t o d s.
  Proof.
    intros fuel n t o d s. unfold asn1TagFromType. destruct (unwrapTags _ _ _ _ _) as [[cs leaf] s1].
    destruct leaf; try reflexivity. unfold typeComponents. now rewrite unwrap_eq.
  Qed.

  Notation gen a := (generateTypeBody U params tagDefault a).

  Lemma fields_eq : forall fuel l, Forall (comp_P (fun t => forall b s, gen asg fuel t b s = gen asg' fuel t b s)) l ->
    forall s, genFields U params tagDefault asg fuel l s = genFields U params tagDefault asg' fuel l s.
  Proof.
    intros fuel l H. induction H as [|c l Hc Hl IH]; intro s; [reflexivity|]. destruct c as [|[n t] o d|t]; cbn [genFields].
    - apply IH.
    - cbn in Hc. rewrite Hc. destruct (gen asg' fuel t false s) as [[[e b] s1]| |]; cbn [rbind]; try reflexivity.
      rewrite tag_eq. destruct (asn1TagFromType _ _ _ _ _ _ _ s1) as [[tag s2]| |]; cbn [rbind]; try reflexivity. now rewrite IH.
    - apply IH.
  Qed.

  Lemma gen_eq : forall fuel t b s, gen asg fuel t b s = gen asg' fuel t b s.
  Proof.
    intros fuel t. induction t using atype_ind'; intros bb st; try reflexivity.
    - cbn [generateTypeBody]. now rewrite resolve_eq.
    - cbn [generateTypeBody]. rewrite alternatives_eq.
      destruct (hasTaggedAlternatives asg' fuel a st) as [[[|] s1]| |]; cbn [rbind]; try reflexivity.
      destruct a as [|[n t] [|? ?]]; try reflexivity. inversion H as [|? ? Hn _]; subst. apply Hn.
    - rewrite !gen_sequence, (fields_eq _ _ H). destruct (genFields _ _ _ _ _ c st) as [[? ?]| |]; cbn [rbind]; try reflexivity.
      now rewrite (fields_eq _ _ H0).
    - rewrite !gen_set, (fields_eq _ _ H). destruct (genFields _ _ _ _ _ c st) as [[? ?]| |]; cbn [rbind]; try reflexivity.
      now rewrite (fields_eq _ _ H0).
    - exact (IHt bb st).
    - cbn [generateTypeBody]. now rewrite IHt.
    - cbn [generateTypeBody]. now rewrite IHt.
    - exact (IHt bb st).
  Qed.

  Lemma decls_eq : forall fuel l s, generateDeclarations U fmt params tagDefault asg fuel l s = generateDeclarations U fmt params tagDefault asg' fuel l s.
  Proof.
    intros fuel l. induction l as [|a l IH]; intro s; [reflexivity|]. destruct a as [|n t|n t v]; cbn [generateDeclarations].
    - apply IH.
    - unfold generateTypeDecl. rewrite gen_eq. destruct (gen asg' fuel t false s) as [[[e [|]] s1]| |]; cbn [rbind]; try reflexivity;
        destruct (generateAssociatedValuesIfNeeded U params n t s1) as [o s2]; now rewrite IH.
    - unfold tryGenerateValueAssignment. destruct (valueExpr fmt params v) as [e|]; cbn [rbind]; [|now rewrite IH].
      rewrite gen_eq. destruct (gen asg' fuel t false s) as [[[? ?] s1]| |]; cbn [rbind]; try reflexivity. now rewrite IH.
  Qed.
End Equal.

(** * All assignments *)

Section All.
  Context (U : unicode_tables) (fmt : spec_float -> string) (params : GenParams) (td : Z) (asg : list Assignment_) (fuel : nat).
  Notation gd := (generateDeclarations U fmt params td asg fuel).
  Notation code := (code_of U fmt params td asg fuel).
  Notation acts1 := (acts_of U fmt params td asg fuel).

  Lemma decl_acts : forall a, (exists acts, acts1 a acts) \/ (forall s r, gd [a] s <> Ok r).
  Proof.
    intro a. destruct (decl_fr U fmt params td asg asg ltac:(auto) eq_refl fuel a) as (r & H & _). destruct r as [[ds acts]|w|].
    - left. exists acts. intro s. rewrite H. cbn [interp]. unfold code_of. rewrite H. reflexivity.
    - right. intros s r. rewrite H. discriminate.
    - right. intros s r. rewrite H. discriminate.
  Qed.

  Lemma decls_acts : forall l s ds s', gd l s = Ok (ds, s') ->
    exists aa, Forall2 acts1 l aa /\ ds = flat_map code l /\ s' = run (concat aa) s.
  Proof.
    induction l as [|a l IH]; intros s ds s' H.
    - injection H as <- <-. exists []. repeat split. constructor.
    - rewrite decls_cons in H. destruct (decl_acts a) as [(acts & A)|N].
      + rewrite A in H. cbn [rbind] in H. destruct (gd l (run acts s)) as [[ds2 s2]| |] eqn:E; try discriminate H.
        injection H as <- <-. destruct (IH _ _ _ E) as (aa & F & -> & ->). exists (acts :: aa). split; [now constructor|].
        split; [reflexivity|]. cbn [concat]. now rewrite run_app.
      + destruct (gd [a] s) as [r| |] eqn:E; [now destruct (N s r)|discriminate H|discriminate H].
  Qed.

  Lemma acts_decls : forall l aa, Forall2 acts1 l aa -> forall s, gd l s = Ok (flat_map code l, run (concat aa) s).
  Proof.
    induction 1 as [|a acts l aa A F IH]; intro s; [reflexivity|]. rewrite decls_cons, A. cbn [rbind]. rewrite IH. cbn [rbind].
    cbn [concat]. now rewrite run_app.
  Qed.
End All.

Lemma Forall2_perm : forall A B (R : A -> B -> Prop) l l', Permutation l l' -> forall m, Forall2 R l m ->
  exists m', Permutation m m' /\ Forall2 R l' m'.
Proof.
  induction 1; intros m F.
  - inversion F; subst. exists []. split; [constructor|constructor].
  - inversion F as [|? y ? m0 Hy Fm]; subst. destruct (IHPermutation _ Fm) as (m' & P & F'). exists (y :: m').
    split; [now constructor|now constructor].
  - inversion F as [|? y1 ? m0 Hy Fm]; subst. inversion Fm as [|? y2 ? m1 Hy2 Fm1]; subst. exists (y2 :: y1 :: m1).
    split; [apply perm_swap|repeat constructor; assumption].
  - destruct (IHPermutation1 _ F) as (m1 & P1 & F1). destruct (IHPermutation2 _ F1) as (m2 & P2 & F2). exists m2.
    split; [eapply perm_trans; eassumption|exact F2].
Qed.

Definition not_import (d : godecl) : bool := match gd_tok d with TokImport => false | _ => true end.

Lemma no_imports : forall U fmt params td asg fuel a, forallb not_import (code_of U fmt params td asg fuel a) = true.
Proof.
  intros U fmt params td asg fuel a. unfold code_of.
  destruct (generateDeclarations U fmt params td asg fuel [a] _) as [[ds s]| |] eqn:E; try reflexivity.
  apply decls_gendecls, gendecls_ok in E. apply forallb_forall. intros d Hd. rewrite Forall_forall in E. specialize (E d Hd).
  unfold decl_ok in E. unfold not_import. now destruct (gd_tok d).
Qed.

(** A generated file in terms of the assignments. *)
Lemma Generate_acts : forall U fmt p fuel m f, Generate U fmt p fuel m = Ok (GenOk f) ->
  let asg := mb_AssignmentList (md_ModuleBody m) in
  exists aa, Forall2 (acts_of U fmt (NewCodeGenerator p) (md_TagDefault m) asg fuel) asg aa /\ errs (concat aa) = [] /\
    imports f = gs_modules (run (concat aa) {| gs_errors := []; gs_modules := [] |}) /\
    filter not_import (gf_decls f) = flat_map (code_of U fmt (NewCodeGenerator p) (md_TagDefault m) asg fuel) asg.
Proof.
  intros U fmt p fuel m f H asg. unfold Generate, GenerateWith in H. destruct (_ =? _)%Z; [discriminate H|]. fold asg in H.
  destruct (generateDeclarations _ _ _ _ _ _ _ _) as [[ds s]| |] eqn:E; try discriminate H. cbn [rbind] in H.
  destruct (decls_acts _ _ _ _ _ _ _ _ _ _ E) as (aa & F & -> & ->). pose proof (run_errors (concat aa) {| gs_errors := []; gs_modules := [] |}) as Er.
  cbn [gs_errors app] in Er. rewrite Er in H. destruct (errs (concat aa)) eqn:X; [|discriminate H]. injection H as <-.
  exists aa. split; [exact F|]. split; [exact X|].
  assert (NI : forallb not_import (flat_map (code_of U fmt (NewCodeGenerator p) (md_TagDefault m) asg fuel) asg) = true).
  { generalize asg at 2. intro l. induction l as [|a l IH]; [reflexivity|]. cbn [flat_map]. now rewrite forallb_app, no_imports, IH. }
  apply decls_gendecls, gendecls_ok in E. split.
  - eapply imports_eq; [reflexivity|exact E].
  - cbn [gf_decls]. rewrite filter_app.
    replace (filter not_import (importDecls _)) with (@nil godecl) by (clear; induction (gs_modules _) as [|x r IH]; [reflexivity|exact IH]).
    cbn [app]. revert NI. generalize (flat_map (code_of U fmt (NewCodeGenerator p) (md_TagDefault m) asg fuel) asg). clear. intros l NI.
    induction l as [|d l IH]; [reflexivity|]. cbn in NI |- *. apply andb_prop in NI as [-> N].
    now rewrite (IH N).
Qed.

Lemma Forall2_in_l : forall A B (R : A -> B -> Prop) l m, Forall2 R l m -> forall a, In a l -> exists b, In b m /\ R a b.
Proof.
  induction 1 as [|x y l m H F IH]; intros a I; [destruct I|]. destruct I as [<-|I]; [exists y; split; [now left|exact H]|].
  destruct (IH a I) as (b & Ib & Hb). exists b. split; [now right|exact Hb].
Qed.

Lemma Forall2_in_r : forall A B (R : A -> B -> Prop) l m, Forall2 R l m -> forall b, In b m -> exists a, In a l /\ R a b.
Proof.
  induction 1 as [|x y l m H F IH]; intros a I; [destruct I|]. destruct I as [<-|I]; [exists x; split; [now left|exact H]|].
  destruct (IH a I) as (b & Ib & Hb). exists b. split; [now right|exact Hb].
Qed.

Lemma errs_concat : forall aa, errs (concat aa) = [] -> forall a, In a aa -> errs a = [].
Proof.
  induction aa as [|x aa IH]; intros H a I; [destruct I|]. cbn [concat] in H. rewrite errs_app in H.
  apply app_eq_nil in H as [H1 H2]. destruct I as [<-|I]; auto.
Qed.

Lemma mods_concat : forall aa x, In x (mods (concat aa)) <-> exists a, In a aa /\ In x (mods a).
Proof.
  induction aa as [|y aa IH]; intro x; cbn [concat].
  - split; [intros []|intros (a & [] & _)].
  - rewrite mods_app, in_app_iff, IH. split.
    + intros [H|(a & I & H)]; [exists y; split; [now left|exact H]|exists a; split; [now right|exact H]].
    + intros (a & [<-|I] & H); [now left|right; eauto].
Qed.

Lemma locality : forall U fmt p fuel fuel' m m' f f',
  let asg := mb_AssignmentList (md_ModuleBody m) in let asg' := mb_AssignmentList (md_ModuleBody m') in
  md_TagDefault m = md_TagDefault m' ->
  (forall n t, defines asg n t -> defines asg' n t) ->
  (forall t, defines asg' "GeneralizedTime" t -> defines asg "GeneralizedTime" t) ->
  Generate U fmt p fuel m = Ok (GenOk f) -> Generate U fmt p fuel' m' = Ok (GenOk f') ->
  (exists code, filter not_import (gf_decls f) = flat_map code asg /\ filter not_import (gf_decls f') = flat_map code asg') /\
  ((forall a, In a asg -> In a asg') -> incl (imports f) (imports f')).
Proof.
  intros U fmt p fuel fuel' m m' f f' asg asg' Htd Hd Ht H H'.
  apply (Generate_mono U fmt p fuel (fuel + fuel') m _ ltac:(lia)) in H. apply (Generate_mono U fmt p fuel' (fuel + fuel') m' _ ltac:(lia)) in H'.
  set (k := (fuel + fuel')%nat) in *.
  destruct (Generate_acts _ _ _ _ _ _ H) as (aa & F & E & I & C). destruct (Generate_acts _ _ _ _ _ _ H') as (aa' & F' & E' & I' & C').
  fold asg in F, C. fold asg' in F', C'. rewrite <- Htd in F', C'.
  assert (Hmore : forall n q, al_GetType asg n = Some q -> al_GetType asg' n = Some q).
  { intros n q X. apply GetType_defines in X as (t & -> & D). apply GetType_defines. eauto. }
  assert (Htime : al_GetType asg' GeneralizedTimeName = al_GetType asg GeneralizedTimeName).
  { destruct (al_GetType asg' GeneralizedTimeName) as [q|] eqn:X.
    - apply GetType_defines in X as (t & -> & D). symmetry. apply GetType_defines. eauto.
    - destruct (al_GetType asg GeneralizedTimeName) as [q|] eqn:Y; [|reflexivity]. apply Hmore in Y. congruence. }
  assert (X : forall a, In a asg -> exists acts, acts_of U fmt (NewCodeGenerator p) (md_TagDefault m) asg k a acts /\ In acts aa /\
    acts_of U fmt (NewCodeGenerator p) (md_TagDefault m) asg' k a acts /\
    code_of U fmt (NewCodeGenerator p) (md_TagDefault m) asg k a = code_of U fmt (NewCodeGenerator p) (md_TagDefault m) asg' k a).
  { intros a Ia. destruct (Forall2_in_l _ _ _ _ _ F a Ia) as (acts & Iacts & A). exists acts. split; [exact A|]. split; [exact Iacts|].
    destruct (decl_fr U fmt (NewCodeGenerator p) (md_TagDefault m) asg asg' Hmore Htime k a) as (r & R1 & R2).
    set (s0 := {| gs_errors := []; gs_modules := [] |}).
    assert (R : r = Ok (code_of U fmt (NewCodeGenerator p) (md_TagDefault m) asg k a, match r with Ok (_, x) => x | _ => [] end)).
    { pose proof (A s0) as A0. rewrite R1 in A0. destruct r as [[ds x]| |]; try discriminate A0. cbn [interp] in A0. now injection A0 as -> _. }
    set (x := match r with Ok (_, x) => x | _ => [] end) in R.
    assert (Ex : errs x = []).
    { pose proof (A s0) as A0. rewrite R1, R in A0. cbn [interp] in A0. injection A0 as A0.
      apply (f_equal gs_errors) in A0. rewrite !run_errors in A0. cbn [s0 gs_errors app] in A0. rewrite A0. exact (errs_concat aa E acts Iacts). }
    assert (Y : forall s, generateDeclarations U fmt (NewCodeGenerator p) (md_TagDefault m) asg' k [a] s =
      Ok (code_of U fmt (NewCodeGenerator p) (md_TagDefault m) asg k a, run acts s)).
    { intro s. rewrite (R2 _ _ R Ex). rewrite <- R1. apply A. }
    assert (Z : code_of U fmt (NewCodeGenerator p) (md_TagDefault m) asg k a = code_of U fmt (NewCodeGenerator p) (md_TagDefault m) asg' k a).
    { unfold code_of at 2. rewrite Y. reflexivity. }
    split; [|exact Z]. intro s. rewrite <- Z. apply Y. }
  split.
  - exists (code_of U fmt (NewCodeGenerator p) (md_TagDefault m) asg' k). split; [|exact C']. rewrite C.
    assert (Y : forall l, (forall a, In a l -> In a asg) -> flat_map (code_of U fmt (NewCodeGenerator p) (md_TagDefault m) asg k) l =
      flat_map (code_of U fmt (NewCodeGenerator p) (md_TagDefault m) asg' k) l).
    { induction l as [|a l IH]; intro Hl; [reflexivity|]. cbn [flat_map]. rewrite IH by (intros; apply Hl; now right).
      destruct (X a (Hl a ltac:(now left))) as (_ & _ & _ & _ & ->). reflexivity. }
    apply Y. auto.
  - intros Hin x Hx. rewrite I in Hx. rewrite I'. apply run_modules in Hx. apply run_modules. right. destruct Hx as [[]|Hx].
    apply mods_concat in Hx as (acts & Ia & Hx). destruct (Forall2_in_r _ _ _ _ _ F acts Ia) as (a & Iasg & A).
    destruct (Forall2_in_l _ _ _ _ _ F' a (Hin a Iasg)) as (acts' & Ia' & A'). apply mods_concat. exists acts'. split; [exact Ia'|].
    destruct (X a Iasg) as (acts2 & A2 & _ & A3 & _).
    set (s0 := {| gs_errors := []; gs_modules := [] |}).
    assert (Y : forall b c, run b s0 = run c s0 -> In x (mods b) -> In x (mods c)).
    { intros b c Ebc Ib. assert (Z : In x (gs_modules (run c s0))) by (rewrite <- Ebc; apply run_modules; now right).
      apply run_modules in Z as [[]|Z]. exact Z. }
    assert (Y1 : run acts s0 = run acts2 s0) by (pose proof (A s0) as B1; pose proof (A2 s0) as B2; rewrite B1 in B2; now injection B2).
    assert (Y2 : run acts2 s0 = run acts' s0) by (pose proof (A3 s0) as B1; pose proof (A' s0) as B2; rewrite B1 in B2; now injection B2).
    eapply Y; [exact Y2|]. eapply Y; [exact Y1|exact Hx].
Qed.

(** * Order *)

Lemma in_defines : forall (asg : list Assignment_) n t, NoDup (flat_map asg_name asg) -> In (AType n t) asg -> defines asg n t.
Proof.
  unfold defines. induction asg as [|a asg IH]; intros n t N I; [destruct I|]. cbn [flat_map] in N. destruct I as [->|I]; [constructor|].
  destruct a as [|k u|k u v]; cbn [asg_name app] in N.
  - constructor. now apply IH.
  - inversion N as [|? ? N1 N2]; subst. apply fn_skip_type; [|now apply IH]. intros ->. apply N1. apply in_flat_map.
    exists (AType n t). split; [exact I|now left].
  - inversion N as [|? ? N1 N2]; subst. apply fn_skip_value; [|now apply IH]. intros ->. apply N1. apply in_flat_map.
    exists (AType n t). split; [exact I|now left].
Qed.

Lemma flat_map_perm : forall A B (h : A -> list B) l l', Permutation l l' -> Permutation (flat_map h l) (flat_map h l').
Proof.
  induction 1; cbn [flat_map]; auto.
  - now apply Permutation_app_head.
  - rewrite !app_assoc. apply Permutation_app_tail, Permutation_app_comm.
  - eapply perm_trans; eassumption.
Qed.

Lemma concat_perm : forall A (l l' : list (list A)), Permutation l l' -> Permutation (concat l) (concat l').
Proof.
  intros A l l' P. rewrite <- (map_id l), <- (map_id l'), <- !flat_map_concat_map. now apply flat_map_perm.
Qed.

Lemma order_same : forall asg asg' : list Assignment_, NoDup (flat_map asg_name asg) -> Permutation asg asg' ->
  forall n, al_GetType asg n = al_GetType asg' n.
Proof.
  intros asg asg' N P. assert (N' : NoDup (flat_map asg_name asg')) by (eapply Permutation_NoDup; [apply flat_map_perm; exact P|exact N]).
  assert (X : forall a b : list Assignment_, NoDup (flat_map asg_name b) -> Permutation a b -> forall n t, defines a n t -> defines b n t).
  { intros a b Nb Pab n t D. apply in_defines; [exact Nb|]. eapply Permutation_in; [exact Pab|]. now apply first_named_in in D. }
  intro n. destruct (al_GetType asg n) as [q|] eqn:E.
  - apply GetType_defines in E as (t & -> & D). symmetry. apply GetType_defines. exists t. split; [reflexivity|]. now apply (X asg).
  - symmetry. apply GetType_none. intros t D. rewrite GetType_none in E. apply (E t). apply (X asg'); auto. now apply Permutation_sym.
Qed.

Lemma order : forall U fmt p fuel m m',
  let asg := mb_AssignmentList (md_ModuleBody m) in let asg' := mb_AssignmentList (md_ModuleBody m') in
  md_ModuleIdentifier m = md_ModuleIdentifier m' -> md_TagDefault m = md_TagDefault m' ->
  NoDup (flat_map asg_name asg) -> Permutation asg asg' ->
  (forall f, Generate U fmt p fuel m = Ok (GenOk f) ->
     exists f', Generate U fmt p fuel m' = Ok (GenOk f') /\ gf_name f = gf_name f' /\ Permutation (gf_decls f) (gf_decls f')) /\
  (forall l, Generate U fmt p fuel m = Ok (GenErr l) ->
     exists l', Generate U fmt p fuel m' = Ok (GenErr l') /\ Permutation l l').
Proof.
  intros U fmt p fuel m m' asg asg' Hid Htd N P.
  pose proof (order_same _ _ N P) as S.
  assert (X : forall s ds s', generateDeclarations U fmt (NewCodeGenerator p) (md_TagDefault m) asg fuel asg s = Ok (ds, s') ->
    exists acts acts' ds', s' = run acts s /\ Permutation acts acts' /\ Permutation ds ds' /\
      forall s, generateDeclarations U fmt (NewCodeGenerator p) (md_TagDefault m) asg' fuel asg' s = Ok (ds', run acts' s)).
  { intros s ds s' E. destruct (decls_acts _ _ _ _ _ _ _ _ _ _ E) as (aa & F & -> & ->).
    destruct (Forall2_perm _ _ _ _ _ P _ F) as (aa' & Pa & F').
    exists (concat aa), (concat aa'), (flat_map (code_of U fmt (NewCodeGenerator p) (md_TagDefault m) asg fuel) asg').
    split; [reflexivity|]. split; [now apply concat_perm|]. split; [now apply flat_map_perm|].
    intro s1. rewrite <- (decls_eq U fmt _ _ _ _ S). now apply acts_decls. }
  unfold Generate, GenerateWith. rewrite <- Htd, <- Hid. fold asg asg'. destruct (_ =? _)%Z.
  { split; [discriminate|]. intros l H. injection H as <-. eexists. split; reflexivity. }
  set (s0 := {| gs_errors := []; gs_modules := [] |}).
  destruct (generateDeclarations U fmt (NewCodeGenerator p) (md_TagDefault m) asg fuel asg s0) as [[ds s]| |] eqn:E.
  2, 3: split; discriminate.
  destruct (X _ _ _ E) as (acts & acts' & ds' & -> & PA & PD & Y). rewrite (Y s0). cbn [rbind].
  pose proof (run_errors acts s0) as E1. pose proof (run_errors acts' s0) as E2. cbn [s0 gs_errors app] in E1, E2. fold s0 in E1, E2.
  assert (PE : Permutation (errs acts) (errs acts')) by now apply flat_map_perm.
  rewrite E1, E2. split.
  - intros f H. destruct (errs acts) eqn:Z; [|discriminate H]. apply Permutation_nil in PE. rewrite PE. injection H as <-.
    eexists. split; [reflexivity|]. cbn [gf_name gf_decls]. split; [reflexivity|]. apply Permutation_app; [|exact PD].
    apply Permutation_map. apply NoDup_Permutation; [apply run_nodup; constructor|apply run_nodup; constructor|].
    intro x. rewrite !run_modules. assert (PM : Permutation (mods acts) (mods acts')) by now apply flat_map_perm.
    split; intros [[]|Hx]; right; [eapply Permutation_in; [exact PM|exact Hx]|].
    eapply Permutation_in; [apply Permutation_sym; exact PM|exact Hx].
  - intros l H. destruct (errs acts) as [|e es] eqn:Z; [discriminate H|]. injection H as <-.
    destruct (errs acts') as [|e' es'] eqn:Z'; [apply Permutation_sym, Permutation_nil in PE; discriminate|].
    eexists. split; [reflexivity|]. exact PE.
Qed.
