(** Struct tags: what encoding/asn1 reads back from what the generator writes. *)
From Coq Require Import ZArith String Ascii List Bool Lia SpecFloat.
From Verif Require Import GoBase Utf8 Unicode Tokens Ast GoAst Codegen CodegenSpec CodegenFacts CodegenInv.
Import ListNotations.
Local Open Scope string_scope.
Local Open Scope Z_scope.

(** * Decimal literals *)

Lemma byte_ascii : forall z, 0 <= z < 256 -> byte_of_ascii (ascii_of_byte z) = z.
Proof.
  intros z H. unfold byte_of_ascii, ascii_of_byte. rewrite N_ascii_embedding by lia. lia.
Qed.


Lemma dec_digits_val : forall fuel z acc, 0 <= z -> z < 10 ^ Z.of_nat fuel -> (0 < fuel)%nat ->
  exists k : nat, forall a, dec_val a (dec_digits fuel z acc) = dec_val (a * 10 ^ Z.of_nat k + z) acc.
Proof.
  induction fuel as [|f IH]; intros z acc Hz Hb Hf; [lia|].
  cbn [dec_digits].
  assert (Hd : 0 <= z mod 10 < 10) by (apply Z.mod_pos_bound; lia).
  assert (Hdiv : z = 10 * (z / 10) + z mod 10) by (apply Z.div_mod; lia).
  assert (Hc : forall a s, dec_val a (String (ascii_of_byte (48 + z mod 10)) s) = dec_val (10 * a + z mod 10) s).
  { intros a s. cbn [dec_val]. rewrite byte_ascii by lia.
    replace ((48 <=? 48 + z mod 10) && (48 + z mod 10 <=? 57)) with true.
    - f_equal. lia.
    - symmetry. apply andb_true_intro. split; apply Z.leb_le; lia. }
  destruct (Z.ltb_spec z 10) as [Hs|Hs].
  - exists 1%nat. intro a. rewrite Hc. f_equal. change (10 ^ Z.of_nat 1) with 10. rewrite Z.mod_small by lia. lia.
  - assert (Hf' : (0 < f)%nat).
    { destruct f; [|lia]. change (10 ^ Z.of_nat 1) with 10 in Hb. lia. }
    assert (Hb' : z / 10 < 10 ^ Z.of_nat f).
    { apply Z.div_lt_upper_bound; [lia|]. rewrite Nat2Z.inj_succ, Z.pow_succ_r in Hb by lia. lia. }
    assert (Hz' : 0 <= z / 10) by (apply Z.div_pos; lia).
    destruct (IH (z / 10) (String (ascii_of_byte (48 + z mod 10)) acc) Hz' Hb' Hf') as [k Hk].
    exists (S k). intro a. rewrite Hk, Hc. f_equal.
    rewrite Nat2Z.inj_succ, Z.pow_succ_r by lia. lia.
Qed.

(** The digits are digits. *)
Inductive all_digits : string -> Prop :=
| ad_nil : all_digits ""
| ad_cons c s : 48 <= byte_of_ascii c <= 57 -> all_digits s -> all_digits (String c s).

Lemma dec_digits_digits : forall fuel z acc, all_digits acc -> all_digits (dec_digits fuel z acc).
Proof.
  induction fuel as [|f IH]; intros z acc H; cbn [dec_digits]; [assumption|].
  assert (Hd : 0 <= z mod 10 < 10) by (apply Z.mod_pos_bound; lia).
  assert (all_digits (String (ascii_of_byte (48 + z mod 10)) acc)).
  { constructor; [|assumption]. rewrite byte_ascii by lia. lia. }
  destruct (z <? 10); auto.
Qed.

Lemma dec_digits_nonempty : forall fuel z acc, acc <> "" \/ (0 < fuel)%nat -> dec_digits fuel z acc <> "".
Proof.
  induction fuel as [|f IH]; intros z acc H; cbn [dec_digits].
  - destruct H; [assumption|lia].
  - destruct (z <? 10); [discriminate|]. apply IH. left. discriminate.
Qed.

Definition digits_of (a : Z) : string := dec_digits (S (Z.to_nat (Z.log2 a))) a EmptyString.

Lemma digits_of_val : forall a, 0 <= a -> dec_val 0 (digits_of a) = Some a.
Proof.
  intros a Ha. unfold digits_of.
  assert (Hb : a < 10 ^ Z.of_nat (S (Z.to_nat (Z.log2 a)))).
  { rewrite Nat2Z.inj_succ. pose proof (Z.log2_nonneg a).
    rewrite Z2Nat.id by assumption.
    apply Z.lt_le_trans with (2 ^ Z.succ (Z.log2 a)).
    - destruct (Z.eq_dec a 0) as [->|]; [reflexivity|]. apply Z.log2_spec. lia.
    - apply Z.pow_le_mono_l. lia. }
  destruct (dec_digits_val (S (Z.to_nat (Z.log2 a))) a "" Ha Hb ltac:(lia)) as [k Hk].
  rewrite Hk. cbn [dec_val]. reflexivity.
Qed.

Lemma sprint_int_eq : forall z, sprint_int z = if z <? 0 then String "-" (digits_of (- z)) else digits_of z.
Proof. reflexivity. Qed.

Lemma int_literal_sprint : forall z, int_literal (sprint_int z) = Some z.
Proof.
  intro z. rewrite sprint_int_eq. destruct (Z.ltb_spec z 0) as [H|H].
  - cbn [int_literal]. pose proof (dec_digits_nonempty (S (Z.to_nat (Z.log2 (- z)))) (- z) "" (or_intror (Nat.lt_0_succ _))) as Hn.
    fold (digits_of (- z)) in Hn. pose proof (digits_of_val (- z) ltac:(lia)) as Hv.
    destruct (digits_of (- z)); [contradiction|]. rewrite Hv. cbn [option_map]. f_equal. lia.
  - pose proof (dec_digits_nonempty (S (Z.to_nat (Z.log2 z))) z "" (or_intror (Nat.lt_0_succ _))) as Hn.
    pose proof (dec_digits_digits (S (Z.to_nat (Z.log2 z))) z "" ad_nil) as Hd.
    fold (digits_of z) in Hn, Hd. pose proof (digits_of_val z H) as Hv.
    destruct (digits_of z) as [|c s]; [contradiction|]. inv Hd.
    rewrite <- Hv. unfold int_literal.
    destruct c as [[] [] [] [] [] [] [] []]; try reflexivity; exfalso; destruct H2 as [A B]; first [now apply A|now apply B].
Qed.

(** * Commas *)

Fixpoint no_comma (s : string) : bool :=
  match s with
  | EmptyString => true
  | String c s' => negb (Ascii.eqb c ",") && no_comma s'
  end.

Lemma comma_parts_one : forall s, no_comma s = true -> comma_parts s = [s].
Proof.
  induction s as [|c s IH]; intro H; [reflexivity|]. cbn in *.
  apply andb_prop in H as [Hc Hs]. apply negb_true_iff in Hc. rewrite Hc, IH by assumption. reflexivity.
Qed.

Lemma comma_parts_app : forall s r, no_comma s = true -> comma_parts (s ++ "," ++ r) = s :: comma_parts r.
Proof.
  induction s as [|c s IH]; intros r H; [reflexivity|].
  cbn [no_comma] in H. apply andb_prop in H as [Hc Hs]. apply negb_true_iff in Hc.
  change (String c s ++ "," ++ r) with (String c (s ++ "," ++ r)).
  change (comma_parts (String c (s ++ "," ++ r))) with
    (if Ascii.eqb c "," then EmptyString :: comma_parts (s ++ "," ++ r)
     else match comma_parts (s ++ "," ++ r) with [] => [String c EmptyString] | w :: ws => String c w :: ws end).
  rewrite Hc, IH by assumption. reflexivity.
Qed.

Lemma comma_join : forall l, l <> [] -> forallb no_comma l = true -> comma_parts (join_comma l) = l.
Proof.
  induction l as [|s l IH]; intros Hl H; [contradiction|].
  cbn [forallb] in H. apply andb_prop in H as [Hs H].
  destruct l as [|s' l]; [now apply comma_parts_one|].
  cbn [join_comma]. rewrite comma_parts_app by assumption. f_equal. apply IH; [discriminate|assumption].
Qed.

Lemma no_comma_app : forall a b, no_comma (a ++ b) = no_comma a && no_comma b.
Proof.
  induction a as [|c a IH]; intro b; [reflexivity|]. cbn. now rewrite IH, andb_assoc.
Qed.

Lemma digits_no_comma : forall s, all_digits s -> no_comma s = true.
Proof.
  induction 1 as [|c s Hc Hs IH]; [reflexivity|]. cbn. rewrite IH, andb_true_r.
  destruct (Ascii.eqb_spec c ","); [|reflexivity]. subst. exfalso. destruct Hc as [A B]. now apply A.
Qed.

Lemma sprint_no_comma : forall z, no_comma (sprint_int z) = true.
Proof.
  intro z. rewrite sprint_int_eq.
  destruct (z <? 0); [change (no_comma (String "-" (digits_of (- z)))) with (no_comma (digits_of (- z)))|];
    apply digits_no_comma, dec_digits_digits; constructor.
Qed.

(** No leading zero. *)
Lemma dec_digits_first : forall fuel z acc, 0 < z -> z < 10 ^ Z.of_nat fuel ->
  exists c s, dec_digits fuel z acc = String c s /\ 49 <= byte_of_ascii c <= 57.
Proof.
  induction fuel as [|n IH]; intros z acc Hz Hb.
  { cbn in Hb. lia. }
  cbn [dec_digits]. destruct (Z.ltb_spec z 10) as [L|L].
  - exists (ascii_of_byte (48 + z mod 10)), acc. split; [reflexivity|].
    rewrite (Z.mod_small z 10) by lia. rewrite byte_ascii by lia. lia.
  - apply IH; [apply Z.div_str_pos; lia|].
    apply Z.div_lt_upper_bound; [lia|]. rewrite Nat2Z.inj_succ, Z.pow_succ_r in Hb by lia. lia.
Qed.

Lemma go_int_sprint : forall z, go_int (sprint_int z) = Some z.
Proof.
  intro z. unfold go_int. assert (X : leading_zero (unsigned (sprint_int z)) = false); [|rewrite X; apply int_literal_sprint].
  assert (D : forall a, 0 < a -> exists c s, digits_of a = String c s /\ 49 <= byte_of_ascii c <= 57).
  { intros a Ha. apply dec_digits_first; [exact Ha|]. rewrite Nat2Z.inj_succ. pose proof (Z.log2_nonneg a).
    rewrite Z2Nat.id by assumption. apply Z.lt_le_trans with (2 ^ Z.succ (Z.log2 a)).
    - apply Z.log2_spec. lia.
    - apply Z.pow_le_mono_l. lia. }
  assert (Y : forall a, 0 < a -> leading_zero (digits_of a) = false /\ unsigned (digits_of a) = digits_of a).
  { intros a Ha. destruct (D a Ha) as (c & s & -> & B). clear -B.
    destruct c as [[] [] [] [] [] [] [] []]; split; try reflexivity; exfalso; vm_compute in B; destruct B as [B1 B2]; auto. }
  rewrite sprint_int_eq. destruct (Z.ltb_spec z 0) as [L|L].
  - cbn [unsigned]. apply Y. lia.
  - destruct (Z.eq_dec z 0) as [->|N]; [reflexivity|]. destruct (Y z) as [Y1 Y2]; [lia|]. now rewrite Y2.
Qed.

(** * The parts *)

Lemma substring_all : forall s n, (String.length s <= n)%nat -> substring 0 n s = s.
Proof.
  induction s as [|c s IH]; intros [|n] H; cbn in *; try reflexivity; try lia. rewrite IH by lia. reflexivity.
Qed.

Lemma part_tag : forall r z, - 2 ^ 63 <= z < 2 ^ 63 -> field_part r ("tag:" ++ sprint_int z) =
  {| fp_optional := fp_optional r; fp_explicit := fp_explicit r; fp_application := fp_application r;
     fp_private := fp_private r; fp_defaultValue := fp_defaultValue r; fp_tag := Some z;
     fp_stringType := fp_stringType r; fp_timeType := fp_timeType r; fp_set := fp_set r;
     fp_omitEmpty := fp_omitEmpty r |}.
Proof.
  intros r z Hz. set (x := sprint_int z).
  assert (Hp : parse_int64 (substring 4 (String.length ("tag:" ++ x)) ("tag:" ++ x)) = Some z).
  { change (substring 4 (String.length ("tag:" ++ x)) ("tag:" ++ x)) with (substring 0 (4 + String.length x) x).
    rewrite substring_all by lia. unfold parse_int64, x. rewrite int_literal_sprint.
    replace ((- 2 ^ 63 <=? z) && (z <? 2 ^ 63)) with true; [reflexivity|].
    symmetry. apply andb_true_intro. split; [apply Z.leb_le|apply Z.ltb_lt]; lia. }
  clearbody x. unfold field_part. rewrite Hp. destruct x; reflexivity.
Qed.

Lemma part_default : forall r z, - 2 ^ 63 <= z < 2 ^ 63 -> field_part r ("default:" ++ sprint_int z) =
  {| fp_optional := fp_optional r; fp_explicit := fp_explicit r; fp_application := fp_application r;
     fp_private := fp_private r; fp_defaultValue := Some z; fp_tag := fp_tag r;
     fp_stringType := fp_stringType r; fp_timeType := fp_timeType r; fp_set := fp_set r;
     fp_omitEmpty := fp_omitEmpty r |}.
Proof.
  intros r z Hz. set (x := sprint_int z).
  assert (Hp : parse_int64 (substring 8 (String.length ("default:" ++ x)) ("default:" ++ x)) = Some z).
  { change (substring 8 (String.length ("default:" ++ x)) ("default:" ++ x)) with (substring 0 (8 + String.length x) x).
    rewrite substring_all by lia. unfold parse_int64, x. rewrite int_literal_sprint.
    replace ((- 2 ^ 63 <=? z) && (z <? 2 ^ 63)) with true; [reflexivity|].
    symmetry. apply andb_true_intro. split; [apply Z.leb_le|apply Z.ltb_lt]; lia. }
  clearbody x. unfold field_part. rewrite Hp. destruct x; reflexivity.
Qed.

(** * The whole tag *)

Definition class_parts (tag : Tag DefinedValue) : list string :=
  if tag_Class tag =? CLASS_APPLICATION then ["application"]
  else if tag_Class tag =? CLASS_PRIVATE then ["private"] else [].

Definition tag_parts (tagDefault : Z) (p : Tag DefinedValue * option Z) : list string :=
  (class_parts (fst p) ++
   (if effective tagDefault (snd p) =? TAGS_EXPLICIT then ["explicit"] else []) ++
   match tag_ClassNumber (fst p) with VNumber n => [("tag:" ++ sprint_int n)%string] | _ => [] end)%list.

Lemma tagComponents_parts : forall td field tag z h cs s cs' s',
  tagComponents td field tag z h cs s = (cs', s') -> gs_errors s' = [] ->
  s' = s /\ cs' = (cs ++ tag_parts td (tag, if h then Some z else None))%list /\
  (exists n, tag_ClassNumber tag = VNumber n) /\
  effective td (if h then Some z else None) <> TAGS_AUTOMATIC.
Proof.
  intros td field tag z h cs s cs' s' H He. unfold tagComponents in H. unfold tag_parts, class_parts. cbn [fst snd].
  assert (Hm : effective td (if h then Some z else None) = if h then z else td) by (destruct h; reflexivity).
  rewrite Hm. set (m := if h then z else td) in *. clearbody m.
  set (cs1 := if tag_Class tag =? CLASS_APPLICATION then _ else _) in H.
  assert (Hc : cs1 = (cs ++ (if tag_Class tag =? CLASS_APPLICATION then ["application"]
                        else if tag_Class tag =? CLASS_PRIVATE then ["private"] else []))%list).
  { unfold cs1. destruct (tag_Class tag =? CLASS_APPLICATION); [reflexivity|].
    destruct (tag_Class tag =? CLASS_PRIVATE); [reflexivity|now rewrite app_nil_r]. }
  clearbody cs1. rewrite app_assoc, <- Hc. clear Hc.
  destruct (Z.eqb_spec m TAGS_EXPLICIT) as [E1|E1].
  - unfold lookupValue in H. destruct (tag_ClassNumber tag); injection H as <- <-; try (now apply append_err in He).
    rewrite <- app_assoc. repeat split; eauto. rewrite E1. discriminate.
  - destruct (Z.eqb_spec m TAGS_IMPLICIT) as [E2|E2].
    + unfold lookupValue in H. destruct (tag_ClassNumber tag); injection H as <- <-; try (now apply append_err in He).
      repeat split; eauto. rewrite E2. discriminate.
    + destruct (Z.eqb_spec m TAGS_AUTOMATIC) as [E3|E3].
      * unfold lookupValue in H. destruct (tag_ClassNumber tag); injection H as <- <-; exfalso;
          cbn in He; now destruct (gs_errors s).
      * unfold lookupValue in H. destruct (tag_ClassNumber tag); injection H as <- <-; try (now apply append_err in He).
        repeat split; eauto.
Qed.

Lemma unwrapTags_parts : forall td field t cs s cs' t' s',
  unwrapTags td field t cs s = (cs', t', s') -> gs_errors s' = [] ->
  s' = s /\ t' = strip t /\ cs' = (cs ++ flat_map (tag_parts td) (tags_of t))%list /\
  Forall (fun p => (exists n, tag_ClassNumber (fst p) = VNumber n) /\ effective td (snd p) <> TAGS_AUTOMATIC) (tags_of t).
Proof.
  intros td field t. induction t using atype_ind'; intros cs s1 cs' t' s1' H1 He; cbn in H1;
    try (injection H1 as <- <- <-; cbn; rewrite app_nil_r; auto).
  - destruct (tagComponents td field g z b cs s1) as [cs1 s2] eqn:E.
    pose proof (unwrapTags_errs _ _ _ _ _ _ _ _ H1) as [Hx _].
    assert (He2 : gs_errors s2 = []) by (eapply ext_noerr; [apply errs_only_ext; exact Hx|assumption]).
    apply IHt in H1 as (-> & -> & -> & Hf); [|assumption].
    apply tagComponents_parts in E as (-> & -> & Hn & Hm); [|assumption].
    cbn [strip tags_of flat_map]. rewrite app_assoc. repeat split; auto.
  - apply IHt; assumption.
Qed.

Lemma no_comma_parts : forall td p, forallb no_comma (tag_parts td p) = true.
Proof.
  intros td [tag mode]. unfold tag_parts, class_parts. cbn [fst snd].
  destruct (tag_Class tag =? CLASS_APPLICATION); [|destruct (tag_Class tag =? CLASS_PRIVATE)];
    (destruct (effective td mode =? TAGS_EXPLICIT)); destruct (tag_ClassNumber tag); try reflexivity;
    cbn [app forallb]; rewrite no_comma_app, sprint_no_comma; reflexivity.
Qed.

Lemma forallb_app' : forall A (f : A -> bool) a b, forallb f (a ++ b)%list = forallb f a && forallb f b.
Proof. exact forallb_app. Qed.

Lemma no_comma_flat : forall td l, forallb no_comma (flat_map (tag_parts td) l) = true.
Proof.
  induction l as [|p l IH]; [reflexivity|]. cbn [flat_map]. now rewrite forallb_app, no_comma_parts, IH.
Qed.

Lemma no_comma_default : forall o d, forallb no_comma (defaultComponents o d) = true.
Proof.
  intros [] [[]|]; try reflexivity; cbn [defaultComponents app forallb]; rewrite no_comma_app, sprint_no_comma; reflexivity.
Qed.

Lemma no_comma_type : forall asg fuel t l, typeComponents asg fuel t = Ok l -> forallb no_comma l = true.
Proof.
  intros asg fuel t l H. destruct t; cbn in H; try (injection H as <-; reflexivity).
  - bind1 H. injection H as <-. destruct (String.eqb x GeneralizedTimeName); [reflexivity|].
    destruct (String.eqb x UTCTimeName); reflexivity.
  - injection H as <-. destruct (_ =? _); [reflexivity|]. destruct (_ =? _); [reflexivity|].
    destruct (_ =? _); reflexivity.
Qed.

Lemma params_fold : forall cs, forallb no_comma cs = true ->
  tag_params (tagLiteral cs) (fold_left field_part cs fp0).
Proof.
  intros cs H. destruct cs as [|c cs].
  - exact tp_none.
  - pose proof (tp_some (join_comma (c :: cs))) as P. unfold parseFieldParameters in P.
    rewrite comma_join in P; [exact P|discriminate|assumption].
Qed.

(** Without errors, the tag read back. *)
Lemma tagOf_params : forall td asg fuel field t o d s tag s',
  asn1TagFromType td asg fuel field t o d s = Ok (tag, s') -> gs_errors s' = [] ->
  exists extra, typeComponents asg fuel (strip t) = Ok extra /\
    Forall (fun p => (exists n, tag_ClassNumber (fst p) = VNumber n) /\ effective td (snd p) <> TAGS_AUTOMATIC) (tags_of t) /\
    tag_params tag
      (fold_left field_part (defaultComponents o d ++ flat_map (tag_parts td) (tags_of t) ++ extra)%list fp0).
Proof.
  intros td asg fuel field t o d s tag s' H He. unfold asn1TagFromType in H.
  destruct (unwrapTags td field t (defaultComponents o d) s) as [[cs leaf] s1] eqn:E.
  bind1 H. injection H as <- <-.
  apply unwrapTags_parts in E as (-> & -> & -> & Hf); [|assumption].
  exists x. repeat split; [assumption|assumption|].
  rewrite <- app_assoc. apply params_fold.
  rewrite !forallb_app, no_comma_default, no_comma_flat. cbn [andb]. eapply no_comma_type; eassumption.
Qed.

(** * Reading it back *)

Lemma fold_default : forall o d, (forall k, d = Some (VNumber k) -> int64 k) ->
  fold_left field_part (defaultComponents o d) fp0 =
  {| fp_optional := o || match d with Some _ => true | None => false end;
     fp_explicit := false; fp_application := false; fp_private := false;
     fp_defaultValue := match d with Some (VNumber k) => Some k | _ => None end;
     fp_tag := None; fp_stringType := 0; fp_timeType := 0; fp_set := false; fp_omitEmpty := false |}.
Proof.
  intros o d Hd. destruct o, d as [[]|]; try reflexivity;
    cbn [defaultComponents app fold_left];
    (rewrite part_default; [reflexivity|apply Hd; reflexivity]).
Qed.

Lemma fold_tag : forall td p r n, tag_ClassNumber (fst p) = VNumber n -> int64 n ->
  fold_left field_part (tag_parts td p) r =
  {| fp_optional := fp_optional r;
     fp_explicit := (effective td (snd p) =? TAGS_EXPLICIT) || fp_explicit r;
     fp_application := (tag_Class (fst p) =? CLASS_APPLICATION) || fp_application r;
     fp_private := (tag_Class (fst p) =? CLASS_PRIVATE) || fp_private r;
     fp_defaultValue := fp_defaultValue r; fp_tag := Some n;
     fp_stringType := fp_stringType r; fp_timeType := fp_timeType r; fp_set := fp_set r;
     fp_omitEmpty := fp_omitEmpty r |}.
Proof.
  intros td [tag mode] r n Hn Hr. unfold tag_parts, class_parts. cbn [fst snd] in *. rewrite Hn.
  rewrite !fold_left_app. cbn [fold_left].
  destruct (effective td mode =? TAGS_EXPLICIT);
    (destruct (Z.eqb_spec (tag_Class tag) CLASS_APPLICATION) as [E|E];
     [rewrite E|destruct (Z.eqb_spec (tag_Class tag) CLASS_PRIVATE) as [E'|E']]);
    cbn [fold_left]; (rewrite part_tag; [reflexivity|exact Hr]).
Qed.

Definition string_part (t : AType_) : Z :=
  match t with
  | TRestrictedString z =>
      if z =? T_IA5String then 22 else if z =? T_UTF8String then 12
      else if z =? T_NumericString then 18 else 0
  | _ => 0
  end.

Definition set_part (t : AType_) : bool :=
  match t with TSet _ _ | TSetOf _ => true | _ => false end.

Lemma fold_extra : forall asg fuel t l r, typeComponents asg fuel t = Ok l ->
  fp_stringType r = 0 -> fp_timeType r = 0 -> fp_set r = false ->
  exists tm, 
  fold_left field_part l r =
  {| fp_optional := fp_optional r; fp_explicit := fp_explicit r;
     fp_application := fp_application r; fp_private := fp_private r;
     fp_defaultValue := fp_defaultValue r; fp_tag := fp_tag r;
     fp_stringType := string_part t; fp_timeType := tm; fp_set := set_part t;
     fp_omitEmpty := fp_omitEmpty r |} /\
  match t with
  | TReference n => exists m lt, leaf_of asg n m lt /\
      tm = if String.eqb m "GeneralizedTime" then 24 else if String.eqb m "UTCTime" then 23 else 0
  | _ => tm = 0
  end.
Proof.
  intros asg fuel t l r H Hs Ht Hset. destruct r as [fo fe fa fpr fd ft fst_ ftm fset fom].
  cbn in Hs, Ht, Hset. subst.
  destruct t; cbn in H; try (injection H as <-; exists 0; split; reflexivity).
  - bind1 H. injection H as <-. apply unwrap_leaf in E as (o & Hl & _).
    destruct (String.eqb_spec x GeneralizedTimeName) as [E1|E1].
    { eexists. split; [reflexivity|]. exists x, o. split; [assumption|]. subst. reflexivity. }
    destruct (String.eqb_spec x UTCTimeName) as [E2|E2].
    { eexists. split; [reflexivity|]. exists x, o. split; [assumption|]. subst. reflexivity. }
    exists 0. split; [reflexivity|]. exists x, o. split; [assumption|].
    apply String.eqb_neq in E1. apply String.eqb_neq in E2.
    unfold GeneralizedTimeName, UTCTimeName in *. now rewrite E1, E2.
  - injection H as <-. exists 0. split; [|reflexivity]. unfold string_part.
    destruct (lextype =? T_IA5String); [reflexivity|].
    destruct (lextype =? T_UTF8String); [reflexivity|].
    destruct (lextype =? T_NumericString); reflexivity.
Qed.

Lemma set_part_iff : forall t, set_part (strip t) = true <-> is_set t.
Proof.
  intro t. unfold is_set. destruct (strip t) eqn:E; cbn; split; intro H; try discriminate; eauto;
    destruct H as [(c0 & x0 & H)|(t0 & H)]; try discriminate; reflexivity.
Qed.

Lemma tagOf_means : forall td asg fuel field t o d s tag s',
  asn1TagFromType td asg fuel field t o d s = Ok (tag, s') -> gs_errors s' = [] -> expressible t d ->
  exists fp, tag_params tag fp /\ component_params td asg t o d fp.
Proof.
  intros td asg fuel field t o d s tag s' H He (Hlen & Hcls & Hd).
  apply tagOf_params in H as (extra & Hx & Hf & Hp); [|assumption].
  eexists. split; [exact Hp|].
  rewrite !fold_left_app, fold_default by assumption.
  set (r0 := {| fp_optional := _ |}).
  assert (Hr : exists r1, fold_left field_part (flat_map (tag_parts td) (tags_of t)) r0 = r1 /\
    fp_optional r1 = fp_optional r0 /\ fp_defaultValue r1 = fp_defaultValue r0 /\
    fp_stringType r1 = 0 /\ fp_timeType r1 = 0 /\ fp_set r1 = false /\ fp_omitEmpty r1 = false /\
    (tags_of t = [] -> fp_tag r1 = None /\ fp_explicit r1 = false) /\
    (forall tag mode, tags_of t = [(tag, mode)] ->
      (exists k, tag_ClassNumber tag = VNumber k /\ fp_tag r1 = Some k) /\
      fp_class r1 = tag_Class tag /\
      (fp_explicit r1 = true <-> effective td mode = TAGS_EXPLICIT))).
  { destruct (tags_of t) as [|[g mode] [|? ?]]; [| |cbn in Hlen; lia].
    - exists r0. cbn [flat_map fold_left]. repeat split; try reflexivity; discriminate.
    - inv Hf. destruct H1 as [[n Hn] Hm]. inv Hcls. destruct H1 as [Hc Hr]. specialize (Hr _ Hn).
      cbn [flat_map]. rewrite app_nil_r. rewrite (fold_tag _ _ _ _ Hn Hr).
      eexists. split; [reflexivity|]. cbn [fst snd] in *.
      do 6 (split; [reflexivity|]). split; [discriminate|].
      intros tag' mode' Heq. injection Heq as <- <-. split; [eauto|]. split.
      + unfold fp_class. cbn [fp_application fp_private fp_explicit]. rewrite !orb_false_r.
        destruct Hc as [Hc|[Hc|[Hc|[]]]]; rewrite <- Hc; reflexivity.
      + unfold r0. cbn [fp_explicit]. rewrite orb_false_r. apply Z.eqb_eq. }
  destruct Hr as (r1 & -> & Ho & Hdf & Hs & Ht & Hset & Hom & Hu & Htg).
  destruct (fold_extra _ _ _ _ r1 Hx Hs Ht Hset) as (tm & -> & Htm).
  constructor; cbn [fp_optional fp_explicit fp_application fp_private fp_defaultValue fp_tag fp_stringType fp_timeType fp_set fp_omitEmpty fp_class].
  - rewrite Ho. unfold r0. cbn [fp_optional]. destruct o, d; cbn; intuition (congruence || discriminate).
  - intro k. rewrite Hdf. unfold r0. cbn [fp_defaultValue]. destruct d as [[]|]; split; intro Hk; try discriminate; injection Hk as ->; reflexivity.
  - assumption.
  - intros g mode Hg. destruct (Htg g mode Hg) as (A & B & C). auto.
  - apply set_part_iff.
  - reflexivity.
  - intros n m lt Hst Hl. rewrite Hst in Htm. destruct Htm as (m' & lt' & Hl' & ->).
    destruct (leaf_det _ _ _ _ _ _ Hl Hl') as [-> _]. reflexivity.
  - intro Hn. destruct (strip t) eqn:Es; try assumption. exfalso. exact (Hn _ eq_refl).
  - assumption.
Qed.

(** With several tags the last one is the one that counts. *)
Lemma tagOf_inner : forall td asg fuel field t o d s tag s' l x,
  asn1TagFromType td asg fuel field t o d s = Ok (tag, s') -> gs_errors s' = [] ->
  tags_of t = (l ++ [x])%list ->
  (forall k, tag_ClassNumber (fst x) = VNumber k -> int64 k) ->
  exists fp k, tag_params tag fp /\ tag_ClassNumber (fst x) = VNumber k /\ fp_tag fp = Some k.
Proof.
  intros td asg fuel field t o d s tag s' l x H He Hl Hn.
  apply tagOf_params in H as (extra & Hx & Hf & Hp); [|assumption].
  rewrite Hl in Hf, Hp. apply Forall_app in Hf as [_ Hf]. apply Forall_cons_iff in Hf as [[[k Hk] _] _].
  exists (fold_left field_part (defaultComponents o d ++ flat_map (tag_parts td) (l ++ [x]) ++ extra)%list fp0), k.
  split; [exact Hp|]. split; [exact Hk|].
  rewrite !fold_left_app, flat_map_app, fold_left_app.
  set (r := fold_left field_part (flat_map (tag_parts td) l) (fold_left field_part (defaultComponents o d) fp0)).
  cbn [flat_map]. rewrite app_nil_r, (fold_tag _ _ _ k Hk (Hn _ Hk)).
  set (r1 := {| fp_optional := _ |}). assert (Hr : fp_tag r1 = Some k) by reflexivity. clearbody r1.
  assert (HE : forall w, (w = [] \/ exists v, w = [v] /\ In v ["ia5"; "utf8"; "numeric"; "set"; "generalized"; "utc"]) ->
    fp_tag (fold_left field_part w r1) = Some k).
  { intros w [->|(v & -> & Hv)]; [exact Hr|]. cbn in Hv. repeat destruct Hv as [<-|Hv]; try contradiction; exact Hr. }
  apply HE. clear -Hx. unfold typeComponents in Hx. destruct (strip t); try (injection Hx as <-; left; reflexivity).
  - bind1 Hx. injection Hx as <-. destruct (String.eqb _ _); [right; eexists; split; [reflexivity|cbn; auto 8]|].
    destruct (String.eqb _ _); [right; eexists; split; [reflexivity|cbn; auto 8]|left; reflexivity].
  - injection Hx as <-. destruct (_ =? _); [right; eexists; split; [reflexivity|cbn; auto 8]|].
    destruct (_ =? _); [right; eexists; split; [reflexivity|cbn; auto 8]|].
    destruct (_ =? _); [right; eexists; split; [reflexivity|cbn; auto 8]|left; reflexivity].
  - injection Hx as <-. right; eexists; split; [reflexivity|cbn; auto 8].
  - injection Hx as <-. right; eexists; split; [reflexivity|cbn; auto 8].
Qed.

(** Tagging is explicit exactly if the mode of one of the tags is. *)
Lemma tagOf_explicit : forall td asg fuel field t o d s tag s',
  asn1TagFromType td asg fuel field t o d s = Ok (tag, s') -> gs_errors s' = [] ->
  Forall (fun x => forall k, tag_ClassNumber (fst x) = VNumber k -> int64 k) (tags_of t) ->
  (forall k, d = Some (VNumber k) -> int64 k) ->
  exists fp, tag_params tag fp /\
    (fp_explicit fp = true <-> Exists (fun x => effective td (snd x) = TAGS_EXPLICIT) (tags_of t)).
Proof.
  intros td asg fuel field t o d s tag s' H He Hn Hd.
  apply tagOf_params in H as (extra & Hx & Hf & Hp); [|assumption].
  eexists. split; [exact Hp|]. rewrite !fold_left_app, (fold_default _ _ Hd).
  set (r := {| fp_optional := _ |}). assert (Hr : fp_explicit r = false) by reflexivity. clearbody r. clear Hp He Hd.
  assert (HE : forall r w, (w = [] \/ exists v, w = [v] /\ In v ["ia5"; "utf8"; "numeric"; "set"; "generalized"; "utc"]) ->
    fp_explicit (fold_left field_part w r) = fp_explicit r).
  { intros q w [->|(v & -> & Hv)]; [reflexivity|]. cbn in Hv. repeat destruct Hv as [<-|Hv]; try contradiction; reflexivity. }
  rewrite HE.
  - clear HE Hx. assert (G : forall l r, Forall (fun x => forall k, tag_ClassNumber (fst x) = VNumber k -> int64 k) l ->
      Forall (fun p => (exists n, tag_ClassNumber (fst p) = VNumber n) /\ effective td (snd p) <> TAGS_AUTOMATIC) l ->
      (fp_explicit (fold_left field_part (flat_map (tag_parts td) l) r) = true <->
       fp_explicit r = true \/ Exists (fun x => effective td (snd x) = TAGS_EXPLICIT) l)).
    { induction l as [|x l IH]; intros q H1 H2.
      - cbn. split; [auto|]. intros [A|A]; [exact A|inversion A].
      - apply Forall_cons_iff in H1 as [A B]. apply Forall_cons_iff in H2 as [[[k Hk] _] C].
        cbn [flat_map]. rewrite fold_left_app, (fold_tag _ _ _ k Hk (A _ Hk)), (IH _ B C). cbn [fp_explicit].
        rewrite Bool.orb_true_iff, Z.eqb_eq, Exists_cons. tauto. }
    rewrite (G _ r Hn Hf), Hr. intuition discriminate.
  - clear -Hx. unfold typeComponents in Hx. destruct (strip t); try (injection Hx as <-; left; reflexivity).
    + bind1 Hx. injection Hx as <-. destruct (String.eqb _ _); [right; eexists; split; [reflexivity|cbn; auto 8]|].
      destruct (String.eqb _ _); [right; eexists; split; [reflexivity|cbn; auto 8]|left; reflexivity].
    + injection Hx as <-. destruct (_ =? _); [right; eexists; split; [reflexivity|cbn; auto 8]|].
      destruct (_ =? _); [right; eexists; split; [reflexivity|cbn; auto 8]|].
      destruct (_ =? _); [right; eexists; split; [reflexivity|cbn; auto 8]|left; reflexivity].
    + injection Hx as <-. right; eexists; split; [reflexivity|cbn; auto 8].
    + injection Hx as <-. right; eexists; split; [reflexivity|cbn; auto 8].
Qed.
