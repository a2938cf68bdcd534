(** Top-level names and value names of a generated file; when Generate succeeds. *)
From Coq Require Import ZArith String Ascii List Bool Lia SpecFloat.
From Verif Require Import GoBase Utf8 Unicode Tokens Ast GoAst Codegen CodegenSpec CodegenFacts CodegenInv CodegenDecl
  CodegenTag CodegenTerm CodegenSupp GoifyFacts CodegenShape.
Import ListNotations.
Local Open Scope string_scope.
Local Open Scope Z_scope.

(** * Strings *)

Lemma str_app_assoc : forall a b c : string, (a ++ b) ++ c = a ++ b ++ c.
Proof. induction a as [|x a IH]; intros b c; [reflexivity|]. cbn. now rewrite IH. Qed.

Lemma str_app_inj_l : forall a b c : string, a ++ b = a ++ c -> b = c.
Proof. induction a as [|x a IH]; intros b c H; [exact H|]. cbn in H. injection H as H. auto. Qed.

Lemma str_app_inj_r : forall c a b : string, a ++ c = b ++ c -> a = b.
Proof.
  intros c. assert (L : forall a b : string, String.length (a ++ b) = (String.length a + String.length b)%nat).
  { induction a as [|x a IH]; intro b; [reflexivity|]. cbn. now rewrite IH. }
  induction a as [|x a IH]; intros [|y b] H; [reflexivity| | |].
  - exfalso. apply (f_equal String.length) in H. cbn in H. rewrite L in H. lia.
  - exfalso. apply (f_equal String.length) in H. cbn in H. rewrite L in H. lia.
  - cbn in H. injection H as -> H. f_equal. auto.
Qed.

Lemma val_inside_cons : forall c s, val_inside s -> val_inside (String c s).
Proof. intros c s (a & b & -> & H). exists (String c a), b. split; [reflexivity|exact H]. Qed.

Lemma head_capital : forall a b, capital_or_end (a ++ b) -> capital_or_end a.
Proof. intros [|c a] b H; [exact I|exact H]. Qed.

(** "Val" does not overlap with itself, so its first occurrence is where it was put. *)
Lemma first_val : forall a b x y, ~ val_inside a -> ~ val_inside b -> capital_or_end x -> capital_or_end y ->
  a ++ "Val" ++ x = b ++ "Val" ++ y -> a = b /\ x = y.
Proof.
  assert (E0 : forall b x y, b <> "" -> ~ val_inside b -> capital_or_end x -> "Val" ++ x <> b ++ "Val" ++ y).
  { intros b x y Hb Hn Hx H. destruct b as [|c1 [|c2 [|c3 b]]]; [contradiction|cbn in H; injection H; discriminate|
      cbn in H; injection H; discriminate|]. cbn in H. injection H as <- <- <- ->.
    apply Hn. exists "", b. split; [reflexivity|]. exact (head_capital _ _ Hx). }
  induction a as [|c a IH]; intros [|d b] x y Ha Hb Hx Hy H.
  - cbn in H. injection H as ->. auto.
  - exfalso. eapply (E0 (String d b)); [discriminate|assumption|exact Hx|exact H].
  - exfalso. eapply (E0 (String c a)); [discriminate|assumption|exact Hy|symmetry; exact H].
  - cbn in H. injection H as -> H. apply IH in H as [-> ->]; auto; intro Ho; [apply Ha|apply Hb]; now apply val_inside_cons.
Qed.

Lemma val_not_set : forall a x b, ~ val_inside b -> capital_or_end x -> a ++ "Val" ++ x <> b ++ "SET".
Proof.
  assert (E0 : forall b x, ~ val_inside b -> capital_or_end x -> "Val" ++ x <> b ++ "SET").
  { intros b x Hn Hx H. destruct b as [|c1 [|c2 [|c3 b]]]; try (cbn in H; discriminate H).
    cbn in H. injection H as <- <- <- ->. apply Hn. exists "", b. split; [reflexivity|]. exact (head_capital _ _ Hx). }
  induction a as [|c a IH]; intros x b Hb Hx H; [now apply E0 in H|].
  destruct b as [|d b].
  - cbn in H. injection H as -> H. destruct a as [|? [|? [|? a]]]; cbn in H; try discriminate H.
  - cbn in H. injection H as -> H. apply IH in H; auto. intro Ho. apply Hb. now apply val_inside_cons.
Qed.

Lemma hyphen_app_inv : forall s a b, replace_hyphen s = a ++ b ->
  exists x y, s = x ++ y /\ replace_hyphen x = a /\ replace_hyphen y = b.
Proof.
  induction s as [|c s IH]; intros [|d a] b H.
  - exists "", "". cbn in *. auto.
  - discriminate.
  - exists "", (String c s). auto.
  - cbn in H. injection H as Hd H. apply IH in H as (x & y & -> & <- & <-).
    exists (String c x), y. split; [reflexivity|]. split; [|reflexivity]. cbn. now rewrite Hd.
Qed.

Lemma goify_no_val : forall U n, ascii_type_name n -> ~ val_inside n -> ~ val_inside (goifyName U n).
Proof.
  intros U n Hn Ho (a & b & H & C). rewrite goify_type_name in H by assumption. apply Ho.
  apply hyphen_app_inv in H as (x & y & -> & _ & Hy).
  destruct y as [|c1 [|c2 [|c3 y]]]; try discriminate. cbn in Hy. injection Hy as H1 H2 H3 Hb.
  destruct (Ascii.eqb_spec c1 "-"); [discriminate|]. destruct (Ascii.eqb_spec c2 "-"); [discriminate|].
  destruct (Ascii.eqb_spec c3 "-"); [discriminate|]. subst. exists x, y. split; [reflexivity|].
  destruct y as [|c y]; [exact I|]. cbn in C. destruct (Ascii.eqb_spec c "-"); [discriminate|exact C].
Qed.

Lemma goify_capital : forall U n, ascii_name n -> capital_or_end (goifyName U n).
Proof.
  intros U n Hn. pose proof (goify_exported U n Hn) as H. destruct (goifyName U n) as [|c s]; [exact I|exact (proj1 H)].
Qed.

Lemma goify_no_set : forall U n, ascii_type_name n -> ~ ends_with "SET" n -> ~ ends_with "SET" (goifyName U n).
Proof.
  intros U n Hn Ho (a & H). rewrite goify_type_name in H by assumption. apply Ho.
  apply hyphen_app_inv in H as (x & y & -> & _ & Hy). exists x. f_equal.
  destruct y as [|c1 [|c2 [|c3 [|? ?]]]]; try discriminate. cbn in Hy. injection Hy as H1 H2 H3.
  destruct (Ascii.eqb_spec c1 "-"); [discriminate|]. destruct (Ascii.eqb_spec c2 "-"); [discriminate|].
  destruct (Ascii.eqb_spec c3 "-"); [discriminate|]. subst. reflexivity.
Qed.

(** * Keys of top-level names *)

Inductive key : Type :=
| KType (n : string) | KSet (n : string) | KVal (n : string) | KNum (n x : string).

Definition owner (k : key) : string := match k with KType n | KSet n | KVal n | KNum n _ => n end.

Section Names.
  Context (U : unicode_tables) (fmt : spec_float -> string) (p : GenParams).
  Context (tagDefault : Z) (asg : list Assignment_) (fuel : nat).

  Definition key_name (k : key) : string :=
    match k with
    | KType n => goifyName U n
    | KSet n => goifyName U n ++ "SET"
    | KVal n => "Val" ++ goifyName U n
    | KNum n x => goifyName U n ++ "Val" ++ goifyName U x
    end.

  Definition type_ok (n : string) : Prop := ascii_type_name n /\ ~ val_inside n /\ ~ ends_with "SET" n.

  Definition key_ok (k : key) : Prop :=
    match k with
    | KType n | KSet n => type_ok n
    | KVal n => ascii_value_name n
    | KNum n x => type_ok n /\ ascii_value_name x
    end.

  Lemma key_inj : forall k k', key_ok k -> key_ok k' -> key_name k = key_name k' -> k = k'.
  Proof.
    assert (TN : forall n, type_ok n -> goifyName U n <> "").
    { intros n [[Hn _] _] H. pose proof (goify_exported U n Hn) as Hx. rewrite H in Hx. exact Hx. }
    assert (TS : forall n n', type_ok n -> goifyName U n' ++ "SET" <> goifyName U n).
    { intros n n' (Hn & _ & Hs) H. apply (goify_no_set U n Hn Hs). eexists. symmetry. exact H. }
    assert (NV : forall n, ascii_value_name n -> capital_or_end (goifyName U n)).
    { intros n [Hn _]. now apply goify_capital. }
    assert (TX : forall n a x, type_ok n -> ascii_value_name x -> a ++ "Val" ++ goifyName U x <> goifyName U n).
    { intros n a x (Hn & Hv & _) Hx H. apply (goify_no_val U n Hn Hv). exists a, (goifyName U x). split; [symmetry; exact H|auto]. }
    assert (TV : forall n x, type_ok n -> ascii_value_name x -> "Val" ++ goifyName U x <> goifyName U n).
    { intros n x. exact (TX n "" x). }
    assert (SV : forall n a x, type_ok n -> ascii_value_name x -> a ++ "Val" ++ goifyName U x <> goifyName U n ++ "SET").
    { intros n a x (Hn & Hv & _) Hx. apply val_not_set; [now apply goify_no_val|auto]. }
    assert (VX : forall n x y, type_ok n -> ascii_value_name x -> ascii_value_name y ->
      "Val" ++ goifyName U x <> goifyName U n ++ "Val" ++ goifyName U y).
    { intros n x y Ht Hx Hy H. pose proof Ht as (Hn & Hv & Hs). apply (first_val "" _ _ _) in H as [H _]; auto.
      - apply (TN n); [assumption|now symmetry].
      - intros ([|] & b & H' & _); discriminate.
      - now apply goify_no_val. }
    intros [n|n|n|n x] [n'|n'|n'|n' x'] H1 H2 H; cbn [key_name key_ok] in *.
    all: try (exfalso; (eapply TS + eapply TV + eapply VX + eapply TX + eapply SV + eapply (SV _ "")); [..|exact H]; tauto).
    all: try (exfalso; (eapply TS + eapply TV + eapply VX + eapply TX + eapply SV + eapply (SV _ "")); [..|symmetry; exact H]; tauto).
    - f_equal. eapply goify_inj_type; [apply H1|apply H2|exact H].
    - f_equal. apply str_app_inj_r in H. eapply goify_inj_type; [apply H1|apply H2|exact H].
    - f_equal. cbn in H. injection H as H. eapply goify_inj_value; eassumption.
    - destruct H1 as [T1 X1], H2 as [T2 X2].
      apply first_val in H as [Ha Hb]; [|apply goify_no_val; apply T1|apply goify_no_val; apply T2|now apply NV|now apply NV].
      f_equal; [eapply goify_inj_type; [apply T1|apply T2|exact Ha]|eapply goify_inj_value; eassumption].
  Qed.

  (** Keys declared by an assignment. *)
  Definition keys_of (a : Assignment_) (ks : list key) : Prop :=
    match a with
    | ANil => ks = []
    | AType n t => exists l h, ks = ((if h : bool then [KSet n; KType n] else [KType n]) ++ map (KNum n) l)%list /\
        (l = [] \/ exists l', strip t = TInteger l' /\ l = map nn_Name l')
    | AValue n _ _ => ks = [KVal n] \/ ks = []
    end.

  Definition asg_name (a : Assignment_) : list string :=
    match a with ANil => [] | AType n _ | AValue n _ _ => [n] end.

  Lemma keys_owner : forall a ks, keys_of a ks -> forall k, In k ks -> In (owner k) (asg_name a).
  Proof.
    intros [|n t|n t v] ks H k Hk; cbn in H.
    - subst. contradiction.
    - destruct H as (l & h & -> & _). left.
      apply in_app_iff in Hk as [Hk|Hk].
      + destruct h; cbn in Hk; repeat destruct Hk as [<-|Hk]; try contradiction; reflexivity.
      + apply in_map_iff in Hk as (x & <- & _). reflexivity.
    - destruct H as [->| ->]; [|contradiction]. destruct Hk as [<-|[]]. now left.
  Qed.

  Lemma NoDup_app : forall A (a b : list A), NoDup a -> NoDup b -> (forall x, In x a -> ~ In x b) -> NoDup (a ++ b).
  Proof.
    induction 1 as [|x a Hx Ha IH]; intros Hb Hd; [assumption|]. cbn. constructor.
    - intro H. apply in_app_iff in H as [H|H]; [contradiction|]. eapply Hd; [now left|eassumption].
    - apply IH; [assumption|]. intros y Hy. apply Hd. now right.
  Qed.

  Lemma keys_nodup1 : forall a ks, keys_of a ks ->
    (forall n t l, a = AType n t -> strip t = TInteger l -> NoDup (map nn_Name l)) -> NoDup ks.
  Proof.
    intros [|n t|n t v] ks H Hl; cbn in H.
    - subst. constructor.
    - destruct H as (l & h & -> & Hl'). apply NoDup_app.
      + destruct h; repeat constructor; cbn; intuition discriminate.
      + assert (Hn : NoDup l) by (destruct Hl' as [->|(l' & Hs & ->)]; [constructor|eapply Hl; eauto]).
        clear Hl'. induction Hn as [|x l Hx Hn IH]; cbn; constructor; [|assumption].
        intro Hi. apply in_map_iff in Hi as (y & Hy & Hi). injection Hy as ->. contradiction.
      + intros k Hk Hk'. apply in_map_iff in Hk' as (x & <- & _).
        destruct h; cbn in Hk; intuition discriminate.
    - destruct H as [->| ->]; repeat constructor. intros [].
  Qed.

  Lemma keys_nodup : forall l kss, Forall2 keys_of l kss -> NoDup (flat_map asg_name l) ->
    (forall n t nl, In (AType n t) l -> strip t = TInteger nl -> NoDup (map nn_Name nl)) -> NoDup (concat kss).
  Proof.
    induction 1 as [|a ks l kss Ha Hf IH]; intros Hn Hl; cbn; [constructor|].
    cbn in Hn. assert (Hn2 : NoDup (flat_map asg_name l)).
    { destruct a; cbn in Hn; [assumption| |]; now inv Hn. }
    apply NoDup_app.
    - eapply keys_nodup1; [eassumption|]. intros n t nl ->. apply (Hl n t nl). now left.
    - apply IH; [assumption|]. intros. eapply Hl; [right; eassumption|eassumption].
    - intros k Hk Hk'. pose proof (keys_owner _ _ Ha _ Hk) as H1.
      assert (H2 : In (owner k) (flat_map asg_name l)).
      { clear -Hf Hk'. induction Hf as [|b ks' l kss Hb Hf IH]; [contradiction|]. cbn in Hk'. cbn.
        apply in_app_iff in Hk' as [Hk'|Hk']; apply in_or_app; [left|right; auto].
        eapply keys_owner; eassumption. }
      destruct a; cbn in H1, Hn; [contradiction| |]; destruct H1 as [->|[]]; inv Hn; contradiction.
  Qed.

  Lemma NoDup_map_inj : forall A B (g : A -> B) (P : A -> Prop) l, (forall x y, P x -> P y -> g x = g y -> x = y) ->
    Forall P l -> NoDup l -> NoDup (map g l).
  Proof.
    intros A B g P l Hg Hp Hn. induction Hn as [|x l Hx Hn IH]; cbn; [constructor|]. inv Hp.
    constructor; [|auto]. intro Hi. apply in_map_iff in Hi as (y & Hy & Hi).
    assert (y = x). { apply Hg; [|assumption|assumption]. eapply Forall_forall; eassumption. }
    subst. contradiction.
  Qed.

  Definition decl_names (ds : list godecl) : list string :=
    flat_map (fun s => match s with TypeSpec n _ _ => [n] | ValueSpec n _ _ => [n] | ImportSpec _ => [] end)
      (flat_map gd_specs ds).

  Lemma decl_names_app : forall a b, decl_names (a ++ b) = (decl_names a ++ decl_names b)%list.
  Proof. intros. unfold decl_names. now rewrite !flat_map_app. Qed.

  Lemma decl_names_cons : forall d ds, decl_names (d :: ds) = (decl_names [d] ++ decl_names ds)%list.
  Proof. intros. apply (decl_names_app [d] ds). Qed.

  Lemma number_names : forall repr n l specs, Forall2 (number_spec U repr n) l specs ->
    flat_map (fun s => match s with TypeSpec n _ _ => [n] | ValueSpec n _ _ => [n] | ImportSpec _ => [] end) specs
    = map key_name (map (KNum n) (map nn_Name l)).
  Proof.
    induction 1 as [|x sp l specs Hx Hf IH]; [reflexivity|]. cbn. rewrite IH.
    destruct Hx as (e & -> & _). reflexivity.
  Qed.

  Lemma group_keys : forall params fin a g, group U fmt params tagDefault asg fuel fin a g ->
    exists ks, keys_of a ks /\ decl_names g = map key_name ks.
  Proof.
    intros params fin [|n t|n t v] g H; cbn in H.
    - subst. exists []. split; reflexivity.
    - destruct H as (s & e & b & s1 & o & s2 & _ & _ & Ha & He & ->).
      assert (Hd : decl_names [type_decl U n e b] = map key_name (if b then [KSet n; KType n] else [KType n])).
      { destruct b; reflexivity. }
      apply (assoc_numbers _ _ _ _ _ _ _ Ha) in He.
      rewrite decl_names_cons, Hd.
      destruct He as [(l & specs & Hs & Hl & Hf & Ho)|[_ Ho]]; rewrite Ho.
      + eexists. split; [exists (map nn_Name l), b; split; [reflexivity|right; eauto]|].
        rewrite map_app. f_equal. unfold decl_names. cbn [flat_map gd_specs]. rewrite app_nil_r.
        eapply number_names; eassumption.
      + eexists. split; [exists [], b; split; [reflexivity|left; reflexivity]|]. rewrite map_app. reflexivity.
    - destruct H as [[_ ->]|(ve & te & s & b & s1 & _ & _ & _ & _ & ->)].
      + exists []. split; [right|]; reflexivity.
      + exists [KVal n]. split; [left|]; reflexivity.
  Qed.

  Lemma groups_keys : forall params fin l gs, Forall2 (group U fmt params tagDefault asg fuel fin) l gs ->
    exists kss, Forall2 keys_of l kss /\ decl_names (concat gs) = map key_name (concat kss).
  Proof.
    induction 1 as [|a g l gs Ha Hf IH]; [exists []; split; [constructor|reflexivity]|].
    destruct IH as (kss & H1 & H2). apply group_keys in Ha as (ks & H3 & H4).
    exists (ks :: kss). split; [now constructor|]. cbn [concat]. rewrite decl_names_app, map_app. congruence.
  Qed.
End Names.

(** Names as the lexer makes them, in ASCII, that keep clear of the generator's own affixes. *)
Lemma unique_names : forall U fmt p fuel m f,
  Generate U fmt p fuel m = Ok (GenOk f) ->
  NoDup (flat_map asg_name (mb_AssignmentList (md_ModuleBody m))) ->
  Forall (fun a =>
    match a with
    | AType n t => type_ok n /\
        (forall l, strip t = TInteger l -> NoDup (map nn_Name l) /\ Forall ascii_value_name (map nn_Name l))
    | AValue n _ _ => ascii_value_name n
    | ANil => True
    end) (mb_AssignmentList (md_ModuleBody m)) ->
  NoDup (top_names f).
Proof.
  intros U fmt p fuel m f H Hn Ha.
  destruct (file_groups _ _ _ _ _ _ H) as (fin & gs & Hf & _ & _ & _ & Hg).
  apply groups_keys in Hg as (kss & Hk & Hd).
  assert (Ht : top_names f = decl_names (concat gs)).
  { unfold top_names. rewrite (file_specs_app _ _ _ Hf), flat_map_app. unfold decl_names.
    replace (flat_map _ (map ImportSpec (gs_modules fin))) with (@nil string); [reflexivity|].
    clear; induction (gs_modules fin) as [|x l IH]; [reflexivity|exact IH]. }
  rewrite Ht, Hd. apply NoDup_map_inj with (P := key_ok).
  - apply key_inj.
  - clear -Hk Ha. induction Hk as [|a ks l kss Hk Hf IH]; [constructor|]. apply Forall_cons_iff in Ha as [Ha Hl].
    cbn. apply Forall_app. split; [|auto].
    destruct a as [|n t|n t v]; cbn in Hk.
    + subst. constructor.
    + destruct Hk as (l0 & h & -> & Hl0). destruct Ha as [Ht Hi]. apply Forall_app. split.
      * destruct h; repeat constructor; apply Ht.
      * destruct Hl0 as [->|(l' & Hs & ->)]; [constructor|]. destruct (Hi _ Hs) as [_ Hv].
        clear -Ht Hv. induction (map nn_Name l') as [|x l IH]; cbn; [constructor|]. inv Hv.
        constructor; [split; assumption|auto].
    + destruct Hk as [->| ->]; [constructor; [exact Ha|constructor]|constructor].
  - eapply keys_nodup; [eassumption|assumption|]. intros n t nl Hi Hs.
    rewrite Forall_forall in Ha. specialize (Ha _ Hi). cbn in Ha. apply Ha in Hs. tauto.
Qed.

(** * Value names *)

Lemma in_vars : forall ds n t e d, In d ds -> In (ValueSpec n t e) (gd_specs d) -> In n (decl_vars ds).
Proof.
  intros ds n t e d Hd Hs. unfold decl_vars. apply in_flat_map. exists (ValueSpec n t e). split; [|now left].
  apply in_flat_map. eauto.
Qed.

(** The names in initialisers. *)
Lemma value_idents : forall U fmt p fuel m f,
  Generate U fmt p fuel m = Ok (GenOk f) ->
  forall id, In id (flat_map spec_value_idents (file_specs f)) ->
  (id = "big.NewInt" /\ integer_repr p = "big.Int") \/
  exists n t l x d, In (AType n t) (mb_AssignmentList (md_ModuleBody m)) /\ strip t = TInteger l /\ In x l /\
    nn_Value x = NDefined d /\ id = "Val" ++ goifyName U (dv_ValueName d).
Proof.
  intros U fmt p fuel m f H id Hid.
  destruct (file_groups _ _ _ _ _ _ H) as (fin & gs & Hf & _ & _ & _ & Hg).
  rewrite (file_specs_app _ _ _ Hf), flat_map_app in Hid. apply in_app_iff in Hid as [Hid|Hid].
  { exfalso. clear -Hid. induction (gs_modules fin); [contradiction|auto]. }
  apply in_flat_map in Hid as (sp & Hsp & Hid). apply in_flat_map in Hsp as (d & Hd & Hsp).
  apply in_concat in Hd as (g & Hg1 & Hd).
  assert (HN : forall repr z e, denotes_int repr z e -> In id (expr_idents e) -> id = "big.NewInt" /\ repr = "big.Int").
  { intros repr z e (s & _ & [[-> ->]|[_ ->]]) Hi; cbn in Hi; [|contradiction]. destruct Hi as [<-|[]]. auto. }
  assert (Hex : exists a, In a (mb_AssignmentList (md_ModuleBody m)) /\
    group U fmt (NewCodeGenerator p) (md_TagDefault m) (mb_AssignmentList (md_ModuleBody m)) fuel fin a g).
  { clear -Hg Hg1. revert Hg. generalize (mb_AssignmentList (md_ModuleBody m)) at 2 3. intros l Hg.
    induction Hg; [contradiction|]. destruct Hg1 as [<-|Hi]; [eexists; split; [now left|eassumption]|].
    destruct (IHHg Hi) as (a & Ha & Hb). exists a. split; [now right|assumption]. }
  destruct Hex as (a & Hia & Hga). destruct a as [|n t|n t v]; cbn in Hga.
  - subst. contradiction.
  - destruct Hga as (s & e & b & s1 & o & s2 & _ & _ & Ha & He & ->).
    destruct Hd as [<-|Hd].
    { exfalso. unfold type_decl in Hsp. destruct b; cbn in Hsp; repeat destruct Hsp as [<-|Hsp]; contradiction. }
    apply (assoc_numbers _ _ _ _ _ _ _ Ha) in He.
    destruct He as [(l & specs & Hs & Hl & Hf2 & Ho)|[_ Ho]]; rewrite Ho in Hd; [|contradiction].
    destruct Hd as [<-|[]]. cbn in Hsp.
    assert (Hx : exists x, In x l /\ number_spec U (gp_IntegerRepr (NewCodeGenerator p)) n x sp).
    { clear -Hf2 Hsp. induction Hf2; [contradiction|]. destruct Hsp as [<-|Hsp]; [eexists; split; [now left|eassumption]|].
      destruct (IHHf2 Hsp) as (y' & A & B). exists y'. split; [now right|assumption]. }
    destruct Hx as (x & Hx & ex & -> & Hv). cbn in Hid. destruct (nn_Value x) as [|z|dv] eqn:Ev.
    + subst ex. contradiction.
    + left. destruct (HN _ _ _ Hv Hid) as [-> Hr]. rewrite params_repr in Hr. auto.
    + destruct Hv as [_ ->]. destruct Hid as [<-|[]]. right. exists n, t, l, x, dv. auto.
  - destruct Hga as [[_ ->]|(ve & te & s & b & s1 & Hv & _ & _ & _ & ->)]; [contradiction|].
    destruct Hd as [<-|[]]. destruct Hsp as [<-|[]]. cbn in Hid. apply value_expr_of in Hv.
    inv Hv; try contradiction. left. destruct (HN _ _ _ H0 Hid) as [-> Hr]. rewrite params_repr in Hr. auto.
Qed.

Lemma value_declared : forall U fmt p fuel m f n t v,
  Generate U fmt p fuel m = Ok (GenOk f) ->
  In (AValue n t v) (mb_AssignmentList (md_ModuleBody m)) -> is_literal v ->
  In ("Val" ++ goifyName U n) (declared_vars f).
Proof.
  intros U fmt p fuel m f n t v H Hi Hl.
  destruct (file_groups _ _ _ _ _ _ H) as (fin & gs & Hf & _ & _ & _ & Hg).
  rewrite (declared_vars_eq _ _ _ Hf). revert Hi Hg. generalize (mb_AssignmentList (md_ModuleBody m)) at 1 3. intros l Hi Hg.
  clear Hf. induction Hg as [|a g l gs Ha Hg IH]; [contradiction|]. cbn [concat]. rewrite decl_vars_app. apply in_or_app.
  destruct Hi as [->|Hi]; [left|right; auto]. cbn in Ha. destruct Ha as [[Hn _]|(ve & te & s & b & s1 & _ & _ & _ & _ & ->)].
  - apply (literal_iff fmt (NewCodeGenerator p)) in Hl. contradiction.
  - now left.
Qed.

(** * Imports *)

Lemma qualifier_app : forall a b, qualifier a = None -> qualifier b = None -> qualifier (a ++ b) = None.
Proof.
  induction a as [|c a IH]; intros b Ha Hb; [exact Hb|]. cbn in *.
  destruct (Ascii.eqb c "."); [discriminate|]. destruct (qualifier a); [discriminate|]. now rewrite IH.
Qed.

Lemma used_imported : forall U fmt p fuel m f id q,
  Generate U fmt p fuel m = Ok (GenOk f) ->
  (forall n t, In (AType n t) (mb_AssignmentList (md_ModuleBody m)) -> qualifier (goifyName U n) = None) ->
  (forall n t l x d, In (AType n t) (mb_AssignmentList (md_ModuleBody m)) -> strip t = TInteger l -> In x l -> nn_Value x = NDefined d ->
     qualifier (goifyName U (dv_ValueName d)) = None) ->
  (forall n t z, In (AValue n t (VNumber z)) (mb_AssignmentList (md_ModuleBody m)) -> exists l, strip t = TInteger l) ->
  In id (flat_map spec_type_idents (file_specs f)) \/ In id (flat_map spec_value_idents (file_specs f)) ->
  id <> "asn1.RawValue" -> qualifier id = Some q ->
  In q (map package_name (imports f)).
Proof.
  intros U fmt p fuel m f id q H Hn0 Hn2 Hv Hid Hr Hq.
  assert (Hn : forall n t, In (AType n t) (mb_AssignmentList (md_ModuleBody m)) ->
     qualifier (goifyName U n) = None /\ qualifier (goifyName U n ++ "SET") = None).
  { intros n t Hi. specialize (Hn0 n t Hi). split; [assumption|]. now apply qualifier_app. }
  pose proof (file_groups _ _ _ _ _ _ H) as (fin & gs & Hf & He & Hi & Hok & Hg).
  destruct Hid as [Hid|Hid].
  - pose proof (Generate_ok _ _ _ _ _ _ H) as (_ & ds & s & Hd & He' & Hf').
    pose proof (gendecls_ok _ _ _ _ _ _ _ _ _ _ Hd) as Hok'.
    rewrite (imports_eq _ _ _ Hf' Hok'). rewrite (type_idents_eq _ _ _ Hf') in Hid.
    destruct (gendecls_idents _ _ _ _ _ _ _ _ _ _ Hd He' _ Hid) as [[Hp|[(pk & Hp & Hfm)|[Hp|(n & t & -> & Hdf)]]]|Ht].
    + exfalso. cbn in Hp. repeat destruct Hp as [<-|Hp]; try contradiction; discriminate.
    + apply in_map_iff. exists pk. split; [|assumption]. destruct Hfm; vm_compute in Hq; injection Hq as <-; reflexivity.
    + contradiction.
    + exfalso. apply first_named_in in Hdf. apply Hn in Hdf as [Hdf _]. congruence.
    + exfalso. clear -Hd Ht Hn Hq. cut (exists n t, In (AType n t) (mb_AssignmentList (md_ModuleBody m)) /\ (id = goifyName U n \/ id = goifyName U n ++ "SET")).
      { intros (n & t & Hi & [->| ->]); apply Hn in Hi as [A B]; congruence. }
      clear Hn Hq. revert Hd Ht. generalize (mb_AssignmentList (md_ModuleBody m)) at 2 3. intros l Hd Ht. generalize init_state as s0, Hd. clear Hd.
      intros s0 Hd. induction Hd.
      * contradiction.
      * rewrite decl_types_cons, opt_cons_app, decl_types_app in Ht. apply in_app_iff in Ht as [Ht|Ht].
        -- exists n, t. split; [now left|]. unfold type_decl in Ht. destruct b; cbn in Ht; intuition auto.
        -- apply in_app_iff in Ht as [Ht|Ht].
           ++ exfalso. apply assoc_ok in H0. clear -H0 Ht.
              destruct o as [d|]; [|contradiction]. cbn in Ht, H0. rewrite app_nil_r in Ht.
              apply Forall_cons_iff in H0 as [[Hk Hd] _]. unfold decl_ok in Hd. rewrite Hk in Hd.
              apply in_flat_map in Ht as (sp & Hs & Ht). rewrite Forall_forall in Hd.
              destruct (Hd _ Hs) as (a & b & c & ->). contradiction.
           ++ destruct (IHHd Ht) as (n' & t' & A & B). exists n', t'. split; [now right|assumption].
      * rewrite decl_types_cons in Ht. apply in_app_iff in Ht as [[]|Ht].
        destruct (IHHd Ht) as (n' & t' & A & B). exists n', t'. split; [now right|assumption].
      * destruct (IHHd Ht) as (n' & t' & A & B). exists n', t'. split; [now right|assumption].
      * destruct (IHHd Ht) as (n' & t' & A & B). exists n', t'. split; [now right|assumption].
  - (* initialisers *)
    assert (HI : forall t s e b s1 l,
      gens U (NewCodeGenerator p) (md_TagDefault m) (mb_AssignmentList (md_ModuleBody m)) fuel t false s e b s1 -> ext s1 fin ->
      strip t = TInteger l -> integer_repr p = "big.Int" -> In "big" (map package_name (imports f))).
    { intros t s e b s1 l Hgn Hx Hs Hb. rewrite Hi. apply in_map_iff. exists "math/big". split; [reflexivity|].
      eapply ext_in; [exact Hx|]. eapply gens_integer; [exact Hgn|exact Hs|]. now rewrite params_repr. }
    rewrite (file_specs_app _ _ _ Hf), flat_map_app in Hid. apply in_app_iff in Hid as [Hid|Hid].
    { exfalso. clear -Hid. induction (gs_modules fin); [contradiction|auto]. }
    apply in_flat_map in Hid as (sp & Hsp & Hid). apply in_flat_map in Hsp as (d & Hd & Hsp).
    apply in_concat in Hd as (g & Hg1 & Hd).
    assert (Hex : exists a, In a (mb_AssignmentList (md_ModuleBody m)) /\
      group U fmt (NewCodeGenerator p) (md_TagDefault m) (mb_AssignmentList (md_ModuleBody m)) fuel fin a g).
    { clear -Hg Hg1. revert Hg. generalize (mb_AssignmentList (md_ModuleBody m)) at 2 3. intros l Hg.
      induction Hg; [contradiction|]. destruct Hg1 as [<-|Hi]; [eexists; split; [now left|eassumption]|].
      destruct (IHHg Hi) as (a & Ha & Hb). exists a. split; [now right|assumption]. }
    assert (HN : forall z e, denotes_int (gp_IntegerRepr (NewCodeGenerator p)) z e -> In id (expr_idents e) ->
      q = "big" /\ integer_repr p = "big.Int").
    { intros z e (s & _ & [[Hb ->]|[_ ->]]) Hi'; cbn in Hi'; [|contradiction]. destruct Hi' as [<-|[]].
      rewrite params_repr in Hb. vm_compute in Hq. injection Hq as <-. auto. }
    destruct Hex as (a & Hia & Hga). destruct a as [|n t|n t v]; cbn in Hga.
    + subst. contradiction.
    + destruct Hga as (s & e & b & s1 & o & s2 & Hgn & Hx & Ha & He2 & ->).
      destruct Hd as [<-|Hd].
      { exfalso. unfold type_decl in Hsp. destruct b; cbn in Hsp; repeat destruct Hsp as [<-|Hsp]; contradiction. }
      apply (assoc_numbers _ _ _ _ _ _ _ Ha) in He2.
      destruct He2 as [(l & specs & Hs & Hl & Hf2 & Ho)|[_ Ho]]; rewrite Ho in Hd; [|contradiction].
      destruct Hd as [<-|[]]. cbn in Hsp.
      assert (Hx' : exists x, In x l /\ number_spec U (gp_IntegerRepr (NewCodeGenerator p)) n x sp).
      { clear -Hf2 Hsp. induction Hf2; [contradiction|]. destruct Hsp as [<-|Hsp]; [eexists; split; [now left|eassumption]|].
        destruct (IHHf2 Hsp) as (y' & A & B). exists y'. split; [now right|assumption]. }
      destruct Hx' as (x & Hx' & ex & -> & Hv'). cbn in Hid. destruct (nn_Value x) as [|z|dv] eqn:Ev.
      * subst ex. contradiction.
      * destruct (HN _ _ Hv' Hid) as [-> Hb]. eapply HI; eassumption.
      * destruct Hv' as [_ ->]. destruct Hid as [<-|[]]. exfalso.
        rewrite (qualifier_app "Val") in Hq by (reflexivity || (eapply Hn2; eassumption)). discriminate.
    + destruct Hga as [[_ ->]|(ve & te & s & b & s1 & Hve & Hgn & Hx & He2 & ->)]; [contradiction|].
      destruct Hd as [<-|[]]. destruct Hsp as [<-|[]]. cbn in Hid. apply value_expr_of in Hve.
      inv Hve; try contradiction. destruct (HN _ _ H0 Hid) as [-> Hb].
      destruct (Hv _ _ _ Hia) as [l Hs]. eapply HI; eassumption.
Qed.
