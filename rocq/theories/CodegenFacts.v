(** Lemmas about [Codegen.v]. *)
From Coq Require Import ZArith String Ascii List Bool Lia SpecFloat.
From Verif Require Import GoBase Utf8 Unicode Tokens Ast GoAst Codegen CodegenSpec.
Import ListNotations.
Local Open Scope string_scope.
Local Open Scope Z_scope.

(** * Induction over types *)

Section TypeInd.
  Context (P : AType_ -> Prop).
  Definition nt_P (n : NamedType Value DefinedValue) : Prop :=
    match n with Named _ t => P t end.
  Definition comp_P (c : component Value DefinedValue) : Prop :=
    match c with
    | CNil => True
    | CNamed n _ _ => nt_P n
    | CComponentsOf t => P t
    end.
  Context
    (Hnil : P TNil) (Href : forall n, P (TReference n)) (Hnamed : forall n, nt_P n -> P (TNamed n))
    (Hnull : P TNull) (Hoid : P TObjectIdentifier) (Hint : forall l, P (TInteger l))
    (Henum : forall e, P (TEnumerated e)) (Hreal : P TReal) (Hbool : P TBoolean)
    (Hchoice : forall a x, Forall nt_P a -> P (TChoice a x))
    (Hrstr : forall z, P (TRestrictedString z)) (Hcstr : P TCharacterString) (Hoct : P TOctetString)
    (Hseq : forall c x, Forall comp_P c -> Forall comp_P x -> P (TSequence c x))
    (Hset : forall c x, Forall comp_P c -> Forall comp_P x -> P (TSet c x))
    (Htag : forall g t z b, P t -> P (TTagged g t z b))
    (Hseqof : forall t, P t -> P (TSequenceOf t)) (Hsetof : forall t, P t -> P (TSetOf t))
    (Hany : forall s, P (TAny s)) (Hbits : forall l, P (TBitString l))
    (Hcons : forall t c, P t -> P (TConstrained t c)).

  Fixpoint atype_ind' (t : AType_) : P t :=
    let nt := fun n : NamedType Value DefinedValue =>
      match n return nt_P n with Named _ t' => atype_ind' t' end in
    let comp := fun c : component Value DefinedValue =>
      match c return comp_P c with
      | CNil => I
      | CNamed (Named _ t') _ _ => atype_ind' t'
      | CComponentsOf t' => atype_ind' t'
      end in
    let comps := fix comps (l : list (component Value DefinedValue)) : Forall comp_P l :=
      match l with
      | [] => Forall_nil _
      | c :: l' => Forall_cons c
          (match c return comp_P c with
           | CNil => I
           | CNamed (Named _ t') _ _ => atype_ind' t'
           | CComponentsOf t' => atype_ind' t'
           end) (comps l')
      end in
    let nts := fix nts (l : list (NamedType Value DefinedValue)) : Forall nt_P l :=
      match l with
      | [] => Forall_nil _
      | n :: l' => Forall_cons n
          (match n return nt_P n with Named _ t' => atype_ind' t' end) (nts l')
      end in
    match t with
    | TNil => Hnil
    | TReference n => Href n
    | TNamed n => Hnamed n (match n return nt_P n with Named _ t' => atype_ind' t' end)
    | TNull => Hnull
    | TObjectIdentifier => Hoid
    | TInteger l => Hint l
    | TEnumerated e => Henum e
    | TReal => Hreal
    | TBoolean => Hbool
    | TChoice a x => Hchoice a x (nts a)
    | TRestrictedString z => Hrstr z
    | TCharacterString => Hcstr
    | TOctetString => Hoct
    | TSequence c x => Hseq c x (comps c) (comps x)
    | TSet c x => Hset c x (comps c) (comps x)
    | TTagged g t' z b => Htag g t' z b (atype_ind' t')
    | TSequenceOf t' => Hseqof t' (atype_ind' t')
    | TSetOf t' => Hsetof t' (atype_ind' t')
    | TAny s => Hany s
    | TBitString l => Hbits l
    | TConstrained t' c => Hcons t' c (atype_ind' t')
    end.
End TypeInd.

Ltac inv H := inversion H; subst; clear H.

(** Take apart a [do] in a hypothesis. *)
Ltac bind1 H :=
  match type of H with
  | rbind ?m _ = Ok _ =>
      let E := fresh "E" in
      let x := fresh "x" in
      destruct m as [x| |] eqn:E; cbn [rbind] in H; [|discriminate H|discriminate H];
      repeat match type of x with (_ * _)%type => let y := fresh "y" in destruct x as [x y] end
  end.
Ltac bind H := repeat bind1 H.

(** * Lookup *)

Lemma al_Get_first : forall (l : list Assignment_) n a,
  al_Get l n = Some a <-> first_named n l a.
Proof.
  induction l as [|b l IH]; intros n a; cbn.
  - split; [discriminate|]. intro H; inv H.
  - destruct b as [|m t|m t v]; cbn.
    + split; intro H.
      * constructor. now apply IH.
      * inv H. now apply IH.
    + destruct (String.eqb_spec m n) as [->|Hn].
      * split; intro H; [injection H as <-; constructor|]. inv H; [reflexivity|congruence].
      * split; intro H; [constructor; [assumption|now apply IH]|]. inv H; [congruence|now apply IH].
    + destruct (String.eqb_spec m n) as [->|Hn].
      * split; intro H; [injection H as <-; constructor|]. inv H; [reflexivity|congruence].
      * split; intro H; [constructor; [assumption|now apply IH]|]. inv H; [congruence|now apply IH].
Qed.

Lemma first_named_cases : forall n l a, first_named n l a ->
  (exists t, a = AType n t) \/ (exists t v, a = AValue n t v).
Proof. induction 1; eauto. Qed.

Lemma first_named_in : forall n l a, first_named n l a -> In a l.
Proof. induction 1; cbn; auto. Qed.

Lemma GetType_defines : forall asg n p, al_GetType asg n = Some p <->
  exists t, p = (n, t) /\ defines asg n t.
Proof.
  intros asg n p. unfold al_GetType, defines.
  destruct (al_Get asg n) as [a|] eqn:E.
  - apply al_Get_first in E.
    destruct (first_named_cases _ _ _ E) as [[t ->]|(t & v & ->)].
    + split.
      * intro H; injection H as <-. eauto.
      * intros (t' & -> & H). apply al_Get_first in H. apply al_Get_first in E. congruence.
    + split; [discriminate|]. intros (t' & -> & H). apply al_Get_first in H. apply al_Get_first in E. congruence.
  - split; [discriminate|]. intros (t & -> & H). apply al_Get_first in H. congruence.
Qed.

Lemma GetType_none : forall asg n, al_GetType asg n = None <-> forall t, ~ defines asg n t.
Proof.
  intros asg n. split.
  - intros H t D. assert (al_GetType asg n = Some (n, t)) by (apply GetType_defines; eauto). congruence.
  - intro H. destruct (al_GetType asg n) as [p|] eqn:E; [|reflexivity].
    apply GetType_defines in E as (t & _ & D). now apply H in D.
Qed.

Lemma defines_unique : forall asg n t1 t2, defines asg n t1 -> defines asg n t2 -> t1 = t2.
Proof.
  unfold defines. intros asg n t1 t2 H1 H2. apply al_Get_first in H1. apply al_Get_first in H2. congruence.
Qed.

Lemma removeWrapperTypes_strip : forall t : AType_, removeWrapperTypes t = strip t.
Proof.
  fix IH 1. intros [| | | | | | | | | | | | | | | g t z b| | | | |t c]; try reflexivity; cbn; apply IH.
Qed.

(** * Following references *)

Lemma unwrap_leaf : forall asg fuel n m t, unwrapToLeafType asg fuel n = Ok (m, t) ->
  exists o, leaf_of asg n m o /\ t = match o with Some u => u | None => TNil end.
Proof.
  induction fuel as [|f IH]; intros n m t H; [discriminate|].
  cbn in H. destruct (al_GetType asg n) as [[s u]|] eqn:E.
  - apply GetType_defines in E as (t' & Ep & D). injection Ep as -> ->.
    rewrite removeWrapperTypes_strip in H.
    destruct (strip t') as [|r| | | | | | | | | | | | | | | | | | |] eqn:Es;
      try (injection H as <- <-; exists (Some t'); split; [|reflexivity];
           apply leaf_here; [assumption|intros q Hq; congruence]).
    destruct (IH _ _ _ H) as (o & Hl & Ht). exists o. split; [|assumption].
    eapply leaf_step; eauto.
  - injection H as <- <-. exists None. split; [|reflexivity].
    apply leaf_undefined. now apply GetType_none.
Qed.

Lemma leaf_unwrap : forall asg n m o, leaf_of asg n m o ->
  exists k, forall fuel, (k <= fuel)%nat ->
    unwrapToLeafType asg fuel n = Ok (m, match o with Some u => u | None => TNil end).
Proof.
  induction 1 as [n Hn|n t D Hs|n t m l o D Hs Hl [k IH]].
  - exists 1%nat. intros [|f] Hf; [lia|]. cbn.
    apply GetType_none in Hn. now rewrite Hn.
  - exists 1%nat. intros [|f] Hf; [lia|]. cbn.
    rewrite (proj2 (GetType_defines asg n (n, t))) by eauto.
    rewrite removeWrapperTypes_strip.
    destruct (strip t) eqn:Es; try reflexivity. exfalso. exact (Hs _ eq_refl).
  - exists (S k). intros [|f] Hf; [lia|]. cbn.
    rewrite (proj2 (GetType_defines asg n (n, t))) by eauto.
    rewrite removeWrapperTypes_strip, Hs. apply IH. lia.
Qed.

Lemma unwrap_no_panic : forall asg fuel n w, unwrapToLeafType asg fuel n <> Panic w.
Proof.
  induction fuel as [|f IH]; intros n w; [discriminate|].
  cbn. destruct (al_GetType asg n) as [[s u]|]; [|discriminate].
  destruct (removeWrapperTypes u); try discriminate. apply IH.
Qed.

Lemma unwrap_mono : forall asg f g n r, (f <= g)%nat ->
  unwrapToLeafType asg f n = Ok r -> unwrapToLeafType asg g n = Ok r.
Proof.
  induction f as [|f IH]; intros g n r Hg H; [discriminate|].
  destruct g as [|g]; [lia|]. cbn in *.
  destruct (al_GetType asg n) as [[s u]|]; [|assumption].
  destruct (removeWrapperTypes u); try assumption. apply IH; [lia|assumption].
Qed.

(** * Unfolding generateTypeBody *)

Section Gen.
  Context (U : unicode_tables) (fmt : spec_float -> string).
  Context (params : GenParams) (tagDefault : Z) (asg : list Assignment_).

  Notation gen := (generateTypeBody U params tagDefault asg).
  Notation tagOf := (asn1TagFromType tagDefault asg).

  (** The loop of structFromComponents as a function of its own. *)
  Definition genFields (fuel : nat) :=
    fix fields (l : list (component Value DefinedValue)) (s : gstate)
      : res (list gofield * gstate) :=
      match l with
      | [] => Ok ([], s)
      | CNamed (Named name t') optional dflt :: l' =>
          do (e, _, s1) <- gen fuel t' false s;
          do (tag, s2) <- tagOf fuel name t' optional dflt s1;
          do (fs, s3) <- fields l' s2;
          Ok (Field (goifyName U name) e tag :: fs, s3)
      | CComponentsOf _ :: l' => fields l' (appendError ErrComponentsOf s)
      | CNil :: l' => fields l' s
      end.

  Lemma gen_sequence : forall fuel c x b s, gen fuel (TSequence c x) b s =
    (do (fs1, s1) <- genFields fuel c s;
     do (fs2, s2) <- genFields fuel x s1;
     Ok (EStruct (fs1 ++ fs2)%list, b, s2)).
  Proof. reflexivity. Qed.

  Lemma gen_set : forall fuel c x b s, gen fuel (TSet c x) b s =
    (do (fs1, s1) <- genFields fuel c s;
     do (fs2, s2) <- genFields fuel x s1;
     Ok (EStruct (fs1 ++ fs2)%list, true, s2)).
  Proof. reflexivity. Qed.

  (** The two lists are treated as one. *)
  Lemma genFields_app : forall fuel c x s, genFields fuel (c ++ x)%list s =
    (do (fs1, s1) <- genFields fuel c s;
     do (fs2, s2) <- genFields fuel x s1;
     Ok ((fs1 ++ fs2)%list, s2)).
  Proof.
    induction c as [|c cs IH]; intros x s.
    - cbn. destruct (genFields fuel x s) as [[fs s1]| |]; reflexivity.
    - cbn [app genFields]. destruct c as [|[n t] o d|t].
      + apply IH.
      + destruct (gen fuel t false s) as [[[e b] s1]| |]; cbn [rbind]; try reflexivity.
        destruct (tagOf fuel n t o d s1) as [[tag s2]| |]; cbn [rbind]; try reflexivity.
        rewrite IH. destruct (genFields fuel cs s2) as [[fs s3]| |]; cbn [rbind]; try reflexivity.
        destruct (genFields fuel x s3) as [[fs' s4]| |]; reflexivity.
      + apply IH.
  Qed.

  (** * generateTypeBody as a relation *)

  Definition simple (t : AType_) (e : goexpr) : Prop :=
    match t with
    | TBoolean => e = EIdent "bool"
    | TCharacterString => e = EIdent "string"
    | TReal => e = EIdent "float64"
    | TOctetString => e = EArray (EIdent "byte")
    | TRestrictedString _ => e = EIdent "string"
    | TAny _ => e = EInterface
    | _ => False
    end.

  Definition in_asn1 (t : AType_) (id : string) : Prop :=
    match t with
    | TBitString _ => id = "asn1.BitString"
    | TEnumerated _ => id = "asn1.Enumerated"
    | TObjectIdentifier => id = "asn1.ObjectIdentifier"
    | _ => False
    end.

  Definition unsupported (t : AType_) : Prop :=
    match t with TNil | TNamed _ | TNull => True | _ => False end.

  Context (fuel : nat).

  Inductive gens : AType_ -> bool -> gstate -> goexpr -> bool -> gstate -> Prop :=
  | g_simple t e b s : simple t e -> gens t b s e b s
  | g_int64 l b s : gp_IntegerRepr params = IntegerReprInt64 ->
      gens (TInteger l) b s (EIdent "int64") b s
  | g_big l b s : gp_IntegerRepr params = IntegerReprBigInt ->
      gens (TInteger l) b s (EStar (EIdent "big.Int")) b (requireModule "math/big" s)
  | g_badint l b s :
      gp_IntegerRepr params <> IntegerReprInt64 -> gp_IntegerRepr params <> IntegerReprBigInt ->
      gens (TInteger l) b s (EIdent "int64") b (appendError (ErrIntRepr (gp_IntegerRepr params)) s)
  | g_sequence c x fs b s s' : genfs (c ++ x)%list s fs s' ->
      gens (TSequence c x) b s (EStruct fs) b s'
  | g_set c x fs b s s' : genfs (c ++ x)%list s fs s' ->
      gens (TSet c x) b s (EStruct fs) true s'
  | g_sequence_of t e b b' s s' : gens t b s e b' s' -> gens (TSequenceOf t) b s (EArray e) b' s'
  | g_set_of t e b b' s s' : gens t true s e b' s' -> gens (TSetOf t) b s (EArray e) b' s'
  | g_tagged g t z h e b b' s s' : gens t b s e b' s' -> gens (TTagged g t z h) b s e b' s'
  | g_constrained t c e b b' s s' : gens t b s e b' s' -> gens (TConstrained t c) b s e b' s'
  | g_special name n t' e b s s' s'' :
      resolveTypeReference asg fuel name s = Ok (Some (n, t'), s') ->
      generateSpecialCase n t' s' = (Some e, s'') ->
      gens (TReference name) b s e b s''
  | g_plain name n t' b s s' s'' :
      resolveTypeReference asg fuel name s = Ok (Some (n, t'), s') ->
      generateSpecialCase n t' s' = (None, s'') ->
      gens (TReference name) b s (EIdent (goifyName U name)) b s''
  | g_unresolved name b s s' :
      resolveTypeReference asg fuel name s = Ok (None, s') ->
      gens (TReference name) b s (EIdent (goifyName U name)) b s'
  | g_asn1 t id b s : in_asn1 t id -> gens t b s (EIdent id) b (requireModule "encoding/asn1" s)
  | g_raw alts x b s s' : hasTaggedAlternatives asg fuel alts s = Ok (true, s') ->
      gens (TChoice alts x) b s (EIdent "asn1.RawValue") b s'
  | g_one n t x e b b' s s' s'' : hasTaggedAlternatives asg fuel [Named n t] s = Ok (false, s') ->
      gens t b s' e b' s'' -> gens (TChoice [Named n t] x) b s e b' s''
  | g_many alts x b s s' : hasTaggedAlternatives asg fuel alts s = Ok (false, s') ->
      length alts <> 1%nat -> gens (TChoice alts x) b s EInterface b s'
  | g_unsupported t b s : unsupported t ->
      gens t b s ENilExpr b (appendError (ErrUnsupportedType t) s)
  with genfs : list (component Value DefinedValue) -> gstate -> list gofield -> gstate -> Prop :=
  | gf_nil s : genfs [] s [] s
  | gf_named n t o d l e b tag fs s s1 s2 s3 :
      gens t false s e b s1 -> tagOf fuel n t o d s1 = Ok (tag, s2) -> genfs l s2 fs s3 ->
      genfs (CNamed (Named n t) o d :: l) s (Field (goifyName U n) e tag :: fs) s3
  | gf_components_of t l fs s s' : genfs l (appendError ErrComponentsOf s) fs s' ->
      genfs (CComponentsOf t :: l) s fs s'
  | gf_cnil l fs s s' : genfs l s fs s' -> genfs (CNil :: l) s fs s'.

  Scheme gens_mut := Induction for gens Sort Prop
    with genfs_mut := Induction for genfs Sort Prop.
  Combined Scheme gens_genfs_ind from gens_mut, genfs_mut.

  Lemma genFields_genfs : forall l,
    Forall (comp_P (fun t => forall b s e b' s', gen fuel t b s = Ok (e, b', s') -> gens t b s e b' s')) l ->
    forall s fs s', genFields fuel l s = Ok (fs, s') -> genfs l s fs s'.
  Proof.
    induction 1 as [|c l Hc Hl IH]; intros s fs s' H; cbn [genFields] in H.
    - injection H as <- <-. constructor.
    - destruct c as [|[n t] o d|t].
      + constructor. now apply IH.
      + bind H. injection H as <- <-. econstructor; eauto.
      + constructor. now apply IH.
  Qed.

  Lemma gen_gens : forall t b s e b' s', gen fuel t b s = Ok (e, b', s') -> gens t b s e b' s'.
  Proof.
    induction t using atype_ind'; intros b0 s0 e0 b0' s0' Hg.
    all: try (cbn in Hg; injection Hg as <- <- <-; constructor; cbn; auto; fail).
    - (* reference *)
      cbn [generateTypeBody] in Hg. bind1 Hg.
      destruct x as [[n' t']|].
      + destruct (generateSpecialCase n' t' y) as [[e1|] s2] eqn:Es; injection Hg as <- <- <-.
        * eapply g_special; eauto.
        * eapply g_plain; eauto.
      + injection Hg as <- <- <-. now apply g_unresolved.
    - (* integer *)
      cbn [generateTypeBody] in Hg.
      destruct (String.eqb_spec (gp_IntegerRepr params) IntegerReprInt64) as [E|E].
      + injection Hg as <- <- <-. now apply g_int64.
      + destruct (String.eqb_spec (gp_IntegerRepr params) IntegerReprBigInt) as [E'|E'];
          injection Hg as <- <- <-; [now apply g_big|now apply g_badint].
    - (* choice *)
      cbn [generateTypeBody] in Hg. bind1 Hg. destruct x0.
      + injection Hg as <- <- <-. now apply g_raw.
      + destruct a as [|[n t] [|a2 a3]].
        * injection Hg as <- <- <-. apply g_many; [assumption|discriminate].
        * inv H. eapply g_one; [eassumption|]. now apply H2.
        * injection Hg as <- <- <-. apply g_many; [assumption|discriminate].
    - (* sequence *)
      rewrite gen_sequence in Hg.
      bind Hg. injection Hg as <- <- <-. apply g_sequence.
      eapply genFields_genfs; [apply Forall_app; split; eassumption|].
      rewrite genFields_app. rewrite E. cbn [rbind]. rewrite E0. reflexivity.
    - (* set *)
      rewrite gen_set in Hg.
      bind Hg. injection Hg as <- <- <-. apply g_set.
      eapply genFields_genfs; [apply Forall_app; split; eassumption|].
      rewrite genFields_app. rewrite E. cbn [rbind]. rewrite E0. reflexivity.
    - cbn [generateTypeBody] in Hg. apply g_tagged. now apply IHt.
    - cbn [generateTypeBody] in Hg. bind Hg. injection Hg as <- <- <-. apply g_sequence_of. now apply IHt.
    - cbn [generateTypeBody] in Hg. bind Hg. injection Hg as <- <- <-. apply g_set_of. now apply IHt.
    - cbn [generateTypeBody] in Hg. apply g_constrained. now apply IHt.
  Qed.
End Gen.
