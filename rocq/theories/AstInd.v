(** Induction over types and the structures in them. *)
From Coq Require Import ZArith String List.
From Verif Require Import GoBase Ast.
Import ListNotations.

Section Ind.
  Context {P R : Type}.
  Context (PT : atype P R -> Prop) (PN : NamedType P R -> Prop) (PC : component P R -> Prop)
    (PS : ConstraintSpec P R -> Prop) (PE : Elements P R -> Prop) (PI : IntersectionElements P R -> Prop).

  Definition PO (o : option (NamedType P R)) : Prop := match o with Some n => PN n | None => True end.

  Record cases : Prop := {
    c_nil : PT TNil;
    c_ref : forall s, PT (TReference s);
    c_named : forall n, PN n -> PT (TNamed n);
    c_null : PT TNull;
    c_oid : PT TObjectIdentifier;
    c_int : forall l, PT (TInteger l);
    c_enum : forall e, PT (TEnumerated e);
    c_real : PT TReal;
    c_bool : PT TBoolean;
    c_choice : forall a e, Forall PN a -> Forall PO e -> PT (TChoice a e);
    c_str : forall k, PT (TRestrictedString k);
    c_char : PT TCharacterString;
    c_octet : PT TOctetString;
    c_seq : forall c e, Forall PC c -> Forall PC e -> PT (TSequence c e);
    c_set : forall c e, Forall PC c -> Forall PC e -> PT (TSet c e);
    c_tag : forall g t z b, PT t -> PT (TTagged g t z b);
    c_seqof : forall t, PT t -> PT (TSequenceOf t);
    c_setof : forall t, PT t -> PT (TSetOf t);
    c_any : forall s, PT (TAny s);
    c_bit : forall l, PT (TBitString l);
    c_con : forall t c, PT t -> PS c -> PT (TConstrained t c);
    c_name : forall s t, PT t -> PN (Named s t);
    c_cnil : PC CNil;
    c_comp : forall n o d, PN n -> PC (CNamed n o d);
    c_compof : forall t, PT t -> PC (CComponentsOf t);
    c_snil : PS CSNil;
    c_sub : forall l, Forall PE l -> PS (CSSubtype l);
    c_gen : PS CSGeneral;
    c_enil : PE ENil;
    c_uni : forall l, Forall (Forall PI) l -> PE (EUnions l);
    c_exc : forall e, PE e -> PE (EExclusions e);
    c_val : forall v, PE (ESingleValue v);
    c_range : forall a b, PE (EValueRange a b);
    c_type : forall t, PT t -> PE (EType t);
    c_size : forall c, PS c -> PE (ESize c);
    c_inner : PE EInner;
    c_inter : forall e x, PE e -> PE x -> PI (Intersect e x)
  }.

  Definition all {A} {Q : A -> Prop} (H : forall x, Q x) : forall l, Forall Q l :=
    fix go l := match l with [] => Forall_nil _ | x :: l' => Forall_cons _ (H x) (go l') end.

  Definition allo (H : forall n, PN n) (o : option (NamedType P R)) : PO o :=
    match o with Some n => H n | None => I end.

  Context (C : cases).

  Fixpoint type_ind2 (t : atype P R) : PT t :=
    match t with
    | TNil => c_nil C
    | TReference s => c_ref C s
    | TNamed n => c_named C n (named_ind2 n)
    | TNull => c_null C
    | TObjectIdentifier => c_oid C
    | TInteger l => c_int C l
    | TEnumerated e => c_enum C e
    | TReal => c_real C
    | TBoolean => c_bool C
    | TChoice a e => c_choice C a e (all named_ind2 a) (all (allo named_ind2) e)
    | TRestrictedString k => c_str C k
    | TCharacterString => c_char C
    | TOctetString => c_octet C
    | TSequence c e => c_seq C c e (all component_ind2 c) (all component_ind2 e)
    | TSet c e => c_set C c e (all component_ind2 c) (all component_ind2 e)
    | TTagged g t z b => c_tag C g t z b (type_ind2 t)
    | TSequenceOf t => c_seqof C t (type_ind2 t)
    | TSetOf t => c_setof C t (type_ind2 t)
    | TAny s => c_any C s
    | TBitString l => c_bit C l
    | TConstrained t c => c_con C t c (type_ind2 t) (constraint_ind2 c)
    end
  with named_ind2 (n : NamedType P R) : PN n :=
    match n with Named s t => c_name C s t (type_ind2 t) end
  with component_ind2 (c : component P R) : PC c :=
    match c with
    | CNil => c_cnil C
    | CNamed n o d => c_comp C n o d (named_ind2 n)
    | CComponentsOf t => c_compof C t (type_ind2 t)
    end
  with constraint_ind2 (c : ConstraintSpec P R) : PS c :=
    match c with
    | CSNil => c_snil C
    | CSSubtype l => c_sub C l (all elements_ind2 l)
    | CSGeneral => c_gen C
    end
  with elements_ind2 (e : Elements P R) : PE e :=
    match e with
    | ENil => c_enil C
    | EUnions l => c_uni C l (all (all intersection_ind2) l)
    | EExclusions e => c_exc C e (elements_ind2 e)
    | ESingleValue v => c_val C v
    | EValueRange a b => c_range C a b
    | EType t => c_type C t (type_ind2 t)
    | ESize c => c_size C c (constraint_ind2 c)
    | EInner => c_inner C
    end
  with intersection_ind2 (i : IntersectionElements P R) : PI i :=
    match i with Intersect e x => c_inter C e x (elements_ind2 e) (elements_ind2 x) end.
End Ind.

(** ** Trees without pointers *)

Section NoPointers.
  Context {P R : Type}.
  Notation ef := (fun e : Empty_set => match e return P with end).
  Notation eg := (fun e : Empty_set => match e return R with end).
  Notation uf := (fun _ : P => tt).
  Notation ug := (fun _ : R => tt).
  Notation vf := (fun _ : Empty_set => tt).
  Notation vg := (fun _ : Empty_set => tt).

  Lemma list_same {A B D} (p : A -> D) (q : B -> D) (e : B -> A) : forall (l : list B),
    Forall (fun b => forall a, p a = q b -> a = e b) l -> forall k, map p k = map q l -> k = map e l.
  Proof.
    induction 1 as [|b l H F IH]; intros [|a k] E; try discriminate; [reflexivity|]. injection E as E1 E2. cbn [map].
    f_equal; auto.
  Qed.

  Lemma list_same_all {A B D} (p : A -> D) (q : B -> D) (e : B -> A) : (forall b a, p a = q b -> a = e b) ->
    forall l k, map p k = map q l -> k = map e l.
  Proof. intros H l. apply list_same. apply Forall_forall. intros b _. apply H. Qed.

  Lemma oe_same (b : ObjectIdElement Empty_set) (a : ObjectIdElement R) : oe_map ug a = oe_map vg b -> a = oe_map eg b.
  Proof.
    destruct a as [n i r], b as [n' i' r']. unfold oe_map. cbn. intros E. injection E as -> -> E.
    destruct r as [r|], r' as [[]|]; try discriminate. reflexivity.
  Qed.

  Lemma value_same (b : value Empty_set) (a : value R) : value_map ug a = value_map vg b -> a = value_map eg b.
  Proof.
    destruct a, b; cbn; intros E; try discriminate; try reflexivity; injection E; intros; subst; try reflexivity.
    f_equal. eapply list_same_all; [exact oe_same|eassumption].
  Qed.

  Lemma nb_same (b : NamedBit Empty_set) (a : NamedBit R) : nb_map ug a = nb_map vg b -> a = nb_map eg b.
  Proof. destruct a, b. unfold nb_map. cbn. intros E. injection E as -> E. f_equal. now apply value_same. Qed.

  Lemma tag_same (b : Tag Empty_set) (a : Tag R) : tag_map ug a = tag_map vg b -> a = tag_map eg b.
  Proof. destruct a, b. unfold tag_map. cbn. intros E. injection E as -> E. f_equal. now apply value_same. Qed.

  Lemma re_same (b : RangeEndpoint Empty_set) (a : RangeEndpoint R) : re_map ug a = re_map vg b -> a = re_map eg b.
  Proof. destruct a, b. unfold re_map. cbn. intros E. injection E as E ->. f_equal. now apply value_same. Qed.

  Lemma type_same_cases : @cases Empty_set Empty_set
    (fun t => forall a, tmap uf ug a = tmap vf vg t -> a = tmap ef eg t)
    (fun t => forall a, nmap uf ug a = nmap vf vg t -> a = nmap ef eg t)
    (fun t => forall a, cmap uf ug a = cmap vf vg t -> a = cmap ef eg t)
    (fun t => forall a, csmap uf ug a = csmap vf vg t -> a = csmap ef eg t)
    (fun t => forall a, emap uf ug a = emap vf vg t -> a = emap ef eg t)
    (fun t => forall a, imap uf ug a = imap vf vg t -> a = imap ef eg t).
  Proof.
    constructor; intros.
    all: match goal with H : _ ?a = _ |- ?a = _ => destruct a; cbn in H; try discriminate H; cbn end.
    all: try reflexivity.
    all: match goal with H : _ = _ |- _ => injection H; clear H; intros; subst end.
    all: try reflexivity.
    all: try (f_equal; eauto using tag_same, re_same, value_same; fail).
    - f_equal; [exact (list_same (nmap uf ug) (nmap vf vg) (nmap ef eg) a H alts H2)|].
      refine (list_same (option_map (nmap uf ug)) (option_map (nmap vf vg)) (option_map (nmap ef eg)) e _ exts H1).
      eapply Forall_impl; [|exact H0]. intros [n|] Q [n2|] E; try discriminate E; [|reflexivity].
      injection E as E. cbn [option_map]. f_equal. exact (Q _ E).
    - f_equal; [exact (list_same (cmap uf ug) (cmap vf vg) (cmap ef eg) c H comps H2)
               |exact (list_same (cmap uf ug) (cmap vf vg) (cmap ef eg) e H0 exts H1)].
    - f_equal; [exact (list_same (cmap uf ug) (cmap vf vg) (cmap ef eg) c H comps H2)
               |exact (list_same (cmap uf ug) (cmap vf vg) (cmap ef eg) e H0 exts H1)].
    - f_equal; [|auto]. apply tag_same. unfold tag_map. now f_equal.
    - f_equal. exact (list_same_all (nb_map ug) (nb_map vg) (nb_map eg) nb_same l bits ltac:(eassumption)).
    - f_equal; [auto|]. destruct dflt as [x|], d as [[]|]; try discriminate. reflexivity.
    - f_equal. exact (list_same (emap uf ug) (emap vf vg) (emap ef eg) l H l0 ltac:(eassumption)).
    - f_equal. refine (list_same (map (imap uf ug)) (map (imap vf vg)) (map (imap ef eg)) l _ l0 ltac:(eassumption)).
      eapply Forall_impl; [|exact H]. intros k Q k2 E. exact (list_same (imap uf ug) (imap vf vg) (imap ef eg) k Q k2 E).
    - f_equal; apply re_same; unfold re_map; now f_equal.
  Qed.

  Definition type_same := type_ind2 _ _ _ _ _ _ type_same_cases.

  Lemma assignment_same (b : assignment Empty_set Empty_set) (a : assignment P R) :
    amap uf ug a = amap vf vg b -> a = amap ef eg b.
  Proof.
    destruct a, b; cbn; intros E; try discriminate; try reflexivity; injection E; intros; subst.
    - f_equal. now apply type_same.
    - f_equal; [now apply type_same|now apply value_same].
  Qed.

  Lemma import_same (b : SymbolsFromModule Empty_set) (a : SymbolsFromModule R) : sfm_map ug a = sfm_map vg b -> a = sfm_map eg b.
  Proof.
    destruct a as [l [r v]], b as [l' [r' v']]. unfold sfm_map, gmr_map. cbn. intros E. injection E as -> -> E.
    do 2 f_equal. now apply value_same.
  Qed.

  Theorem module_same (b : ModuleDefinition Empty_set Empty_set) (a : ModuleDefinition P R) :
    md_map uf ug a = md_map vf vg b -> a = md_map ef eg b.
  Proof.
    destruct a as [i t e [l s]], b as [i' t' e' [l' s']]. unfold md_map, mb_map. cbn. intros E. injection E as -> -> -> E1 E2.
    do 2 f_equal.
    - eapply list_same_all; [exact assignment_same|exact E1].
    - eapply list_same_all; [exact import_same|exact E2].
  Qed.
End NoPointers.
