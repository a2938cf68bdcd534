(** What encoding/asn1 makes of encodings of values of generated types. *)
From Coq Require Import ZArith String Ascii List Bool Lia Permutation SpecFloat.
From Verif Require Import GoBase Utf8 Unicode Tokens Ast GoAst Codegen CodegenSpec CodegenFacts CodegenInv CodegenDecl
  CodegenTag GoifyFacts CodegenShape Wire WireFacts WireSend WireRead.
Import ListNotations.
Local Open Scope string_scope.
Local Open Scope list_scope.
Local Open Scope Z_scope.

(** * Unfolding parse_field *)

Section Unfold.
  Context (f : gofile).

  Fixpoint zero_fields (n : nat) (fs : list gofield) : option (list gval) :=
    match fs with
    | [] => Some []
    | Field _ e' _ :: fs' =>
        match zero_of f n e' with
        | None => None
        | Some v => option_map (cons v) (zero_fields n fs')
        end
    end.

  Definition zero_kind (n : nat) (k : gkind) : option gval :=
    match k with
    | KBool => Some (GBool false)
    | KInt | KEnum => Some (GInt 0)
    | KString => Some (GString "")
    | KTime => Some (GTime 0)
    | KBits => Some (GBits None 0)
    | KOid => Some (GOid None)
    | KBig => Some (GBig None)
    | KBytes => Some (GBytes None)
    | KSlice _ _ => Some (GSlice None)
    | KStruct fs => option_map GStruct (zero_fields n fs)
    | KRaw => Some (GRaw None)
    | KAny => Some GNil
    | KOther => None
    end.

  Lemma zero_fields_eq : forall n fs,
    (fix fields (fs : list gofield) : option (list gval) :=
       match fs with
       | [] => Some []
       | Field _ e' _ :: fs' =>
           match zero_of f n e' with
           | None => None
           | Some v => option_map (cons v) (fields fs')
           end
       end) fs = zero_fields n fs.
  Proof. induction fs as [|[m e t] fs IH]; [reflexivity|]. cbn [zero_fields]. now rewrite <- IH. Qed.

  Lemma zero_of_eq : forall n e, zero_of f (S n) e = match kind_of f n e with Some k => zero_kind n k | None => None end.
  Proof.
    intros n e. cbn [zero_of]. destruct (kind_of f n e) as [k|]; [|reflexivity]. destruct k; try reflexivity.
    cbn [zero_kind]. now rewrite zero_fields_eq.
  Qed.

  Lemma zero_not_nil : forall n e k z, kind_of f n e = Some k -> is_any k = false -> zero_of f (S n) e = Some z -> z <> GNil.
  Proof.
    intros n e k z K A Z E. subst z. rewrite zero_of_eq, K in Z. destruct k; try discriminate. cbn [zero_kind] in Z.
    destruct (zero_fields n fields); discriminate Z.
  Qed.

  Fixpoint parse_fields (n : nat) (fs : list gofield) (inner : list tlv) : option (list gval) :=
    match fs with
    | [] => Some []
    | Field _ e' tag' :: fs' =>
        match parse_field f n e' (parseFieldParameters (tag_body tag')) inner with
        | None => None
        | Some (v, inner') => option_map (cons v) (parse_fields n fs' inner')
        end
    end.

  Fixpoint parse_elements (n : nat) (e : goexpr) (count : nat) (inner : list tlv) : option (list gval) :=
    match count with
    | O => Some []
    | S count' =>
        match parse_field f n e fp0 inner with
        | None => None
        | Some (v, inner') => option_map (cons v) (parse_elements n e count' inner')
        end
    end.

  (** The value of a field whose tag is right. *)
  Definition parse_body (n : nat) (k : gkind) (u : Z) (body : contents) : option gval :=
    match k, body with
    | KStruct fs, Nested inner => if forallb exported fs then option_map GStruct (parse_fields n fs inner) else None
    | KSlice _ e', Nested inner =>
        match kind_of f n e' with
        | None => None
        | Some k' =>
            if element_kind k' && forallb (element_ok k') inner then option_map (fun vs => GSlice (Some vs)) (parse_elements n e' (List.length inner) inner)
            else None
        end
    | _, Octets p => parse_prim k u p
    | _, _ => None
    end.

  (** parseField after an explicit tag. *)
  Definition parse_value (n : nat) (k : gkind) (fp : fieldParameters) (absent : option (gval * list tlv)) (class number : Z) (body : contents)
    (rest : list tlv) : option (gval * list tlv) :=
    match wanted fp k class number with
    | None => None
    | Some u =>
        if (class =? fst (expected fp u)) && (number =? snd (expected fp u)) && Bool.eqb (compound body) (kind_compound k)
        then option_map (fun v => (v, rest)) (parse_body n k u body)
        else absent
    end.

  Definition explicit_class (fp : fieldParameters) : Z := if fp_application fp then CLASS_APPLICATION else CLASS_CONTEXT_SPECIFIC.
  Definition is_tag (fp : fieldParameters) (number : Z) : bool := match fp_tag fp with Some k => number =? k | None => false end.

  Lemma parse_field_eq : forall n e fp ws, parse_field f (S n) e fp ws =
    match kind_of f n e with
    | None => None
    | Some k =>
        let absent := option_map (fun v => (v, ws)) (set_default f n e fp) in
        match ws with
        | [] => absent
        | TLV class number body :: rest =>
            if is_any k then option_map (fun v => (v, rest)) (any_value (TLV class number body))
            else if fp_explicit fp then
              if empty_contents body && match rest with [] => true | _ => false end then None
              else if (class =? explicit_class fp) && is_tag fp number && (empty_contents body || compound body) then
                if is_raw k then Some (GRaw (Some (TLV class number body)), rest)
                else
                  match body with
                  | Nested (TLV class' number' body' :: inner) => parse_value n k fp absent class' number' body' (inner ++ rest)
                  | _ => None
                  end
              else absent
            else if is_raw k then
              if raw_matches fp class number then Some (GRaw (Some (TLV class number body)), rest) else absent
            else parse_value n k fp absent class number body rest
        end
    end.
  Proof.
    intros n e fp ws.
    assert (FE : forall fs inner, (fix fields (fs : list gofield) (inner : list tlv) : option (list gval) :=
       match fs with
       | [] => Some []
       | Field _ e' tag' :: fs' =>
           match parse_field f n e' (parseFieldParameters (tag_body tag')) inner with
           | None => None
           | Some (v, inner') => option_map (cons v) (fields fs' inner')
           end
       end) fs inner = parse_fields n fs inner).
    { induction fs as [|[m e' t] fs IH]; intro inner; [reflexivity|]. cbn [parse_fields].
      destruct (parse_field f n e' (parseFieldParameters (tag_body t)) inner) as [[v i]|]; [|reflexivity]. now rewrite IH. }
    assert (EE : forall e' count inner, (fix elements (count : nat) (inner : list tlv) : option (list gval) :=
       match count with
       | O => Some []
       | S count' =>
           match parse_field f n e' fp0 inner with
           | None => None
           | Some (v, inner') => option_map (cons v) (elements count' inner')
           end
       end) count inner = parse_elements n e' count inner).
    { intros e'. induction count as [|count IH]; intro inner; [reflexivity|]. cbn [parse_elements].
      destruct (parse_field f n e' fp0 inner) as [[v i]|]; [|reflexivity]. now rewrite IH. }
    destruct ws as [|[class number body] rest]; [reflexivity|]. cbn zeta.
    cbn [parse_field]. fold (explicit_class fp) (is_tag fp number). destruct (kind_of f n e) as [k|]; [|reflexivity].
    match goal with |- context [option_map (fun v => (v, ?x)) (set_default f n e fp)] => set (absent := option_map (fun v => (v, x)) (set_default f n e fp)) end.
    assert (V : forall class number body rest,
      match wanted fp k class number with
      | None => None
      | Some u =>
          if (class =? fst (expected fp u)) && (number =? snd (expected fp u)) && Bool.eqb (compound body) (kind_compound k) then
            match k, body with
            | KStruct fs, Nested inner =>
                if forallb exported fs then
                  option_map (fun vs => (GStruct vs, rest))
                    ((fix fields (fs : list gofield) (inner : list tlv) : option (list gval) :=
                        match fs with
                        | [] => Some []
                        | Field _ e' tag' :: fs' =>
                            match parse_field f n e' (parseFieldParameters (tag_body tag')) inner with
                            | None => None
                            | Some (v, inner') => option_map (cons v) (fields fs' inner')
                            end
                        end) fs inner)
                else None
            | KSlice _ e', Nested inner =>
                match kind_of f n e' with
                | None => None
                | Some k' =>
                    if element_kind k' && forallb (element_ok k') inner then
                      option_map (fun vs => (GSlice (Some vs), rest))
                        ((fix elements (count : nat) (inner : list tlv) : option (list gval) :=
                            match count with
                            | O => Some []
                            | S count' =>
                                match parse_field f n e' fp0 inner with
                                | None => None
                                | Some (v, inner') => option_map (cons v) (elements count' inner')
                                end
                            end) (List.length inner) inner)
                    else None
                end
            | _, Octets p => option_map (fun v => (v, rest)) (parse_prim k u p)
            | _, _ => None
            end
          else absent
      end = parse_value n k fp absent class number body rest).
    { intros class' number' body' rest'. unfold parse_value.
      destruct (wanted fp k class' number') as [u|]; [|reflexivity].
      destruct ((class' =? fst (expected fp u)) && (number' =? snd (expected fp u)) && Bool.eqb (compound body') (kind_compound k)); [|reflexivity].
      destruct k, body' as [p|inner]; try reflexivity; cbn [parse_body].
      - destruct (kind_of f n elem) as [k'|]; [|reflexivity]. destruct (element_kind k' && forallb (element_ok k') inner); [|reflexivity].
        rewrite EE. now destruct (parse_elements n elem _ inner).
      - destruct (forallb exported fields); [|reflexivity]. rewrite FE. now destruct (parse_fields n fields inner). }
    destruct (is_any k); [reflexivity|]. destruct (fp_explicit fp).
    - destruct (empty_contents body && _); [reflexivity|].
      destruct ((class =? explicit_class fp) && is_tag fp number && (empty_contents body || compound body)); [|reflexivity].
      destruct (is_raw k); [reflexivity|]. destruct body as [p|[|[c' n' b'] inner]]; try reflexivity. apply V.
    - destruct (is_raw k); [reflexivity|]. apply V.
  Qed.

  (** Other types than interfaces and RawValue. *)
  Lemma parse_plain : forall n e fp ws k, kind_of f n e = Some k -> is_any k = false -> is_raw k = false ->
    parse_field f (S n) e fp ws =
    let absent := option_map (fun v => (v, ws)) (set_default f n e fp) in
    match ws with
    | [] => absent
    | TLV class number body :: rest =>
        if fp_explicit fp then
          if empty_contents body && match rest with [] => true | _ => false end then None
          else if (class =? explicit_class fp) && is_tag fp number && (empty_contents body || compound body) then
            match body with
            | Nested (TLV class' number' body' :: inner) => parse_value n k fp absent class' number' body' (inner ++ rest)
            | _ => None
            end
          else absent
        else parse_value n k fp absent class number body rest
    end.
  Proof. intros n e fp ws k K A R. rewrite parse_field_eq, K, A, R. reflexivity. Qed.

End Unfold.

(** * Tags *)

Lemma outer_det asg : forall t c k, outer_tag asg t c k -> ~ open_type asg t -> forall c' k', outer_tag asg t c' k' -> c = c' /\ k = k'.
Proof.
  induction 1 as [| | | | | |z n E| | | | | |t cs c k H IH|n t c k D H IH|N|N|alts x n t c k J H IH|s c k]; intros NO c' k' H';
    try (exfalso; apply NO; constructor; fail); inversion H'; subst; auto.
  - rewrite E in *. match goal with X : Some _ = Some _ |- _ => injection X as -> end. auto.
  - apply IH; [|assumption]. intro O. apply NO. now constructor.
  - match goal with X : defines asg n _ |- _ => rewrite (defines_unique _ _ _ _ D X) in * end. apply IH; [|assumption].
    intro O. apply NO. eapply oy_reference; eassumption.
  - exfalso. eapply H1. exact D.
  - exfalso. eapply H1. exact D.
  - exfalso. eapply N. eassumption.
  - exfalso. eapply N. eassumption.
Qed.

Lemma encodes_outer td asg : forall t a c k b, encodes td asg t a (TLV c k b) -> outer_tag asg t c k.
Proof.
  intros t a c k b H. remember (TLV c k b) as w. revert c k b Heqw.
  induction H; intros c0 k0 b0 E; try (injection E as <- <- <-); try (constructor; assumption).
  - constructor. eapply IHencodes. exact E.
  - eapply ot_reference; [eassumption|]. eapply IHencodes. exact E.
  - eapply ot_choice; [eassumption|]. eapply IHencodes. exact E.
Qed.

(** A type with a tag is not open. *)
Lemma tagged_closed asg : forall t, tags_of t <> [] -> ~ open_type asg t.
Proof. induction t using atype_ind'; intros T O; try (now apply T); inversion O; subst. now apply IHt. Qed.

Lemma outer_strip asg : forall t c k, tags_of t = [] -> outer_tag asg (strip t) c k -> outer_tag asg t c k.
Proof. induction t using atype_ind'; intros c0 k0 T E; try exact E; cbn in T; [discriminate|]. constructor. now apply IHt. Qed.

Lemma outer_tagged asg : forall t tag mode k, tags_of t = [(tag, mode)] -> tag_ClassNumber tag = VNumber k -> outer_tag asg t (tag_Class tag) k.
Proof.
  induction t using atype_ind'; intros tag mode k T E; try discriminate T.
  - cbn in T. injection T as -> _ _. destruct tag as [cl num]. cbn in *. subst num. constructor.
  - constructor. eapply IHt; eassumption.
Qed.

Lemma represents_strip td asg repr : forall t v a, ~ raw_type asg t -> represents td asg repr (strip t) v a -> represents td asg repr t v a.
Proof.
  induction t using atype_ind'; intros v0 a0 NR E; try exact E.
  - assert (NRt : ~ raw_type asg t) by (intro R; apply NR; now constructor). apply re_tagged; [exact NRt|now apply IHt].
  - apply re_constrained. apply IHt; [|exact E]. intro R. apply NR. now constructor.
Qed.

Lemma same_strip asg : forall t a a', same_value asg (strip t) a a' -> same_value asg t a a'.
Proof. induction t using atype_ind'; intros a0 a' E; try exact E; [apply sv_tagged|apply sv_constrained]; now apply IHt. Qed.

Lemma within_strip : forall t l, within (strip t) l -> within t l.
Proof. induction t using atype_ind'; intros l0 E; try exact E; [apply wi_tagged|apply wi_constrained]; now apply IHt. Qed.

(** The encoding of a component is that of the type under the tag, with the tag. *)
Lemma encodes_untag : forall td asg t o d fp a w, component_params td asg t o d fp -> ~ open_type asg (strip t) ->
  (length (tags_of t) <= 1)%nat -> encodes td asg t a w ->
  exists class u c, encodes td asg (strip t) a (TLV class u c) /\
    w = match fp_tag fp with
        | None => TLV class u c
        | Some k => TLV (fp_class fp) k (if fp_explicit fp then Nested [TLV class u c] else c)
        end.
Proof.
  intros td asg t o d fp a w C NO L E. destruct (tags_of t) as [|[g mode] [|? ?]] eqn:T; [| |cbn in L; lia].
  - destruct (cp_untagged _ _ _ _ _ _ C T) as [T1 T2]. rewrite T1. apply encodes_strip_inv in E; [|exact T].
    destruct w as [class u c]. eauto.
  - destruct (cp_tagged _ _ _ _ _ _ C _ _ T) as ((k & K1 & K2) & K3 & K4). rewrite K2, K3. clear C L.
    revert a w T E NO. induction t using atype_ind'; intros a0 w T E NO; try discriminate T.
    + cbn in T. injection T as T0 T1 T2. cbn [strip] in *.
      inversion E as [| | | | | | | | | | |cl k0 t0 md hs a1 w0 EF E1|cl k0 t0 md hs a1 cl' k' body EF NO' E1| | | | | |]; subst.
      * destruct EF as [EF|EF]; [|exfalso; apply NO; now apply open_strip]. destruct w0 as [cls u c]. apply encodes_strip_inv in E1; [|exact T2]. exists cls, u, c. split; [exact E1|].
        cbn in K1. injection K1 as ->. rewrite (proj2 K4 EF). reflexivity.
      * apply encodes_strip_inv in E1; [|exact T2]. exists cl', k', body. split; [exact E1|].
        cbn in K1. injection K1 as ->. destruct (fp_explicit fp) eqn:X; [|reflexivity]. exfalso. apply EF, K4. reflexivity.
    + inversion E; subst. cbn [strip]. apply IHt; assumption.
Qed.

Lemma Forall2_permutation {A B} (R : A -> B -> Prop) : forall ws ws', Permutation ws ws' -> forall l, Forall2 R l ws ->
  exists l', Permutation l l' /\ Forall2 R l' ws'.
Proof.
  induction 1 as [|w ws ws' H IH|w1 w2 ws|ws1 ws2 ws3 H1 IH1 H2 IH2]; intros l F.
  - inversion F; subst. exists []. auto.
  - inversion F as [|a ? l0 ? R0 F0]; subst. destruct (IH _ F0) as (l' & P & F'). exists (a :: l'). auto.
  - inversion F as [|a ? l0 ? R0 F0]; subst. inversion F0 as [|a' ? l1 ? R1 F1]; subst.
    exists (a' :: a :: l1). split; [apply perm_swap|auto].
  - destruct (IH1 _ F) as (l' & P & F'). destruct (IH2 _ F') as (l'' & P' & F''). exists l''. split; [eapply perm_trans; eassumption|exact F''].
Qed.

Section Main.
  Context (U : unicode_tables) (repr : string) (td : Z) (asg : list Assignment_) (f : gofile) (good : string -> Prop).

  Notation Q := (field_params td asg).
  Notation go_type := (go_type U asg repr).
  Notation go_fields := (go_fields U asg repr).
  Notation plain_type := (plain_type asg good).
  Notation component_type := (component_type asg good).
  Notation plain_components := (plain_components asg good).
  Notation encodes := (encodes td asg).
  Notation encodes_all := (encodes_all td asg).

  Hypothesis Hnodup : NoDup (declared_types f).
  Hypothesis Hfile : forall n t, defines asg n t -> exists e b, go_type t e /\ mirrors Q t e /\
    (b = true <-> reaches_set asg t) /\ incl (gd_specs (type_decl U n e b)) (file_specs f).
  Hypothesis Hgood : wire_names asg good.

  (** A reference is read like its definition. *)
  Lemma reference_kind : forall n t e, component_type (TReference n) -> defines asg n t -> go_type (TReference n) e ->
    exists e', component_type (strip t) /\ go_type (strip t) e' /\ mirrors Q (strip t) e' /\ tags_of t = [] /\
      (forall c x, strip t <> TSet c x) /\
      ((forall k kd, kind_of f k e' = Some kd -> kind_of f (S k) e = Some kd) /\
       (forall fp, fits asg (TReference n) fp -> fits asg (strip t) fp) \/
       (exists u e1, strip t = TSetOf u /\ e' = EArray e1 /\ plain_type u /\ (forall k, kind_of f (S (S k)) e = Some (KSlice true e1)) /\
          forall fp, fits asg (TReference n) fp -> fp_set fp = false /\ fits asg (strip t) (with_set fp))).
  Proof.
    intros n t e C D G.
    assert (FI : forall fp, fits asg (TReference n) fp -> fp_set fp = false /\ fp_stringType fp = 0).
    { intros fp F. split; [exact (not_set_param _ _ _ F ltac:(discriminate) ltac:(discriminate))|]. exact (fi_string _ _ _ F). }
    inversion C as [t0 P| | | |n0 T]; subst.
    - inversion P as [| | | | | | | | | |n' Gn|]; subst.
      assert (FT : forall fp, fits asg (TReference n) fp -> fp_timeType fp = 0).
      { intros fp F. destruct (go_type_leaf _ _ _ _ _ G) as (m0 & lt0 & L0).
        rewrite (fi_time _ _ _ F _ _ _ eq_refl L0). eapply good_time; eassumption. }
      destruct (Hgood n Gn) as (A & _ & t' & D' & N). rewrite <- (defines_unique _ _ _ _ D D') in N. clear t' D'.
      inversion G as [| | | | | | | | | | | | | | | | |? m t0 S T|? m t0 l S T B|? m t0 S T B| | |]; subst.
      + exfalso. destruct S as (o & L & _). destruct (Hgood _ (leaf_good _ _ Hgood _ _ _ L Gn)) as (_ & X & _). auto.
      + assert (Y : go_type (strip t) (EIdent "asn1.BitString") /\ opaque (strip t) = true /\ (forall u, strip t <> TSetOf u)).
        { destruct S as (o & L & S). inversion L as [? H|? t' H H'|? t' m' ? ? H H' H'']; subst.
          - exfalso. eapply H, D.
          - rewrite <- (defines_unique _ _ _ _ D H) in *. destruct S as [[S _]|(_ & _ & ->)]; [|cbn in B; discriminate B].
            injection S as ->. rewrite B. split; [constructor|]. split; [reflexivity|discriminate].
          - rewrite <- (defines_unique _ _ _ _ D H) in *. rewrite H'. split; [|split; [reflexivity|discriminate]].
            apply (gt_ref_bits _ _ _ _ m t0 l); [exists o; auto|assumption|assumption]. }
        destruct Y as (Y1 & Y2 & Y3). destruct N as [N|(_ & u & E & _)]; [|now apply Y3 in E].
        destruct (plain_strip _ _ _ N) as [N' Tg]. exists (EIdent "asn1.BitString").
        split; [now apply ct_plain|]. split; [exact Y1|]. split; [now apply mir_opaque|]. split; [exact Tg|]. split.
        { intros c x X. rewrite X in N'. inversion N'. }
        left. split.
        * intros k kd K. destruct k; exact K.
        * intros fp F. destruct (FI fp F) as [F1 F2]. apply (plain_fits _ _ Hgood t fp N F1 F2 (FT fp F)).
      + destruct (Hfile n t D) as (e & b & GT & MI & Bb & I). exists e.
        apply go_type_strip in GT. apply mirrors_strip in MI. destruct N as [N|(Tg & u & E & N)].
        * destruct b; [exfalso; apply (plain_no_set _ _ t N), Bb; reflexivity|]. destruct (plain_strip _ _ _ N) as [N' Tg].
          split; [now apply ct_plain|]. split; [exact GT|]. split; [exact MI|]. split; [exact Tg|]. split.
          { intros c x X. rewrite X in N'. inversion N'. }
          left. split.
          { intros k kd K. exact (kind_named U f Hnodup n e k A I kd K). }
          { intros fp F. destruct (FI fp F) as [F1 F2]. apply (plain_fits _ _ Hgood t fp N F1 F2 (FT fp F)). }
        * assert (b = true) as ->.
          { apply Bb. clear - Tg E. revert Tg E. induction t using atype_ind'; intros T0 E; try discriminate; constructor; cbn in *; auto. }
          rewrite E in *. inversion GT as [| | | | | | | | | | | | | |u0 e1 G1| | | | | | | |]; subst.
          split; [now apply ct_set_of|]. split; [exact GT|]. split; [exact MI|]. split; [exact Tg|].
          split; [discriminate|]. right. exists u, e1.
          split; [reflexivity|]. split; [reflexivity|]. split; [exact N|]. split.
          { intros k. apply (kind_named_set U f Hnodup); [exact A|exact I|]. exact (slice_kind U repr td asg f good Hfile Hgood u e1 N G1 k). }
          { intros fp F. destruct (FI fp F) as [F1 F2]. split; [exact F1|].
            constructor; cbn [with_set fp_set fp_stringType fp_timeType].
            - split; intros _; [right; exists u; reflexivity|reflexivity].
            - exact F2.
            - intros; discriminate.
            - intros _. exact (FT fp F). }
    - pose proof (generalized_leaf _ _ T) as L. pose proof (time_go_type _ _ _ _ _ L G) as ->.
      inversion T as [H|? t' m H H' H'' H3]; subst; [exfalso; eapply H, D|].
      rewrite <- (defines_unique _ _ _ _ D H) in *. pose proof (generalized_leaf _ _ H3) as Lm.
      rewrite H''. exists (EIdent "time.Time"). split; [now apply ct_time|].
      split; [eapply gt_time; [exists None; split; [exact Lm|right; auto]|now left]|].
      split; [now apply mir_opaque|]. split; [exact H'|]. split; [discriminate|]. left. split.
      + intros k kd K. destruct k; exact K.
      + intros fp F. destruct (FI fp F) as [F1 F2]. constructor; [|exact F2| |intro X; exfalso; eapply X; reflexivity].
        * rewrite F1. split; [discriminate|]. intros [(c & x & X)|(u & X)]; discriminate.
        * intros n' m' lt En Ll. injection En as <-. exact (fi_time _ _ _ F n m' lt eq_refl (leaf_step _ _ _ _ _ _ D H'' Ll)).
  Qed.

  (** ** Kinds *)

  (** A field of kind [kd] with these parameters is read as the universal tag [u]. *)
  Definition wants (fp : fieldParameters) (kd : gkind) (u : Z) : Prop :=
    kd = KString /\ fp_set fp = false /\ In u [12; 18; 19; 22] /\ fp_stringType fp = (if u =? 19 then 0 else u) \/
    kd = KTime /\ fp_set fp = false /\ u = 24 \/
    (kd <> KString /\ kd <> KTime /\ exists ku, kind_tag kd = Some ku /\ (if fp_set fp then 17 else ku) = u).

  Lemma wants_kind : forall fp kd u, wants fp kd u -> is_any kd = false /\ is_raw kd = false.
  Proof. intros fp kd u [(-> & _)|[(-> & _)|(_ & _ & ku & K & _)]]; [split; reflexivity..|]. destruct kd; try discriminate K; split; reflexivity. Qed.

  Definition kinds (t : AType_) : Prop := ~ raw_type asg t -> forall e, component_type t -> go_type t e ->
    exists k0 kd u, (forall k, (k0 <= k)%nat -> kind_of f k e = Some kd) /\ outer_tag asg t CLASS_UNIVERSAL u /\
      forall fp, fits asg t fp -> wants fp kd u.

  Lemma kinds_wants t fp u : fits asg t fp -> (forall c x, strip t <> TSet c x) -> (forall v, strip t <> TSetOf v) ->
    forall kd, kd <> KString -> kd <> KTime -> kind_tag kd = Some u -> wants fp kd u.
  Proof.
    intros F N1 N2 kd K1 K2 K. right. right. split; [exact K1|]. split; [exact K2|]. exists u. split; [exact K|].
    now rewrite (not_set_param _ _ _ F N1 N2).
  Qed.

  Lemma kinds_here : forall t, strip t = t -> (forall n, t <> TReference n) -> kinds t.
  Proof.
    intros t E N NR e C G.
    inversion C as [t0 P|c x P|u P|z Iz|n T]; subst.
    - inversion P; subst; try (exfalso; eapply N; reflexivity); try (exfalso; apply NR; now constructor).
      + inversion G; subst. exists O, KBool, 1. split; [destruct k; reflexivity|]. split; [constructor|]. intros fp F.
        eapply kinds_wants; [exact F|discriminate..|reflexivity].
      + inversion G; subst.
        * exists O, KInt, 2. split; [destruct k; reflexivity|]. split; [constructor|]. intros fp F.
          eapply kinds_wants; [exact F|discriminate..|reflexivity].
        * exists O, KBig, 2. split; [destruct k; reflexivity|]. split; [constructor|]. intros fp F.
          eapply kinds_wants; [exact F|discriminate..|reflexivity].
      + inversion G; subst. exists O, KBits, 3. split; [destruct k; reflexivity|]. split; [constructor|]. intros fp F.
        eapply kinds_wants; [exact F|discriminate..|reflexivity].
      + inversion G; subst. exists O, KBytes, 4. split; [destruct k; reflexivity|]. split; [constructor|]. intros fp F.
        eapply kinds_wants; [exact F|discriminate..|reflexivity].
      + inversion G; subst. exists O, KOid, 6. split; [destruct k; reflexivity|]. split; [constructor|]. intros fp F.
        eapply kinds_wants; [exact F|discriminate..|reflexivity].
      + inversion G; subst. exists O, KEnum, 10. split; [destruct k; reflexivity|]. split; [constructor|]. intros fp F.
        eapply kinds_wants; [exact F|discriminate..|reflexivity].
      + inversion G; subst. exists O, KString, 19. split; [destruct k; reflexivity|]. split; [now constructor|]. intros fp F.
        left. split; [reflexivity|]. split; [exact (not_set_param _ _ _ F ltac:(discriminate) ltac:(discriminate))|].
        split; [cbn; auto|]. exact (fi_string _ _ _ F).
      + exfalso. exact (strip_constrained _ _ _ E).
      + apply (go_slice U repr asg (TSequenceOf t0) t0) in G as (e' & -> & G); [|now left].
        exists O, (KSlice false e'), 16. split; [intros k _; eapply slice_kind; eassumption|]. split; [constructor|]. intros fp F.
        eapply kinds_wants; [exact F|discriminate..|reflexivity].
      + apply (go_struct U repr asg (TSequence comps exts) comps exts) in G as (gfs & -> & G); [|now left].
        exists O, (KStruct gfs), 16. split; [destruct k; reflexivity|]. split; [constructor|]. intros fp F.
        eapply kinds_wants; [exact F|discriminate..|reflexivity].
    - apply (go_struct U repr asg (TSet c x) c x) in G as (gfs & -> & G); [|now right].
      exists O, (KStruct gfs), 17. split; [destruct k; reflexivity|]. split; [constructor|]. intros fp F. right. right.
      split; [discriminate|]. split; [discriminate|]. exists 16. split; [reflexivity|].
      now rewrite (proj2 (fi_set _ _ _ F)) by (left; exists c, x; reflexivity).
    - apply (go_slice U repr asg (TSetOf u) u) in G as (e' & -> & G); [|now right].
      exists O, (KSlice false e'), 17. split; [intros k _; eapply slice_kind; eassumption|]. split; [constructor|]. intros fp F.
      right. right. split; [discriminate|]. split; [discriminate|]. exists 16. split; [reflexivity|].
      now rewrite (proj2 (fi_set _ _ _ F)) by (right; exists u; reflexivity).
    - inversion G; subst. destruct Iz as [<-|[<-|[<-|[]]]].
      + exists O, KString, 22. split; [destruct k; reflexivity|]. split; [now constructor|]. intros fp F.
        left. split; [reflexivity|]. split; [exact (not_set_param _ _ _ F ltac:(discriminate) ltac:(discriminate))|].
        split; [cbn; auto|]. exact (fi_string _ _ _ F).
      + exists O, KString, 12. split; [destruct k; reflexivity|]. split; [now constructor|]. intros fp F.
        left. split; [reflexivity|]. split; [exact (not_set_param _ _ _ F ltac:(discriminate) ltac:(discriminate))|].
        split; [cbn; auto|]. exact (fi_string _ _ _ F).
      + exists O, KString, 18. split; [destruct k; reflexivity|]. split; [now constructor|]. intros fp F.
        left. split; [reflexivity|]. split; [exact (not_set_param _ _ _ F ltac:(discriminate) ltac:(discriminate))|].
        split; [cbn; auto|]. exact (fi_string _ _ _ F).
    - exfalso. eapply N. reflexivity.
  Qed.

  Lemma kinds_reference : forall n m lt, leaf_of asg n m lt -> kinds (TReference n).
  Proof.
    assert (step : forall n t, defines asg n t -> kinds (strip t) -> kinds (TReference n)).
    { intros n t D IH NR e C G. destruct (reference_kind n t e C D G) as (e' & C' & G' & _ & T & _ & H).
      assert (NRt : ~ raw_type asg (strip t)) by (intro R; apply NR, (rw_reference _ n t D), raw_strip, R).
      destruct (IH NRt e' C' G') as (k0 & kd & u & K & O & W). destruct H as [(H1 & H2)|(v & e1 & E & -> & P & H1 & H2)].
      - exists (S k0), kd, u. split; [|split].
        + intros k Hk. destruct k as [|k]; [lia|]. apply H1, K. lia.
        + eapply ot_reference; [exact D|]. now apply outer_strip.
        + intros fp F. apply W. now apply H2.
      - rewrite E in *. apply (go_slice U repr asg (TSetOf v) v) in G' as (e2 & E2 & G2); [|now right]. injection E2 as <-.
        exists 2%nat, (KSlice true e1), 17. split; [|split].
        + intros k Hk. destruct k as [|[|k]]; [lia..|]. apply H1.
        + eapply ot_reference; [exact D|]. apply outer_strip; [exact T|]. rewrite E. constructor.
        + intros fp F. right. right. split; [discriminate|]. split; [discriminate|]. exists 17. split; [reflexivity|].
          destruct (H2 fp F) as [-> _]. reflexivity. }
    induction 1 as [n N|n t D N|n t m l o D E L IH].
    - intros _ e C G. inversion C as [t0 P| | | |n0 T]; subst.
      + inversion P as [| | | | | | | | | |n' Gn|]; subst. exfalso. destruct (Hgood n Gn) as (_ & _ & t & D & _). exact (N t D).
      + inversion T as [N'|? t m D]; subst; [|exfalso; exact (N t D)].
        pose proof (time_go_type U repr asg "GeneralizedTime" e (leaf_undefined _ _ N) G) as ->.
        exists O, KTime, 24. split; [destruct k; reflexivity|]. split; [now constructor|]. intros fp F. right. left.
        split; [reflexivity|]. split; [|reflexivity]. exact (not_set_param _ _ _ F ltac:(discriminate) ltac:(discriminate)).
    - apply (step n t D). apply kinds_here; [apply strip_idem|exact N].
    - apply (step n t D). rewrite E. exact IH.
  Qed.

  Lemma kinds_all : forall t, kinds (strip t).
  Proof.
    intros t. destruct (reference_or_not t) as [(m & E)|N].
    - rewrite E. intros NR e C G. destruct (go_type_leaf _ _ _ _ _ G) as (m' & lt & L). exact (kinds_reference _ _ _ L NR e C G).
    - apply kinds_here; [apply strip_idem|exact N].
  Qed.

  (** ** Zero values *)

  Definition N0 (t : AType_) : Prop := forall e, component_type (strip t) -> go_type (strip t) e ->
    exists k0 z, is_zero z = true /\ forall k, (k0 <= k)%nat -> zero_of f k e = Some z.
  Definition N1 (l : list (component Value DefinedValue)) : Prop := forall gfs, plain_components l -> go_fields l gfs ->
    exists k0 zs, forallb is_zero zs = true /\ forall k, (k0 <= k)%nat -> zero_fields f k gfs = Some zs.

  Lemma zero_simple : forall e kd z, (forall k, kind_of f k e = Some kd) -> (forall k, zero_kind f k kd = Some z) -> is_zero z = true ->
    exists k0 z, is_zero z = true /\ forall k, (k0 <= k)%nat -> zero_of f k e = Some z.
  Proof.
    intros e kd z K Z0 I. exists 1%nat, z. split; [exact I|]. intros k Hk. destruct k as [|k]; [lia|]. now rewrite zero_of_eq, K.
  Qed.

  Lemma zeros_read : (forall t, founded asg t -> N0 t) /\ (forall l, founded_all asg l -> N1 l).
  Proof.
    apply founded_mutind.
    - intros e _ G. inversion G; subst. apply (zero_simple _ KBool (GBool false)); try reflexivity. destruct k; reflexivity.
    - intros l e _ G. inversion G; subst.
      + apply (zero_simple _ KInt (GInt 0)); try reflexivity. destruct k; reflexivity.
      + apply (zero_simple _ KBig (GBig None)); try reflexivity. destruct k; reflexivity.
    - intros l e _ G. inversion G; subst. apply (zero_simple _ KBits (GBits None 0)); try reflexivity. destruct k; reflexivity.
    - intros e _ G. inversion G; subst. apply (zero_simple _ KBytes (GBytes None)); try reflexivity. destruct k; reflexivity.
    - intros e _ G. inversion G; subst. apply (zero_simple _ KOid (GOid None)); try reflexivity. destruct k; reflexivity.
    - intros x e _ G. inversion G; subst. apply (zero_simple _ KEnum (GInt 0)); try reflexivity. destruct k; reflexivity.
    - intros z e _ G. inversion G; subst. apply (zero_simple _ KString (GString "")); try reflexivity. destruct k; reflexivity.
    - intros t e C G. cbn [strip] in *. apply (go_slice U repr asg (TSequenceOf t) t) in G as (e' & -> & G); [|now left].
      apply (component_slice asg good (TSequenceOf t) t) in C; [|now left].
      apply (zero_simple _ (KSlice false e') (GSlice None)); try reflexivity. intros k. eapply slice_kind; eassumption.
    - intros t e C G. cbn [strip] in *. apply (go_slice U repr asg (TSetOf t) t) in G as (e' & -> & G); [|now right].
      apply (component_slice asg good (TSetOf t) t) in C; [|now right].
      apply (zero_simple _ (KSlice false e') (GSlice None)); try reflexivity. intros k. eapply slice_kind; eassumption.
    - intros c x _ IH e C G. cbn [strip] in *. apply (go_struct U repr asg (TSequence c x) c x) in G as (gfs & -> & G); [|now left].
      apply (component_struct asg good (TSequence c x) c x) in C; [|now left].
      destruct (IH gfs C G) as (k0 & zs & I & Z). exists (S k0), (GStruct zs). split; [exact I|]. intros k Hk. destruct k as [|k]; [lia|].
      rewrite zero_of_eq. replace (kind_of f k (EStruct gfs)) with (Some (KStruct gfs)) by (destruct k; reflexivity).
      cbn [zero_kind]. rewrite Z by lia. reflexivity.
    - intros c x _ IH e C G. cbn [strip] in *. apply (go_struct U repr asg (TSet c x) c x) in G as (gfs & -> & G); [|now right].
      apply (component_struct asg good (TSet c x) c x) in C; [|now right].
      destruct (IH gfs C G) as (k0 & zs & I & Z). exists (S k0), (GStruct zs). split; [exact I|]. intros k Hk. destruct k as [|k]; [lia|].
      rewrite zero_of_eq. replace (kind_of f k (EStruct gfs)) with (Some (KStruct gfs)) by (destruct k; reflexivity).
      cbn [zero_kind]. rewrite Z by lia. reflexivity.
    - intros g t mode has _ IH. exact IH.
    - intros t c _ IH. exact IH.
    - intros n t D _ IH e C G. cbn [strip] in *. destruct (reference_kind n t e C D G) as (e' & C' & G' & _ & T & _ & H).
      destruct (IH e' C' G') as (k0 & z & I & Z). destruct H as [(H1 & _)|(v & e1 & E & -> & P & H1 & _)].
      + exists (S (S k0)), z. split; [exact I|]. intros k Hk. destruct k as [|[|k]]; [lia..|].
        assert (Zk := Z (S k) ltac:(lia)). rewrite zero_of_eq in Zk. destruct (kind_of f k e') as [kd|] eqn:K; [|discriminate].
        assert (Zk' := Z (S (S k)) ltac:(lia)). rewrite zero_of_eq, (kind_mono _ _ _ _ K (S k)) in Zk' by lia.
        rewrite zero_of_eq, (H1 k kd K). exact Zk'.
      + exists 3%nat, (GSlice None). split; [reflexivity|]. intros k Hk. destruct k as [|[|[|k]]]; [lia..|].
        rewrite zero_of_eq, H1. reflexivity.
    - intros N e C G. cbn [strip] in *. pose proof (time_go_type U repr asg "GeneralizedTime" e (leaf_undefined _ _ N) G) as ->.
      apply (zero_simple _ KTime (GTime 0)); try reflexivity. destruct k; reflexivity.
    - intros alts x TC e C G. cbn [strip] in *.
      inversion G; subst; [|apply tagged_one in TC; contradiction|contradiction].
      apply (zero_simple _ KRaw (GRaw None)); try reflexivity. destruct k; reflexivity.
    - intros gfs _ G. inversion G; subst. exists O, []. split; reflexivity.
    - intros n t o d l _ IH1 _ IH2 gfs C G. inversion C as [|n' t' o' d' l' A CT EX DF C'|]; subst.
      inversion G as [|n' t' o' d' l' e tag gfs' G1 G2|]; subst.
      destruct (IH1 e CT (go_type_strip _ _ _ _ _ G1)) as (k1 & z & I1 & Z1). destruct (IH2 gfs' C' G2) as (k2 & zs & I2 & Z2).
      exists (Nat.max k1 k2), (z :: zs). split; [cbn [forallb]; now rewrite I1|]. intros k Hk. cbn [zero_fields].
      rewrite Z1, Z2 by lia. reflexivity.
    - intros l _ IH gfs C G. inversion C; subst. inversion G; subst. now apply IH.
  Qed.

  (** ** Fields that are left out, and fields that are there *)

  (** The universal tag of a field that was left out, or comes with its own tag. *)
  Lemma wanted_other : forall fp kd u c k, wants fp kd u -> exists u1, wanted fp kd c k = Some u1 /\
    (c = CLASS_UNIVERSAL -> k = u1 -> alike CLASS_UNIVERSAL u c k).
  Proof.
    intros fp kd u c k [(-> & S & I & _)|[(-> & S & ->)|(N1 & N2 & ku & K & E)]]; unfold wanted.
    - cbn [kind_tag Z.eqb Pos.eqb]. rewrite S. eexists. split; [reflexivity|]. intros -> Ek.
      cbn [Z.eqb] in Ek. change (CLASS_UNIVERSAL =? CLASS_UNIVERSAL) with true in Ek. cbv iota in Ek.
      split; [reflexivity|]. right. split; [reflexivity|]. left.
      assert (Iu : In u (19 :: string_tags)) by (cbn in I |- *; intuition).
      split; [exact Iu|]. destruct (existsb (Z.eqb k) string_tags) eqn:X.
      + right. apply existsb_exists in X as (x & Ix & Ex). apply Z.eqb_eq in Ex. now subst x.
      + left. cbn in Ek. congruence.
    - cbn [kind_tag]. rewrite S. eexists. split; [reflexivity|]. intros -> Ek. cbn [Z.eqb Pos.eqb andb] in Ek.
      change (CLASS_UNIVERSAL =? CLASS_UNIVERSAL) with true in Ek.
      split; [reflexivity|]. right. split; [reflexivity|]. right. split; [cbn; auto|].
      destruct (k =? 24) eqn:X; [apply Z.eqb_eq in X; cbn; auto|]. cbn in Ek. cbn. auto.
    - rewrite K. assert (ku <> 19 /\ ku <> 23).
      { destruct kd; cbn in K; try discriminate K; injection K as <-; try (split; discriminate); try (exfalso; congruence).
        destruct set; split; discriminate. }
      replace (ku =? 19) with false by (symmetry; apply Z.eqb_neq; tauto). replace (ku =? 23) with false by (symmetry; apply Z.eqb_neq; tauto).
      cbn [andb]. eexists. split; [reflexivity|]. intros -> ->. split; [reflexivity|]. left. now rewrite E.
  Qed.

  (** A field is left out. *)
  Lemma field_absent : forall t o d fp e kd u n ws class k, component_params td asg t o d fp -> ~ open_type asg t -> (length (tags_of t) <= 1)%nat ->
    kind_of f n e = Some kd -> wants fp kd u -> outer_tag asg (strip t) CLASS_UNIVERSAL u -> outer_tag asg t class k ->
    (forall tag mode, In (tag, mode) (tags_of t) -> effective td mode = TAGS_EXPLICIT -> tag_Class tag <> CLASS_PRIVATE) ->
    (forall c' k' b ws', ws = TLV c' k' b :: ws' -> ~ alike class k c' k') ->
    (forall tag mode, In (tag, mode) (tags_of t) -> effective td mode = TAGS_EXPLICIT ->
      forall c' k' b, ws = [TLV c' k' b] -> empty_contents b = false) ->
    parse_field f (S n) e fp ws = option_map (fun v => (v, ws)) (set_default f n e fp).
  Proof.
    intros t o d fp e kd u n ws class k CP NO L K W O1 O PR D LA. destruct (wants_kind _ _ _ W) as [NA NR]. rewrite (parse_plain _ _ _ _ _ _ K NA NR). cbn zeta.
    destruct ws as [|[c' k' b] ws]; [reflexivity|]. specialize (D c' k' b ws eq_refl).
    destruct (wanted_other fp kd u c' k' W) as (u1 & Wu & Al).
    destruct (tags_of t) as [|[g mode] [|? ?]] eqn:T; [| |cbn in L; lia].
    - destruct (cp_untagged _ _ _ _ _ _ CP T) as [T1 T2]. rewrite T2. unfold parse_value, expected. rewrite Wu, T1. cbn [fst snd].
      apply outer_strip in O1; [|exact T]. destruct (outer_det _ _ _ _ O NO _ _ O1) as [-> ->].
      destruct (c' =? CLASS_UNIVERSAL) eqn:E1; [|reflexivity]. destruct (k' =? u1) eqn:E2; [|reflexivity].
      apply Z.eqb_eq in E1, E2. exfalso. apply D. now apply Al.
    - destruct (cp_tagged _ _ _ _ _ _ CP _ _ T) as ((k2 & K1 & K2) & K3 & K4).
      destruct (outer_det _ _ _ _ O NO _ _ (outer_tagged _ _ _ _ _ T K1)) as [-> ->].
      destruct (fp_explicit fp) eqn:X.
      + assert (EF : effective td mode = TAGS_EXPLICIT) by (apply K4; reflexivity).
        assert (M : explicit_class fp = tag_Class g).
        { unfold explicit_class. rewrite <- K3. unfold fp_class. destruct (fp_application fp) eqn:PA; [reflexivity|].
          destruct (fp_private fp) eqn:PV; [|reflexivity]. exfalso. apply (PR g mode (or_introl eq_refl) EF). rewrite <- K3. unfold fp_class.
          now rewrite PV, PA. }
        assert (Y : empty_contents b && match ws with [] => true | _ => false end = false).
        { destruct ws as [|w ws]; [|apply andb_false_r]. rewrite andb_true_r. apply (LA g mode (or_introl eq_refl) EF c' k'). reflexivity. }
        rewrite Y, M. unfold is_tag. rewrite K2.
        destruct (c' =? tag_Class g) eqn:E1; [|reflexivity]. destruct (k' =? k2) eqn:E2; [|reflexivity].
        apply Z.eqb_eq in E1, E2. exfalso. apply D. subst. split; [reflexivity|now left].
      + unfold parse_value, expected. rewrite Wu, K2, X. cbn [fst snd]. rewrite K3.
        destruct (c' =? tag_Class g) eqn:E1; [|reflexivity]. destruct (k' =? k2) eqn:E2; [|reflexivity].
        apply Z.eqb_eq in E1, E2. exfalso. apply D. subst. split; [reflexivity|now left].
  Qed.

  Lemma wanted_here : forall fp kd u, wants fp kd u -> wanted fp kd CLASS_UNIVERSAL u = Some u.
  Proof.
    intros fp kd u [(-> & S & I & _)|[(-> & S & ->)|(N1 & N2 & ku & K & E)]]; unfold wanted.
    - rewrite S. cbn in I. destruct I as [<-|[<-|[<-|[<-|[]]]]]; reflexivity.
    - rewrite S. reflexivity.
    - rewrite K. assert (ku <> 19 /\ ku <> 23).
      { destruct kd; cbn in K; try discriminate K; injection K as <-; try (split; discriminate); try (exfalso; congruence).
        destruct set; split; discriminate. }
      replace (ku =? 19) with false by (symmetry; apply Z.eqb_neq; tauto). replace (ku =? 23) with false by (symmetry; apply Z.eqb_neq; tauto).
      cbn [andb]. now rewrite E.
  Qed.

  Lemma wanted_implicit : forall fp kd u c k, wants fp kd u -> kd <> KTime -> c <> CLASS_UNIVERSAL -> wanted fp kd c k = Some u.
  Proof.
    intros fp kd u c k [(-> & S & I & ST)|[(-> & S & ->)|(N1 & N2 & ku & K & E)]] NT NC; unfold wanted.
    - apply Z.eqb_neq in NC. rewrite S, NC, ST. cbn [kind_tag Z.eqb Pos.eqb]. cbn in I. destruct I as [<-|[<-|[<-|[<-|[]]]]]; reflexivity.
    - congruence.
    - rewrite K. assert (ku <> 19 /\ ku <> 23).
      { destruct kd; cbn in K; try discriminate K; injection K as <-; try (split; discriminate); try (exfalso; congruence).
        destruct set; split; discriminate. }
      replace (ku =? 19) with false by (symmetry; apply Z.eqb_neq; tauto). replace (ku =? 23) with false by (symmetry; apply Z.eqb_neq; tauto).
      cbn [andb]. now rewrite E.
  Qed.

  (** A field is there. *)
  Lemma field_present : forall t o d fp e kd u c n v rest, component_params td asg t o d fp -> (length (tags_of t) <= 1)%nat ->
    kind_of f n e = Some kd -> wants fp kd u -> compound c = kind_compound kd -> parse_body f n kd u c = Some v ->
    (forall tag mode, In (tag, mode) (tags_of t) -> tag_Class tag <> CLASS_UNIVERSAL) ->
    (forall tag mode, In (tag, mode) (tags_of t) -> effective td mode = TAGS_EXPLICIT -> tag_Class tag <> CLASS_PRIVATE) ->
    (kd = KTime -> forall tag mode, In (tag, mode) (tags_of t) -> effective td mode = TAGS_EXPLICIT) ->
    parse_field f (S n) e fp (put_tag fp u c :: rest) = Some (v, rest).
  Proof.
    intros t o d fp e kd u c n v rest CP L K W CC B NU PR TI. destruct (wants_kind _ _ _ W) as [NA NR]. rewrite (parse_plain _ _ _ _ _ _ K NA NR). cbn zeta.
    unfold put_tag, universal.
    destruct (tags_of t) as [|[g mode] [|? ?]] eqn:T; [| |cbn in L; lia].
    - destruct (cp_untagged _ _ _ _ _ _ CP T) as [T1 T2]. rewrite T1, T2. unfold parse_value, expected.
      rewrite (wanted_here _ _ _ W), T1. cbn [fst snd]. rewrite !Z.eqb_refl, CC, Bool.eqb_reflx. cbn [andb]. now rewrite B.
    - destruct (cp_tagged _ _ _ _ _ _ CP _ _ T) as ((k2 & K1 & K2) & K3 & K4). rewrite K2.
      destruct (fp_explicit fp) eqn:X.
      + assert (EF : effective td mode = TAGS_EXPLICIT) by (apply K4; reflexivity).
        assert (M : explicit_class fp = fp_class fp).
        { unfold explicit_class, fp_class. destruct (fp_application fp) eqn:PA; [reflexivity|].
          destruct (fp_private fp) eqn:PV; [|reflexivity]. exfalso. apply (PR g mode (or_introl eq_refl) EF). rewrite <- K3. unfold fp_class.
          now rewrite PV, PA. }
        cbn [empty_contents andb orb compound app]. rewrite M. unfold is_tag. rewrite K2, !Z.eqb_refl. cbn [andb].
        unfold parse_value, expected. rewrite (wanted_here _ _ _ W), K2, X. cbn [fst snd]. rewrite !Z.eqb_refl, CC, Bool.eqb_reflx.
        cbn [andb]. now rewrite B.
      + assert (EF : effective td mode <> TAGS_EXPLICIT) by (intro Y; apply K4 in Y; discriminate).
        assert (NT : kd <> KTime) by (intro Y; apply EF; apply (TI Y g mode); now left).
        unfold parse_value, expected. rewrite (wanted_implicit _ _ _ _ _ W NT).
        2: { rewrite K3. apply (NU g mode). now left. }
        rewrite K2, X. cbn [fst snd]. rewrite !Z.eqb_refl, CC, Bool.eqb_reflx. cbn [andb]. now rewrite B.
  Qed.

  (** No other type is read as a GeneralizedTime. *)
  Lemma plain_not_time : forall t c k, outer_tag asg t c k -> ~ open_type asg t -> plain_type t -> k <> 24.
  Proof.
    induction 1 as [| | | | | |z n E| | | | | |t cs c k H IH|n t c k D H IH|N|N|alts x n t c k J H IH|s c k]; intros NO P;
      try (exfalso; apply NO; constructor; fail); inversion P; subst; try discriminate; auto.
    - cbn in E. injection E as <-. discriminate.
    - apply IH; [|assumption]. intro O. apply NO. now constructor.
    - assert (NO' : ~ open_type asg t) by (intro O; apply NO; eapply oy_reference; eassumption).
      match goal with X : good n |- _ => destruct (Hgood n X) as (_ & _ & t' & D' & W) end.
      rewrite <- (defines_unique _ _ _ _ D D') in W. destruct W as [W|(T & u & E & W)]; [auto|].
      assert (O : outer_tag asg t CLASS_UNIVERSAL 17) by (apply outer_strip; [exact T|rewrite E; constructor]).
      destruct (outer_det _ _ _ _ H NO' _ _ O) as [_ ->]. discriminate.
    - match goal with X : good _ |- _ => destruct (Hgood _ X) as (_ & X' & _) end. exfalso. apply X'. now left.
  Qed.

  Lemma time_component : forall t, component_type t -> ~ open_type asg t -> outer_tag asg t CLASS_UNIVERSAL 24 -> exists m, t = TReference m /\ generalized_time asg m.
  Proof.
    intros t C NO O. inversion C as [t0 P|c x P|u P|z Iz|n T]; subst; eauto.
    - exfalso. exact (plain_not_time _ _ _ O NO P eq_refl).
    - inversion O.
    - inversion O.
    - exfalso. inversion O; subst. destruct Iz as [<-|[<-|[<-|[]]]]; discriminate.
  Qed.

  (** ** All values *)

  Definition clear_list (l : list (component Value DefinedValue)) : Prop :=
    forall pre n t o d post, l = pre ++ CNamed (Named n t) o d :: post -> clear td asg repr t o d post.
  Definition deep (t : AType_) : Prop := forall l, within t l -> clear_list l.

  Hypothesis Hread : forall name t, good name -> defines asg name t -> deep t.

  Definition R0 (t : AType_) (a : aval) : Prop := ~ raw_type asg t -> in_range a = true -> deep (strip t) -> (forall c x, strip t <> TSet c x) ->
    forall e fp u c, component_type (strip t) -> go_type (strip t) e -> mirrors Q (strip t) e -> fits asg (strip t) fp ->
    encodes (strip t) a (TLV CLASS_UNIVERSAL u c) ->
    exists k0 kd v a', (forall k, (k0 <= k)%nat -> kind_of f k e = Some kd) /\ compound c = kind_compound kd /\
      same_value asg (strip t) a a' /\ represents td asg repr (strip t) v a' /\ (blank repr a = false -> is_zero v = false) /\
      forall k, (k0 <= k)%nat -> parse_body f k kd u c = Some v.

  Definition R1 (l : list (component Value DefinedValue)) (fs : list (option aval)) : Prop :=
    in_range (AStruct fs) = true -> clear_list l -> (forall n t o d, In (CNamed (Named n t) o d) l -> deep (strip t)) ->
    forall gfs ws, plain_components l -> go_fields l gfs -> Forall2 (mirrors_field Q) (present l) gfs -> encodes_all l fs ws ->
    exists k0 vs fs', forallb exported gfs = true /\ same_components asg l fs fs' /\ represents_all td asg repr l vs fs' /\
      (blank repr (AStruct fs) = false -> forallb is_zero vs = false) /\
      forall k, (k0 <= k)%nat -> parse_fields f k gfs ws = Some vs.

  Definition R2 (t : AType_) (l : list aval) : Prop := Forall (R0 t) l.

  Lemma element_wants : forall kd u c, wants fp0 kd u -> compound c = kind_compound kd -> element_ok kd (TLV CLASS_UNIVERSAL u c) = true.
  Proof.
    intros kd u c W C. unfold element_ok. rewrite C, Bool.eqb_reflx.
    destruct W as [(-> & _ & I & _)|[(-> & _ & ->)|(N1 & N2 & ku & K & E)]].
    - cbn in I. destruct I as [<-|[<-|[<-|[<-|[]]]]]; reflexivity.
    - reflexivity.
    - rewrite K. cbn [fp0 fp_set] in E. subst u. destruct kd; cbn in K; try discriminate K; injection K as <-; try reflexivity; try congruence.
      destruct set; reflexivity.
  Qed.

  (** *** RawValue *)

  Lemma raw_field : forall fp e n ws, kind_of f n e = Some KRaw ->
    parse_field f (S n) e fp ws =
      let absent := option_map (fun v => (v, ws)) (set_default f n e fp) in
      match ws with
      | [] => absent
      | TLV class number body :: rest =>
          if fp_explicit fp then
            if empty_contents body && match rest with [] => true | _ => false end then None
            else if (class =? explicit_class fp) && is_tag fp number && (empty_contents body || compound body) then
              Some (GRaw (Some (TLV class number body)), rest)
            else absent
          else if raw_matches fp class number then Some (GRaw (Some (TLV class number body)), rest) else absent
      end.
  Proof. intros fp e n ws K. rewrite parse_field_eq. cbn zeta. rewrite K. destruct ws as [|[c u b] ws]; reflexivity. Qed.

  (** The outer tag of an encoding of a tagged type. *)
  Lemma encodes_tagged : forall t a w tag mode, tags_of t = [(tag, mode)] -> encodes t a w ->
    exists k b, tag_ClassNumber tag = VNumber k /\ w = TLV (tag_Class tag) k b /\
      (effective td mode = TAGS_EXPLICIT -> exists w', b = Nested [w']).
  Proof.
    induction t using atype_ind'; intros a0 w tag mode T E; try discriminate T.
    - cbn in T. injection T as T0 T1 T2.
      inversion E as [| | | | | | | | | | |cl k0 t0 md hs a1 w0 EF E1|cl k0 t0 md hs a1 cl' k' body EF NO' E1| | | | | |]; subst; cbn.
      + eauto 6.
      + exists k0, body. split; [reflexivity|]. split; [reflexivity|]. intro X. contradiction.
    - inversion E; subst. now apply (IHt a0 w).
  Qed.

  Lemma raw_present : forall t o d fp e n a w rest, component_params td asg t o d fp -> (length (tags_of t) <= 1)%nat ->
    kind_of f n e = Some KRaw -> encodes t a w ->
    (forall tag mode, In (tag, mode) (tags_of t) -> effective td mode = TAGS_EXPLICIT -> tag_Class tag <> CLASS_PRIVATE) ->
    parse_field f (S n) e fp (w :: rest) = Some (GRaw (Some w), rest).
  Proof.
    intros t o d fp e n a w rest CP L K E PR. rewrite (raw_field _ _ _ _ K). cbn zeta.
    destruct (tags_of t) as [|[g mode] [|? ?]] eqn:T; [| |cbn in L; lia].
    - destruct (cp_untagged _ _ _ _ _ _ CP T) as [T1 T2]. destruct w as [c u b]. rewrite T2. unfold raw_matches. now rewrite T1.
    - destruct (cp_tagged _ _ _ _ _ _ CP _ _ T) as ((k2 & K1 & K2) & K3 & K4).
      destruct (encodes_tagged t a w g mode T E) as (k & b & E1 & -> & E2). rewrite K1 in E1. injection E1 as <-.
      destruct (fp_explicit fp) eqn:X.
      + assert (EF : effective td mode = TAGS_EXPLICIT) by (apply K4; reflexivity). destruct (E2 EF) as (w' & ->).
        assert (M : explicit_class fp = tag_Class g).
        { unfold explicit_class. rewrite <- K3. unfold fp_class. destruct (fp_application fp) eqn:PA; [reflexivity|].
          destruct (fp_private fp) eqn:PV; [|reflexivity]. exfalso. apply (PR g mode (or_introl eq_refl) EF). rewrite <- K3. unfold fp_class.
          now rewrite PV, PA. }
        cbn [empty_contents andb orb compound]. rewrite M. unfold is_tag. rewrite K2, !Z.eqb_refl. reflexivity.
      + unfold raw_matches. rewrite K2, K3, !Z.eqb_refl. reflexivity.
  Qed.

  Lemma raw_absent : forall t o d fp e n ws, component_params td asg t o d fp -> (length (tags_of t) <= 1)%nat ->
    kind_of f n e = Some KRaw ->
    (forall tag mode, In (tag, mode) (tags_of t) -> effective td mode = TAGS_EXPLICIT -> tag_Class tag <> CLASS_PRIVATE) ->
    (forall class k c' k' b ws', outer_tag asg t class k -> ws = TLV c' k' b :: ws' -> ~ alike class k c' k') ->
    (forall tag mode, In (tag, mode) (tags_of t) -> effective td mode = TAGS_EXPLICIT ->
      forall c' k' b, ws = [TLV c' k' b] -> empty_contents b = false) ->
    (tags_of t = [] -> ws = []) ->
    parse_field f (S n) e fp ws = option_map (fun v => (v, ws)) (set_default f n e fp).
  Proof.
    intros t o d fp e n ws CP L K PR D LA UN. rewrite (raw_field _ _ _ _ K). cbn zeta.
    destruct (tags_of t) as [|[g mode] [|? ?]] eqn:T; [| |cbn in L; lia].
    - now rewrite (UN eq_refl).
    - destruct ws as [|[c' k' b] ws]; [reflexivity|].
      destruct (cp_tagged _ _ _ _ _ _ CP _ _ T) as ((k2 & K1 & K2) & K3 & K4).
      specialize (D _ _ c' k' b ws (outer_tagged _ _ _ _ _ T K1) eq_refl).
      destruct (fp_explicit fp) eqn:X.
      + assert (EF : effective td mode = TAGS_EXPLICIT) by (apply K4; reflexivity).
        assert (M : explicit_class fp = tag_Class g).
        { unfold explicit_class. rewrite <- K3. unfold fp_class. destruct (fp_application fp) eqn:PA; [reflexivity|].
          destruct (fp_private fp) eqn:PV; [|reflexivity]. exfalso. apply (PR g mode (or_introl eq_refl) EF). rewrite <- K3. unfold fp_class.
          now rewrite PV, PA. }
        assert (Y : empty_contents b && match ws with [] => true | _ => false end = false).
        { destruct ws as [|w ws]; [|apply andb_false_r]. rewrite andb_true_r. apply (LA g mode (or_introl eq_refl) EF c' k'). reflexivity. }
        rewrite Y, M. unfold is_tag. rewrite K2.
        destruct (c' =? tag_Class g) eqn:E1; [|reflexivity]. destruct (k' =? k2) eqn:E2; [|reflexivity].
        apply Z.eqb_eq in E1, E2. exfalso. apply D. subst. split; [reflexivity|now left].
      + unfold raw_matches. rewrite K2, K3.
        destruct (c' =? tag_Class g) eqn:E1; [|reflexivity]. destruct (k' =? k2) eqn:E2; [|reflexivity].
        apply Z.eqb_eq in E1, E2. exfalso. apply D. subst. split; [reflexivity|now left].
  Qed.

  Lemma raw_elements : forall t e, plain_type t -> go_type t e -> raw_type asg t -> forall l ws, Forall2 (encodes t) l ws ->
    exists k0 kd vs l', (forall k, (k0 <= k)%nat -> kind_of f k e = Some kd) /\ element_kind kd && forallb (element_ok kd) ws = true /\
      same_elements asg t l l' /\ represents_each td asg repr t vs l' /\
      forall k, (k0 <= k)%nat -> parse_elements f k e (List.length ws) ws = Some vs.
  Proof.
    intros t e P G RW. destruct (plain_strip _ _ _ P) as [P' T].
    destruct (raw_kind U repr td asg f good Hnodup Hfile Hgood t RW e (ct_plain _ _ _ P') (go_type_strip _ _ _ _ _ G)) as (k0 & K).
    induction 1 as [|a w l ws E _ IH].
    - exists k0, KRaw, [], []. split; [exact K|]. split; [reflexivity|]. split; [constructor|]. split; [constructor|]. reflexivity.
    - destruct IH as (k1 & kd & vs & l' & K1 & OK & SM & RE & PE).
      assert (kd = KRaw) as -> by (specialize (K (Nat.max k0 k1) ltac:(lia)); specialize (K1 (Nat.max k0 k1) ltac:(lia)); congruence).
      exists (S (Nat.max k0 k1)), KRaw, (GRaw (Some w) :: vs), (a :: l').
      split; [intros k Hk; apply K; lia|]. split; [cbn [forallb]; destruct w; exact OK|].
      split; [constructor; [apply sv_same|exact SM]|]. split; [constructor; [now apply re_raw|exact RE]|].
      intros k Hk. cbn [List.length parse_elements]. destruct k as [|k]; [lia|].
      rewrite (raw_field _ _ _ _ (K k ltac:(lia))). cbn zeta. destruct w as [c u b]. cbn [fp0 fp_explicit].
      change (raw_matches fp0 c u) with true. cbv iota. rewrite PE by lia. reflexivity.
  Qed.

  Lemma elements_read : forall t e, plain_type t -> go_type t e -> mirrors Q t e -> deep (strip t) ->
    forall l, Forall (R0 t) l -> forallb in_range l = true -> forall ws, Forall2 (encodes t) l ws ->
    exists k0 kd vs l', (forall k, (k0 <= k)%nat -> kind_of f k e = Some kd) /\ element_kind kd && forallb (element_ok kd) ws = true /\
      same_elements asg t l l' /\ represents_each td asg repr t vs l' /\
      forall k, (k0 <= k)%nat -> parse_elements f k e (List.length ws) ws = Some vs.
  Proof.
    intros t e P G M DP. destruct (plain_strip _ _ _ P) as [P' T].
    destruct (raw_dec U repr asg good Hgood t e (ct_plain _ _ _ P') (go_type_strip _ _ _ _ _ G)) as [RW|NR].
    { intros l _ _ ws E. now apply raw_elements. }
    assert (NRs : ~ raw_type asg (strip t)) by (intro R; apply NR, raw_strip, R).
    assert (NO : ~ open_type asg (strip t)).
    { intro O. apply NRs. apply (open_raw asg good Hgood _ O). rewrite strip_idem. now apply ct_plain. }
    destruct (kinds_all t NRs e (ct_plain _ _ _ P') (go_type_strip _ _ _ _ _ G)) as (k1 & kd & u & K & O & W).
    assert (F := plain_fits _ _ Hgood t fp0 P eq_refl eq_refl eq_refl). specialize (W fp0 F).
    assert (NS : forall c x, strip t <> TSet c x) by (intros c x E; rewrite E in P'; inversion P').
    assert (EK : element_kind kd = true).
    { destruct W as [(-> & _)|[(-> & _)|(_ & _ & ku & Ku & _)]]; [reflexivity..|]. destruct kd; try discriminate Ku; reflexivity. }
    induction 1 as [|a l Ra _ IH]; intros I ws E.
    - inversion E; subst. exists k1, kd, [], []. split; [exact K|]. split; [now rewrite EK|]. split; [constructor|]. split; [constructor|]. reflexivity.
    - inversion E as [|a0 w l0 ws' E1 E2]; subst. cbn [forallb] in I. apply andb_prop in I as [I1 I2].
      destruct (IH I2 ws' E2) as (k2 & kd2 & vs & l' & K2 & OK & SM & RE & PE). apply andb_prop in OK as [_ OK].
      assert (kd2 = kd) as -> by (specialize (K (Nat.max k1 k2) ltac:(lia)); specialize (K2 (Nat.max k1 k2) ltac:(lia)); congruence).
      destruct w as [c0 u0 b]. apply encodes_strip_inv in E1; [|exact T].
      destruct (outer_det _ _ _ _ (encodes_outer _ _ _ _ _ _ _ E1) NO _ _ O) as [-> ->].
      destruct (Ra NR I1 DP NS e fp0 u b (ct_plain _ _ _ P') (go_type_strip _ _ _ _ _ G) (mirrors_strip _ _ _ _ M) F E1)
        as (k3 & kd3 & v & a' & K3 & C3 & S3 & R3 & _ & B3).
      assert (kd3 = kd) as -> by (specialize (K (Nat.max k1 k3) ltac:(lia)); specialize (K3 (Nat.max k1 k3) ltac:(lia)); congruence).
      exists (S (Nat.max k1 (Nat.max k2 k3))), kd, (v :: vs), (a' :: l').
      split; [intros k Hk; apply K; lia|]. split; [cbn [forallb]; now rewrite EK, (element_wants _ _ _ W C3)|].
      split; [constructor; [now apply same_strip|exact SM]|]. split; [constructor; [now apply represents_strip|exact RE]|].
      intros k Hk. cbn [List.length parse_elements]. destruct k as [|k]; [lia|].
      assert (PF : parse_field f (S k) e fp0 (TLV CLASS_UNIVERSAL u b :: ws') = Some (v, ws')).
      { destruct (wants_kind _ _ _ W) as [NA NW]. rewrite (parse_plain _ _ _ _ _ _ (K k ltac:(lia)) NA NW). cbn zeta. cbn [fp0 fp_explicit].
        unfold parse_value, expected.
        rewrite (wanted_here _ _ _ W). cbn [fp_tag fp0 fst snd]. rewrite !Z.eqb_refl, C3, Bool.eqb_reflx. cbn [andb].
        rewrite B3 by lia. reflexivity. }
      rewrite PF, PE by lia. reflexivity.
  Qed.

  (** The default of an INTEGER component. *)
  Lemma integer_default : forall t, integer_type asg t -> repr = "int64" -> forall e, component_type (strip t) -> go_type (strip t) e ->
    exists k0, forall k, (k0 <= k)%nat -> kind_of f k e = Some KInt.
  Proof.
    induction 1 as [t l E|t n t' E D I IH]; intros R e C G; rewrite E in *.
    - inversion G; subst; [|congruence]. exists O. destruct k; reflexivity.
    - destruct (reference_kind n t' e C D G) as (e' & C' & G' & _ & T & _ & [(H1 & _)|(u & e1 & E1 & -> & P & H1 & _)]).
      + destruct (IH R e' C' G') as (k0 & K). exists (S k0). intros k Hk. destruct k as [|k]; [lia|]. apply H1, K. lia.
      + destruct (IH R (EArray e1) C' G') as (k0 & K). specialize (K k0 ltac:(lia)). rewrite E1 in G'.
        apply (go_slice U repr asg (TSetOf u) u) in G' as (e2 & E2 & G2); [|now right]. injection E2 as <-.
        rewrite (slice_kind U repr td asg f good Hfile Hgood u e1 P G2 k0) in K. discriminate.
  Qed.

  Lemma integer_not_raw : forall t, integer_type asg t -> ~ raw_type asg t.
  Proof.
    induction 1 as [t l E|t n t' E D I IH]; rewrite (raw_strip asg t), E; intro R; inversion R as [| | |n1 t1 D1 R1]; subst.
    rewrite <- (defines_unique _ _ _ _ D D1) in R1. contradiction.
  Qed.

  Lemma integer_represents : forall t k, integer_type asg t -> repr = "int64" -> int64 k -> represents td asg repr t (GInt k) (AInt k).
  Proof.
    intros t k I R H. apply represents_strip; [now apply integer_not_raw|]. induction I as [t l E|t n t' E D I IH]; rewrite E.
    - now constructor.
    - eapply re_reference; [exact D|]. apply represents_strip; [now apply integer_not_raw|exact IH].
  Qed.

  (** One component, and the components after it. *)
  Lemma component_read : forall n t o d l a fs, o = false \/ blank repr a = false -> sendable td asg repr t a -> R0 t a -> R1 l fs ->
    R1 (CNamed (Named n t) o d :: l) (Some a :: fs).
  Proof.
    intros n t o d l a fs H SE IH IHs I CL DP gfs ws C G M E.
    inversion C as [|n' t' o' d' l' A CT EX DF C'|]; subst. inversion G as [|n' t' o' d' l' e tag gfs' G1 G2|]; subst.
    cbn [present filter] in M. inversion M as [|c0 g0 l0 gl0 M1 M2]; subst.
    inversion M1 as [n0 t0 o0 d0 f0 e0 name0 tag0 E0 M0 Q0]; subst. injection E0 as <- <- <-.
    destruct (Q0 EX) as (fp & TP & CP). apply tag_body_source in TP. rewrite TP in CP. clear fp TP.
    set (fp := parseFieldParameters (tag_body tag)) in *.
    assert (CLt := CL [] n t o d l eq_refl).
    assert (CL' : clear_list l) by (intros pre n1 t1 o1 d1 post E1; eapply (CL (_ :: pre)); cbn [app]; f_equal; exact E1).
    assert (DP' : forall n t o d, In (CNamed (Named n t) o d) l -> deep (strip t)) by (intros n1 t1 o1 d1 I1; eapply DP; right; exact I1).
    assert (DPt : deep (strip t)) by (eapply DP; now left).
    cbn [in_range forallb] in I. apply andb_prop in I as [Ia Is].
    assert (F := fits_component _ _ _ _ _ _ CP).
    assert (G1' := go_type_strip _ _ _ _ _ G1).
    assert (X : exported (Field (goifyName U n) e tag) = true) by now apply exported_goify.
    destruct (raw_dec U repr asg good Hgood t e CT G1') as [RW|NR].
    { destruct (raw_kind U repr td asg f good Hnodup Hfile Hgood t RW e CT G1') as (k1 & K).
      inversion E as [|n1 t1 o1 d1 l1 a1 fs1 w ws1 Ea Es| |n1 t1 o1 dv l1 a1 fs1 ws1 De Es|]; subst.
      2: { exfalso. destruct DF as [DF|(_ & _ & IT)]; [discriminate|]. exact (integer_not_raw _ IT RW). }
      destruct (IHs Is CL' DP' gfs' ws1 C' G2 M2 Es) as (k2 & vs & fs' & X2 & S2 & R2 & B2 & P2).
      exists (S (Nat.max k1 k2)), (GRaw (Some w) :: vs), (Some a :: fs').
      split; [cbn [forallb]; now rewrite X|]. split; [constructor; [apply sv_same|exact S2]|].
      assert (RE : represents td asg repr t (GRaw (Some w)) a) by now apply re_raw. split; [|split].
      - destruct o; [now apply ra_present|now apply ra_required].
      - reflexivity.
      - intros k Hk. destruct k as [|k]; [lia|]. cbn [parse_fields]. fold fp.
        rewrite (raw_present t o d fp e k a w ws1 CP (proj1 EX) (K k ltac:(lia)) Ea (cl_private _ _ _ _ _ _ _ CLt)).
        rewrite P2 by lia. reflexivity. }
    assert (NRs : ~ raw_type asg (strip t)) by (intro R; apply NR, raw_strip, R).
    assert (NOs : ~ open_type asg (strip t)).
    { intro O. apply NRs. apply (open_raw asg good Hgood _ O). now rewrite strip_idem. }
    assert (NO : ~ open_type asg t) by (intro O; apply NR, (open_raw asg good Hgood _ O CT)).
    destruct (kinds_all t NRs e CT G1') as (k1 & kd & u & K & O & W). specialize (W fp F).
    inversion E as [|n1 t1 o1 d1 l1 a1 fs1 w ws1 Ea Es| |n1 t1 o1 dv l1 a1 fs1 ws1 De Es|]; subst.
    - (* there *)
      destruct (IHs Is CL' DP' gfs' ws1 C' G2 M2 Es) as (k2 & vs & fs' & X2 & S2 & R2 & B2 & P2).
      destruct (encodes_untag _ _ _ _ _ _ _ _ CP NOs (proj1 EX) Ea) as (cls & u0 & c & Ec & Ew).
      destruct (outer_det _ _ _ _ (encodes_outer _ _ _ _ _ _ _ Ec) NOs _ _ O) as [-> ->].
      destruct (IH NR Ia DPt (cl_set _ _ _ _ _ _ _ CLt) e fp u c CT G1' (mirrors_strip _ _ _ _ M0) F Ec)
        as (k3 & kd3 & v & a' & K3 & C3 & S3 & R3 & B3 & P3).
      assert (kd3 = kd) as -> by (specialize (K (Nat.max k1 k3) ltac:(lia)); specialize (K3 (Nat.max k1 k3) ltac:(lia)); congruence).
      exists (S (Nat.max k1 (Nat.max k2 k3))), (v :: vs), (Some a' :: fs').
      split; [cbn [forallb]; now rewrite X|]. split; [constructor; [now apply same_strip|exact S2]|]. split; [|split].
      + apply represents_strip in R3; [|exact NR]. destruct o; [|now constructor]. destruct H as [H|H]; [discriminate|]. apply ra_present; auto.
      + cbn [blank forallb] in *. intros Bl. apply andb_false_iff in Bl as [Bl|Bl]; [now rewrite (B3 Bl)|]. rewrite (B2 Bl). apply andb_false_r.
      + intros k Hk. destruct k as [|k]; [lia|]. cbn [parse_fields]. fold fp.
        assert (w = put_tag fp u c) as -> by (rewrite Ew; unfold put_tag, universal; reflexivity).
        rewrite (field_present t o d fp e kd u c k v ws1 CP (proj1 EX)).
        * rewrite P2 by lia. reflexivity.
        * apply K. lia.
        * exact W.
        * exact C3.
        * apply P3. lia.
        * intros g mode Ig. destruct EX as (_ & FA & _). rewrite Forall_forall in FA. destruct (FA _ Ig) as [J _]. cbn [fst] in J.
          intro Y. rewrite Y in J. cbn in J. intuition discriminate.
        * apply (cl_private _ _ _ _ _ _ _ CLt).
        * intros -> g mode Ig. destruct W as [(Y & _)|[(_ & _ & Y)|(_ & Y & _)]]; [discriminate| |congruence]. subst u.
          destruct (time_component _ CT NOs O) as (m & Em & T). exact (cl_time _ _ _ _ _ _ _ CLt m Em T g mode Ig).
    - (* left out: it has its default *)
      destruct (IHs Is CL' DP' gfs' ws C' G2 M2 Es) as (k2 & vs & fs' & X2 & S2 & R2 & B2 & P2).
      destruct DF as [DF|(-> & (dz & DF) & IT)]; [discriminate|]. injection DF as ->. inversion De; subst.
      assert (RI : repr = "int64") by (apply (cl_default _ _ _ _ _ _ _ CLt); discriminate).
      destruct (integer_default t IT RI e CT G1') as (k3 & K3).
      assert (I64 : int64 dz) by (apply (proj2 (proj2 EX)); reflexivity).
      exists (S (Nat.max k1 (Nat.max k2 k3))), (GInt dz :: vs), (Some (AInt dz) :: fs').
      split; [cbn [forallb]; now rewrite X|]. split; [constructor; [constructor|exact S2]|]. split; [|split].
      + constructor; [now apply integer_represents|exact R2].
      + cbn [blank forallb is_zero] in *. rewrite RI, String.eqb_refl. cbn [andb]. intros Bl. apply andb_false_iff in Bl as [Bl|Bl]; [now rewrite Bl|].
        rewrite <- RI in Bl. rewrite (B2 Bl). apply andb_false_r.
      + intros k Hk. destruct k as [|k]; [lia|]. cbn [parse_fields]. fold fp.
        assert (OT : exists class kk, outer_tag asg t class kk).
        { destruct (tags_of t) as [|[g mode] [|? ?]] eqn:T.
          - do 2 eexists. apply outer_strip; [exact T|exact O].
          - destruct (cp_tagged _ _ _ _ _ _ CP _ _ T) as ((kk & Kk & _) & _). do 2 eexists. exact (outer_tagged _ _ _ _ _ T Kk).
          - exfalso. destruct EX as (L & _). rewrite T in L. cbn in L. lia. }
        destruct OT as (class & kk & OT).
        rewrite (field_absent t false (Some (VNumber dz)) fp e kd u k ws class kk CP NO (proj1 EX)).
        * unfold set_default. rewrite (proj2 (cp_optional _ _ _ _ _ _ CP)) by (right; discriminate).
          rewrite (proj2 (cp_default _ _ _ _ _ _ CP dz) eq_refl), K3 by lia. cbn [option_map]. rewrite P2 by lia. reflexivity.
        * apply K. lia.
        * exact W.
        * exact O.
        * exact OT.
        * apply (cl_private _ _ _ _ _ _ _ CLt).
        * intros c' k' b ws' ->. eapply (cl_distinct _ _ _ _ _ _ _ CLt); [right; discriminate|exact OT|exact Es].
        * intros g mode Ig EF c' k' b ->. eapply (cl_last _ _ _ _ _ _ _ CLt); [right; discriminate|exact Ig|exact EF|exact Es].
  Qed.

  Lemma absent_read : forall n t d l fs, founded asg t -> R1 l fs -> R1 (CNamed (Named n t) true d :: l) (None :: fs).
  Proof.
    intros n t d l fs FO IHs I CL DP gfs ws C G M E.
    inversion C as [|n' t' o' d' l' A CT EX DF C'|]; subst. inversion G as [|n' t' o' d' l' e tag gfs' G1 G2|]; subst.
    cbn [present filter] in M. inversion M as [|c0 g0 l0 gl0 M1 M2]; subst.
    inversion M1 as [n0 t0 o0 d0 f0 e0 name0 tag0 E0 M0 Q0]; subst. injection E0 as <- <- <-.
    destruct (Q0 EX) as (fp & TP & CP). apply tag_body_source in TP. rewrite TP in CP. clear fp TP.
    set (fp := parseFieldParameters (tag_body tag)) in *.
    assert (CLt := CL [] n t true d l eq_refl).
    assert (CL' : clear_list l) by (intros pre n1 t1 o1 d1 post E1; eapply (CL (_ :: pre)); cbn [app]; f_equal; exact E1).
    assert (DP' : forall n t o d, In (CNamed (Named n t) o d) l -> deep (strip t)) by (intros n1 t1 o1 d1 I1; eapply DP; right; exact I1).
    cbn [in_range forallb] in I.
    assert (F := fits_component _ _ _ _ _ _ CP). assert (G1' := go_type_strip _ _ _ _ _ G1).
    destruct DF as [->|(DF & _)]; [|discriminate].
    destruct (raw_dec U repr asg good Hgood t e CT G1') as [RW|NR].
    { destruct (raw_kind U repr td asg f good Hnodup Hfile Hgood t RW e CT G1') as (k1 & K).
      inversion E as [| |n1 t1 d1 l1 fs1 ws1 Es| |]; subst.
      destruct (IHs I CL' DP' gfs' ws C' G2 M2 Es) as (k2 & vs & fs' & X2 & S2 & R2 & B2 & P2).
      assert (Z : forall k, (k1 <= k)%nat -> zero_of f (S k) e = Some (GRaw None)).
      { intros k Hk. rewrite zero_of_eq, K by lia. reflexivity. }
      exists (S (S (Nat.max k1 k2))), (GRaw None :: vs), (None :: fs').
      split; [cbn [forallb]; now rewrite exported_goify|]. split; [now constructor|].
      split; [apply ra_absent; [reflexivity|discriminate|exact R2]|]. split.
      - cbn [blank forallb] in *. intros Bl. rewrite (B2 Bl). apply andb_false_r.
      - intros k Hk. destruct k as [|[|k]]; [lia..|]. cbn [parse_fields]. fold fp.
        rewrite (raw_absent t true None fp e (S k) ws CP (proj1 EX) (K (S k) ltac:(lia)) (cl_private _ _ _ _ _ _ _ CLt)).
        + unfold set_default. rewrite (proj2 (cp_optional _ _ _ _ _ _ CP)) by now left.
          destruct (fp_defaultValue fp) as [dz|] eqn:DV; [apply (cp_default _ _ _ _ _ _ CP) in DV; discriminate|].
          rewrite Z by lia. cbn [option_map]. rewrite P2 by lia. reflexivity.
        + intros class kk c' k' b ws' OT ->. eapply (cl_distinct _ _ _ _ _ _ _ CLt); [now left|exact OT|exact Es].
        + intros g mode Ig EF c' k' b ->. eapply (cl_last _ _ _ _ _ _ _ CLt); [now left|exact Ig|exact EF|exact Es].
        + intros T. destruct ws as [|w ws]; [reflexivity|]. exfalso. exact (cl_choice _ _ _ _ _ _ _ CLt eq_refl RW T fs w ws Es). }
    assert (NRs : ~ raw_type asg (strip t)) by (intro R; apply NR, raw_strip, R).
    assert (NO : ~ open_type asg t) by (intro O; apply NR, (open_raw asg good Hgood _ O CT)).
    destruct (kinds_all t NRs e CT G1') as (k1 & kd & u & K & O & W). specialize (W fp F).
    inversion E as [| |n1 t1 d1 l1 fs1 ws1 Es| |]; subst.
    destruct (IHs I CL' DP' gfs' ws C' G2 M2 Es) as (k2 & vs & fs' & X2 & S2 & R2 & B2 & P2).
    destruct (proj1 zeros_read t FO e CT G1') as (k3 & z & Iz & Z).
    assert (Nz : z <> GNil).
    { apply (zero_not_nil f (Nat.max k1 k3) e kd z); [apply K; lia|exact (proj1 (wants_kind _ _ _ W))|apply Z; lia]. }
    exists (S (Nat.max k1 (Nat.max k2 k3))), (z :: vs), (None :: fs').
    split; [cbn [forallb]; now rewrite exported_goify|]. split; [now constructor|]. split; [now constructor|]. split.
    - cbn [blank forallb] in *. intros Bl. rewrite (B2 Bl). apply andb_false_r.
    - intros k Hk. destruct k as [|k]; [lia|]. cbn [parse_fields]. fold fp.
      assert (OT : exists class kk, outer_tag asg t class kk).
      { destruct (tags_of t) as [|[g mode] [|? ?]] eqn:T.
        - do 2 eexists. apply outer_strip; [exact T|exact O].
        - destruct (cp_tagged _ _ _ _ _ _ CP _ _ T) as ((kk & Kk & _) & _). do 2 eexists. exact (outer_tagged _ _ _ _ _ T Kk).
        - exfalso. destruct EX as (L & _). rewrite T in L. cbn in L. lia. }
      destruct OT as (class & kk & OT).
      rewrite (field_absent t true None fp e kd u k ws class kk CP NO (proj1 EX)).
      + unfold set_default. rewrite (proj2 (cp_optional _ _ _ _ _ _ CP)) by now left.
        destruct (fp_defaultValue fp) as [dz|] eqn:DV; [apply (cp_default _ _ _ _ _ _ CP) in DV; discriminate|].
        rewrite Z by lia. cbn [option_map]. rewrite P2 by lia. reflexivity.
      + apply K. lia.
      + exact W.
      + exact O.
      + exact OT.
      + apply (cl_private _ _ _ _ _ _ _ CLt).
      + intros c' k' b ws' ->. eapply (cl_distinct _ _ _ _ _ _ _ CLt); [now left|exact OT|exact Es].
      + intros g mode Ig EF c' k' b ->. eapply (cl_last _ _ _ _ _ _ _ CLt); [now left|exact Ig|exact EF|exact Es].
  Qed.

  Ltac primitive kd v :=
    exists O, kd, v; eexists; split; [intros k _; destruct k; reflexivity|]; split; [reflexivity|]; split; [apply sv_same|].

  Lemma read_all :
    (forall t a, sendable td asg repr t a -> R0 t a) /\ (forall l fs, sendable_all td asg repr l fs -> R1 l fs) /\
    (forall t l, sendable_each td asg repr t l -> R2 t l).
  Proof.
    apply sendable_mutind.
    - intros b NR I DP NS e fp u c C G M F E. cbn [strip] in *. inversion G; subst. inversion E; subst.
      primitive KBool (GBool b). split; [constructor|]. split; [auto|reflexivity].
    - intros l z H NR I DP NS e fp u c C G M F E. cbn [strip] in *. inversion G; subst; inversion E; subst.
      + destruct H as [H|H]; [congruence|]. primitive KInt (GInt z). split; [now constructor|].
        split; [cbn [blank is_zero]; match goal with R : repr = _ |- _ => rewrite R end; rewrite String.eqb_refl; auto|].
        intros k _. cbn [parse_body parse_prim]. destruct H as [B1 B2]. apply Z.leb_le in B1. apply Z.ltb_lt in B2. now rewrite B1, B2.
      + primitive KBig (GBig (Some z)). split; [now constructor|]. split; reflexivity.
    - intros l o n B H NR I DP NS e fp u c C G M F E. cbn [strip] in *. inversion G; subst. inversion E; subst.
      primitive KBits (GBits (Some o) n). split; [apply (re_bits _ _ _ l (Some o) n)|]. split; reflexivity.
    - intros o B NR I DP NS e fp u c C G M F E. cbn [strip] in *. inversion G; subst. inversion E; subst.
      primitive KBytes (GBytes (Some o)). split; [apply (re_octets _ _ _ (Some o))|]. split; reflexivity.
    - intros l J O NR I DP NS e fp u c C G M F E. cbn [strip] in *. inversion G; subst. inversion E; subst.
      primitive KOid (GOid (Some l)). split; [now constructor|]. split; [reflexivity|]. intros k _.
      cbn [in_range] in I. cbn [parse_body parse_prim]. now rewrite I.
    - intros x z H NR I DP NS e fp u c C G M F E. cbn [strip] in *. inversion G; subst. inversion E; subst.
      primitive KEnum (GInt z). split; [now constructor|]. split; [auto|]. intros k _.
      cbn [in_range] in I. cbn [parse_body parse_prim]. now rewrite I.
    - intros s H NR I DP NS e fp u c C G M F E. cbn [strip] in *. inversion G; subst. inversion E as [| | | | | |z n s' E0| | | | | | | | | | | |]; subst.
      cbn in E0. injection E0 as <-. primitive KString (GString s). split; [now constructor|]. split; [now destruct s|]. intros k _.
      cbn [parse_body parse_prim]. unfold parse_string. cbn [Z.eqb Pos.eqb].
      assert (W : all_chars printable_char_read s = true).
      { clear - H. induction s as [|ch s IH]; [reflexivity|]. cbn [all_chars] in *. apply andb_prop in H as [H1 H2].
        unfold printable_char_read at 1. rewrite H1, IH by exact H2. reflexivity. }
      now rewrite W.
    - intros s H NR I DP NS e fp u c C G M F E. cbn [strip] in *. inversion G; subst. inversion E as [| | | | | |z n s' E0| | | | | | | | | | | |]; subst.
      cbn in E0. injection E0 as <-. primitive KString (GString s). split; [now constructor|]. split; [now destruct s|]. intros k _.
      cbn [parse_body parse_prim]. unfold parse_string. cbn [Z.eqb Pos.eqb]. now rewrite H.
    - intros s H NR I DP NS e fp u c C G M F E. cbn [strip] in *. inversion G; subst. inversion E as [| | | | | |z n s' E0| | | | | | | | | | | |]; subst.
      cbn in E0. injection E0 as <-. primitive KString (GString s). split; [now constructor|]. split; [now destruct s|]. intros k _.
      cbn [parse_body parse_prim]. unfold parse_string. cbn [Z.eqb Pos.eqb]. now rewrite H.
    - intros s H NR I DP NS e fp u c C G M F E. cbn [strip] in *. inversion G; subst. inversion E as [| | | | | |z n s' E0| | | | | | | | | | | |]; subst.
      cbn in E0. injection E0 as <-. primitive KString (GString s). split; [now constructor|]. split; [now destruct s|]. intros k _.
      cbn [parse_body parse_prim]. unfold parse_string. cbn [Z.eqb Pos.eqb]. now rewrite H.
    - (* SEQUENCE *)
      intros cs x fs _ IH NR I DP NS e fp u c C G M F E. cbn [strip] in *.
      apply (go_struct U repr asg (TSequence cs x) cs x) in G as (gfs & -> & G); [|now left].
      apply (mirrors_struct td asg (TSequence cs x) cs x) in M; [|now left].
      apply (component_struct asg good (TSequence cs x) cs x) in C; [|now left].
      inversion E as [| | | | | | |c0 x0 fs0 ws E0| | | | | | | | | | |]; subst.
      destruct (IH I) with (gfs := gfs) (ws := ws) as (k0 & vs & fs' & X & SM & RE & B & P); try assumption.
      { apply DP. constructor. }
      { intros n t o d J l W. apply DP. eapply wi_sequence_in; [exact J|]. now apply within_strip. }
      exists k0, (KStruct gfs), (GStruct vs), (AStruct fs'). split; [intros k _; destruct k; reflexivity|]. split; [reflexivity|].
      split; [now constructor|]. split; [now constructor|]. split; [exact B|]. intros k Hk. cbn [parse_body]. rewrite X, P by lia. reflexivity.
    - (* SET *)
      intros cs x fs _ IH NR I DP NS. exfalso. eapply NS. reflexivity.
    - (* SEQUENCE OF *)
      intros t l _ IH NR I DP NS e fp u c C G M F E. cbn [strip] in *.
      apply (go_slice U repr asg (TSequenceOf t) t) in G as (e' & -> & G); [|now left].
      apply (mirrors_slice td asg (TSequenceOf t) t) in M; [|now left].
      apply (component_slice asg good (TSequenceOf t) t) in C; [|now left].
      inversion E as [| | | | | | | | |t0 l0 ws E0| | | | | | | | |]; subst.
      destruct (elements_read t e' C G M) with (l := l) (ws := ws) as (k0 & kd & vs & l' & K & OK & SM & RE & P); try assumption.
      { intros l1 W. apply DP. apply wi_sequence_of. now apply within_strip. }
      exists k0, (KSlice false e'), (GSlice (Some vs)), (AList l'). split; [intros k _; eapply slice_kind; eassumption|]. split; [reflexivity|].
      split; [now constructor|]. split; [now constructor|]. split; [reflexivity|]. intros k Hk. cbn [parse_body].
      rewrite K, OK, P by lia. reflexivity.
    - (* SET OF *)
      intros t l _ IH NR I DP NS e fp u c C G M F E. cbn [strip] in *.
      apply (go_slice U repr asg (TSetOf t) t) in G as (e' & -> & G); [|now right].
      apply (mirrors_slice td asg (TSetOf t) t) in M; [|now right].
      apply (component_slice asg good (TSetOf t) t) in C; [|now right].
      inversion E as [| | | | | | | | | |t0 l0 ws ws' E0 PM| | | | | | | |]; subst.
      destruct (Forall2_permutation _ _ _ PM _ E0) as (l1 & PL & E1).
      destruct (elements_read t e' C G M) with (l := l1) (ws := ws') as (k0 & kd & vs & l' & K & OK & SM & RE & P); try assumption.
      { intros l2 W. apply DP. apply wi_set_of. now apply within_strip. }
      { unfold R2 in IH. rewrite Forall_forall in *. intros a Ia. apply IH. eapply Permutation_in; [apply Permutation_sym; exact PL|exact Ia]. }
      { cbn [in_range] in I. rewrite forallb_forall in *. intros a Ia. apply I. eapply Permutation_in; [apply Permutation_sym; exact PL|exact Ia]. }
      exists k0, (KSlice false e'), (GSlice (Some vs)), (AList l'). split; [intros k _; eapply slice_kind; eassumption|]. split; [reflexivity|].
      split; [eapply sv_set_of; eassumption|]. split; [now constructor|]. split; [reflexivity|]. intros k Hk. cbn [parse_body].
      rewrite K, OK, P by lia. reflexivity.
    - intros g t mode has a NR _ IH _. exact (IH NR).
    - intros t c a _ IH NR. apply IH. intro R. apply NR. now constructor.
    - (* a reference *)
      intros n t a D _ IH NR I DP NS e fp u c C G M F E. cbn [strip] in *.
      assert (NRt : ~ raw_type asg t) by (intro R; apply NR; now apply (rw_reference _ n t)).
      destruct (reference_kind n t e C D G) as (e' & C' & G' & M' & T & NS' & H).
      assert (E' : encodes (strip t) a (TLV CLASS_UNIVERSAL u c)).
      { apply encodes_strip_inv; [exact T|]. inversion E as [| | | | | | | | | | | | | |n0 t0 a0 w0 D0 E0|z0 N0|z0 N0| |]; subst.
        - now rewrite (defines_unique _ _ _ _ D D0).
        - exfalso. exact (N0 t D).
        - exfalso. exact (N0 t D). }
      assert (DP' : deep (strip t)).
      { intros l W. inversion C as [t0 P| | | |n0 TI]; subst.
        - inversion P as [| | | | | | | | | |n' Gn|]; subst. apply (Hread n t Gn D). now apply within_strip.
        - inversion TI as [N0|? t' m D1 T1 E1 H1]; subst; [exfalso; exact (N0 t D)|]. rewrite <- (defines_unique _ _ _ _ D D1) in E1.
          rewrite E1 in W. inversion W. }
      destruct H as [(H1 & H2)|(v & e1 & E1 & -> & P & H1 & H2)].
      + destruct (IH NRt I DP' NS' e' fp u c C' G' M' (H2 fp F) E') as (k0 & kd & v & a' & K & CC & SM & RE & B & PB).
        exists (S k0), kd, v, a'. split; [intros k Hk; destruct k as [|k]; [lia|]; apply H1, K; lia|]. split; [exact CC|].
        split; [eapply sv_reference; [exact D|now apply same_strip]|]. split; [eapply re_reference; [exact D|now apply represents_strip]|].
        split; [exact B|]. intros k Hk. apply PB. lia.
      + destruct (IH NRt I DP' NS' (EArray e1) (with_set fp) u c C' G' M' (proj2 (H2 fp F)) E') as (k0 & kd & v1 & a' & K & CC & SM & RE & B & PB).
        rewrite E1 in G'. apply (go_slice U repr asg (TSetOf v) v) in G' as (e2 & E2 & G2); [|now right]. injection E2 as <-.
        assert (kd = KSlice false e1) as ->.
        { specialize (K k0 ltac:(lia)). rewrite (slice_kind U repr td asg f good Hfile Hgood v e1 P G2 k0) in K. congruence. }
        exists (S (S k0)), (KSlice true e1), v1, a'. split; [intros k Hk; destruct k as [|[|k]]; [lia..|]; apply H1|]. split; [exact CC|].
        split; [eapply sv_reference; [exact D|now apply same_strip]|]. split; [eapply re_reference; [exact D|now apply represents_strip]|].
        split; [exact B|]. intros k Hk. exact (PB k ltac:(lia)).
    - (* GeneralizedTime *)
      intros z N Y NR I DP NS e fp u c C G M F E. cbn [strip] in *.
      pose proof (time_go_type U repr asg "GeneralizedTime" e (leaf_undefined _ _ N) G) as ->.
      inversion E as [| | | | | | | | | | | | | |n0 t0 a0 w0 D0 E0|z0 N0|z0 N0| |]; subst; [exfalso; exact (N _ D0)|].
      primitive KTime (GTime z). split; [now constructor|]. split; [auto|reflexivity].
    - (* RawValue *)
      intros t a w RW _ NR. contradiction.
    - intros I CL DP gfs ws C G M E. inversion G; subst. inversion E; subst. exists O, [], [].
      split; [reflexivity|]. split; [constructor|]. split; [constructor|]. split; [discriminate|reflexivity].
    - intros n t o d l a fs H SE IH _ IHs. exact (component_read n t o d l a fs H SE IH IHs).
    - intros n t d l fs FO _ IHs. exact (absent_read n t d l fs FO IHs).
    - intros l fs _ IHs I CL DP gfs ws C G M E. inversion C; subst. inversion G; subst. inversion E; subst.
      destruct (IHs I) with (gfs := gfs) (ws := ws) as (k0 & vs & fs' & X & SM & RE & B & P); try assumption.
      { intros pre n1 t1 o1 d1 post E1. eapply (CL (_ :: pre)). cbn [app]. f_equal. exact E1. }
      { intros n1 t1 o1 d1 J. eapply DP. right. exact J. }
      exists k0, vs, fs'. split; [exact X|]. split; [now constructor|]. split; [now constructor|]. split; [exact B|exact P].
    - intros t. constructor.
    - intros t a l _ IH1 _ IH2. constructor; assumption.
  Qed.

  (** Reading into a variable of a named type. *)
  Lemma named_read : forall n t a w, good n -> defines asg n t -> R0 t a -> in_range a = true -> encodes t a w ->
    exists v a' k0, same_value asg t a a' /\ represents td asg repr t v a' /\
      forall k, (k0 <= k)%nat -> parse_field f k (EIdent (goifyName U n)) fp0 [w] = Some (v, []).
  Proof.
    intros n t a w Gn D RA I E. destruct (Hgood n Gn) as (A & _ & t' & D' & N). rewrite <- (defines_unique _ _ _ _ D D') in N. clear t' D'.
    destruct (Hfile n t D) as (e & b & GT & MI & Bb & IN). apply go_type_strip in GT. apply mirrors_strip in MI.
    assert (DP : deep (strip t)) by (intros l W; apply (Hread n t Gn D); now apply within_strip).
    assert (X : forall k0 kd u c v, (forall k, (k0 <= k)%nat -> kind_of f k (EIdent (goifyName U n)) = Some kd) -> wants fp0 kd u ->
      compound c = kind_compound kd -> (forall k, (k0 <= k)%nat -> parse_body f k kd u c = Some v) ->
      forall k, (S k0 <= k)%nat -> parse_field f k (EIdent (goifyName U n)) fp0 [TLV CLASS_UNIVERSAL u c] = Some (v, [])).
    { intros k0 kd u c v K W CC PB k Hk. destruct k as [|k]; [lia|]. destruct (wants_kind _ _ _ W) as [NA NR].
      rewrite (parse_plain _ _ _ _ _ _ (K k ltac:(lia)) NA NR). cbn zeta. cbn [fp0 fp_explicit]. unfold parse_value, expected. rewrite (wanted_here _ _ _ W). cbn [fp_tag fp0 fst snd].
      rewrite !Z.eqb_refl, CC, Bool.eqb_reflx. cbn [andb]. rewrite PB by lia. reflexivity. }
    assert (CT : component_type (strip t)).
    { destruct N as [N|(_ & u & Eu & N)]; [apply ct_plain; now apply plain_strip|rewrite Eu; now apply ct_set_of]. }
    destruct (raw_dec U repr asg good Hgood t e CT GT) as [RW|NR].
    { destruct N as [N|(_ & u & Eu & _)]; [|exfalso; apply raw_strip in RW; rewrite Eu in RW; inversion RW].
      destruct b; [exfalso; apply (plain_no_set _ _ t N), Bb; reflexivity|].
      destruct (raw_kind U repr td asg f good Hnodup Hfile Hgood t RW e CT GT) as (k0 & K).
      exists (GRaw (Some w)), a, (S (S k0)). split; [apply sv_same|]. split; [now apply re_raw|].
      intros k Hk. destruct k as [|[|k]]; [lia..|].
      rewrite (raw_field fp0 (EIdent (goifyName U n)) (S k) [w]); [|apply (kind_named U f Hnodup n e k A IN), K; lia].
      destruct w as [c u b]. reflexivity. }
    assert (NRs : ~ raw_type asg (strip t)) by (intro R; apply NR, raw_strip, R).
    assert (NO : ~ open_type asg (strip t)).
    { intro O. apply NRs. apply (open_raw asg good Hgood _ O). now rewrite strip_idem. }
    destruct w as [cls u c]. destruct N as [N|(Tg & u0 & Eu & N)].
    - destruct b; [exfalso; apply (plain_no_set _ _ t N), Bb; reflexivity|]. destruct (plain_strip _ _ _ N) as [N' Tg].
      apply encodes_strip_inv in E; [|exact Tg]. destruct (kinds_all t NRs e (ct_plain _ _ _ N') GT) as (k1 & kd & u1 & K & O & W).
      destruct (outer_det _ _ _ _ (encodes_outer _ _ _ _ _ _ _ E) NO _ _ O) as [-> ->].
      assert (NS : forall c x, strip t <> TSet c x) by (intros c0 x0 Ex; rewrite Ex in N'; inversion N').
      assert (F := plain_fits _ _ Hgood t fp0 N eq_refl eq_refl eq_refl).
      destruct (RA NR I DP NS e fp0 u1 c (ct_plain _ _ _ N') GT MI F E) as (k3 & kd3 & v & a' & K3 & C3 & S3 & R3 & _ & B3).
      assert (kd3 = kd) as -> by (specialize (K (Nat.max k1 k3) ltac:(lia)); specialize (K3 (Nat.max k1 k3) ltac:(lia)); congruence).
      exists v, a', (S (S (Nat.max k1 k3))). split; [now apply same_strip|]. split; [now apply represents_strip|].
      apply (X (S (Nat.max k1 k3)) kd u1 c v).
      + intros k Hk. destruct k as [|k]; [lia|]. apply (kind_named U f Hnodup n e k A IN). apply K. lia.
      + now apply W.
      + exact C3.
      + intros k Hk. apply B3. lia.
    - assert (b = true) as ->.
      { apply Bb. clear - Tg Eu. revert Tg Eu. induction t using atype_ind'; intros T0 E; try discriminate; constructor; cbn in *; auto. }
      apply encodes_strip_inv in E; [|exact Tg]. pose proof RA as RA'. unfold R0 in RA'. rewrite Eu in RA', GT, MI, E, DP, NO.
      destruct (go_slice U repr asg (TSetOf u0) u0 e (or_intror eq_refl) GT) as (e1 & -> & G1).
      destruct (outer_det _ _ _ _ (encodes_outer _ _ _ _ _ _ _ E) NO _ _ (ot_set_of _ _)) as [-> ->].
      assert (F : fits asg (TSetOf u0) (with_set fp0)).
      { constructor; cbn [with_set fp_set fp_stringType fp_timeType fp0]; try reflexivity; [|discriminate].
        split; intros _; [right; exists u0; reflexivity|reflexivity]. }
      destruct (RA' NR I DP ltac:(discriminate) (EArray e1) (with_set fp0) 17 c (ct_set_of _ _ _ N) GT MI F E)
        as (k3 & kd3 & v & a' & K3 & C3 & S3 & R3 & _ & B3).
      assert (kd3 = KSlice false e1) as ->.
      { specialize (K3 k3 ltac:(lia)). rewrite (slice_kind U repr td asg f good Hfile Hgood u0 e1 N G1 k3) in K3. congruence. }
      exists v, a', (S (S (S k3))). split; [apply same_strip; now rewrite Eu|]. split; [apply represents_strip; [exact NR|now rewrite Eu]|].
      apply (X (S (S k3)) (KSlice true e1) 17 c v).
      + intros k Hk. destruct k as [|[|k]]; [lia..|]. apply (kind_named_set U f Hnodup n e1 k A IN).
        exact (slice_kind U repr td asg f good Hfile Hgood u0 e1 N G1 k).
      + right. right. split; [discriminate|]. split; [discriminate|]. exists 17. split; reflexivity.
      + exact C3.
      + intros k Hk. exact (B3 k ltac:(lia)).
  Qed.
End Main.

(** Unmarshalling an encoding of a value of a generated type. *)
Lemma unmarshal_reads : forall U fmt p fuel m f good n t a w,
  Generate U fmt p fuel m = Ok (GenOk f) -> NoDup (declared_types f) ->
  let asg := mb_AssignmentList (md_ModuleBody m) in
  wire_names asg good -> readable (md_TagDefault m) asg (integer_repr p) good -> good n -> defines asg n t ->
  sendable (md_TagDefault m) asg (integer_repr p) t a -> in_range a = true -> encodes (md_TagDefault m) asg t a w ->
  exists v a' k0, same_value asg t a a' /\ represents (md_TagDefault m) asg (integer_repr p) t v a' /\
    forall k, (k0 <= k)%nat -> unmarshal f k (goifyName U n) w = Some v.
Proof.
  intros U fmt p fuel m f good n t a w G ND asg W RD Gn D H I E.
  pose proof (file_declares _ _ _ _ _ _ G) as HF. fold asg in HF. cbn zeta in HF.
  assert (HR : forall name t, good name -> defines asg name t -> deep (integer_repr p) (md_TagDefault m) asg t).
  { intros name t0 Gn0 D0 l Wl pre n0 t1 o d post El. exact (RD name t0 l Gn0 D0 Wl pre n0 t1 o d post El). }
  destruct (read_all U (integer_repr p) (md_TagDefault m) asg f good ND HF W HR) as (RA & _ & _).
  destruct (named_read U (integer_repr p) (md_TagDefault m) asg f good ND HF W HR n t a w Gn D (RA t a H) I E) as (v & a' & k0 & S1 & R1 & P1).
  exists v, a', k0. split; [exact S1|]. split; [exact R1|]. intros k Hk. unfold unmarshal. rewrite P1 by exact Hk. reflexivity.
Qed.

(** * More fuel does not change the outcome *)

Lemma zero_mono : forall f k e z, zero_of f k e = Some z -> zero_of f (S k) e = Some z.
Proof.
  induction k as [|k IH]; intros e z H; [discriminate|]. rewrite zero_of_eq in H. rewrite zero_of_eq.
  destruct (kind_of f k e) as [kd|] eqn:K; [|discriminate]. rewrite (kind_mono _ _ _ _ K (S k)) by lia.
  destruct kd; try exact H. cbn [zero_kind] in *. destruct (zero_fields f k fields) as [zs|] eqn:F; [|discriminate].
  assert (F' : zero_fields f (S k) fields = Some zs); [|rewrite F'; exact H]. clear H K. revert zs F.
  induction fields as [|[n e' t] fs IHf]; intros zs F; [exact F|]. cbn [zero_fields] in *.
  destruct (zero_of f k e') as [v|] eqn:V; [|discriminate]. rewrite (IH _ _ V). destruct (zero_fields f k fs) as [vs|]; [|discriminate].
  now rewrite (IHf _ eq_refl).
Qed.

Lemma set_default_mono : forall f k e fp z, set_default f k e fp = Some z -> set_default f (S k) e fp = Some z.
Proof.
  intros f k e fp z H. unfold set_default in *. destruct (fp_optional fp); [|discriminate].
  destruct (fp_defaultValue fp) as [d|]; [|now apply zero_mono].
  destruct (kind_of f k e) as [kd|] eqn:K.
  - rewrite (kind_mono _ _ _ _ K (S k)) by lia. destruct kd; try exact H; now apply zero_mono.
  - exfalso. destruct k as [|k]; [discriminate|]. rewrite zero_of_eq in H. destruct (kind_of f k e) eqn:K'; [|discriminate].
    rewrite (kind_mono _ _ _ _ K' (S k)) in K by lia. discriminate.
Qed.

Lemma parse_mono : forall f k e fp ws r, parse_field f k e fp ws = Some r -> parse_field f (S k) e fp ws = Some r.
Proof.
  induction k as [|k IH]; intros e fp ws r H; [discriminate|]. rewrite parse_field_eq in H. rewrite parse_field_eq. cbn zeta in *.
  assert (A : forall r, option_map (fun v => (v, ws)) (set_default f k e fp) = Some r ->
    option_map (fun v => (v, ws)) (set_default f (S k) e fp) = Some r).
  { intros r0 H0. destruct (set_default f k e fp) eqn:D; [|discriminate]. now rewrite (set_default_mono _ _ _ _ _ D). }
  assert (F : forall fs inner vs, parse_fields f k fs inner = Some vs -> parse_fields f (S k) fs inner = Some vs).
  { induction fs as [|[n e' t] fs IHf]; intros inner vs H0; [exact H0|]. cbn [parse_fields] in *.
    destruct (parse_field f k e' _ inner) as [[v i]|] eqn:V; [|discriminate]. rewrite (IH _ _ _ _ V).
    destruct (parse_fields f k fs i) as [vs'|] eqn:V'; [|discriminate]. now rewrite (IHf _ _ V'). }
  assert (L : forall e' count inner vs, parse_elements f k e' count inner = Some vs -> parse_elements f (S k) e' count inner = Some vs).
  { intros e'. induction count as [|count IHc]; intros inner vs H0; [exact H0|]. cbn [parse_elements] in *.
    destruct (parse_field f k e' fp0 inner) as [[v i]|] eqn:V; [|discriminate]. rewrite (IH _ _ _ _ V).
    destruct (parse_elements f k e' count i) as [vs'|] eqn:V'; [|discriminate]. now rewrite (IHc _ _ V'). }
  assert (B : forall kd u b v, parse_body f k kd u b = Some v -> parse_body f (S k) kd u b = Some v).
  { intros kd u b v H0. destruct kd, b as [p|inner]; try exact H0; cbn [parse_body] in *.
    - destruct (kind_of f k elem) as [k'|] eqn:K; [|discriminate]. rewrite (kind_mono _ _ _ _ K (S k)) by lia.
      destruct (element_kind k' && forallb (element_ok k') inner); [|discriminate]. destruct (parse_elements f k elem _ inner) eqn:V; [|discriminate].
      now rewrite (L _ _ _ _ V).
    - destruct (forallb exported fields); [|discriminate]. destruct (parse_fields f k fields inner) eqn:V; [|discriminate].
      now rewrite (F _ _ _ V). }
  destruct (kind_of f k e) as [kd|] eqn:K; [|discriminate]. rewrite (kind_mono _ _ _ _ K (S k)) by lia.
  assert (V : forall c n b rest r,
    parse_value f k kd fp (option_map (fun v => (v, ws)) (set_default f k e fp)) c n b rest = Some r ->
    parse_value f (S k) kd fp (option_map (fun v => (v, ws)) (set_default f (S k) e fp)) c n b rest = Some r).
  { intros c n b rest r0 H0. unfold parse_value in *. destruct (wanted fp kd c n) as [u|]; [|discriminate].
    destruct (_ && _ && _); [|now apply A]. destruct (parse_body f k kd u b) eqn:Bd; [|discriminate]. now rewrite (B _ _ _ _ Bd). }
  destruct ws as [|[c n b] rest]; [now apply A|]. destruct (is_any kd); [exact H|]. destruct (fp_explicit fp).
  - destruct (empty_contents b && _); [exact H|]. destruct (_ && _ && _); [|now apply A]. destruct (is_raw kd); [exact H|].
    destruct b as [p|[|[c' n' b'] inner]]; try exact H. now apply V.
  - destruct (is_raw kd); [|now apply V]. destruct (raw_matches fp c n); [exact H|now apply A].
Qed.

Lemma unmarshal_mono : forall f s w k v, unmarshal f k s w = Some v -> forall k', (k <= k')%nat -> unmarshal f k' s w = Some v.
Proof.
  intros f s w k v H k' L. induction L as [|k' L IH]; [exact H|]. unfold unmarshal in *.
  destruct (parse_field f k' (EIdent s) fp0 [w]) as [r|] eqn:P; [|discriminate]. now rewrite (parse_mono _ _ _ _ _ _ P).
Qed.
