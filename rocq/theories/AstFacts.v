(** Replacing pointers twice is replacing them once. *)
From Coq Require Import ZArith String List.
From Verif Require Import GoBase Ast.
Import ListNotations.

Section Lists.
  Context {A B C : Type} (f : A -> B) (g : B -> C) (h : A -> C) (H : forall x, g (f x) = h x).

  Fixpoint map_comp (l : list A) : map g (map f l) = map h l :=
    match l with
    | [] => eq_refl
    | x :: l' => f_equal2 cons (H x) (map_comp l')
    end.

  Definition option_comp (o : option A) : option_map g (option_map f o) = option_map h o :=
    match o with Some x => f_equal Some (H x) | None => eq_refl end.
End Lists.

Section Comp.
  Context {P R P' R' P'' R'' : Type} (f : P -> P') (g : R -> R') (f' : P' -> P'') (g' : R' -> R'').
  Notation ff := (fun p => f' (f p)).
  Notation gg := (fun r => g' (g r)).

  Lemma oe_comp e : oe_map g' (oe_map g e) = oe_map gg e.
  Proof. destruct e as [a b [r|]]; reflexivity. Qed.

  Lemma value_comp v : value_map g' (value_map g v) = value_map gg v.
  Proof. destruct v; cbn; try reflexivity. f_equal. apply map_comp. apply oe_comp. Qed.

  Lemma nb_comp b : nb_map g' (nb_map g b) = nb_map gg b.
  Proof. destruct b as [n i]. cbn. unfold nb_map. cbn. now rewrite value_comp. Qed.

  Lemma tag_comp t : tag_map g' (tag_map g t) = tag_map gg t.
  Proof. destruct t as [c n]. unfold tag_map. cbn. now rewrite value_comp. Qed.

  Lemma re_comp e : re_map g' (re_map g e) = re_map gg e.
  Proof. destruct e as [v o]. unfold re_map. cbn. now rewrite value_comp. Qed.

  Fixpoint tmap_comp (t : atype P R) : tmap f' g' (tmap f g t) = tmap ff gg t
  with nmap_comp (n : NamedType P R) : nmap f' g' (nmap f g n) = nmap ff gg n
  with cmap_comp (c : component P R) : cmap f' g' (cmap f g c) = cmap ff gg c
  with csmap_comp (c : ConstraintSpec P R) : csmap f' g' (csmap f g c) = csmap ff gg c
  with emap_comp (e : Elements P R) : emap f' g' (emap f g e) = emap ff gg e
  with imap_comp (i : IntersectionElements P R) : imap f' g' (imap f g i) = imap ff gg i.
  Proof.
    - destruct t; cbn; try reflexivity.
      + f_equal. apply nmap_comp.
      + f_equal; [exact (map_comp _ _ _ nmap_comp alts)|exact (map_comp _ _ _ (option_comp _ _ _ nmap_comp) exts)].
      + f_equal; [exact (map_comp _ _ _ cmap_comp comps)|exact (map_comp _ _ _ cmap_comp exts)].
      + f_equal; [exact (map_comp _ _ _ cmap_comp comps)|exact (map_comp _ _ _ cmap_comp exts)].
      + f_equal; [apply tag_comp|apply tmap_comp].
      + f_equal. apply tmap_comp.
      + f_equal. apply tmap_comp.
      + f_equal. apply map_comp. apply nb_comp.
      + f_equal; [apply tmap_comp|apply csmap_comp].
    - destruct n; cbn. f_equal. apply tmap_comp.
    - destruct c; cbn; try reflexivity.
      + f_equal; [apply nmap_comp|]. now destruct dflt.
      + f_equal. apply tmap_comp.
    - destruct c; cbn; try reflexivity. f_equal. exact (map_comp _ _ _ emap_comp l).
    - destruct e; cbn; try reflexivity.
      + f_equal. exact (map_comp _ _ _ (map_comp _ _ _ imap_comp) l).
      + f_equal. apply emap_comp.
      + f_equal. apply value_comp.
      + f_equal; apply re_comp.
      + f_equal. apply tmap_comp.
      + f_equal. apply csmap_comp.
    - destruct i; cbn. f_equal; apply emap_comp.
  Defined.

  Lemma amap_comp a : amap f' g' (amap f g a) = amap ff gg a.
  Proof. destruct a; cbn; try reflexivity; [now rewrite tmap_comp|now rewrite tmap_comp, value_comp]. Qed.

  Lemma sfm_comp s : sfm_map g' (sfm_map g s) = sfm_map gg s.
  Proof. destruct s as [l [r v]]. unfold sfm_map, gmr_map. cbn. now rewrite value_comp. Qed.

  Theorem md_comp m : md_map f' g' (md_map f g m) = md_map ff gg m.
  Proof.
    destruct m as [i t e [a s]]. unfold md_map, mb_map. cbn.
    now rewrite (map_comp _ _ _ amap_comp), (map_comp _ _ _ sfm_comp).
  Qed.
End Comp.
