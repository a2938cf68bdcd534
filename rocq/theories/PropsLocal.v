(** Properties C72 and C73: what is generated for an assignment depends on the types it
    refers to, not on the other assignments or on their order. *)
From Coq Require Import ZArith String Ascii List Bool Permutation SpecFloat.
From Verif Require Import GoBase Utf8 Unicode Tokens Ast GoAst Codegen CodegenSpec CodegenFacts CodegenNames CodegenLocal PropsCodegen.
Import ListNotations.
Local Open Scope string_scope.
Local Open Scope list_scope.

(** The declarations of a file other than its imports. *)
Definition declarations (f : gofile) : list godecl :=
  filter (fun d => match gd_tok d with TokImport => false | _ => true end) (gf_decls f).

(** * C72: other assignments do not matter *)

(** [m'] defines all types that [m] defines, in the same way; further assignments are
    free, but none may be called GeneralizedTime unless there is one in [m].  Then
    there is one function from assignments to declarations that gives both files:
    whatever the two modules have in common becomes the same code.  What is imported
    for a part is imported for the whole. *)
Theorem C72_locality : forall U fmt p fuel fuel' m m' f f',
  md_TagDefault m = md_TagDefault m' ->
  (forall n t, defines (assignments m) n t -> defines (assignments m') n t) ->
  (forall t, defines (assignments m') "GeneralizedTime" t -> defines (assignments m) "GeneralizedTime" t) ->
  Generate U fmt p fuel m = Ok (GenOk f) -> Generate U fmt p fuel' m' = Ok (GenOk f') ->
  (exists code : Assignment_ -> list godecl,
     declarations f = flat_map code (assignments m) /\ declarations f' = flat_map code (assignments m')) /\
  (incl (assignments m) (assignments m') -> incl (imports f) (imports f')).
Proof. exact locality. Qed.
Print Assumptions C72_locality.

Definition local_small : Module_ := ex_module TAGS_EXPLICIT
  [AType "Rec" (TSequence [CNamed (Named "f" (TReference "Level")) false None; CNamed (Named "t" (TReference "GeneralizedTime")) true None] []);
   AType "Level" (TInteger [{| nn_Name := "low"; nn_Value := NNumber 1 |}])].
Definition local_large : Module_ := ex_module TAGS_EXPLICIT
  (AValue "x" TBoolean (VBoolean true) :: assignments local_small ++ [AType "More" (TSequenceOf (TReference "Rec")); AType "Flags" (TBitString [])]).

Definition out_of (m : Module_) : gofile :=
  match gen_ ex_params m with Ok (GenOk f) => f | _ => {| gf_name := ""; gf_decls := [] |} end.

Example C72_example : exists f f',
  gen_ ex_params local_small = Ok (GenOk f) /\ gen_ ex_params local_large = Ok (GenOk f') /\
  (forall n t, defines (assignments local_small) n t -> defines (assignments local_large) n t) /\
  (forall t, defines (assignments local_large) "GeneralizedTime" t -> defines (assignments local_small) "GeneralizedTime" t) /\
  incl (assignments local_small) (assignments local_large) /\
  imports f = ["time"] /\ imports f' = ["time"; "encoding/asn1"] /\
  length (declarations f) = 3%nat /\ length (declarations f') = 6%nat.
Proof.
  let f := eval vm_compute in (out_of local_small) in let f' := eval vm_compute in (out_of local_large) in exists f, f'.
  split; [vm_compute; reflexivity|]. split; [vm_compute; reflexivity|].
  assert (A : forall n t, defines (assignments local_small) n t -> n = "Rec" \/ n = "Level").
  { intros n t D. apply first_named_in in D. destruct D as [D|[D|[]]]; inversion D; auto. }
  split. { intros n t D. destruct (A n t D) as [-> | ->]; inversion D; subst; try congruence.
    - apply fn_skip_value; [discriminate|]. apply fn_type.
    - match goal with H : first_named _ [_] _ |- _ => inversion H; subst; try congruence end.
      apply fn_skip_value; [discriminate|]. apply fn_skip_type; [discriminate|]. apply fn_type. }
  split. { intros t D. apply first_named_in in D. destruct D as [D|[D|[D|[D|[D|[]]]]]]; discriminate D. }
  split. { intros a [<-|[<-|[]]]; cbn; auto. }
  repeat split; vm_compute; reflexivity.
Qed.

(** * C73: the order of assignments does not matter *)

(** If [m'] has the assignments of [m] in another order, and no name is assigned
    twice, Generate returns the same declarations and imports in another order, or the
    same errors in another order. *)
Theorem C73_order : forall U fmt p fuel m m',
  md_ModuleIdentifier m = md_ModuleIdentifier m' -> md_TagDefault m = md_TagDefault m' ->
  NoDup (flat_map asg_name (assignments m)) -> Permutation (assignments m) (assignments m') ->
  (forall f, Generate U fmt p fuel m = Ok (GenOk f) ->
     exists f', Generate U fmt p fuel m' = Ok (GenOk f') /\ gf_name f = gf_name f' /\ Permutation (gf_decls f) (gf_decls f')) /\
  (forall l, Generate U fmt p fuel m = Ok (GenErr l) ->
     exists l', Generate U fmt p fuel m' = Ok (GenErr l') /\ Permutation l l').
Proof. exact order. Qed.
Print Assumptions C73_order.

Example C73_example :
  NoDup (flat_map asg_name (assignments local_large)) /\
  Permutation (assignments local_large) (rev (assignments local_large)) /\
  (exists f, gen_ ex_params local_large = Ok (GenOk f)) /\
  gen_ ex_params (ex_module TAGS_EXPLICIT [AType "A" TNull; AType "B" (TReference "C")]) =
    Ok (GenErr [ErrUnsupportedType TNull; ErrUnresolved "C"]).
Proof.
  split; [repeat constructor; cbn; intuition discriminate|]. split; [apply Permutation_rev|].
  split; [eexists; vm_compute; reflexivity|vm_compute; reflexivity].
Qed.

(** Not so if a name is assigned twice: lookups find the first one. *)
Theorem C73_twice_refuted : exists U fmt p fuel m m' f,
  md_ModuleIdentifier m = md_ModuleIdentifier m' /\ md_TagDefault m = md_TagDefault m' /\
  Permutation (assignments m) (assignments m') /\ Generate U fmt p fuel m = Ok (GenOk f) /\
  forall f', Generate U fmt p fuel m' = Ok (GenOk f') -> ~ Permutation (gf_decls f) (gf_decls f').
Proof.
  exists ascii_tables, ex_fmt, ex_params, 10%nat,
    (ex_module TAGS_EXPLICIT [AType "A" TBoolean; AType "A" (TBitString []); AType "B" (TReference "A")]),
    (ex_module TAGS_EXPLICIT [AType "A" (TBitString []); AType "A" TBoolean; AType "B" (TReference "A")]).
  eexists. split; [reflexivity|]. split; [reflexivity|]. split; [apply perm_swap|]. split; [vm_compute; reflexivity|].
  intros f' H. vm_compute in H. injection H as <-. intro P.
  match type of P with Permutation ?l _ => assert (I : In (last l {| gd_tok := TokVar; gd_specs := [] |}) l) by (cbn; auto 10) end.
  apply (Permutation_in _ P) in I. cbn in I. repeat destruct I as [I|I]; try discriminate I; contradiction.
Qed.
Print Assumptions C73_twice_refuted.
