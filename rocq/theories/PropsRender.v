(** Property C20: what is printed is read back.  The printer is in [Render.v]. *)
From Coq Require Import ZArith String Ascii Bool List Lia SpecFloat.
From Verif Require Import GoBase Unicode Tokens Ast Parser ParserFacts ParserRuns Render RenderModule.
Import ListNotations.
Local Open Scope string_scope.
Local Open Scope list_scope.
Local Open Scope Z_scope.

(** * C20: round trip *)

(** Every module that is printed and in which no pointer occurs (no DEFAULT, no
    reference in an object identifier) is read back as it was. *)
Theorem C20_round_trip : forall U m s, no_pointers m -> render m = Some s -> parses U s (ParseOk (Some m)).
Proof. intros U m s N R. now apply render_exact. Qed.
Print Assumptions C20_round_trip.

(** With pointers, everything but what they point to is read back; for that see C06
    and C07. *)
Theorem C20_shape : forall U m s, render m = Some s ->
  exists m', parses U s (ParseOk (Some m')) /\ shape m' = shape m.
Proof. intros U m s R. now apply render_shape. Qed.
Print Assumptions C20_shape.

(** With pointers the module itself is not always read back. *)
Theorem C20_round_trip_refuted : exists m s, render m = Some s /\ ~ parses ascii_tables s (ParseOk (Some m)).
Proof.
  exists {| md_ModuleIdentifier := {| mi_Reference := "M"; mi_DefinitiveIdentifier := [] |};
            md_TagDefault := TAGS_EXPLICIT; md_ExtensibilityImplied := false;
            md_ModuleBody := {| mb_Imports := [];
              mb_AssignmentList := [AType "T" (TSequence
                [CNamed (Named "a" (TInteger [])) false (Some (VNumber 1)); CNamed (Named "b" (TInteger [])) false None] [])] |} |}.
  eexists. split; [reflexivity|]. intros P.
  assert (Q : exists m, parses ascii_tables "M DEFINITIONS EXPLICIT TAGS ::= BEGIN T ::= SEQUENCE { a INTEGER DEFAULT 1 , b INTEGER } END" (ParseOk (Some m)) /\
    mb_AssignmentList (md_ModuleBody m) =
    [AType "T" (TSequence [CNamed (Named "a" (TInteger [])) false (Some VNil); CNamed (Named "b" (TInteger [])) false None] [])]).
  { eexists. split; [apply (ParseString_parses _ 1000); vm_compute; reflexivity|reflexivity]. }
  destruct Q as (m & Q & E). pose proof (parses_det _ _ _ _ P Q) as D. injection D as <-. discriminate E.
Qed.
Print Assumptions C20_round_trip_refuted.

Example C20_example : exists m s, no_pointers m /\ render m = Some s /\
  s = "My-Module { iso ( 1 ) 2 } DEFINITIONS AUTOMATIC TAGS EXTENSIBILITY IMPLIED ::= BEGIN IMPORTS A , b FROM Other { 1 2 } C FROM Last ; T ::= SEQUENCE { a [ APPLICATION 3 ] IMPLICIT INTEGER ( - 5 .. MAX | 7 ) OPTIONAL , b SEQUENCE ( SIZE ( 1 .. 2 ) ) OF item CHOICE { x NULL , ... , y T } , COMPONENTS OF U , ... , c BIT STRING { zero ( 0 ) } } v T ::= { 1 3 six ( 6 ) } END".
Proof.
  eexists. eexists. split; [|split; [|reflexivity]].
  - exists {| md_ModuleIdentifier := {| mi_Reference := "My-Module";
                mi_DefinitiveIdentifier := [{| doc_Name := "iso"; doc_Id := 1 |}; {| doc_Name := ""; doc_Id := 2 |}] |};
              md_TagDefault := TAGS_AUTOMATIC; md_ExtensibilityImplied := true;
              md_ModuleBody := {|
                mb_Imports :=
                  [{| sfm_SymbolList := [SymType "A"; SymValue "b"];
                      sfm_Module := {| gmr_Reference := "Other"; gmr_AssignedIdentifier := VObjectIdentifier
                        [{| oe_Name := ""; oe_ID := 1; oe_Reference := None |}; {| oe_Name := ""; oe_ID := 2; oe_Reference := None |}] |} |};
                   {| sfm_SymbolList := [SymType "C"];
                      sfm_Module := {| gmr_Reference := "Last"; gmr_AssignedIdentifier := VNil |} |}];
                mb_AssignmentList :=
                  [AType "T" (TSequence
                     [CNamed (Named "a" (TTagged {| tag_Class := CLASS_APPLICATION; tag_ClassNumber := VNumber 3 |}
                        (TConstrained (TInteger []) (CSSubtype [EUnions
                           [[Intersect (EValueRange {| re_Value := VNumber (-5); re_IsOpen := false |} {| re_Value := VNil; re_IsOpen := false |}) ENil];
                            [Intersect (ESingleValue (VNumber 7)) ENil]]]))
                        TAGS_IMPLICIT true)) true None;
                      CNamed (Named "b" (TConstrained (TSequenceOf (TNamed (Named "item" (TChoice [Named "x" TNull] [Some (Named "y" (TReference "T"))]))))
                        (CSSubtype [EUnions [[Intersect (ESize (CSSubtype [EUnions
                           [[Intersect (EValueRange {| re_Value := VNumber 1; re_IsOpen := false |} {| re_Value := VNumber 2; re_IsOpen := false |}) ENil]]])) ENil]]]))) false None;
                      CComponentsOf (TReference "U")]
                     [CNamed (Named "c" (TBitString [{| nb_Name := "zero"; nb_Index := VNumber 0 |}])) false None]);
                   AValue "v" (TReference "T") (VObjectIdentifier
                     [{| oe_Name := ""; oe_ID := 1; oe_Reference := None |}; {| oe_Name := ""; oe_ID := 3; oe_Reference := None |};
                      {| oe_Name := "six"; oe_ID := 6; oe_Reference := None |}])] |} |}. reflexivity.
  - vm_compute. reflexivity.
Qed.
