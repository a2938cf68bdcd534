(** The tests of the repository (lexer_test.go, parser_test.go, codegen_test.go,
    examples/examples_test.go, examples/rfc4120_test.go, examples/rfc5280_test.go, internal/utils/dump_test.go),
    run on the model.  Written by tools/gen_conformance.py from the test files.  Nothing depends on this file: it is evidence that the model
    computes what the code computes, where the authors wrote that down.

    Expected Go source is compared as a tree (the tests print it with go/printer).  Tests
    that the repository skips, and tests that run the go command, are left out. *)
From Coq Require Import ZArith String List Bool SpecFloat.
From Verif Require Import GoBase Utf8 Unicode Reader Stream Tokens Ast Lexer RealNum Parser GoAst Codegen Wireshark WiresharkTime CodegenSpec GoCheck SoundCheck ParserRuns PropsCodegen PropsNames PropsCompile Wire WireRead.
Import ListNotations.
Local Open Scope string_scope.
Local Open Scope list_scope.
Local Open Scope Z_scope.

(** lexForString, lexer_test.go:9-12 *)
Definition lexForString (s : string) := new_lexer (stream_of_bytes (bytes_of_string s)).

(** A call of Lex; the tests expect no error. *)
Definition lex_one (s : string) : option (Z * lexval) :=
  match Lex stream_ops ascii_tables 1000 (lexForString s) lexval0 with
  | Ok (t, v, x) => match lx_err x with None => Some (t, v) | Some _ => None end
  | _ => None
  end.

(** testError, lexer_test.go:54-62 *)
Definition lex_error (s : string) : option string :=
  match Lex stream_ops ascii_tables 1000 (lexForString s) lexval0 with Ok (_, _, x) => lx_err x | _ => None end.

(** Calls of Lex until the end, as in TestRealSyntax (lexer_test.go:351-366). *)
Fixpoint lex_all (n : nat) (x : lexer stream) : list Z :=
  match n with
  | O => []
  | S n' => match Lex stream_ops ascii_tables 1000 x lexval0 with
            | Ok (t, _, x') => if t =? 0 then [0] else t :: lex_all n' x'
            | _ => []
            end
  end.

(** testNotFails, parser_test.go:11-17 *)
Definition parsed (s : string) : option Module_ :=
  match ParseString ascii_tables 5000 s with Ok (ParseOk m) => m | _ => None end.

(** fmt.Sprint of floats is a parameter of the model; the tests print one. *)
Definition test_fmt (x : spec_float) : string := if SFeqb x (S754_finite false 7070651414971679 (-51)) then "3.14" else "".

(** generateDeclarationsString, codegen_test.go:13-22 (without the printer) *)
Definition generated (m : Module_) : option gofile :=
  match Generate ascii_tables test_fmt ex_params 100 m with Ok (GenOk f) => Some f | _ => None end.

(** testModule, codegen_test.go:24-31 *)
Definition testModule (l : list Assignment_) : Module_ :=
  {| md_ModuleIdentifier := {| mi_Reference := "My-ASN1-ModuleName"; mi_DefinitiveIdentifier := [] |};
     md_TagDefault := 0; md_ExtensibilityImplied := false; md_ModuleBody := {| mb_AssignmentList := l; mb_Imports := [] |} |}.

(** * lexer_test.go *)

(** lexer_test.go:71 *)
Example TestTypeReference :
  option_map (fun p => (fst p, lv_name (snd p))) (lex_one "MyTypeReference") = Some (T_TYPEORMODULEREFERENCE, "MyTypeReference") /\
  option_map (fun p => (fst p, lv_name (snd p))) (lex_one "My-Type-Reference") = Some (T_TYPEORMODULEREFERENCE, "My-Type-Reference") /\
  lex_error "My--Type-Reference" = Some "line 1: token can not contain two hyphens in a row, got My--" /\
  lex_error "MyTypeReference-" = Some "line 1: token can not end on hyphen, got MyTypeReference-".
Proof. vm_compute. repeat split. Qed.

(** lexer_test.go:78 *)
Example TestIdentifier :
  option_map (fun p => (fst p, lv_name (snd p))) (lex_one "myIdentifier") = Some (T_VALUEIDENTIFIER, "myIdentifier") /\
  option_map (fun p => (fst p, lv_name (snd p))) (lex_one "my-Identifier") = Some (T_VALUEIDENTIFIER, "my-Identifier") /\
  lex_error "my--Identifier" = Some "line 1: token can not contain two hyphens in a row, got my--" /\
  lex_error "myIdentifier-" = Some "line 1: token can not end on hyphen, got myIdentifier-".
Proof. vm_compute. repeat split. Qed.

(** lexer_test.go:85 *)
Example TestSpacing :
  option_map (fun p => (fst p, lv_name (snd p))) (lex_one "   myIdentifier   ") = Some (T_VALUEIDENTIFIER, "myIdentifier").
Proof. vm_compute. repeat split. Qed.

(** lexer_test.go:106 *)
Example TestComments :
  option_map (fun p => (fst p, lv_name (snd p))) (lex_one "myIdentifier --thisisacomment") = Some (T_VALUEIDENTIFIER, "myIdentifier") /\
  option_map (fun p => (fst p, lv_name (snd p))) (lex_one "
	-- this is one comment
	-- this is second comment
	myIdentifier -- this is another comment
	-- this is trailing comment
	") = Some (T_VALUEIDENTIFIER, "myIdentifier") /\
  option_map (fun p => (fst p, lv_name (snd p))) (lex_one "--comment1-- -- c-o-mm-ent2 -- myIdentifier --comment3-- ") = Some (T_VALUEIDENTIFIER, "myIdentifier") /\
  option_map (fun p => (fst p, lv_name (snd p))) (lex_one "
	/*
	this is a comment
	*/

	/* this is another comment */

	/*
	this
	/* is nested comment */
	*/

	myIdentifier
	") = Some (T_VALUEIDENTIFIER, "myIdentifier").
Proof. vm_compute. repeat split. Qed.

(** lexer_test.go:134 *)
Example TestNumber :
  option_map (fun p => (fst p, lv_Number (snd p))) (lex_one "0") = Some (T_NUMBER, 0) /\
  option_map (fun p => (fst p, lv_Number (snd p))) (lex_one "1") = Some (T_NUMBER, 1) /\
  option_map (fun p => (fst p, lv_Number (snd p))) (lex_one "123") = Some (T_NUMBER, 123) /\
  option_map (fun p => (fst p, lv_Number (snd p))) (lex_one "12345") = Some (T_NUMBER, 12345).
Proof. vm_compute. repeat split. Qed.

(** lexer_test.go:141 *)
Example TestAssignment :
  option_map fst (lex_one "::=") = Some T_ASSIGNMENT.
Proof. vm_compute. repeat split. Qed.

(** lexer_test.go:145 *)
Example TestRangeSeparator :
  option_map fst (lex_one "..") = Some T_RANGE_SEPARATOR.
Proof. vm_compute. repeat split. Qed.

(** lexer_test.go:149 *)
Example TestEllipsis :
  option_map fst (lex_one "...") = Some T_ELLIPSIS.
Proof. vm_compute. repeat split. Qed.

(** lexer_test.go:153 *)
Example TestLeftVersionBrackets :
  option_map fst (lex_one "[[") = Some T_LEFT_VERSION_BRACKETS.
Proof. vm_compute. repeat split. Qed.

(** lexer_test.go:157 *)
Example TestRightVersionBrackets :
  option_map fst (lex_one "]]") = Some T_RIGHT_VERSION_BRACKETS.
Proof. vm_compute. repeat split. Qed.

(** lexer_test.go:184 *)
Example TestSingleSymbolTokens :
  option_map fst (lex_one "{") = Some T_OPEN_CURLY /\
  option_map fst (lex_one "}") = Some T_CLOSE_CURLY /\
  option_map fst (lex_one "<") = Some T_LESS /\
  option_map fst (lex_one ">") = Some T_GREATER /\
  option_map fst (lex_one ",") = Some T_COMMA /\
  option_map fst (lex_one ".") = Some T_DOT /\
  option_map fst (lex_one "(") = Some T_OPEN_ROUND /\
  option_map fst (lex_one ")") = Some T_CLOSE_ROUND /\
  option_map fst (lex_one "[") = Some T_OPEN_SQUARE /\
  option_map fst (lex_one "]") = Some T_CLOSE_SQUARE /\
  option_map fst (lex_one "-") = Some T_MINUS /\
  option_map fst (lex_one ":") = Some T_COLON /\
  option_map fst (lex_one "=") = Some T_EQUALS /\
  option_map fst (lex_one """") = Some T_QUOTATION_MARK /\
  option_map fst (lex_one "'") = Some T_APOSTROPHE /\
  option_map fst (lex_one ";") = Some T_SEMICOLON /\
  option_map fst (lex_one "@") = Some T_AT /\
  option_map fst (lex_one "|") = Some T_PIPE /\
  option_map fst (lex_one "!") = Some T_EXCLAMATION /\
  option_map fst (lex_one "^") = Some T_CARET.
Proof. vm_compute. repeat split. Qed.

(** lexer_test.go:208 *)
Example TestReservedWords :
  option_map fst (lex_one "ABSENT") = Some T_ABSENT /\
  option_map fst (lex_one "ENCODED") = Some T_ENCODED /\
  option_map fst (lex_one "INTEGER") = Some T_INTEGER /\
  option_map fst (lex_one "RELATIVE-OID") = Some T_RELATIVE_OID /\
  option_map fst (lex_one "ABSTRACT-SYNTAX") = Some T_ABSTRACT_SYNTAX /\
  option_map fst (lex_one "END") = Some T_END /\
  option_map fst (lex_one "INTERSECTION") = Some T_INTERSECTION /\
  option_map fst (lex_one "SEQUENCE") = Some T_SEQUENCE /\
  option_map fst (lex_one "ALL") = Some T_ALL /\
  option_map fst (lex_one "ENUMERATED") = Some T_ENUMERATED /\
  option_map fst (lex_one "ISO646String") = Some T_ISO646String /\
  option_map fst (lex_one "SET") = Some T_SET /\
  option_map fst (lex_one "APPLICATION") = Some T_APPLICATION /\
  option_map fst (lex_one "EXCEPT") = Some T_EXCEPT /\
  option_map fst (lex_one "MAX") = Some T_MAX /\
  option_map fst (lex_one "SIZE") = Some T_SIZE /\
  option_map fst (lex_one "AUTOMATIC") = Some T_AUTOMATIC /\
  option_map fst (lex_one "EXPLICIT") = Some T_EXPLICIT /\
  option_map fst (lex_one "MIN") = Some T_MIN /\
  option_map fst (lex_one "STRING") = Some T_STRING /\
  option_map fst (lex_one "BEGIN") = Some T_BEGIN /\
  option_map fst (lex_one "EXPORTS") = Some T_EXPORTS /\
  option_map fst (lex_one "MINUS-INFINITY") = Some T_MINUS_INFINITY /\
  option_map fst (lex_one "SYNTAX") = Some T_SYNTAX /\
  option_map fst (lex_one "BIT") = Some T_BIT /\
  option_map fst (lex_one "EXTENSIBILITY") = Some T_EXTENSIBILITY /\
  option_map fst (lex_one "NULL") = Some T_NULL /\
  option_map fst (lex_one "T61String") = Some T_T61String /\
  option_map fst (lex_one "BMPString") = Some T_BMPString /\
  option_map fst (lex_one "EXTERNAL") = Some T_EXTERNAL /\
  option_map fst (lex_one "NumericString") = Some T_NumericString /\
  option_map fst (lex_one "TAGS") = Some T_TAGS /\
  option_map fst (lex_one "BOOLEAN") = Some T_BOOLEAN /\
  option_map fst (lex_one "FALSE") = Some T_FALSE /\
  option_map fst (lex_one "OBJECT") = Some T_OBJECT /\
  option_map fst (lex_one "TeletexString") = Some T_TeletexString /\
  option_map fst (lex_one "BY") = Some T_BY /\
  option_map fst (lex_one "FROM") = Some T_FROM /\
  option_map fst (lex_one "ObjectDescriptor") = Some T_ObjectDescriptor /\
  option_map fst (lex_one "TRUE") = Some T_TRUE /\
  option_map fst (lex_one "CHARACTER") = Some T_CHARACTER /\
  option_map fst (lex_one "GeneralizedTime") = Some T_GeneralizedTime /\
  option_map fst (lex_one "OCTET") = Some T_OCTET /\
  option_map fst (lex_one "TYPE-IDENTIFIER") = Some T_TYPE_IDENTIFIER /\
  option_map fst (lex_one "CHOICE") = Some T_CHOICE /\
  option_map fst (lex_one "GeneralString") = Some T_GeneralString /\
  option_map fst (lex_one "OF") = Some T_OF /\
  option_map fst (lex_one "UNION") = Some T_UNION /\
  option_map fst (lex_one "CLASS") = Some T_CLASS /\
  option_map fst (lex_one "GraphicString") = Some T_GraphicString /\
  option_map fst (lex_one "OPTIONAL") = Some T_OPTIONAL /\
  option_map fst (lex_one "UNIQUE") = Some T_UNIQUE /\
  option_map fst (lex_one "COMPONENT") = Some T_COMPONENT /\
  option_map fst (lex_one "IA5String") = Some T_IA5String /\
  option_map fst (lex_one "PATTERN") = Some T_PATTERN /\
  option_map fst (lex_one "UNIVERSAL") = Some T_UNIVERSAL /\
  option_map fst (lex_one "COMPONENTS") = Some T_COMPONENTS /\
  option_map fst (lex_one "IDENTIFIER") = Some T_IDENTIFIER /\
  option_map fst (lex_one "PDV") = Some T_PDV /\
  option_map fst (lex_one "UniversalString") = Some T_UniversalString /\
  option_map fst (lex_one "CONSTRAINED") = Some T_CONSTRAINED /\
  option_map fst (lex_one "IMPLICIT") = Some T_IMPLICIT /\
  option_map fst (lex_one "PLUS-INFINITY") = Some T_PLUS_INFINITY /\
  option_map fst (lex_one "UTCTime") = Some T_UTCTime /\
  option_map fst (lex_one "CONTAINING") = Some T_CONTAINING /\
  option_map fst (lex_one "IMPLIED") = Some T_IMPLIED /\
  option_map fst (lex_one "PRESENT") = Some T_PRESENT /\
  option_map fst (lex_one "UTF8String") = Some T_UTF8String /\
  option_map fst (lex_one "DEFAULT") = Some T_DEFAULT /\
  option_map fst (lex_one "IMPORTS") = Some T_IMPORTS /\
  option_map fst (lex_one "PrintableString") = Some T_PrintableString /\
  option_map fst (lex_one "VideotexString") = Some T_VideotexString /\
  option_map fst (lex_one "DEFINITIONS") = Some T_DEFINITIONS /\
  option_map fst (lex_one "INCLUDES") = Some T_INCLUDES /\
  option_map fst (lex_one "PRIVATE") = Some T_PRIVATE /\
  option_map fst (lex_one "VisibleString") = Some T_VisibleString /\
  option_map fst (lex_one "EMBEDDED") = Some T_EMBEDDED /\
  option_map fst (lex_one "INSTANCE") = Some T_INSTANCE /\
  option_map fst (lex_one "REAL") = Some T_REAL /\
  option_map fst (lex_one "WITH") = Some T_WITH.
Proof. vm_compute. repeat split. Qed.

(** lexer_test.go:89 *)
Example TestNoSpacing : lex_all 5 (lexForString "myIdentifier(") = [T_VALUEIDENTIFIER; T_OPEN_ROUND; 0].
Proof. vm_compute. reflexivity. Qed.

(** lexer_test.go:291 *)
Example TestRangeSynax : lex_all 10 (lexForString "INTEGER (-2147483648..2147483647)") =
  [T_INTEGER; T_OPEN_ROUND; T_MINUS; T_NUMBER; T_RANGE_SEPARATOR; T_NUMBER; T_CLOSE_ROUND; 0].
Proof. vm_compute. reflexivity. Qed.

(** lexer_test.go:355 *)
Example TestRealSyntax :
  lex_all 10 (lexForString "-1.2e5") = [T_MINUS; T_NUMBER; T_DOT; T_NUMBER; T_EXPONENT; T_NUMBER; 0] /\
  lex_all 10 (lexForString "-1.2 e5") = [T_MINUS; T_NUMBER; T_DOT; T_NUMBER; T_VALUEIDENTIFIER; 0].
Proof. vm_compute. repeat split. Qed.

(** lexer_test.go:161 *)
Definition peek (n : nat) (x : lexer stream) : option string := match peekRunes stream_ops 1000 x n with Ok (_, s) => Some s | _ => None end.
Example TestPeekRunes :
  peek 1 (lexForString "aХc￥eЙ") = Some "a" /\
  peek 2 (lexForString "aХc￥eЙ") = Some "aХ" /\
  peek 3 (lexForString "aХc￥eЙ") = Some "aХc" /\
  peek 4 (lexForString "aХc￥eЙ") = Some "aХc￥" /\
  (let x := lexForString "abc" in let x := fst (readRune stream_ops x) in let x := fst (readRune stream_ops x) in peek 2 x = Some "c").
Proof. vm_compute. repeat split. Qed.

(** * parser_test.go *)

(** parser_test.go:19 *)
Example TestParseMinimalModule :
  parsed "MyModule DEFINITIONS ::= BEGIN END" <> None /\
  parsed "MyModule { mymodule } DEFINITIONS ::= BEGIN END" <> None /\
  option_map md_TagDefault (parsed "MyModule DEFINITIONS IMPLICIT TAGS ::= BEGIN END") = Some TAGS_IMPLICIT /\
  option_map md_ExtensibilityImplied (parsed "MyModule DEFINITIONS EXTENSIBILITY IMPLIED ::= BEGIN END") = Some true.
Proof. vm_compute. repeat split; discriminate. Qed.

(** parser_test.go:129 *)
Example TestRealBuilder :
  parseRealNumber 0 0 0 = (S754_zero false) /\
  parseRealNumber 1 0 0 = (S754_finite false 4503599627370496 (-52)) /\
  parseRealNumber 12345 0 0 = (S754_finite false 6786735522447360 (-39)) /\
  parseRealNumber 12 34 0 = (S754_finite false 6946802425218990 (-49)) /\
  parseRealNumber 2 346 1 = (S754_finite false 6603402953631990 (-48)) /\
  parseRealNumber 23 46 (-1) = (S754_finite false 5282722362905592 (-51)).
Proof. vm_compute. repeat split. Qed.

(** parser_test.go:33 *)
Example TestParseImports :
  option_map (fun m => mb_Imports (md_ModuleBody m)) (parsed "
	RFC1157-SNMP DEFINITIONS ::= BEGIN
		IMPORTS
			ObjectName, ObjectSyntax, NetworkAddress, IpAddress, TimeTicks
		  		FROM RFC1155-SMI;

		MyString ::= CHARACTER STRING  -- AssignmentList can't be empty (?)
	END
	") =
  Some [{| sfm_SymbolList := [(SymType "ObjectName"); (SymType "ObjectSyntax"); (SymType "NetworkAddress"); (SymType "IpAddress"); (SymType "TimeTicks")]; sfm_Module := {| gmr_Reference := "RFC1155-SMI"; gmr_AssignedIdentifier := VNil |} |}].
Proof. vm_compute. reflexivity. Qed.

(** parser_test.go:58 *)
Example TestDefinitiveIdentifier :
  option_map md_ModuleIdentifier (parsed "
	KerberosV5Spec2 {
        iso(1) identified-organization(3) dod(6)
        nameform
        42 --numberform
        mixedform(88)
	} DEFINITIONS EXPLICIT TAGS ::= BEGIN
	END
	") =
  Some {| mi_Reference := "KerberosV5Spec2"; mi_DefinitiveIdentifier := [{| doc_Name := "iso"; doc_Id := 1 |}; {| doc_Name := "identified-organization"; doc_Id := 3 |}; {| doc_Name := "dod"; doc_Id := 6 |}; {| doc_Name := "nameform"; doc_Id := 0 |}; {| doc_Name := ""; doc_Id := 42 |}; {| doc_Name := "mixedform"; doc_Id := 88 |}] |}.
Proof. vm_compute. reflexivity. Qed.

(** parser_test.go:94 *)
Example TestValueAssignmentOID :
  option_map (fun m => mb_AssignmentList (md_ModuleBody m)) (parsed "
	KerberosV5Spec2 DEFINITIONS ::= BEGIN
		id-krb5         OBJECT IDENTIFIER ::= {
    	    name-form
    	    42  --number-form
    	    name-and-number-form(77)
		}
	END
	") =
  Some [(AValue "id-krb5" TObjectIdentifier (VObjectIdentifier [{| oe_Name := ""; oe_ID := 0; oe_Reference := (Some {| dv_ModuleName := ""; dv_ValueName := "name-form" |}) |}; {| oe_Name := ""; oe_ID := 42; oe_Reference := None |}; {| oe_Name := "name-and-number-form"; oe_ID := 77; oe_Reference := None |}]))].
Proof. vm_compute. reflexivity. Qed.

(** parser_test.go:138 *)
Example TestRangeTypeConstraint :
  option_map (fun m => al_GetType (mb_AssignmentList (md_ModuleBody m)) "Int32") (parsed "
	KerberosV5Spec2 DEFINITIONS ::= BEGIN
		Int32 ::= INTEGER (0..5 | 42^10..15)  -- note, UNION has lower precedence than INTERSECTION
	END
	") =
  Some (Some ("Int32", (TConstrained (TInteger []) (CSSubtype [(EUnions [[(Intersect (EValueRange {| re_Value := (VNumber 0); re_IsOpen := false |} {| re_Value := (VNumber 5); re_IsOpen := false |}) ENil)]; [(Intersect (ESingleValue (VNumber 42)) ENil); (Intersect (EValueRange {| re_Value := (VNumber 10); re_IsOpen := false |} {| re_Value := (VNumber 15); re_IsOpen := false |}) ENil)]])])))).
Proof. vm_compute. reflexivity. Qed.

(** parser_test.go:208 *)
Example TestTypeTypeConstraint :
  option_map (fun m => al_GetType (mb_AssignmentList (md_ModuleBody m)) "KerberosString") (parsed "
	KerberosV5Spec2 DEFINITIONS ::= BEGIN
		KerberosString  ::= GeneralString (IA5String)
	END
	") =
  Some (Some ("KerberosString", (TConstrained (TRestrictedString T_GeneralString) (CSSubtype [(EUnions [[(Intersect (EType (TRestrictedString T_IA5String)) ENil)]])])))).
Proof. vm_compute. reflexivity. Qed.

(** parser_test.go:238 *)
Example TestSequenceWithTagsAndSequenceOf :
  option_map (fun m => al_GetType (mb_AssignmentList (md_ModuleBody m)) "PrincipalName") (parsed "
	KerberosV5Spec2 DEFINITIONS ::= BEGIN
		PrincipalName   ::= SEQUENCE {
				name-type       [0] Int32,
				name-string     [1] SEQUENCE OF KerberosString
		}
	END
	") =
  Some (Some ("PrincipalName", (TSequence [(CNamed (Named "name-type" (TTagged {| tag_Class := 0; tag_ClassNumber := (VNumber 0) |} (TReference "Int32") 0 false)) false None); (CNamed (Named "name-string" (TTagged {| tag_Class := 0; tag_ClassNumber := (VNumber 1) |} (TSequenceOf (TReference "KerberosString")) 0 false)) false None)] []))).
Proof. vm_compute. reflexivity. Qed.

(** parser_test.go:279 *)
Example TestBitStringWithSizeConstraint :
  option_map (fun m => al_GetType (mb_AssignmentList (md_ModuleBody m)) "KerberosFlags") (parsed "
	KerberosV5Spec2 DEFINITIONS ::= BEGIN
		KerberosFlags   ::= BIT STRING (SIZE (32..MAX))
	END
	") =
  Some (Some ("KerberosFlags", (TConstrained (TBitString []) (CSSubtype [(EUnions [[(Intersect (ESize (CSSubtype [(EUnions [[(Intersect (EValueRange {| re_Value := (VNumber 32); re_IsOpen := false |} {| re_Value := VNil; re_IsOpen := false |}) ENil)]])])) ENil)]])])))).
Proof. vm_compute. reflexivity. Qed.

(** parser_test.go:311 *)
Example TestConstrainedSequence :
  option_map (fun m => al_GetType (mb_AssignmentList (md_ModuleBody m)) "CONSTRAINED-SEQUENCE") (parsed "
	TestSpec DEFINITIONS ::= BEGIN
		CONSTRAINED-SEQUENCE ::= SEQUENCE SIZE (1..MAX) OF INTEGER
	END
	") =
  Some (Some ("CONSTRAINED-SEQUENCE", (TConstrained (TSequenceOf (TInteger [])) (SingleElementConstraint (ESize (SingleElementConstraint (EValueRange {| re_Value := (VNumber 1); re_IsOpen := false |} {| re_Value := VNil; re_IsOpen := false |}))))))).
Proof. vm_compute. reflexivity. Qed.

(** parser_test.go:338 *)
Example TestChoiceType :
  option_map (fun m => al_GetType (mb_AssignmentList (md_ModuleBody m)) "PDUs") (parsed "
	TestSpec DEFINITIONS ::= BEGIN
		PDUs ::=
			  CHOICE {
						  get-request
							  GetRequest-PDU,

						  get-next-request
							  GetNextRequest-PDU,

						  get-response
							  GetResponse-PDU,

						  set-request
							  SetRequest-PDU,

						  trap
							  Trap-PDU
					  }
	END
	") =
  Some (Some ("PDUs", (TChoice [(Named "get-request" (TReference "GetRequest-PDU")); (Named "get-next-request" (TReference "GetNextRequest-PDU")); (Named "get-response" (TReference "GetResponse-PDU")); (Named "set-request" (TReference "SetRequest-PDU")); (Named "trap" (TReference "Trap-PDU"))] []))).
Proof. vm_compute. reflexivity. Qed.

(** parser_test.go:379 *)
Example TestChoiceTypeExtension :
  option_map (fun m => al_GetType (mb_AssignmentList (md_ModuleBody m)) "PDUs") (parsed "
	TestSpec DEFINITIONS ::= BEGIN
		PDUs ::=
			  CHOICE {
						  get-request
							  GetRequest-PDU,

						  get-next-request
							  GetNextRequest-PDU,

						  get-response
							  GetResponse-PDU,

						  set-request
							  SetRequest-PDU,

						  trap
							  Trap-PDU,
						  ...,
						  extra-choice
							  Extra-Type
					  }
	END
	") =
  Some (Some ("PDUs", (TChoice [(Named "get-request" (TReference "GetRequest-PDU")); (Named "get-next-request" (TReference "GetNextRequest-PDU")); (Named "get-response" (TReference "GetResponse-PDU")); (Named "set-request" (TReference "SetRequest-PDU")); (Named "trap" (TReference "Trap-PDU"))] [(Some (Named "extra-choice" (TReference "Extra-Type")))]))).
Proof. vm_compute. reflexivity. Qed.

(** parser_test.go:428 *)
Example TestRealValues :
  option_map (fun m => mb_AssignmentList (md_ModuleBody m)) (parsed "
	TestSpec DEFINITIONS ::= BEGIN
		plusNum INTEGER ::= 123
		minusNum INTEGER ::= -123
		plusReal REAL ::= 123.4
		minusReal REAL ::= -1.234
		plusExp REAL ::= 1.234e3
		minusExp REAL ::= 1234e-3
	END
	") =
  Some [(AValue "plusNum" (TInteger []) (VNumber 123)); (AValue "minusNum" (TInteger []) (VNumber (-123))); (AValue "plusReal" TReal (VReal (S754_finite false 8683503031523738 (-46)))); (AValue "minusReal" TReal (VReal (S754_finite true 5557441940175192 (-52)))); (AValue "plusExp" TReal (VReal (S754_finite false 5427189394702336 (-42)))); (AValue "minusExp" TReal (VReal (S754_finite false 5557441940175192 (-52))))].
Proof. vm_compute. reflexivity. Qed.

(** parser_test.go:454 *)
Example TestBooleanValues :
  option_map (fun m => mb_AssignmentList (md_ModuleBody m)) (parsed "
	TestSpec DEFINITIONS ::= BEGIN
		true BOOLEAN ::= TRUE
		false BOOLEAN ::= FALSE
	END
	") =
  Some [(AValue "true" TBoolean (VBoolean true)); (AValue "false" TBoolean (VBoolean false))].
Proof. vm_compute. reflexivity. Qed.

(** parser_test.go:472 *)
Example TestAnyType :
  option_map (fun m => mb_AssignmentList (md_ModuleBody m)) (parsed "
	TestSpec DEFINITIONS ::= BEGIN
		AttributeValue ::= ANY
		AttributeValue2 ::= ANY DEFINED BY something
	END") =
  Some [(AType "AttributeValue" (TAny "")); (AType "AttributeValue2" (TAny "something"))].
Proof. vm_compute. reflexivity. Qed.

(** parser_test.go:488 *)
Example TestDefaultTags :
  option_map (fun m => mb_AssignmentList (md_ModuleBody m)) (parsed "
	TestSpec DEFINITIONS ::= BEGIN
		UnTagged ::= BOOLEAN
		DefaultTagged ::= [1] BOOLEAN
		ExplicitTagged ::= [2] EXPLICIT BOOLEAN
		ImplicitTagged ::= [3] IMPLICIT BOOLEAN
	END") =
  Some [(AType "UnTagged" TBoolean); (AType "DefaultTagged" (TTagged {| tag_Class := 0; tag_ClassNumber := (VNumber 1) |} TBoolean 0 false)); (AType "ExplicitTagged" (TTagged {| tag_Class := 0; tag_ClassNumber := (VNumber 2) |} TBoolean TAGS_EXPLICIT true)); (AType "ImplicitTagged" (TTagged {| tag_Class := 0; tag_ClassNumber := (VNumber 3) |} TBoolean TAGS_IMPLICIT true))].
Proof. vm_compute. reflexivity. Qed.

(** parser_test.go:508 *)
Example TestSequenceSyntax :
  (* empty sequence *)
  option_map (fun m => mb_AssignmentList (md_ModuleBody m)) (parsed "
			TestSpec DEFINITIONS ::= BEGIN
				Sequence ::= SEQUENCE { }
			END
			") =
  Some [(AType "Sequence" (TSequence [] []))] /\
  (* simple sequence *)
  option_map (fun m => mb_AssignmentList (md_ModuleBody m)) (parsed "
			TestSpec DEFINITIONS ::= BEGIN
				Sequence1 ::= SEQUENCE {
					field BOOLEAN
                }		
				Sequence2 ::= SEQUENCE {
					field1 BOOLEAN,
					field2 BOOLEAN
                }
			END
			") =
  Some [(AType "Sequence1" (TSequence [(CNamed (Named "field" TBoolean) false None)] [])); (AType "Sequence2" (TSequence [(CNamed (Named "field1" TBoolean) false None); (CNamed (Named "field2" TBoolean) false None)] []))] /\
  (* sequence with simple extensions *)
  option_map (fun m => mb_AssignmentList (md_ModuleBody m)) (parsed "
			TestSpec DEFINITIONS ::= BEGIN
				SequenceNoFields ::= SEQUENCE {
					...
                }
				SequenceEmptyAdditionsNoMarker ::= SEQUENCE {
					field1 BOOLEAN,
					...
                }
				SequenceWithExtensions ::= SEQUENCE {
					field1 BOOLEAN,
					...,
					addition1 BOOLEAN,
					addition2 BOOLEAN
                }
			END
			") =
  Some [(AType "SequenceNoFields" (TSequence [] [])); (AType "SequenceEmptyAdditionsNoMarker" (TSequence [(CNamed (Named "field1" TBoolean) false None)] [])); (AType "SequenceWithExtensions" (TSequence [(CNamed (Named "field1" TBoolean) false None)] [(CNamed (Named "addition1" TBoolean) false None); (CNamed (Named "addition2" TBoolean) false None)]))].
Proof. vm_compute. repeat split. Qed.

(** parser_test.go:625 *)
Example TestChoiceSyntax :
  (* choice with elements *)
  option_map (fun m => mb_AssignmentList (md_ModuleBody m)) (parsed "
			TestSpec DEFINITIONS ::= BEGIN
				Choice ::= CHOICE {
					alt1 BOOLEAN,
					alt2 INTEGER
				}
			END
			") =
  Some [(AType "Choice" (TChoice [(Named "alt1" TBoolean); (Named "alt2" (TInteger []))] []))] /\
  (* choice extensions *)
  option_map (fun m => mb_AssignmentList (md_ModuleBody m)) (parsed "
			TestSpec DEFINITIONS ::= BEGIN
				Choice ::= CHOICE { ... }
				Choice2 ::= CHOICE {
					alt1 BOOLEAN,
					alt2 BOOLEAN,
					... 
				}
				Choice3 ::= CHOICE {
					alt1 BOOLEAN,
					...,
					ext2 BOOLEAN,
					ext3 BOOLEAN
				}
			END
			") =
  Some [(AType "Choice" (TChoice [] [])); (AType "Choice2" (TChoice [(Named "alt1" TBoolean); (Named "alt2" TBoolean)] [])); (AType "Choice3" (TChoice [(Named "alt1" TBoolean)] [(Some (Named "ext2" TBoolean)); (Some (Named "ext3" TBoolean))]))].
Proof. vm_compute. repeat split. Qed.

(** parser_test.go:701 *)
Example TestEnumerationSyntax :
  (* enumeration with elements *)
  option_map (fun m => mb_AssignmentList (md_ModuleBody m)) (parsed "
			TestSpec DEFINITIONS ::= BEGIN
				Enum ::= ENUMERATED {
					anon1, named1(1), anon2, named2(2)
				}
			END
			") =
  Some [(AType "Enum" (TEnumerated {| et_RootEnumeration := [(EIIdentifier "anon1"); (EINumber {| nn_Name := "named1"; nn_Value := (NNumber 1) |}); (EIIdentifier "anon2"); (EINumber {| nn_Name := "named2"; nn_Value := (NNumber 2) |})]; et_AdditionalEnumeration := [] |}))].
Proof. vm_compute. repeat split. Qed.

(** parser_test.go:779 *)
Example TestIntegerSyntax :
  (* simple integers *)
  option_map (fun m => mb_AssignmentList (md_ModuleBody m)) (parsed "
			TestSpec DEFINITIONS ::= BEGIN
				Int ::= INTEGER
				IntWithNames ::= INTEGER {
					a(1), b(-1)
				}
			END
			") =
  Some [(AType "Int" (TInteger [])); (AType "IntWithNames" (TInteger [{| nn_Name := "a"; nn_Value := (NNumber 1) |}; {| nn_Name := "b"; nn_Value := (NNumber (-1)) |}]))] /\
  (* integers with references *)
  option_map (fun m => mb_AssignmentList (md_ModuleBody m)) (parsed "
			TestSpec DEFINITIONS ::= BEGIN
				IntWithNames ::= INTEGER {
					a(valRef), b(ModuleName.valRef)
				}
			END
			") =
  Some [(AType "IntWithNames" (TInteger [{| nn_Name := "a"; nn_Value := (NDefined {| dv_ModuleName := ""; dv_ValueName := "valRef" |}) |}; {| nn_Name := "b"; nn_Value := (NDefined {| dv_ModuleName := "ModuleName"; dv_ValueName := "valRef" |}) |}]))].
Proof. vm_compute. repeat split. Qed.

(** * codegen_test.go *)

(** codegen_test.go:33 *)
Example TestDeclMinSynax :
  generated {| md_ModuleIdentifier := {| mi_Reference := "My-ASN1-ModuleName"; mi_DefinitiveIdentifier := [] |}; md_TagDefault := 0; md_ExtensibilityImplied := false; md_ModuleBody := {| mb_AssignmentList := []; mb_Imports := [] |} |} =
  Some {| gf_name := "My_ASN1_ModuleName"; gf_decls := [] |}.
Proof. vm_compute. reflexivity. Qed.

(** codegen_test.go:48 *)
Example TestDeclPrimitiveTypesSyntax :
  generated {| md_ModuleIdentifier := {| mi_Reference := "My-ASN1-ModuleName"; mi_DefinitiveIdentifier := [] |}; md_TagDefault := 0; md_ExtensibilityImplied := false; md_ModuleBody := {| mb_AssignmentList := [(AType "MyBool" TBoolean); (AType "MyInt" (TInteger [])); (AType "MyString" TCharacterString); (AType "MyOctetString" TOctetString); (AType "MyReal" TReal)]; mb_Imports := [] |} |} =
  Some {| gf_name := "My_ASN1_ModuleName"; gf_decls := [{| gd_tok := TokType; gd_specs := [TypeSpec "MyBool" true (EIdent "bool")] |}; {| gd_tok := TokType; gd_specs := [TypeSpec "MyInt" true (EIdent "int64")] |}; {| gd_tok := TokType; gd_specs := [TypeSpec "MyString" true (EIdent "string")] |}; {| gd_tok := TokType; gd_specs := [TypeSpec "MyOctetString" true (EArray (EIdent "byte"))] |}; {| gd_tok := TokType; gd_specs := [TypeSpec "MyReal" true (EIdent "float64")] |}] |}.
Proof. vm_compute. reflexivity. Qed.

(** codegen_test.go:78 *)
Example TestDeclSequenceTypeSyntax :
  generated (testModule [(AType "MySequence" (TSequence [(CNamed (Named "myIntField" (TInteger [])) false None); (CNamed (Named "myStructField" (TSequence [(CNamed (Named "myOctetString" TOctetString) false None)] [])) false None)] []))]) =
  Some {| gf_name := "My_ASN1_ModuleName"; gf_decls := [{| gd_tok := TokType; gd_specs := [TypeSpec "MySequence" false (EStruct [Field "MyIntField" (EIdent "int64") None; Field "MyStructField" (EStruct [Field "MyOctetString" (EArray (EIdent "byte")) None]) None])] |}] |}.
Proof. vm_compute. reflexivity. Qed.

(** codegen_test.go:114 *)
Example TestDeclSequenceOFTypeSyntax :
  generated (testModule [(AType "MySequenceOfInt" (TSequenceOf (TInteger []))); (AType "MySequenceOfSequence" (TSequenceOf (TSequence [(CNamed (Named "myIntField" (TInteger [])) false None)] [])))]) =
  Some {| gf_name := "My_ASN1_ModuleName"; gf_decls := [{| gd_tok := TokType; gd_specs := [TypeSpec "MySequenceOfInt" true (EArray (EIdent "int64"))] |}; {| gd_tok := TokType; gd_specs := [TypeSpec "MySequenceOfSequence" true (EArray (EStruct [Field "MyIntField" (EIdent "int64") None]))] |}] |}.
Proof. vm_compute. reflexivity. Qed.

(** codegen_test.go:140 *)
Example TestTags :
  generated (testModule [(AType "MySequence" (TSequence [(CNamed (Named "myStringField" (TRestrictedString T_IA5String)) false None)] []))]) =
  Some {| gf_name := "My_ASN1_ModuleName"; gf_decls := [{| gd_tok := TokType; gd_specs := [TypeSpec "MySequence" false (EStruct [Field "MyStringField" (EIdent "string") (Some "`asn1:""ia5""`")])] |}] |}.
Proof. vm_compute. reflexivity. Qed.

(** codegen_test.go:196 *)
Example TestTagType :
  (* default (explicit) *)
  match parsed "
	TestSpec DEFINITIONS ::= BEGIN
		Struct ::= SEQUENCE {
			untagged BOOLEAN,
			default [1] BOOLEAN,
			explicit [2] EXPLICIT BOOLEAN,
			implicit [3] IMPLICIT BOOLEAN
		}
	END
	" with Some m => generated m | None => None end =
  Some {| gf_name := "TestSpec"; gf_decls := [{| gd_tok := TokType; gd_specs := [TypeSpec "Struct" false (EStruct [Field "Untagged" (EIdent "bool") None; Field "Default" (EIdent "bool") (Some "`asn1:""explicit,tag:1""`"); Field "Explicit" (EIdent "bool") (Some "`asn1:""explicit,tag:2""`"); Field "Implicit" (EIdent "bool") (Some "`asn1:""tag:3""`")])] |}] |} /\
  (* module explicit tags *)
  match parsed "
	TestSpec DEFINITIONS EXPLICIT TAGS ::= BEGIN
		Struct ::= SEQUENCE {
			untagged BOOLEAN,
			default [1] BOOLEAN,
			explicit [2] EXPLICIT BOOLEAN,
			implicit [3] IMPLICIT BOOLEAN
		}
	END
	" with Some m => generated m | None => None end =
  Some {| gf_name := "TestSpec"; gf_decls := [{| gd_tok := TokType; gd_specs := [TypeSpec "Struct" false (EStruct [Field "Untagged" (EIdent "bool") None; Field "Default" (EIdent "bool") (Some "`asn1:""explicit,tag:1""`"); Field "Explicit" (EIdent "bool") (Some "`asn1:""explicit,tag:2""`"); Field "Implicit" (EIdent "bool") (Some "`asn1:""tag:3""`")])] |}] |} /\
  (* module implicit tags *)
  match parsed "
	TestSpec DEFINITIONS IMPLICIT TAGS ::= BEGIN
		Struct ::= SEQUENCE {
			untagged BOOLEAN,
			default [1] BOOLEAN,
			explicit [2] EXPLICIT BOOLEAN,
			implicit [3] IMPLICIT BOOLEAN
		}
	END
	" with Some m => generated m | None => None end =
  Some {| gf_name := "TestSpec"; gf_decls := [{| gd_tok := TokType; gd_specs := [TypeSpec "Struct" false (EStruct [Field "Untagged" (EIdent "bool") None; Field "Default" (EIdent "bool") (Some "`asn1:""tag:1""`"); Field "Explicit" (EIdent "bool") (Some "`asn1:""explicit,tag:2""`"); Field "Implicit" (EIdent "bool") (Some "`asn1:""tag:3""`")])] |}] |}.
Proof. vm_compute. repeat split. Qed.

(** codegen_test.go:268 *)
Example TestIntegerType :
  (* bare integer *)
  match parsed "
	TestSpec DEFINITIONS IMPLICIT TAGS ::= BEGIN
		Int ::= INTEGER
	END
	" with Some m => generated m | None => None end =
  Some {| gf_name := "TestSpec"; gf_decls := [{| gd_tok := TokType; gd_specs := [TypeSpec "Int" true (EIdent "int64")] |}] |} /\
  (* integer with consts *)
  match parsed "
	TestSpec DEFINITIONS IMPLICIT TAGS ::= BEGIN
		d INTEGER ::= 42 
		Int ::= INTEGER {
			a(42),
			b(-1),
			c(d)
		}
	END
	" with Some m => generated m | None => None end =
  Some {| gf_name := "TestSpec"; gf_decls := [{| gd_tok := TokVar; gd_specs := [ValueSpec "ValD" (EIdent "int64") (EBasicLit "42")] |}; {| gd_tok := TokType; gd_specs := [TypeSpec "Int" true (EIdent "int64")] |}; {| gd_tok := TokVar; gd_specs := [ValueSpec "IntValA" (EIdent "Int") (EBasicLit "42"); ValueSpec "IntValB" (EIdent "Int") (EBasicLit "-1"); ValueSpec "IntValC" (EIdent "Int") (EIdent "ValD")] |}] |}.
Proof. vm_compute. repeat split. Qed.

(** codegen_test.go:311 *)
Example TestValueAssignments :
  (* primitive types *)
  match parsed "
	TestSpec DEFINITIONS IMPLICIT TAGS ::= BEGIN
		myInt INTEGER ::= 42
		myBool BOOLEAN ::= TRUE
		myReal REAL ::= 3.14
	END
	" with Some m => generated m | None => None end =
  Some {| gf_name := "TestSpec"; gf_decls := [{| gd_tok := TokVar; gd_specs := [ValueSpec "ValMyInt" (EIdent "int64") (EBasicLit "42")] |}; {| gd_tok := TokVar; gd_specs := [ValueSpec "ValMyBool" (EIdent "bool") (EBasicLit "true")] |}; {| gd_tok := TokVar; gd_specs := [ValueSpec "ValMyReal" (EIdent "float64") (EBasicLit "3.14")] |}] |}.
Proof. vm_compute. repeat split. Qed.

(** codegen_test.go:335 *)
Example TestExtensionsE2E :
  (* sequence extension *)
  match parsed "
				TestSpec DEFINITIONS IMPLICIT TAGS ::= BEGIN
					Struct ::= SEQUENCE {
						untagged BOOLEAN,
						...,
						extension BOOLEAN
					}
				END
			" with Some m => generated m | None => None end =
  Some {| gf_name := "TestSpec"; gf_decls := [{| gd_tok := TokType; gd_specs := [TypeSpec "Struct" false (EStruct [Field "Untagged" (EIdent "bool") None; Field "Extension" (EIdent "bool") None])] |}] |} /\
  (* set extension *)
  match parsed "
				TestSpec DEFINITIONS IMPLICIT TAGS ::= BEGIN
					Set ::= SET {
						untagged BOOLEAN,
						...,
						extension BOOLEAN
					}
				END
			" with Some m => generated m | None => None end =
  Some {| gf_name := "TestSpec"; gf_decls := [{| gd_tok := TokType; gd_specs := [TypeSpec "SetSET" false (EStruct [Field "Untagged" (EIdent "bool") None; Field "Extension" (EIdent "bool") None]); TypeSpec "Set" true (EIdent "SetSET")] |}] |}.
Proof. vm_compute. repeat split. Qed.

(** codegen_test.go:391 *)
Example TestTime :
  generated (testModule [(AType "MyTimeType" (TReference "GeneralizedTime")); (AType "MySequence" (TSequence [(CNamed (Named "myTimeField" (TReference "MyTimeType")) false None)] []))]) =
  Some {| gf_name := "My_ASN1_ModuleName"; gf_decls := [{| gd_tok := TokImport; gd_specs := [ImportSpec "time"] |}; {| gd_tok := TokType; gd_specs := [TypeSpec "MyTimeType" true (EIdent "time.Time")] |}; {| gd_tok := TokType; gd_specs := [TypeSpec "MySequence" false (EStruct [Field "MyTimeField" (EIdent "time.Time") (Some "`asn1:""generalized""`")])] |}] |}.
Proof. vm_compute. reflexivity. Qed.

(** codegen_test.go:419 *)
Example TestBitString :
  generated (testModule [(AType "MyBitStringType" (TConstrained (TBitString []) (CSSubtype [(EUnions [[(Intersect (ESize (CSSubtype [(EUnions [[(Intersect (EValueRange {| re_Value := (VNumber 32); re_IsOpen := false |} {| re_Value := VNil; re_IsOpen := false |}) ENil)]])])) ENil)]])]))); (AType "MyNestedBitStringType" (TReference "MyBitStringType")); (AType "MySequence" (TSequence [(CNamed (Named "myNestedBitStringField" (TReference "MyNestedBitStringType")) false None); (CNamed (Named "myBitStringField" (TReference "MyBitStringType")) false None); (CNamed (Named "bitStringField" (TBitString [])) false None)] []))]) =
  Some {| gf_name := "My_ASN1_ModuleName"; gf_decls := [{| gd_tok := TokImport; gd_specs := [ImportSpec "encoding/asn1"] |}; {| gd_tok := TokType; gd_specs := [TypeSpec "MyBitStringType" true (EIdent "asn1.BitString")] |}; {| gd_tok := TokType; gd_specs := [TypeSpec "MyNestedBitStringType" true (EIdent "asn1.BitString")] |}; {| gd_tok := TokType; gd_specs := [TypeSpec "MySequence" false (EStruct [Field "MyNestedBitStringField" (EIdent "asn1.BitString") None; Field "MyBitStringField" (EIdent "asn1.BitString") None; Field "BitStringField" (EIdent "asn1.BitString") None])] |}] |}.
Proof. vm_compute. reflexivity. Qed.

(** * examples/examples_test.go *)

(** testExampleParsing and testGeneration, examples_test.go:10-33 *)
Definition example_ok (s : string) (n : nat) : bool :=
  match ParseString ascii_tables (Z.to_nat 40000) s with
  | Ok (ParseOk (Some m)) => Nat.eqb (length (mb_AssignmentList (md_ModuleBody m))) n
  | _ => false
  end.
Definition example_generates (s : string) : bool :=
  match ParseString ascii_tables (Z.to_nat 40000) s with
  | Ok (ParseOk (Some m)) =>
      match gen_ {| gp_Package := "testname"; gp_IntegerRepr := "" |} m with Ok (GenOk f) => String.eqb (gf_name f) "testname" | _ => false end
  | _ => false
  end.

(** examples/rfc4120.asn1 *)
Definition rfc4120 : string := "KerberosV5Spec2 {
        iso(1) identified-organization(3) dod(6) internet(1)
        security(5) kerberosV5(2) modules(4) krb5spec2(2)
} DEFINITIONS EXPLICIT TAGS ::= BEGIN
-- OID arc for KerberosV5
--
-- This OID may be used to identify Kerberos protocol messages
-- encapsulated in other protocols.
--
-- This OID also designates the OID arc for KerberosV5-related OIDs.
--
-- NOTE: RFC 1510 had an incorrect value (5) for ""dod"" in its OID.
id-krb5         OBJECT IDENTIFIER ::= {
        iso(1) identified-organization(3) dod(6) internet(1)
        security(5) kerberosV5(2)
}

Int32           ::= INTEGER (-2147483648..2147483647)
                    -- signed values representable in 32 bits


UInt32          ::= INTEGER (0..4294967295)
                    -- unsigned 32 bit values

Microseconds    ::= INTEGER (0..999999)
                    -- microseconds

KerberosString  ::= GeneralString (IA5String)

Realm           ::= KerberosString

PrincipalName   ::= SEQUENCE {
        name-type       [0] Int32,
        name-string     [1] SEQUENCE OF KerberosString
}

KerberosTime    ::= GeneralizedTime -- with no fractional seconds

HostAddress     ::= SEQUENCE  {
        addr-type       [0] Int32,
        address         [1] OCTET STRING
}

-- NOTE: HostAddresses is always used as an OPTIONAL field and
-- should not be empty.
HostAddresses   -- NOTE: subtly different from rfc1510,

                -- but has a value mapping and encodes the same
        ::= SEQUENCE OF HostAddress

-- NOTE: AuthorizationData is always used as an OPTIONAL field and
-- should not be empty.
AuthorizationData       ::= SEQUENCE OF SEQUENCE {
        ad-type         [0] Int32,
        ad-data         [1] OCTET STRING
}

PA-DATA         ::= SEQUENCE {
        -- NOTE: first tag is [1], not [0]
        padata-type     [1] Int32,
        padata-value    [2] OCTET STRING -- might be encoded AP-REQ
}

KerberosFlags   ::= BIT STRING (SIZE (32..MAX))
                    -- minimum number of bits shall be sent,
                    -- but no fewer than 32

EncryptedData   ::= SEQUENCE {
        etype   [0] Int32 -- EncryptionType --,
        kvno    [1] UInt32 OPTIONAL,
        cipher  [2] OCTET STRING -- ciphertext
}

EncryptionKey   ::= SEQUENCE {
        keytype         [0] Int32 -- actually encryption type --,
        keyvalue        [1] OCTET STRING
}

Checksum        ::= SEQUENCE {
        cksumtype       [0] Int32,
        checksum        [1] OCTET STRING
}

Ticket          ::= [APPLICATION 1] SEQUENCE {
        tkt-vno         [0] INTEGER (5),
        realm           [1] Realm,
        sname           [2] PrincipalName,
        enc-part        [3] EncryptedData -- EncTicketPart
}

-- Encrypted part of ticket
EncTicketPart   ::= [APPLICATION 3] SEQUENCE {
        flags                   [0] TicketFlags,
        key                     [1] EncryptionKey,
        crealm                  [2] Realm,
        cname                   [3] PrincipalName,
        transited               [4] TransitedEncoding,
        authtime                [5] KerberosTime,
        starttime               [6] KerberosTime OPTIONAL,
        endtime                 [7] KerberosTime,
        renew-till              [8] KerberosTime OPTIONAL,
        caddr                   [9] HostAddresses OPTIONAL,
        authorization-data      [10] AuthorizationData OPTIONAL
}

-- encoded Transited field
TransitedEncoding       ::= SEQUENCE {
        tr-type         [0] Int32 -- must be registered --,
        contents        [1] OCTET STRING
}

TicketFlags     ::= KerberosFlags
        -- reserved(0),
        -- forwardable(1),
        -- forwarded(2),
        -- proxiable(3),
        -- proxy(4),
        -- may-postdate(5),
        -- postdated(6),
        -- invalid(7),
        -- renewable(8),
        -- initial(9),
        -- pre-authent(10),
        -- hw-authent(11),
-- the following are new since 1510
        -- transited-policy-checked(12),
        -- ok-as-delegate(13)

-- TODO reflect in AST
AS-REQ          ::= [APPLICATION 10] KDC-REQ

-- TODO reflect in AST
TGS-REQ         ::= [APPLICATION 12] KDC-REQ

KDC-REQ         ::= SEQUENCE {
        -- NOTE: first tag is [1], not [0]
        pvno            [1] INTEGER (5) ,
        msg-type        [2] INTEGER (10 -- AS -- | 12 -- TGS --),
        padata          [3] SEQUENCE OF PA-DATA OPTIONAL
                            -- NOTE: not empty --,
        req-body        [4] KDC-REQ-BODY
}

KDC-REQ-BODY    ::= SEQUENCE {
        kdc-options             [0] KDCOptions,
        cname                   [1] PrincipalName OPTIONAL
                                    -- Used only in AS-REQ --,
        realm                   [2] Realm
                                    -- Server's realm
                                    -- Also client's in AS-REQ --,
        sname                   [3] PrincipalName OPTIONAL,
        from                    [4] KerberosTime OPTIONAL,
        till                    [5] KerberosTime,
        rtime                   [6] KerberosTime OPTIONAL,
        nonce                   [7] UInt32,
        etype                   [8] SEQUENCE OF Int32 -- EncryptionType
                                    -- in preference order --,
        addresses               [9] HostAddresses OPTIONAL,
        enc-authorization-data  [10] EncryptedData OPTIONAL
                                    -- AuthorizationData --,
        additional-tickets      [11] SEQUENCE OF Ticket OPTIONAL
                                        -- NOTE: not empty
}

KDCOptions      ::= KerberosFlags
        -- reserved(0),
        -- forwardable(1),
        -- forwarded(2),
        -- proxiable(3),
        -- proxy(4),
        -- allow-postdate(5),
        -- postdated(6),
        -- unused7(7),
        -- renewable(8),
        -- unused9(9),
        -- unused10(10),
        -- opt-hardware-auth(11),
        -- unused12(12),
        -- unused13(13),
-- 15 is reserved for canonicalize
        -- unused15(15),
-- 26 was unused in 1510
        -- disable-transited-check(26),
--
        -- renewable-ok(27),
        -- enc-tkt-in-skey(28),
        -- renew(30),
        -- validate(31)

AS-REP          ::= [APPLICATION 11] KDC-REP

TGS-REP         ::= [APPLICATION 13] KDC-REP

KDC-REP         ::= SEQUENCE {
        pvno            [0] INTEGER (5),
        msg-type        [1] INTEGER (11 -- AS -- | 13 -- TGS --),
        padata          [2] SEQUENCE OF PA-DATA OPTIONAL
                                -- NOTE: not empty --,
        crealm          [3] Realm,
        cname           [4] PrincipalName,
        ticket          [5] Ticket,
        enc-part        [6] EncryptedData
                                -- EncASRepPart or EncTGSRepPart,
                                -- as appropriate
}

EncASRepPart    ::= [APPLICATION 25] EncKDCRepPart

EncTGSRepPart   ::= [APPLICATION 26] EncKDCRepPart

EncKDCRepPart   ::= SEQUENCE {
        key             [0] EncryptionKey,
        last-req        [1] LastReq,
        nonce           [2] UInt32,
        key-expiration  [3] KerberosTime OPTIONAL,
        flags           [4] TicketFlags,
        authtime        [5] KerberosTime,
        starttime       [6] KerberosTime OPTIONAL,
        endtime         [7] KerberosTime,
        renew-till      [8] KerberosTime OPTIONAL,
        srealm          [9] Realm,
        sname           [10] PrincipalName,
        caddr           [11] HostAddresses OPTIONAL
}

LastReq         ::=     SEQUENCE OF SEQUENCE {
        lr-type         [0] Int32,
        lr-value        [1] KerberosTime
}

AP-REQ          ::= [APPLICATION 14] SEQUENCE {
        pvno            [0] INTEGER (5),
        msg-type        [1] INTEGER (14),
        ap-options      [2] APOptions,
        ticket          [3] Ticket,
        authenticator   [4] EncryptedData -- Authenticator
}

APOptions       ::= KerberosFlags
        -- reserved(0),
        -- use-session-key(1),
        -- mutual-required(2)

-- Unencrypted authenticator
Authenticator   ::= [APPLICATION 2] SEQUENCE  {
        authenticator-vno       [0] INTEGER (5),
        crealm                  [1] Realm,
        cname                   [2] PrincipalName,
        cksum                   [3] Checksum OPTIONAL,
        cusec                   [4] Microseconds,
        ctime                   [5] KerberosTime,
        subkey                  [6] EncryptionKey OPTIONAL,
        seq-number              [7] UInt32 OPTIONAL,
        authorization-data      [8] AuthorizationData OPTIONAL
}

AP-REP          ::= [APPLICATION 15] SEQUENCE {
        pvno            [0] INTEGER (5),
        msg-type        [1] INTEGER (15),
        enc-part        [2] EncryptedData -- EncAPRepPart
}

EncAPRepPart    ::= [APPLICATION 27] SEQUENCE {
        ctime           [0] KerberosTime,
        cusec           [1] Microseconds,
        subkey          [2] EncryptionKey OPTIONAL,
        seq-number      [3] UInt32 OPTIONAL
}

KRB-SAFE        ::= [APPLICATION 20] SEQUENCE {
        pvno            [0] INTEGER (5),
        msg-type        [1] INTEGER (20),
        safe-body       [2] KRB-SAFE-BODY,
        cksum           [3] Checksum
}

KRB-SAFE-BODY   ::= SEQUENCE {
        user-data       [0] OCTET STRING,
        timestamp       [1] KerberosTime OPTIONAL,
        usec            [2] Microseconds OPTIONAL,
        seq-number      [3] UInt32 OPTIONAL,
        s-address       [4] HostAddress,
        r-address       [5] HostAddress OPTIONAL
}

KRB-PRIV        ::= [APPLICATION 21] SEQUENCE {
        pvno            [0] INTEGER (5),
        msg-type        [1] INTEGER (21),
                        -- NOTE: there is no [2] tag
        enc-part        [3] EncryptedData -- EncKrbPrivPart
}

EncKrbPrivPart  ::= [APPLICATION 28] SEQUENCE {
        user-data       [0] OCTET STRING,
        timestamp       [1] KerberosTime OPTIONAL,
        usec            [2] Microseconds OPTIONAL,
        seq-number      [3] UInt32 OPTIONAL,
        s-address       [4] HostAddress -- sender's addr --,
        r-address       [5] HostAddress OPTIONAL -- recip's addr
}

KRB-CRED        ::= [APPLICATION 22] SEQUENCE {
        pvno            [0] INTEGER (5),
        msg-type        [1] INTEGER (22),
        tickets         [2] SEQUENCE OF Ticket,
        enc-part        [3] EncryptedData -- EncKrbCredPart
}

EncKrbCredPart  ::= [APPLICATION 29] SEQUENCE {
        ticket-info     [0] SEQUENCE OF KrbCredInfo,
        nonce           [1] UInt32 OPTIONAL,
        timestamp       [2] KerberosTime OPTIONAL,
        usec            [3] Microseconds OPTIONAL,
        s-address       [4] HostAddress OPTIONAL,
        r-address       [5] HostAddress OPTIONAL
}

KrbCredInfo     ::= SEQUENCE {
        key             [0] EncryptionKey,
        prealm          [1] Realm OPTIONAL,
        pname           [2] PrincipalName OPTIONAL,
        flags           [3] TicketFlags OPTIONAL,
        authtime        [4] KerberosTime OPTIONAL,
        starttime       [5] KerberosTime OPTIONAL,
        endtime         [6] KerberosTime OPTIONAL,
        renew-till      [7] KerberosTime OPTIONAL,
        srealm          [8] Realm OPTIONAL,
        sname           [9] PrincipalName OPTIONAL,
        caddr           [10] HostAddresses OPTIONAL
}

KRB-ERROR       ::= [APPLICATION 30] SEQUENCE {
        pvno            [0] INTEGER (5),
        msg-type        [1] INTEGER (30),
        ctime           [2] KerberosTime OPTIONAL,
        cusec           [3] Microseconds OPTIONAL,
        stime           [4] KerberosTime,
        susec           [5] Microseconds,
        error-code      [6] Int32,
        crealm          [7] Realm OPTIONAL,
        cname           [8] PrincipalName OPTIONAL,
        realm           [9] Realm -- service realm --,
        sname           [10] PrincipalName -- service name --,
        e-text          [11] KerberosString OPTIONAL,
        e-data          [12] OCTET STRING OPTIONAL
}

METHOD-DATA     ::= SEQUENCE OF PA-DATA

TYPED-DATA      ::= SEQUENCE SIZE (1..MAX) OF SEQUENCE {
        data-type       [0] Int32,
        data-value      [1] OCTET STRING OPTIONAL
}

-- preauth stuff follows

PA-ENC-TIMESTAMP        ::= EncryptedData -- PA-ENC-TS-ENC

PA-ENC-TS-ENC           ::= SEQUENCE {
        patimestamp     [0] KerberosTime -- client's time --,
        pausec          [1] Microseconds OPTIONAL
}

ETYPE-INFO-ENTRY        ::= SEQUENCE {
        etype           [0] Int32,
        salt            [1] OCTET STRING OPTIONAL
}

ETYPE-INFO              ::= SEQUENCE OF ETYPE-INFO-ENTRY

ETYPE-INFO2-ENTRY       ::= SEQUENCE {
        etype           [0] Int32,
        salt            [1] KerberosString OPTIONAL,
        s2kparams       [2] OCTET STRING OPTIONAL
}

ETYPE-INFO2             ::= SEQUENCE SIZE (1..MAX) OF ETYPE-INFO2-ENTRY

AD-IF-RELEVANT          ::= AuthorizationData

AD-KDCIssued            ::= SEQUENCE {
        ad-checksum     [0] Checksum,
        i-realm         [1] Realm OPTIONAL,
        i-sname         [2] PrincipalName OPTIONAL,
        elements        [3] AuthorizationData
}

AD-AND-OR               ::= SEQUENCE {
        condition-count [0] Int32,
        elements        [1] AuthorizationData
}

AD-MANDATORY-FOR-KDC    ::= AuthorizationData

END".

(** examples_test.go:35; the number of assignments is counted in the file. *)
Example TestParseKerberos : example_ok rfc4120 57 = true /\ example_generates rfc4120 = true.
Proof. vm_compute. repeat split. Qed.

(** examples/rfc1157.asn1 *)
Definition rfc1157 : string := "RFC1157-SNMP DEFINITIONS ::= BEGIN

IMPORTS
ObjectName, ObjectSyntax, NetworkAddress, IpAddress, TimeTicks
  FROM RFC1155-SMI;


-- top-level message

Message ::=
      SEQUENCE {
          version          -- version-1 for this RFC
              INTEGER {
                  version-1(0)
              },

          community        -- community name
              OCTET STRING,

          data             -- e.g., PDUs if trivial
              ANY          -- authentication is being used
      }

-- protocol data units

PDUs ::=
      CHOICE {
                  get-request
                      GetRequest-PDU,

                  get-next-request
                      GetNextRequest-PDU,

                  get-response
                      GetResponse-PDU,

                  set-request
                      SetRequest-PDU,

                  trap
                      Trap-PDU
              }

-- PDUs

GetRequest-PDU ::=
  [0]
      IMPLICIT PDU

GetNextRequest-PDU ::=
  [1]
      IMPLICIT PDU

GetResponse-PDU ::=
  [2]
      IMPLICIT PDU

SetRequest-PDU ::=
  [3]
      IMPLICIT PDU

PDU ::=
      SEQUENCE {
         request-id
              INTEGER,

          error-status      -- sometimes ignored
              INTEGER {
                  noError(0),
                  tooBig(1),
                  noSuchName(2),
                  badValue(3),
                  readOnly(4),
                  genErr(5)
              },

          error-index       -- sometimes ignored
             INTEGER,

          variable-bindings -- values are sometimes ignored
              VarBindList
      }

Trap-PDU ::=
  [4]
     IMPLICIT SEQUENCE {
          enterprise        -- type of object generating
                            -- trap, see sysObjectID in [5]
              OBJECT IDENTIFIER,

          agent-addr        -- address of object generating
              NetworkAddress, -- trap

          generic-trap      -- generic trap type
              INTEGER {
                  coldStart(0),
                  warmStart(1),
                  linkDown(2),
                  linkUp(3),
                  authenticationFailure(4),
                  egpNeighborLoss(5),
                  enterpriseSpecific(6)
              },

          specific-trap  -- specific code, present even
              INTEGER,   -- if generic-trap is not
                         -- enterpriseSpecific

          time-stamp     -- time elapsed between the last
              TimeTicks, -- (re)initialization of the network
                         -- entity and the generation of the trap

           variable-bindings -- ""interesting"" information
              VarBindList
      }


-- variable bindings

VarBind ::=
      SEQUENCE {
          name
              ObjectName,

          value
              ObjectSyntax
      }

VarBindList ::=
      SEQUENCE OF
         VarBind

END
".

(** examples_test.go:42; the number of assignments is counted in the file. *)
Example TestParseSNMP : example_ok rfc1157 10 = true.
Proof. vm_compute. repeat split. Qed.

(** examples/rfc1155.asn1 *)
Definition rfc1155 : string := "RFC1155-SMI DEFINITIONS ::= BEGIN

EXPORTS -- EVERYTHING
       internet, directory, mgmt,
       experimental, private, enterprises,
       OBJECT-TYPE, ObjectName, ObjectSyntax, SimpleSyntax,
       ApplicationSyntax, NetworkAddress, IpAddress,
       Counter, Gauge, TimeTicks, Opaque;

-- the path to the root

internet      OBJECT IDENTIFIER ::= { iso org(3) dod(6) 1 }

directory     OBJECT IDENTIFIER ::= { internet 1 }

mgmt          OBJECT IDENTIFIER ::= { internet 2 }

experimental  OBJECT IDENTIFIER ::= { internet 3 }

private       OBJECT IDENTIFIER ::= { internet 4 }
enterprises   OBJECT IDENTIFIER ::= { private 1 }

/* MACRO deprecated in X.680
-- definition of object types
OBJECT-TYPE MACRO ::=
BEGIN
    TYPE NOTATION ::= ""SYNTAX"" type (TYPE ObjectSyntax)
                      ""ACCESS"" Access
                      ""STATUS"" Status
    VALUE NOTATION ::= value (VALUE ObjectName)

    Access ::= ""read-only""
                    | ""read-write""
                    | ""write-only""
                    | ""not-accessible""
    Status ::= ""mandatory""
                    | ""optional""
                    | ""obsolete""
END
-- end MACRO */

-- names of objects in the MIB

ObjectName ::=
   OBJECT IDENTIFIER

-- syntax of objects in the MIB

ObjectSyntax ::=
   CHOICE {
       simple
           SimpleSyntax,

-- note that simple SEQUENCEs are not directly
-- mentioned here to keep things simple (i.e.,
-- prevent mis-use).  However, application-wide
-- types which are IMPLICITly encoded simple
-- SEQUENCEs may appear in the following CHOICE

   application-wide
       ApplicationSyntax
}

SimpleSyntax ::=
  CHOICE {
      number
          INTEGER,

      string
          OCTET STRING,

      object
          OBJECT IDENTIFIER,

      empty
          NULL
  }

ApplicationSyntax ::=
  CHOICE {
      address
          NetworkAddress,

      counter
          Counter,

      gauge
          Gauge,

      ticks
          TimeTicks,

      arbitrary
          Opaque
-- other application-wide types, as they are
-- defined, will be added here
  }


-- application-wide types

NetworkAddress ::=
  CHOICE {
      internet
          IpAddress
  }

IpAddress ::=
  [APPLICATION 0]          -- in network-byte order
      IMPLICIT OCTET STRING (SIZE (4))

Counter ::=
  [APPLICATION 1]
      IMPLICIT INTEGER (0..4294967295)

Gauge ::=
  [APPLICATION 2]
      IMPLICIT INTEGER (0..4294967295)

TimeTicks ::=
  [APPLICATION 3]
      IMPLICIT INTEGER (0..4294967295)

Opaque ::=
  [APPLICATION 4]          -- arbitrary ASN.1 value,
      IMPLICIT OCTET STRING   --   ""double-wrapped""

END".

(** examples_test.go:50; the number of assignments is counted in the file. *)
Example TestParseSNMPSMI : example_ok rfc1155 16 = true /\ example_generates rfc1155 = true.
Proof. vm_compute. repeat split. Qed.

(** examples/rfc5280.asn1 *)
Definition rfc5280 : string := "PKIX1Explicit88 { iso(1) identified-organization(3) dod(6) internet(1)
  security(5) mechanisms(5) pkix(7) id-mod(0) id-pkix1-explicit(18) }

DEFINITIONS EXPLICIT TAGS ::=

BEGIN

-- EXPORTS ALL --

-- IMPORTS NONE --

-- UNIVERSAL Types defined in 1993 and 1998 ASN.1
-- and required by this specification

-- !!! COMMENTED OUT TO MAKE PARSEABLE - THIS IS A TOKEN, NOT A TYPE
--UniversalString ::= [UNIVERSAL 28] IMPLICIT OCTET STRING
        -- UniversalString is defined in ASN.1:1993

-- !!! COMMENTED OUT TO MAKE PARSEABLE - THIS IS A TOKEN, NOT A TYPE
--BMPString ::= [UNIVERSAL 30] IMPLICIT OCTET STRING
      -- BMPString is the subtype of UniversalString and models
      -- the Basic Multilingual Plane of ISO/IEC 10646

-- !!! COMMENTED OUT TO MAKE PARSEABLE - THIS IS A TOKEN, NOT A TYPE
--UTF8String ::= [UNIVERSAL 12] IMPLICIT OCTET STRING
      -- The content of this type conforms to RFC 3629.

-- PKIX specific OIDs

id-pkix  OBJECT IDENTIFIER  ::=
         { iso(1) identified-organization(3) dod(6) internet(1)
                    security(5) mechanisms(5) pkix(7) }

-- PKIX arcs

id-pe OBJECT IDENTIFIER ::= { id-pkix 1 }
        -- arc for private certificate extensions
id-qt OBJECT IDENTIFIER ::= { id-pkix 2 }
        -- arc for policy qualifier types
id-kp OBJECT IDENTIFIER ::= { id-pkix 3 }
        -- arc for extended key purpose OIDS
id-ad OBJECT IDENTIFIER ::= { id-pkix 48 }
        -- arc for access descriptors

-- policyQualifierIds for Internet policy qualifiers

id-qt-cps      OBJECT IDENTIFIER ::=  { id-qt 1 }
      -- OID for CPS qualifier
id-qt-unotice  OBJECT IDENTIFIER ::=  { id-qt 2 }
      -- OID for user notice qualifier

-- access descriptor definitions

id-ad-ocsp         OBJECT IDENTIFIER ::= { id-ad 1 }
id-ad-caIssuers    OBJECT IDENTIFIER ::= { id-ad 2 }
id-ad-timeStamping OBJECT IDENTIFIER ::= { id-ad 3 }
id-ad-caRepository OBJECT IDENTIFIER ::= { id-ad 5 }

-- attribute data types

Attribute               ::= SEQUENCE {
      type             AttributeType,
      values    SET OF AttributeValue
      }
            -- at least one value is required

AttributeType           ::= OBJECT IDENTIFIER

AttributeValue          ::= ANY /*DEFINED BY AttributeType*/  -- TODO(nsokolov): DEFINED BY does not work

AttributeTypeAndValue   ::= SEQUENCE {
        type    AttributeType,
        value   AttributeValue }

-- suggested naming attributes: Definition of the following
--   information object set may be augmented to meet local
--   requirements.  Note that deleting members of the set may
--   prevent interoperability with conforming implementations.
-- presented in pairs: the AttributeType followed by the
--   type definition for the corresponding AttributeValue

-- Arc for standard naming attributes

id-at OBJECT IDENTIFIER ::= { joint-iso-ccitt(2) ds(5) 4 }

-- Naming attributes of type X520name

id-at-name                AttributeType ::= { id-at 41 }
id-at-surname             AttributeType ::= { id-at  4 }
id-at-givenName           AttributeType ::= { id-at 42 }
id-at-initials            AttributeType ::= { id-at 43 }
id-at-generationQualifier AttributeType ::= { id-at 44 }

-- Naming attributes of type X520Name:
--   X520name ::= DirectoryString (SIZE (1..ub-name))
--
-- Expanded to avoid parameterized type:
X520name ::= CHOICE {
      teletexString     TeletexString   (SIZE (1..ub-name)),
      printableString   PrintableString (SIZE (1..ub-name)),
      universalString   UniversalString (SIZE (1..ub-name)),
      utf8String        UTF8String      (SIZE (1..ub-name)),
      bmpString         BMPString       (SIZE (1..ub-name)) }

-- Naming attributes of type X520CommonName

id-at-commonName        AttributeType ::= { id-at 3 }

-- Naming attributes of type X520CommonName:
--   X520CommonName ::= DirectoryName (SIZE (1..ub-common-name))
--
-- Expanded to avoid parameterized type:
X520CommonName ::= CHOICE {
      teletexString     TeletexString   (SIZE (1..ub-common-name)),
      printableString   PrintableString (SIZE (1..ub-common-name)),
      universalString   UniversalString (SIZE (1..ub-common-name)),
      utf8String        UTF8String      (SIZE (1..ub-common-name)),
      bmpString         BMPString       (SIZE (1..ub-common-name)) }

-- Naming attributes of type X520LocalityName

id-at-localityName      AttributeType ::= { id-at 7 }

-- Naming attributes of type X520LocalityName:
--   X520LocalityName ::= DirectoryName (SIZE (1..ub-locality-name))
--
-- Expanded to avoid parameterized type:
X520LocalityName ::= CHOICE {
      teletexString     TeletexString   (SIZE (1..ub-locality-name)),
      printableString   PrintableString (SIZE (1..ub-locality-name)),
      universalString   UniversalString (SIZE (1..ub-locality-name)),
      utf8String        UTF8String      (SIZE (1..ub-locality-name)),
      bmpString         BMPString       (SIZE (1..ub-locality-name)) }

-- Naming attributes of type X520StateOrProvinceName

id-at-stateOrProvinceName AttributeType ::= { id-at 8 }

-- Naming attributes of type X520StateOrProvinceName:
--   X520StateOrProvinceName ::= DirectoryName (SIZE (1..ub-state-name))
--
-- Expanded to avoid parameterized type:
X520StateOrProvinceName ::= CHOICE {
      teletexString     TeletexString   (SIZE (1..ub-state-name)),
      printableString   PrintableString (SIZE (1..ub-state-name)),
      universalString   UniversalString (SIZE (1..ub-state-name)),
      utf8String        UTF8String      (SIZE (1..ub-state-name)),
      bmpString         BMPString       (SIZE (1..ub-state-name)) }

-- Naming attributes of type X520OrganizationName

id-at-organizationName  AttributeType ::= { id-at 10 }

-- Naming attributes of type X520OrganizationName:
--   X520OrganizationName ::=
--          DirectoryName (SIZE (1..ub-organization-name))
--
-- Expanded to avoid parameterized type:
X520OrganizationName ::= CHOICE {
      teletexString     TeletexString
                          (SIZE (1..ub-organization-name)),
      printableString   PrintableString
                          (SIZE (1..ub-organization-name)),
      universalString   UniversalString
                          (SIZE (1..ub-organization-name)),
      utf8String        UTF8String
                          (SIZE (1..ub-organization-name)),
      bmpString         BMPString
                          (SIZE (1..ub-organization-name))  }

-- Naming attributes of type X520OrganizationalUnitName

id-at-organizationalUnitName AttributeType ::= { id-at 11 }

-- Naming attributes of type X520OrganizationalUnitName:
--   X520OrganizationalUnitName ::=
--          DirectoryName (SIZE (1..ub-organizational-unit-name))
--
-- Expanded to avoid parameterized type:
X520OrganizationalUnitName ::= CHOICE {
      teletexString     TeletexString
                          (SIZE (1..ub-organizational-unit-name)),
      printableString   PrintableString
                          (SIZE (1..ub-organizational-unit-name)),
      universalString   UniversalString
                          (SIZE (1..ub-organizational-unit-name)),
      utf8String        UTF8String
                          (SIZE (1..ub-organizational-unit-name)),
      bmpString         BMPString
                          (SIZE (1..ub-organizational-unit-name)) }

-- Naming attributes of type X520Title

id-at-title             AttributeType ::= { id-at 12 }

-- Naming attributes of type X520Title:
--   X520Title ::= DirectoryName (SIZE (1..ub-title))
--
-- Expanded to avoid parameterized type:
X520Title ::= CHOICE {
      teletexString     TeletexString   (SIZE (1..ub-title)),
      printableString   PrintableString (SIZE (1..ub-title)),
      universalString   UniversalString (SIZE (1..ub-title)),
      utf8String        UTF8String      (SIZE (1..ub-title)),
      bmpString         BMPString       (SIZE (1..ub-title)) }

-- Naming attributes of type X520dnQualifier

id-at-dnQualifier       AttributeType ::= { id-at 46 }

X520dnQualifier ::=     PrintableString

-- Naming attributes of type X520countryName (digraph from IS 3166)

id-at-countryName       AttributeType ::= { id-at 6 }

X520countryName ::=     PrintableString (SIZE (2))

-- Naming attributes of type X520SerialNumber

id-at-serialNumber      AttributeType ::= { id-at 5 }

X520SerialNumber ::=    PrintableString (SIZE (1..ub-serial-number))

-- Naming attributes of type X520Pseudonym

id-at-pseudonym         AttributeType ::= { id-at 65 }

-- Naming attributes of type X520Pseudonym:
--   X520Pseudonym ::= DirectoryName (SIZE (1..ub-pseudonym))
--
-- Expanded to avoid parameterized type:
X520Pseudonym ::= CHOICE {
   teletexString     TeletexString   (SIZE (1..ub-pseudonym)),
   printableString   PrintableString (SIZE (1..ub-pseudonym)),
   universalString   UniversalString (SIZE (1..ub-pseudonym)),
   utf8String        UTF8String      (SIZE (1..ub-pseudonym)),
   bmpString         BMPString       (SIZE (1..ub-pseudonym)) }

-- Naming attributes of type DomainComponent (from RFC 4519)

id-domainComponent   AttributeType ::= { 0 9 2342 19200300 100 1 25 }

DomainComponent ::=  IA5String

-- Legacy attributes

pkcs-9 OBJECT IDENTIFIER ::=
       { iso(1) member-body(2) us(840) rsadsi(113549) pkcs(1) 9 }

id-emailAddress      AttributeType ::= { pkcs-9 1 }

EmailAddress ::=     IA5String (SIZE (1..ub-emailaddress-length))

-- naming data types --

Name ::= CHOICE { -- only one possibility for now --
      rdnSequence  RDNSequence }

RDNSequence ::= SEQUENCE OF RelativeDistinguishedName

DistinguishedName ::=   RDNSequence

RelativeDistinguishedName ::= SET SIZE (1..MAX) OF AttributeTypeAndValue

-- Directory string type --

DirectoryString ::= CHOICE {
      teletexString       TeletexString   (SIZE (1..MAX)),
      printableString     PrintableString (SIZE (1..MAX)),
      universalString     UniversalString (SIZE (1..MAX)),
      utf8String          UTF8String      (SIZE (1..MAX)),
      bmpString           BMPString       (SIZE (1..MAX)) }

-- certificate and CRL specific structures begin here

Certificate  ::=  SEQUENCE  {
     tbsCertificate       TBSCertificate,
     signatureAlgorithm   AlgorithmIdentifier,
     signature            BIT STRING  }

TBSCertificate  ::=  SEQUENCE  {
     version         [0]  Version DEFAULT v1,
     serialNumber         CertificateSerialNumber,
     signature            AlgorithmIdentifier,
     issuer               Name,
     validity             Validity,
     subject              Name,
     subjectPublicKeyInfo SubjectPublicKeyInfo,
     issuerUniqueID  [1]  IMPLICIT UniqueIdentifier OPTIONAL,
                          -- If present, version MUST be v2 or v3
     subjectUniqueID [2]  IMPLICIT UniqueIdentifier OPTIONAL,
                          -- If present, version MUST be v2 or v3
     extensions      [3]  Extensions OPTIONAL
                          -- If present, version MUST be v3 --  }

Version  ::=  INTEGER  {  v1(0), v2(1), v3(2)  }

CertificateSerialNumber  ::=  INTEGER

Validity ::= SEQUENCE {
     notBefore      Time,
     notAfter       Time  }

Time ::= CHOICE {
     utcTime        UTCTime,
     generalTime    GeneralizedTime }

UniqueIdentifier  ::=  BIT STRING

SubjectPublicKeyInfo  ::=  SEQUENCE  {
     algorithm            AlgorithmIdentifier,
     subjectPublicKey     BIT STRING  }

Extensions  ::=  SEQUENCE SIZE (1..MAX) OF Extension

Extension  ::=  SEQUENCE  {
     extnID      OBJECT IDENTIFIER,
     critical    BOOLEAN DEFAULT FALSE,
     extnValue   OCTET STRING
                 -- contains the DER encoding of an ASN.1 value
                 -- corresponding to the extension type identified
                 -- by extnID
     }

-- CRL structures

CertificateList  ::=  SEQUENCE  {
     tbsCertList          TBSCertList,
     signatureAlgorithm   AlgorithmIdentifier,
     signature            BIT STRING  }

TBSCertList  ::=  SEQUENCE  {
     version                 Version OPTIONAL,
                                   -- if present, MUST be v2
     signature               AlgorithmIdentifier,
     issuer                  Name,
     thisUpdate              Time,
     nextUpdate              Time OPTIONAL,
     revokedCertificates     SEQUENCE OF SEQUENCE  {
          userCertificate         CertificateSerialNumber,
          revocationDate          Time,
          crlEntryExtensions      Extensions OPTIONAL
                                   -- if present, version MUST be v2
                               }  OPTIONAL,
     crlExtensions           [0] Extensions OPTIONAL }
                                   -- if present, version MUST be v2

-- Version, Time, CertificateSerialNumber, and Extensions were
-- defined earlier for use in the certificate structure

AlgorithmIdentifier  ::=  SEQUENCE  {
     algorithm               OBJECT IDENTIFIER,
     parameters              ANY DEFINED BY algorithm OPTIONAL  }
                                -- contains a value of the type
                                -- registered for use with the
                                -- algorithm object identifier value

-- X.400 address syntax starts here

ORAddress ::= SEQUENCE {
   built-in-standard-attributes BuiltInStandardAttributes,
   built-in-domain-defined-attributes
                   BuiltInDomainDefinedAttributes OPTIONAL,
   -- see also teletex-domain-defined-attributes
   extension-attributes ExtensionAttributes OPTIONAL }

-- Built-in Standard Attributes

BuiltInStandardAttributes ::= SEQUENCE {
   country-name                  CountryName OPTIONAL,
   administration-domain-name    AdministrationDomainName OPTIONAL,
   network-address           [0] IMPLICIT NetworkAddress OPTIONAL,
     -- see also extended-network-address
   terminal-identifier       [1] IMPLICIT TerminalIdentifier OPTIONAL,
   private-domain-name       [2] PrivateDomainName OPTIONAL,
   organization-name         [3] IMPLICIT OrganizationName OPTIONAL,
     -- see also teletex-organization-name
   numeric-user-identifier   [4] IMPLICIT NumericUserIdentifier
                                 OPTIONAL,
   personal-name             [5] IMPLICIT PersonalName OPTIONAL,
     -- see also teletex-personal-name
   organizational-unit-names [6] IMPLICIT OrganizationalUnitNames
                                 OPTIONAL }
     -- see also teletex-organizational-unit-names

CountryName ::= [APPLICATION 1] CHOICE {
   x121-dcc-code         NumericString
                           (SIZE (ub-country-name-numeric-length)),
   iso-3166-alpha2-code  PrintableString
                           (SIZE (ub-country-name-alpha-length)) }

AdministrationDomainName ::= [APPLICATION 2] CHOICE {
   numeric   NumericString   (SIZE (0..ub-domain-name-length)),
   printable PrintableString (SIZE (0..ub-domain-name-length)) }

NetworkAddress ::= X121Address  -- see also extended-network-address

X121Address ::= NumericString (SIZE (1..ub-x121-address-length))

TerminalIdentifier ::= PrintableString (SIZE (1..ub-terminal-id-length))

PrivateDomainName ::= CHOICE {
   numeric   NumericString   (SIZE (1..ub-domain-name-length)),
   printable PrintableString (SIZE (1..ub-domain-name-length)) }

OrganizationName ::= PrintableString
                            (SIZE (1..ub-organization-name-length))
  -- see also teletex-organization-name

NumericUserIdentifier ::= NumericString
                            (SIZE (1..ub-numeric-user-id-length))

PersonalName ::= SET {
   surname     [0] IMPLICIT PrintableString
                    (SIZE (1..ub-surname-length)),
   given-name  [1] IMPLICIT PrintableString
                    (SIZE (1..ub-given-name-length)) OPTIONAL,
   initials    [2] IMPLICIT PrintableString
                    (SIZE (1..ub-initials-length)) OPTIONAL,
   generation-qualifier [3] IMPLICIT PrintableString
                    (SIZE (1..ub-generation-qualifier-length))
                    OPTIONAL }
  -- see also teletex-personal-name

OrganizationalUnitNames ::= SEQUENCE SIZE (1..ub-organizational-units)
                             OF OrganizationalUnitName
  -- see also teletex-organizational-unit-names

OrganizationalUnitName ::= PrintableString (SIZE
                    (1..ub-organizational-unit-name-length))

-- Built-in Domain-defined Attributes

BuiltInDomainDefinedAttributes ::= SEQUENCE SIZE
                    (1..ub-domain-defined-attributes) OF
                    BuiltInDomainDefinedAttribute

BuiltInDomainDefinedAttribute ::= SEQUENCE {
   type PrintableString (SIZE
                   (1..ub-domain-defined-attribute-type-length)),
   value PrintableString (SIZE
                   (1..ub-domain-defined-attribute-value-length)) }

-- Extension Attributes

ExtensionAttributes ::= SET SIZE (1..ub-extension-attributes) OF
               ExtensionAttribute

ExtensionAttribute ::=  SEQUENCE {
   extension-attribute-type [0] IMPLICIT INTEGER
                   (0..ub-extension-attributes),
   extension-attribute-value [1]
                   ANY DEFINED BY extension-attribute-type }

-- Extension types and attribute values

common-name INTEGER ::= 1

CommonName ::= PrintableString (SIZE (1..ub-common-name-length))

teletex-common-name INTEGER ::= 2

TeletexCommonName ::= TeletexString (SIZE (1..ub-common-name-length))

teletex-organization-name INTEGER ::= 3

TeletexOrganizationName ::=
                TeletexString (SIZE (1..ub-organization-name-length))

teletex-personal-name INTEGER ::= 4

TeletexPersonalName ::= SET {
   surname     [0] IMPLICIT TeletexString
                    (SIZE (1..ub-surname-length)),
   given-name  [1] IMPLICIT TeletexString
                    (SIZE (1..ub-given-name-length)) OPTIONAL,
   initials    [2] IMPLICIT TeletexString
                    (SIZE (1..ub-initials-length)) OPTIONAL,
   generation-qualifier [3] IMPLICIT TeletexString
                    (SIZE (1..ub-generation-qualifier-length))
                    OPTIONAL }

teletex-organizational-unit-names INTEGER ::= 5

TeletexOrganizationalUnitNames ::= SEQUENCE SIZE
      (1..ub-organizational-units) OF TeletexOrganizationalUnitName

TeletexOrganizationalUnitName ::= TeletexString
                  (SIZE (1..ub-organizational-unit-name-length))

pds-name INTEGER ::= 7

PDSName ::= PrintableString (SIZE (1..ub-pds-name-length))

physical-delivery-country-name INTEGER ::= 8

PhysicalDeliveryCountryName ::= CHOICE {
   x121-dcc-code NumericString (SIZE (ub-country-name-numeric-length)),
   iso-3166-alpha2-code PrintableString
                               (SIZE (ub-country-name-alpha-length)) }

postal-code INTEGER ::= 9

PostalCode ::= CHOICE {
   numeric-code   NumericString (SIZE (1..ub-postal-code-length)),
   printable-code PrintableString (SIZE (1..ub-postal-code-length)) }

physical-delivery-office-name INTEGER ::= 10

PhysicalDeliveryOfficeName ::= PDSParameter

physical-delivery-office-number INTEGER ::= 11

PhysicalDeliveryOfficeNumber ::= PDSParameter

extension-OR-address-components INTEGER ::= 12

ExtensionORAddressComponents ::= PDSParameter

physical-delivery-personal-name INTEGER ::= 13

PhysicalDeliveryPersonalName ::= PDSParameter

physical-delivery-organization-name INTEGER ::= 14

PhysicalDeliveryOrganizationName ::= PDSParameter

extension-physical-delivery-address-components INTEGER ::= 15

ExtensionPhysicalDeliveryAddressComponents ::= PDSParameter

unformatted-postal-address INTEGER ::= 16

UnformattedPostalAddress ::= SET {
   printable-address SEQUENCE SIZE (1..ub-pds-physical-address-lines)
        OF PrintableString (SIZE (1..ub-pds-parameter-length)) OPTIONAL,
   teletex-string TeletexString
        (SIZE (1..ub-unformatted-address-length)) OPTIONAL }

street-address INTEGER ::= 17

StreetAddress ::= PDSParameter

post-office-box-address INTEGER ::= 18

PostOfficeBoxAddress ::= PDSParameter

poste-restante-address INTEGER ::= 19

PosteRestanteAddress ::= PDSParameter

unique-postal-name INTEGER ::= 20

UniquePostalName ::= PDSParameter

local-postal-attributes INTEGER ::= 21

LocalPostalAttributes ::= PDSParameter

PDSParameter ::= SET {
   printable-string PrintableString
                (SIZE(1..ub-pds-parameter-length)) OPTIONAL,
   teletex-string TeletexString
                (SIZE(1..ub-pds-parameter-length)) OPTIONAL }

extended-network-address INTEGER ::= 22

ExtendedNetworkAddress ::= CHOICE {
   e163-4-address SEQUENCE {
      number      [0] IMPLICIT NumericString
                       (SIZE (1..ub-e163-4-number-length)),
      sub-address [1] IMPLICIT NumericString
                       (SIZE (1..ub-e163-4-sub-address-length))
                       OPTIONAL },
   psap-address   [0] IMPLICIT PresentationAddress }

PresentationAddress ::= SEQUENCE {
    pSelector     [0] EXPLICIT OCTET STRING OPTIONAL,
    sSelector     [1] EXPLICIT OCTET STRING OPTIONAL,
    tSelector     [2] EXPLICIT OCTET STRING OPTIONAL,
    nAddresses    [3] EXPLICIT SET SIZE (1..MAX) OF OCTET STRING }

terminal-type  INTEGER ::= 23

TerminalType ::= INTEGER {
   telex        (3),
   teletex      (4),
   g3-facsimile (5),
   g4-facsimile (6),
   ia5-terminal (7),
   videotex     (8) } (0..ub-integer-options)

-- Extension Domain-defined Attributes

teletex-domain-defined-attributes INTEGER ::= 6

TeletexDomainDefinedAttributes ::= SEQUENCE SIZE
   (1..ub-domain-defined-attributes) OF TeletexDomainDefinedAttribute

TeletexDomainDefinedAttribute ::= SEQUENCE {
        type TeletexString
               (SIZE (1..ub-domain-defined-attribute-type-length)),
        value TeletexString
               (SIZE (1..ub-domain-defined-attribute-value-length)) }

--  specifications of Upper Bounds MUST be regarded as mandatory
--  from Annex B of ITU-T X.411 Reference Definition of MTS Parameter
--  Upper Bounds

-- Upper Bounds
ub-name INTEGER ::= 32768
ub-common-name INTEGER ::= 64
ub-locality-name INTEGER ::= 128
ub-state-name INTEGER ::= 128
ub-organization-name INTEGER ::= 64
ub-organizational-unit-name INTEGER ::= 64
ub-title INTEGER ::= 64
ub-serial-number INTEGER ::= 64
ub-match INTEGER ::= 128
ub-emailaddress-length INTEGER ::= 255
ub-common-name-length INTEGER ::= 64
ub-country-name-alpha-length INTEGER ::= 2
ub-country-name-numeric-length INTEGER ::= 3
ub-domain-defined-attributes INTEGER ::= 4
ub-domain-defined-attribute-type-length INTEGER ::= 8
ub-domain-defined-attribute-value-length INTEGER ::= 128
ub-domain-name-length INTEGER ::= 16
ub-extension-attributes INTEGER ::= 256
ub-e163-4-number-length INTEGER ::= 15
ub-e163-4-sub-address-length INTEGER ::= 40
ub-generation-qualifier-length INTEGER ::= 3
ub-given-name-length INTEGER ::= 16
ub-initials-length INTEGER ::= 5
ub-integer-options INTEGER ::= 256
ub-numeric-user-id-length INTEGER ::= 32
ub-organization-name-length INTEGER ::= 64
ub-organizational-unit-name-length INTEGER ::= 32
ub-organizational-units INTEGER ::= 4
ub-pds-name-length INTEGER ::= 16
ub-pds-parameter-length INTEGER ::= 30
ub-pds-physical-address-lines INTEGER ::= 6
ub-postal-code-length INTEGER ::= 16
ub-pseudonym INTEGER ::= 128
ub-surname-length INTEGER ::= 40
ub-terminal-id-length INTEGER ::= 24
ub-unformatted-address-length INTEGER ::= 180
ub-x121-address-length INTEGER ::= 16

-- Note - upper bounds on string types, such as TeletexString, are
-- measured in characters.  Excepting PrintableString or IA5String, a
-- significantly greater number of octets will be required to hold
-- such a value.  As a minimum, 16 octets, or twice the specified
-- upper bound, whichever is the larger, should be allowed for
-- TeletexString.  For UTF8String or UniversalString at least four
-- times the upper bound should be allowed.

END
".

(** examples_test.go:57; the number of assignments is counted in the file. *)
Example TestParseX509 : example_ok rfc5280 169 = true /\ example_generates rfc5280 = true.
Proof. vm_compute. repeat split. Qed.

(** examples/rfc4511.asn1 *)
Definition rfc4511 : string := "Lightweight-Directory-Access-Protocol-V3 {1 3 6 1 1 18}
-- Copyright (C) The Internet Society (2006).  This version of
-- this ASN.1 module is part of RFC 4511; see the RFC itself
-- for full legal notices.
DEFINITIONS
IMPLICIT TAGS
EXTENSIBILITY IMPLIED ::=

BEGIN

LDAPMessage ::= SEQUENCE {
     messageID       MessageID,
     protocolOp      CHOICE {
          bindRequest           BindRequest,
          bindResponse          BindResponse,
          unbindRequest         UnbindRequest,
          searchRequest         SearchRequest,
          searchResEntry        SearchResultEntry,
          searchResDone         SearchResultDone,
          searchResRef          SearchResultReference,
          modifyRequest         ModifyRequest,
          modifyResponse        ModifyResponse,
          addRequest            AddRequest,
          addResponse           AddResponse,
          delRequest            DelRequest,
          delResponse           DelResponse,
          modDNRequest          ModifyDNRequest,
          modDNResponse         ModifyDNResponse,
          compareRequest        CompareRequest,
          compareResponse       CompareResponse,
          abandonRequest        AbandonRequest,
          extendedReq           ExtendedRequest,
          extendedResp          ExtendedResponse,
          ...,
          intermediateResponse  IntermediateResponse },
     controls       [0] Controls OPTIONAL }

MessageID ::= INTEGER (0 ..  maxInt)

maxInt INTEGER ::= 2147483647 -- (2^^31 - 1) --

LDAPString ::= OCTET STRING -- UTF-8 encoded,
                            -- [ISO10646] characters

LDAPOID ::= OCTET STRING -- Constrained to <numericoid>
                         -- [RFC4512]

LDAPDN ::= LDAPString -- Constrained to <distinguishedName>
                      -- [RFC4514]

RelativeLDAPDN ::= LDAPString -- Constrained to <name-component>
                              -- [RFC4514]

AttributeDescription ::= LDAPString
                        -- Constrained to <attributedescription>
                        -- [RFC4512]

AttributeValue ::= OCTET STRING

AttributeValueAssertion ::= SEQUENCE {
     attributeDesc   AttributeDescription,
     assertionValue  AssertionValue }

AssertionValue ::= OCTET STRING

PartialAttribute ::= SEQUENCE {
     type       AttributeDescription,
     vals       SET OF value AttributeValue }

-- TODO: generate proper type decl
Attribute ::= PartialAttribute(WITH COMPONENTS {
     ...,
     vals (SIZE(1..MAX))})

MatchingRuleId ::= LDAPString

LDAPResult ::= SEQUENCE {
     resultCode         ENUMERATED {
          success                      (0),
          operationsError              (1),
          protocolError                (2),
          timeLimitExceeded            (3),
          sizeLimitExceeded            (4),
          compareFalse                 (5),
          compareTrue                  (6),
          authMethodNotSupported       (7),
          strongerAuthRequired         (8),
               -- 9 reserved --
          referral                     (10),
          adminLimitExceeded           (11),
          unavailableCriticalExtension (12),
          confidentialityRequired      (13),
          saslBindInProgress           (14),
          noSuchAttribute              (16),
          undefinedAttributeType       (17),
          inappropriateMatching        (18),
          constraintViolation          (19),
          attributeOrValueExists       (20),
          invalidAttributeSyntax       (21),
               -- 22-31 unused --
          noSuchObject                 (32),
          aliasProblem                 (33),
          invalidDNSyntax              (34),
               -- 35 reserved for undefined isLeaf --
          aliasDereferencingProblem    (36),
               -- 37-47 unused --
          inappropriateAuthentication  (48),
          invalidCredentials           (49),
          insufficientAccessRights     (50),
          busy                         (51),
          unavailable                  (52),
          unwillingToPerform           (53),
          loopDetect                   (54),
               -- 55-63 unused --
          namingViolation              (64),
          objectClassViolation         (65),
          notAllowedOnNonLeaf          (66),
          notAllowedOnRDN              (67),
          entryAlreadyExists           (68),
          objectClassModsProhibited    (69),
               -- 70 reserved for CLDAP --
          affectsMultipleDSAs          (71),
               -- 72-79 unused --
          other                        (80)/*,  ---  TODO(nsokolov): commented out, breaks parser
          ...  */},
     matchedDN          LDAPDN,
     diagnosticMessage  LDAPString,
     referral           [3] Referral OPTIONAL }

Referral ::= SEQUENCE SIZE (1..MAX) OF uri URI

URI ::= LDAPString     -- limited to characters permitted in
                       -- URIs

Controls ::= SEQUENCE OF control Control

Control ::= SEQUENCE {
     controlType             LDAPOID,
     criticality             BOOLEAN DEFAULT FALSE,
     controlValue            OCTET STRING OPTIONAL }

BindRequest ::= [APPLICATION 0] SEQUENCE {
     version                 INTEGER (1 ..  127),
     name                    LDAPDN,
     authentication          AuthenticationChoice }

AuthenticationChoice ::= CHOICE {
     simple                  [0] OCTET STRING,
                             -- 1 and 2 reserved
     sasl                    [3] SaslCredentials,
     ...  }

SaslCredentials ::= SEQUENCE {
     mechanism               LDAPString,
     credentials             OCTET STRING OPTIONAL }

BindResponse ::= [APPLICATION 1] SEQUENCE {
     COMPONENTS OF LDAPResult,
     serverSaslCreds    [7] OCTET STRING OPTIONAL }

UnbindRequest ::= [APPLICATION 2] NULL

SearchRequest ::= [APPLICATION 3] SEQUENCE {
     baseObject      LDAPDN,
     scope           ENUMERATED {
          baseObject              (0),
          singleLevel             (1),
          wholeSubtree            (2)/*,  ---  TODO(nsokolov): commented out, breaks parser
          ...  */},
     derefAliases    ENUMERATED {
          neverDerefAliases       (0),
          derefInSearching        (1),
          derefFindingBaseObj     (2),
          derefAlways             (3) },
     sizeLimit       INTEGER (0 ..  maxInt),
     timeLimit       INTEGER (0 ..  maxInt),
     typesOnly       BOOLEAN,
     filter          Filter,
     attributes      AttributeSelection }

AttributeSelection ::= SEQUENCE OF selector LDAPString
               -- The LDAPString is constrained to
               -- <attributeSelector> in Section 4.5.1.8

Filter ::= CHOICE {
     and             [0] SET SIZE (1..MAX) OF filter Filter,
     or              [1] SET SIZE (1..MAX) OF filter Filter,
     not             [2] Filter,
     equalityMatch   [3] AttributeValueAssertion,
     substrings      [4] SubstringFilter,
     greaterOrEqual  [5] AttributeValueAssertion,
     lessOrEqual     [6] AttributeValueAssertion,
     present         [7] AttributeDescription,
     approxMatch     [8] AttributeValueAssertion,
     extensibleMatch [9] MatchingRuleAssertion,
     ...  }

SubstringFilter ::= SEQUENCE {
     type           AttributeDescription,
     substrings     SEQUENCE SIZE (1..MAX) OF substring CHOICE {
          initial [0] AssertionValue,  -- can occur at most once
          any     [1] AssertionValue,
          final   [2] AssertionValue } -- can occur at most once
     }

MatchingRuleAssertion ::= SEQUENCE {
     matchingRule    [1] MatchingRuleId OPTIONAL,
     type            [2] AttributeDescription OPTIONAL,
     matchValue      [3] AssertionValue,
     dnAttributes    [4] BOOLEAN DEFAULT FALSE }

SearchResultEntry ::= [APPLICATION 4] SEQUENCE {
     objectName      LDAPDN,
     attributes      PartialAttributeList }

PartialAttributeList ::= SEQUENCE OF
                     partialAttribute PartialAttribute

SearchResultReference ::= [APPLICATION 19] SEQUENCE
                          SIZE (1..MAX) OF uri URI

SearchResultDone ::= [APPLICATION 5] LDAPResult

ModifyRequest ::= [APPLICATION 6] SEQUENCE {
     object          LDAPDN,
     changes         SEQUENCE OF change SEQUENCE {
          operation       ENUMERATED {
               add     (0),
               delete  (1),
               replace (2)/*, ---  TODO(nsokolov): commented out, breaks parser
               ...  */},
          modification    PartialAttribute } }

ModifyResponse ::= [APPLICATION 7] LDAPResult

AddRequest ::= [APPLICATION 8] SEQUENCE {
     entry           LDAPDN,
     attributes      AttributeList }

AttributeList ::= SEQUENCE OF attribute Attribute

AddResponse ::= [APPLICATION 9] LDAPResult

DelRequest ::= [APPLICATION 10] LDAPDN

DelResponse ::= [APPLICATION 11] LDAPResult

ModifyDNRequest ::= [APPLICATION 12] SEQUENCE {
     entry           LDAPDN,
     newrdn          RelativeLDAPDN,
     deleteoldrdn    BOOLEAN,
     newSuperior     [0] LDAPDN OPTIONAL }

ModifyDNResponse ::= [APPLICATION 13] LDAPResult

CompareRequest ::= [APPLICATION 14] SEQUENCE {
     entry           LDAPDN,
     ava             AttributeValueAssertion }

CompareResponse ::= [APPLICATION 15] LDAPResult

AbandonRequest ::= [APPLICATION 16] MessageID

ExtendedRequest ::= [APPLICATION 23] SEQUENCE {
     requestName      [0] LDAPOID,
     requestValue     [1] OCTET STRING OPTIONAL }

ExtendedResponse ::= [APPLICATION 24] SEQUENCE {
     COMPONENTS OF LDAPResult,
     responseName     [10] LDAPOID OPTIONAL,
     responseValue    [11] OCTET STRING OPTIONAL }

IntermediateResponse ::= [APPLICATION 25] SEQUENCE {
     responseName     [0] LDAPOID OPTIONAL,
     responseValue    [1] OCTET STRING OPTIONAL }

END".

(** examples_test.go:64; the number of assignments is counted in the file. *)
Example TestParseLDAP : example_ok rfc4511 48 = true.
Proof. vm_compute. repeat split. Qed.

(** * internal/utils/dump_test.go *)

(** dump_test.go:5 *)
Example TestParseWiresharkHex :
  match ParseWiresharkHex "
0000   6a 81 ad 30 81 aa a1 03 02 01 05 a2 03 02 01 0a
0010   a3 0e 30 0c 30 0a a1 04 02 02 00 95 a2 02 04 00
0020   a4 81 8d 30 81 8a a0 07 03 05 00 00 00 00 10 a1
0030   17 30 15 a0 03 02 01 01 a1 0e 30 0c 1b 0a 63 68
0040   65 6d 69 6b 61 64 7a 65 a2 10 1b 0e 41 54 48 45
0050   4e 41 2e 4d 49 54 2e 45 44 55 a3 23 30 21 a0 03
0060   02 01 02 a1 1a 30 18 1b 06 6b 72 62 74 67 74 1b
0070   0e 41 54 48 45 4e 41 2e 4d 49 54 2e 45 44 55 a5
0080   11 18 0f 32 30 31 38 30 31 30 33 30 36 30 34 30
0090   37 5a a7 06 02 04 64 21 bb 89 a8 14 30 12 02 01
00a0   12 02 01 11 02 01 10 02 01 17 02 01 19 02 01 1a
" with Ok l => firstn 4 l = [106; 129; 173; 48] /\ length l = 176%nat | _ => False end.
Proof. vm_compute. repeat split. Qed.

(** * examples/rfc4120_test.go and codegen_compilation_test.go *)

(** The times of the messages below, rfc4120_test.go:82,109-110. *)
Example WiresharkTimes :
  ParseWiresharkTime "2018-01-03 06:04:07" = Ok (63650556247, 0) /\
  ParseWiresharkTime "2023-03-27 15:51:37" = Ok (63815529097, 0) /\
  ParseWiresharkTime "2018-01-02 06:04:07" = Ok (63650469847, 0).
Proof. repeat split. Qed.

(** The Kerberos module and its generated file. *)
Definition module_in (s : string) : option Module_ :=
  match ParseString ascii_tables (Z.to_nat 40000) s with Ok (ParseOk m) => m | _ => None end.
Definition file_in (s : string) (p : GenParams) : option gofile :=
  match module_in s with
  | Some m => match Generate ascii_tables test_fmt p 100 m with Ok (GenOk f) => Some f | _ => None end
  | None => None
  end.
Definition krb5 : option Module_ := Eval vm_compute in module_in rfc4120.
Definition krb5_go : option gofile := Eval vm_compute in file_in rfc4120 ex_params.

(** The text is accepted, and the file generated for it compiles (GoCheck.v), by C74. *)
Definition compiles_for (s : string) (p : GenParams) : Prop :=
  exists m f, parses ascii_tables s (ParseOk (Some m)) /\ Generate ascii_tables ex_fmt p 100 m = Ok (GenOk f) /\ compiles f.
Definition sound_text (fuel : nat) (s : string) (p : GenParams) : bool :=
  forallb (fun b => b <? 128) (bytes_of_string s) &&
  match ParseString ascii_tables fuel s with
  | Ok (ParseOk (Some m)) =>
      match Generate ascii_tables ex_fmt p 100 m with Ok (GenOk f) => true | _ => false end &&
      soundb (integer_repr p) (mb_AssignmentList (md_ModuleBody m)) 30
  | _ => false
  end.
Lemma sound_compiles fuel s p : gp_Package p = "" \/ go_identifier (gp_Package p) -> sound_text fuel s p = true -> compiles_for s p.
Proof.
  intros P H. unfold sound_text in H. apply andb_prop in H as [A H].
  destruct (ParseString ascii_tables fuel s) as [[[m|]|]| |] eqn:E; try discriminate.
  destruct (Generate ascii_tables ex_fmt p 100 m) as [[|f]| |] eqn:G; try discriminate.
  assert (R : parses ascii_tables s (ParseOk (Some m))) by exact (ParseString_parses _ _ _ _ E).
  exists m, f. split; [exact R|]. split; [exact G|]. eapply C74_compiles_partial; try eassumption.
  - apply Forall_forall. intros b I. rewrite forallb_forall in A. apply Z.ltb_lt. now apply A.
  - reflexivity.
  - now apply soundb_sound in H.
Qed.

(** codegen_compilation_test.go:172 *)
Example TestKerberosCompiles : compiles_for rfc4120 ex_params.
Proof. apply (sound_compiles (Z.to_nat 40000)); [now left|]. vm_compute. reflexivity. Qed.
(** The go:generate line of rfc5280_test.go (10-12), whose output the tests there compile. *)
Example TestX509Compiles : compiles_for rfc5280 {| gp_Package := "examples"; gp_IntegerRepr := "big.Int" |}.
Proof.
  apply (sound_compiles (Z.to_nat 40000)); [right; split; [split; [now left|reflexivity]|]|vm_compute; reflexivity].
  split; [discriminate|]. cbn. intuition discriminate.
Qed.
(** Generated, but not compiled, by examples_test.go:50. *)
Example SNMPSMI_compiles : compiles_for rfc1155 ex_params.
Proof. apply (sound_compiles (Z.to_nat 40000)); [now left|]. vm_compute. reflexivity. Qed.

(** Marshals a value of the type named [g] and unmarshals the result. *)
Definition there_and_back (f : gofile) (g : string) (v : gval) : option gval :=
  match marshal (fun l => l) f 20 g v with
  | Some [x] => unmarshal f 20 g x
  | _ => None
  end.

(** codegen_compilation_test.go:113-146: the zero value of each generated type is
    marshalled and the result unmarshalled, without an error. *)
Example TestKerberosRuns :
  match krb5, krb5_go with
  | Some m, Some f =>
      forallb (fun a => match a with
                        | AType n _ =>
                            let g := goifyName ascii_tables n in
                            match zero_of f 20 (EIdent g) with
                            | Some v => match there_and_back f g v with Some _ => true | None => false end
                            | None => false
                            end
                        | _ => true
                        end) (mb_AssignmentList (md_ModuleBody m)) = true
  | _, _ => False
  end.
Proof. vm_compute. reflexivity. Qed.

(** Go composite literals; fields without a value are zero. *)
Inductive golit : Type :=
| LVal (v : gval)
| LStruct (l : list (string * golit))
| LPositional (l : list golit)
| LSlice (l : list golit).

Fixpoint value_of (f : gofile) (e : goexpr) (x : golit) {struct x} : option gval :=
  match x with
  | LVal v => Some v
  | LStruct l =>
      match kind_of f 20 e with
      | Some (KStruct fs) =>
          let given := map (fun p => (fst p, match find (fun fd => match fd with Field n _ _ => String.eqb n (fst p) end) fs with
                                             | Some (Field _ t _) => value_of f t (snd p)
                                             | None => None
                                             end)) l in
          option_map GStruct
            (fold_right (fun fd acc => match fd, acc with
                                       | Field n t _, Some vs =>
                                           match (match find (fun p => String.eqb n (fst p)) given with
                                                  | Some (_, v) => v
                                                  | None => zero_of f 20 t
                                                  end) with
                                           | Some v => Some (v :: vs)
                                           | None => None
                                           end
                                       | _, None => None
                                       end) (Some []) fs)
      | _ => None
      end
  | LPositional l =>
      match kind_of f 20 e with
      | Some (KStruct fs) =>
          option_map GStruct
            ((fix go (fs : list gofield) (l : list golit) {struct l} : option (list gval) :=
                match fs, l with
                | [], [] => Some []
                | Field _ t _ :: fs', x' :: l' =>
                    match value_of f t x', go fs' l' with Some v, Some vs => Some (v :: vs) | _, _ => None end
                | _, _ => None
                end) fs l)
      | _ => None
      end
  | LSlice l =>
      match kind_of f 20 e with
      | Some (KSlice _ t) =>
          option_map (fun vs => GSlice (Some vs))
            ((fix go (l : list golit) : option (list gval) :=
                match l with
                | [] => Some []
                | x' :: l' => match value_of f t x', go l' with Some v, Some vs => Some (v :: vs) | _, _ => None end
                end) l)
      | _ => None
      end
  end.

(** messageTest, rfc4120_test.go:27-55: the message is read as the expected value, and
    the expected value survives being marshalled and unmarshalled. *)
Definition messageTest (g : string) (x : tlv) (expected : golit) : Prop :=
  match krb5_go with
  | Some f =>
      value_of f (EIdent g) expected <> None /\
      unmarshal f 20 g x = value_of f (EIdent g) expected /\
      match value_of f (EIdent g) expected with
      | Some v => there_and_back f g v = Some v
      | None => False
      end
  | None => False
  end.

(** rfc4120_test.go:57 *)
Example TestKdcReq :
  messageTest "AS_REQ"
    (TLV CLASS_UNIVERSAL 16 (Nested [TLV CLASS_CONTEXT_SPECIFIC 1 (Nested [TLV CLASS_UNIVERSAL 2 (Octets (PInt 5))]); TLV CLASS_CONTEXT_SPECIFIC 2 (Nested [TLV CLASS_UNIVERSAL 2 (Octets (PInt 10))]); TLV CLASS_CONTEXT_SPECIFIC 3 (Nested [TLV CLASS_UNIVERSAL 16 (Nested [TLV CLASS_UNIVERSAL 16 (Nested [TLV CLASS_CONTEXT_SPECIFIC 1 (Nested [TLV CLASS_UNIVERSAL 2 (Octets (PInt 149))]); TLV CLASS_CONTEXT_SPECIFIC 2 (Nested [TLV CLASS_UNIVERSAL 4 (Octets (POctets []))])])])]); TLV CLASS_CONTEXT_SPECIFIC 4 (Nested [TLV CLASS_UNIVERSAL 16 (Nested [TLV CLASS_CONTEXT_SPECIFIC 0 (Nested [TLV CLASS_UNIVERSAL 3 (Octets (PBits [0; 0; 0; 16] 32))]); TLV CLASS_CONTEXT_SPECIFIC 1 (Nested [TLV CLASS_UNIVERSAL 16 (Nested [TLV CLASS_CONTEXT_SPECIFIC 0 (Nested [TLV CLASS_UNIVERSAL 2 (Octets (PInt 1))]); TLV CLASS_CONTEXT_SPECIFIC 1 (Nested [TLV CLASS_UNIVERSAL 16 (Nested [TLV CLASS_UNIVERSAL 27 (Octets (PString "chemikadze"))])])])]); TLV CLASS_CONTEXT_SPECIFIC 2 (Nested [TLV CLASS_UNIVERSAL 27 (Octets (PString "ATHENA.MIT.EDU"))]); TLV CLASS_CONTEXT_SPECIFIC 3 (Nested [TLV CLASS_UNIVERSAL 16 (Nested [TLV CLASS_CONTEXT_SPECIFIC 0 (Nested [TLV CLASS_UNIVERSAL 2 (Octets (PInt 2))]); TLV CLASS_CONTEXT_SPECIFIC 1 (Nested [TLV CLASS_UNIVERSAL 16 (Nested [TLV CLASS_UNIVERSAL 27 (Octets (PString "krbtgt")); TLV CLASS_UNIVERSAL 27 (Octets (PString "ATHENA.MIT.EDU"))])])])]); TLV CLASS_CONTEXT_SPECIFIC 5 (Nested [TLV CLASS_UNIVERSAL 24 (Octets (PGeneralized 63650556247))]); TLV CLASS_CONTEXT_SPECIFIC 7 (Nested [TLV CLASS_UNIVERSAL 2 (Octets (PInt 1679932297))]); TLV CLASS_CONTEXT_SPECIFIC 8 (Nested [TLV CLASS_UNIVERSAL 16 (Nested [TLV CLASS_UNIVERSAL 2 (Octets (PInt 18)); TLV CLASS_UNIVERSAL 2 (Octets (PInt 17)); TLV CLASS_UNIVERSAL 2 (Octets (PInt 16)); TLV CLASS_UNIVERSAL 2 (Octets (PInt 23)); TLV CLASS_UNIVERSAL 2 (Octets (PInt 25)); TLV CLASS_UNIVERSAL 2 (Octets (PInt 26))])])])])]))
    (LStruct [("Pvno", LVal (GInt 5)); ("Msg_type", LVal (GInt 10)); ("Padata", LSlice [LPositional [LVal (GInt 149); LVal (GBytes (Some []))]]); ("Req_body", LStruct [("Kdc_options", LVal (GBits (Some [0; 0; 0; 16]) 32)); ("Cname", LPositional [LVal (GInt 1); LSlice [LVal (GString "chemikadze")]]); ("Realm", LVal (GString "ATHENA.MIT.EDU")); ("Sname", LPositional [LVal (GInt 2); LSlice [LVal (GString "krbtgt"); LVal (GString "ATHENA.MIT.EDU")]]); ("Till", LVal (GTime 63650556247)); ("Nonce", LVal (GInt 1679932297)); ("Etype", LSlice [LVal (GInt 18); LVal (GInt 17); LVal (GInt 16); LVal (GInt 23); LVal (GInt 25); LVal (GInt 26)])])]).
Proof. vm_compute. repeat split; discriminate. Qed.

(** rfc4120_test.go:91 *)
Example TestKrbError :
  messageTest "KRB_ERROR"
    (TLV CLASS_UNIVERSAL 16 (Nested [TLV CLASS_CONTEXT_SPECIFIC 0 (Nested [TLV CLASS_UNIVERSAL 2 (Octets (PInt 5))]); TLV CLASS_CONTEXT_SPECIFIC 1 (Nested [TLV CLASS_UNIVERSAL 2 (Octets (PInt 30))]); TLV CLASS_CONTEXT_SPECIFIC 2 (Nested [TLV CLASS_UNIVERSAL 24 (Octets (PGeneralized 63815529097))]); TLV CLASS_CONTEXT_SPECIFIC 4 (Nested [TLV CLASS_UNIVERSAL 24 (Octets (PGeneralized 63650469847))]); TLV CLASS_CONTEXT_SPECIFIC 5 (Nested [TLV CLASS_UNIVERSAL 2 (Octets (PInt 297128))]); TLV CLASS_CONTEXT_SPECIFIC 6 (Nested [TLV CLASS_UNIVERSAL 2 (Octets (PInt 6))]); TLV CLASS_CONTEXT_SPECIFIC 7 (Nested [TLV CLASS_UNIVERSAL 27 (Octets (PString "ATHENA.MIT.EDU"))]); TLV CLASS_CONTEXT_SPECIFIC 8 (Nested [TLV CLASS_UNIVERSAL 16 (Nested [TLV CLASS_CONTEXT_SPECIFIC 0 (Nested [TLV CLASS_UNIVERSAL 2 (Octets (PInt 1))]); TLV CLASS_CONTEXT_SPECIFIC 1 (Nested [TLV CLASS_UNIVERSAL 16 (Nested [TLV CLASS_UNIVERSAL 27 (Octets (PString "chemikadze"))])])])]); TLV CLASS_CONTEXT_SPECIFIC 9 (Nested [TLV CLASS_UNIVERSAL 27 (Octets (PString "ATHENA.MIT.EDU"))]); TLV CLASS_CONTEXT_SPECIFIC 10 (Nested [TLV CLASS_UNIVERSAL 16 (Nested [TLV CLASS_CONTEXT_SPECIFIC 0 (Nested [TLV CLASS_UNIVERSAL 2 (Octets (PInt 2))]); TLV CLASS_CONTEXT_SPECIFIC 1 (Nested [TLV CLASS_UNIVERSAL 16 (Nested [TLV CLASS_UNIVERSAL 27 (Octets (PString "krbtgt")); TLV CLASS_UNIVERSAL 27 (Octets (PString "ATHENA.MIT.EDU"))])])])]); TLV CLASS_CONTEXT_SPECIFIC 11 (Nested [TLV CLASS_UNIVERSAL 27 (Octets (PString "CLIENT_NOT_FOUND"))])]))
    (LStruct [("Pvno", LVal (GInt 5)); ("Msg_type", LVal (GInt 30)); ("Ctime", LVal (GTime 63815529097)); ("Stime", LVal (GTime 63650469847)); ("Susec", LVal (GInt 297128)); ("Error_code", LVal (GInt 6)); ("Crealm", LVal (GString "ATHENA.MIT.EDU")); ("Cname", LPositional [LVal (GInt 1); LSlice [LVal (GString "chemikadze")]]); ("Realm", LVal (GString "ATHENA.MIT.EDU")); ("Sname", LPositional [LVal (GInt 2); LSlice [LVal (GString "krbtgt"); LVal (GString "ATHENA.MIT.EDU")]]); ("E_text", LVal (GString "CLIENT_NOT_FOUND"))]).
Proof. vm_compute. repeat split; discriminate. Qed.

(** * examples/rfc5280_test.go *)

(** The module of RFC 5280, generated with -default-integer-repr big.Int
    (rfc5280_test.go:10-12), and testdata/_.google.crt. *)
Definition pkix_go : option gofile := Eval vm_compute in file_in rfc5280 {| gp_Package := "examples"; gp_IntegerRepr := "big.Int" |}.
Definition certificate : tlv := TLV CLASS_UNIVERSAL 16 (Nested [TLV CLASS_UNIVERSAL 16 (Nested [TLV CLASS_CONTEXT_SPECIFIC 0 (Nested [TLV CLASS_UNIVERSAL 2 (Octets (PInt 2))]); TLV CLASS_UNIVERSAL 2 (Octets (PInt 50836835645070655885253083469294042504)); TLV CLASS_UNIVERSAL 16 (Nested [TLV CLASS_UNIVERSAL 6 (Octets (POid [1; 2; 840; 113549; 1; 1; 11])); TLV CLASS_UNIVERSAL 5 (Octets (POctets []))]); TLV CLASS_UNIVERSAL 16 (Nested [TLV CLASS_UNIVERSAL 17 (Nested [TLV CLASS_UNIVERSAL 16 (Nested [TLV CLASS_UNIVERSAL 6 (Octets (POid [2; 5; 4; 6])); TLV CLASS_UNIVERSAL 19 (Octets (PString "US"))])]); TLV CLASS_UNIVERSAL 17 (Nested [TLV CLASS_UNIVERSAL 16 (Nested [TLV CLASS_UNIVERSAL 6 (Octets (POid [2; 5; 4; 10])); TLV CLASS_UNIVERSAL 19 (Octets (PString "Google Trust Services LLC"))])]); TLV CLASS_UNIVERSAL 17 (Nested [TLV CLASS_UNIVERSAL 16 (Nested [TLV CLASS_UNIVERSAL 6 (Octets (POid [2; 5; 4; 3])); TLV CLASS_UNIVERSAL 19 (Octets (PString "GTS CA 1C3"))])])]); TLV CLASS_UNIVERSAL 16 (Nested [TLV CLASS_UNIVERSAL 23 (Octets (PUtc 63798567420)); TLV CLASS_UNIVERSAL 23 (Octets (PUtc 63805825019))]); TLV CLASS_UNIVERSAL 16 (Nested [TLV CLASS_UNIVERSAL 17 (Nested [TLV CLASS_UNIVERSAL 16 (Nested [TLV CLASS_UNIVERSAL 6 (Octets (POid [2; 5; 4; 3])); TLV CLASS_UNIVERSAL 12 (Octets (PString "*.google.com"))])])]); TLV CLASS_UNIVERSAL 16 (Nested [TLV CLASS_UNIVERSAL 16 (Nested [TLV CLASS_UNIVERSAL 6 (Octets (POid [1; 2; 840; 10045; 2; 1])); TLV CLASS_UNIVERSAL 6 (Octets (POid [1; 2; 840; 10045; 3; 1; 7]))]); TLV CLASS_UNIVERSAL 3 (Octets (PBits [4; 224; 152; 24; 40; 106; 219; 17; 191; 218; 201; 82; 251; 73; 198; 183; 103; 44; 136; 50; 141; 19; 199; 211; 110; 125; 65; 100; 9; 10; 34; 179; 190; 223; 0; 218; 185; 50; 167; 91; 41; 239; 82; 249; 199; 199; 59; 101; 54; 223; 58; 135; 182; 23; 106; 4; 93; 10; 112; 178; 176; 195; 101; 183; 210] 520))]); TLV CLASS_CONTEXT_SPECIFIC 3 (Nested [TLV CLASS_UNIVERSAL 16 (Nested [TLV CLASS_UNIVERSAL 16 (Nested [TLV CLASS_UNIVERSAL 6 (Octets (POid [2; 5; 29; 15])); TLV CLASS_UNIVERSAL 1 (Octets (PBool true)); TLV CLASS_UNIVERSAL 4 (Octets (POctets [3; 2; 7; 128]))]); TLV CLASS_UNIVERSAL 16 (Nested [TLV CLASS_UNIVERSAL 6 (Octets (POid [2; 5; 29; 37])); TLV CLASS_UNIVERSAL 4 (Octets (POctets [48; 10; 6; 8; 43; 6; 1; 5; 5; 7; 3; 1]))]); TLV CLASS_UNIVERSAL 16 (Nested [TLV CLASS_UNIVERSAL 6 (Octets (POid [2; 5; 29; 19])); TLV CLASS_UNIVERSAL 1 (Octets (PBool true)); TLV CLASS_UNIVERSAL 4 (Octets (POctets [48; 0]))]); TLV CLASS_UNIVERSAL 16 (Nested [TLV CLASS_UNIVERSAL 6 (Octets (POid [2; 5; 29; 14])); TLV CLASS_UNIVERSAL 4 (Octets (POctets [4; 20; 94; 132; 241; 32; 33; 31; 38; 209; 231; 16; 213; 182; 110; 129; 158; 106; 0; 14; 152; 74]))]); TLV CLASS_UNIVERSAL 16 (Nested [TLV CLASS_UNIVERSAL 6 (Octets (POid [2; 5; 29; 35])); TLV CLASS_UNIVERSAL 4 (Octets (POctets [48; 22; 128; 20; 138; 116; 127; 175; 133; 205; 238; 149; 205; 61; 156; 208; 226; 70; 20; 243; 113; 53; 29; 39]))]); TLV CLASS_UNIVERSAL 16 (Nested [TLV CLASS_UNIVERSAL 6 (Octets (POid [1; 3; 6; 1; 5; 5; 7; 1; 1])); TLV CLASS_UNIVERSAL 4 (Octets (POctets [48; 92; 48; 39; 6; 8; 43; 6; 1; 5; 5; 7; 48; 1; 134; 27; 104; 116; 116; 112; 58; 47; 47; 111; 99; 115; 112; 46; 112; 107; 105; 46; 103; 111; 111; 103; 47; 103; 116; 115; 49; 99; 51; 48; 49; 6; 8; 43; 6; 1; 5; 5; 7; 48; 2; 134; 37; 104; 116; 116; 112; 58; 47; 47; 112; 107; 105; 46; 103; 111; 111; 103; 47; 114; 101; 112; 111; 47; 99; 101; 114; 116; 115; 47; 103; 116; 115; 49; 99; 51; 46; 100; 101; 114]))]); TLV CLASS_UNIVERSAL 16 (Nested [TLV CLASS_UNIVERSAL 6 (Octets (POid [2; 5; 29; 17])); TLV CLASS_UNIVERSAL 4 (Octets (POctets [48; 130; 9; 114; 130; 12; 42; 46; 103; 111; 111; 103; 108; 101; 46; 99; 111; 109; 130; 22; 42; 46; 97; 112; 112; 101; 110; 103; 105; 110; 101; 46; 103; 111; 111; 103; 108; 101; 46; 99; 111; 109; 130; 9; 42; 46; 98; 100; 110; 46; 100; 101; 118; 130; 21; 42; 46; 111; 114; 105; 103; 105; 110; 45; 116; 101; 115; 116; 46; 98; 100; 110; 46; 100; 101; 118; 130; 18; 42; 46; 99; 108; 111; 117; 100; 46; 103; 111; 111; 103; 108; 101; 46; 99; 111; 109; 130; 24; 42; 46; 99; 114; 111; 119; 100; 115; 111; 117; 114; 99; 101; 46; 103; 111; 111; 103; 108; 101; 46; 99; 111; 109; 130; 24; 42; 46; 100; 97; 116; 97; 99; 111; 109; 112; 117; 116; 101; 46; 103; 111; 111; 103; 108; 101; 46; 99; 111; 109; 130; 11; 42; 46; 103; 111; 111; 103; 108; 101; 46; 99; 97; 130; 11; 42; 46; 103; 111; 111; 103; 108; 101; 46; 99; 108; 130; 14; 42; 46; 103; 111; 111; 103; 108; 101; 46; 99; 111; 46; 105; 110; 130; 14; 42; 46; 103; 111; 111; 103; 108; 101; 46; 99; 111; 46; 106; 112; 130; 14; 42; 46; 103; 111; 111; 103; 108; 101; 46; 99; 111; 46; 117; 107; 130; 15; 42; 46; 103; 111; 111; 103; 108; 101; 46; 99; 111; 109; 46; 97; 114; 130; 15; 42; 46; 103; 111; 111; 103; 108; 101; 46; 99; 111; 109; 46; 97; 117; 130; 15; 42; 46; 103; 111; 111; 103; 108; 101; 46; 99; 111; 109; 46; 98; 114; 130; 15; 42; 46; 103; 111; 111; 103; 108; 101; 46; 99; 111; 109; 46; 99; 111; 130; 15; 42; 46; 103; 111; 111; 103; 108; 101; 46; 99; 111; 109; 46; 109; 120; 130; 15; 42; 46; 103; 111; 111; 103; 108; 101; 46; 99; 111; 109; 46; 116; 114; 130; 15; 42; 46; 103; 111; 111; 103; 108; 101; 46; 99; 111; 109; 46; 118; 110; 130; 11; 42; 46; 103; 111; 111; 103; 108; 101; 46; 100; 101; 130; 11; 42; 46; 103; 111; 111; 103; 108; 101; 46; 101; 115; 130; 11; 42; 46; 103; 111; 111; 103; 108; 101; 46; 102; 114; 130; 11; 42; 46; 103; 111; 111; 103; 108; 101; 46; 104; 117; 130; 11; 42; 46; 103; 111; 111; 103; 108; 101; 46; 105; 116; 130; 11; 42; 46; 103; 111; 111; 103; 108; 101; 46; 110; 108; 130; 11; 42; 46; 103; 111; 111; 103; 108; 101; 46; 112; 108; 130; 11; 42; 46; 103; 111; 111; 103; 108; 101; 46; 112; 116; 130; 18; 42; 46; 103; 111; 111; 103; 108; 101; 97; 100; 97; 112; 105; 115; 46; 99; 111; 109; 130; 15; 42; 46; 103; 111; 111; 103; 108; 101; 97; 112; 105; 115; 46; 99; 110; 130; 17; 42; 46; 103; 111; 111; 103; 108; 101; 118; 105; 100; 101; 111; 46; 99; 111; 109; 130; 12; 42; 46; 103; 115; 116; 97; 116; 105; 99; 46; 99; 110; 130; 16; 42; 46; 103; 115; 116; 97; 116; 105; 99; 45; 99; 110; 46; 99; 111; 109; 130; 15; 103; 111; 111; 103; 108; 101; 99; 110; 97; 112; 112; 115; 46; 99; 110; 130; 17; 42; 46; 103; 111; 111; 103; 108; 101; 99; 110; 97; 112; 112; 115; 46; 99; 110; 130; 17; 103; 111; 111; 103; 108; 101; 97; 112; 112; 115; 45; 99; 110; 46; 99; 111; 109; 130; 19; 42; 46; 103; 111; 111; 103; 108; 101; 97; 112; 112; 115; 45; 99; 110; 46; 99; 111; 109; 130; 12; 103; 107; 101; 99; 110; 97; 112; 112; 115; 46; 99; 110; 130; 14; 42; 46; 103; 107; 101; 99; 110; 97; 112; 112; 115; 46; 99; 110; 130; 18; 103; 111; 111; 103; 108; 101; 100; 111; 119; 110; 108; 111; 97; 100; 115; 46; 99; 110; 130; 20; 42; 46; 103; 111; 111; 103; 108; 101; 100; 111; 119; 110; 108; 111; 97; 100; 115; 46; 99; 110; 130; 16; 114; 101; 99; 97; 112; 116; 99; 104; 97; 46; 110; 101; 116; 46; 99; 110; 130; 18; 42; 46; 114; 101; 99; 97; 112; 116; 99; 104; 97; 46; 110; 101; 116; 46; 99; 110; 130; 16; 114; 101; 99; 97; 112; 116; 99; 104; 97; 45; 99; 110; 46; 110; 101; 116; 130; 18; 42; 46; 114; 101; 99; 97; 112; 116; 99; 104; 97; 45; 99; 110; 46; 110; 101; 116; 130; 11; 119; 105; 100; 101; 118; 105; 110; 101; 46; 99; 110; 130; 13; 42; 46; 119; 105; 100; 101; 118; 105; 110; 101; 46; 99; 110; 130; 17; 97; 109; 112; 112; 114; 111; 106; 101; 99; 116; 46; 111; 114; 103; 46; 99; 110; 130; 19; 42; 46; 97; 109; 112; 112; 114; 111; 106; 101; 99; 116; 46; 111; 114; 103; 46; 99; 110; 130; 17; 97; 109; 112; 112; 114; 111; 106; 101; 99; 116; 46; 110; 101; 116; 46; 99; 110; 130; 19; 42; 46; 97; 109; 112; 112; 114; 111; 106; 101; 99; 116; 46; 110; 101; 116; 46; 99; 110; 130; 23; 103; 111; 111; 103; 108; 101; 45; 97; 110; 97; 108; 121; 116; 105; 99; 115; 45; 99; 110; 46; 99; 111; 109; 130; 25; 42; 46; 103; 111; 111; 103; 108; 101; 45; 97; 110; 97; 108; 121; 116; 105; 99; 115; 45; 99; 110; 46; 99; 111; 109; 130; 23; 103; 111; 111; 103; 108; 101; 97; 100; 115; 101; 114; 118; 105; 99; 101; 115; 45; 99; 110; 46; 99; 111; 109; 130; 25; 42; 46; 103; 111; 111; 103; 108; 101; 97; 100; 115; 101; 114; 118; 105; 99; 101; 115; 45; 99; 110; 46; 99; 111; 109; 130; 17; 103; 111; 111; 103; 108; 101; 118; 97; 100; 115; 45; 99; 110; 46; 99; 111; 109; 130; 19; 42; 46; 103; 111; 111; 103; 108; 101; 118; 97; 100; 115; 45; 99; 110; 46; 99; 111; 109; 130; 17; 103; 111; 111; 103; 108; 101; 97; 112; 105; 115; 45; 99; 110; 46; 99; 111; 109; 130; 19; 42; 46; 103; 111; 111; 103; 108; 101; 97; 112; 105; 115; 45; 99; 110; 46; 99; 111; 109; 130; 21; 103; 111; 111; 103; 108; 101; 111; 112; 116; 105; 109; 105; 122; 101; 45; 99; 110; 46; 99; 111; 109; 130; 23; 42; 46; 103; 111; 111; 103; 108; 101; 111; 112; 116; 105; 109; 105; 122; 101; 45; 99; 110; 46; 99; 111; 109; 130; 18; 100; 111; 117; 98; 108; 101; 99; 108; 105; 99; 107; 45; 99; 110; 46; 110; 101; 116; 130; 20; 42; 46; 100; 111; 117; 98; 108; 101; 99; 108; 105; 99; 107; 45; 99; 110; 46; 110; 101; 116; 130; 24; 42; 46; 102; 108; 115; 46; 100; 111; 117; 98; 108; 101; 99; 108; 105; 99; 107; 45; 99; 110; 46; 110; 101; 116; 130; 22; 42; 46; 103; 46; 100; 111; 117; 98; 108; 101; 99; 108; 105; 99; 107; 45; 99; 110; 46; 110; 101; 116; 130; 14; 100; 111; 117; 98; 108; 101; 99; 108; 105; 99; 107; 46; 99; 110; 130; 16; 42; 46; 100; 111; 117; 98; 108; 101; 99; 108; 105; 99; 107; 46; 99; 110; 130; 20; 42; 46; 102; 108; 115; 46; 100; 111; 117; 98; 108; 101; 99; 108; 105; 99; 107; 46; 99; 110; 130; 18; 42; 46; 103; 46; 100; 111; 117; 98; 108; 101; 99; 108; 105; 99; 107; 46; 99; 110; 130; 17; 100; 97; 114; 116; 115; 101; 97; 114; 99; 104; 45; 99; 110; 46; 110; 101; 116; 130; 19; 42; 46; 100; 97; 114; 116; 115; 101; 97; 114; 99; 104; 45; 99; 110; 46; 110; 101; 116; 130; 29; 103; 111; 111; 103; 108; 101; 116; 114; 97; 118; 101; 108; 97; 100; 115; 101; 114; 118; 105; 99; 101; 115; 45; 99; 110; 46; 99; 111; 109; 130; 31; 42; 46; 103; 111; 111; 103; 108; 101; 116; 114; 97; 118; 101; 108; 97; 100; 115; 101; 114; 118; 105; 99; 101; 115; 45; 99; 110; 46; 99; 111; 109; 130; 24; 103; 111; 111; 103; 108; 101; 116; 97; 103; 115; 101; 114; 118; 105; 99; 101; 115; 45; 99; 110; 46; 99; 111; 109; 130; 26; 42; 46; 103; 111; 111; 103; 108; 101; 116; 97; 103; 115; 101; 114; 118; 105; 99; 101; 115; 45; 99; 110; 46; 99; 111; 109; 130; 23; 103; 111; 111; 103; 108; 101; 116; 97; 103; 109; 97; 110; 97; 103; 101; 114; 45; 99; 110; 46; 99; 111; 109; 130; 25; 42; 46; 103; 111; 111; 103; 108; 101; 116; 97; 103; 109; 97; 110; 97; 103; 101; 114; 45; 99; 110; 46; 99; 111; 109; 130; 24; 103; 111; 111; 103; 108; 101; 115; 121; 110; 100; 105; 99; 97; 116; 105; 111; 110; 45; 99; 110; 46; 99; 111; 109; 130; 26; 42; 46; 103; 111; 111; 103; 108; 101; 115; 121; 110; 100; 105; 99; 97; 116; 105; 111; 110; 45; 99; 110; 46; 99; 111; 109; 130; 36; 42; 46; 115; 97; 102; 101; 102; 114; 97; 109; 101; 46; 103; 111; 111; 103; 108; 101; 115; 121; 110; 100; 105; 99; 97; 116; 105; 111; 110; 45; 99; 110; 46; 99; 111; 109; 130; 22; 97; 112; 112; 45; 109; 101; 97; 115; 117; 114; 101; 109; 101; 110; 116; 45; 99; 110; 46; 99; 111; 109; 130; 24; 42; 46; 97; 112; 112; 45; 109; 101; 97; 115; 117; 114; 101; 109; 101; 110; 116; 45; 99; 110; 46; 99; 111; 109; 130; 11; 103; 118; 116; 49; 45; 99; 110; 46; 99; 111; 109; 130; 13; 42; 46; 103; 118; 116; 49; 45; 99; 110; 46; 99; 111; 109; 130; 11; 103; 118; 116; 50; 45; 99; 110; 46; 99; 111; 109; 130; 13; 42; 46; 103; 118; 116; 50; 45; 99; 110; 46; 99; 111; 109; 130; 11; 50; 109; 100; 110; 45; 99; 110; 46; 110; 101; 116; 130; 13; 42; 46; 50; 109; 100; 110; 45; 99; 110; 46; 110; 101; 116; 130; 20; 103; 111; 111; 103; 108; 101; 102; 108; 105; 103; 104; 116; 115; 45; 99; 110; 46; 110; 101; 116; 130; 22; 42; 46; 103; 111; 111; 103; 108; 101; 102; 108; 105; 103; 104; 116; 115; 45; 99; 110; 46; 110; 101; 116; 130; 12; 97; 100; 109; 111; 98; 45; 99; 110; 46; 99; 111; 109; 130; 14; 42; 46; 97; 100; 109; 111; 98; 45; 99; 110; 46; 99; 111; 109; 130; 13; 42; 46; 103; 115; 116; 97; 116; 105; 99; 46; 99; 111; 109; 130; 20; 42; 46; 109; 101; 116; 114; 105; 99; 46; 103; 115; 116; 97; 116; 105; 99; 46; 99; 111; 109; 130; 10; 42; 46; 103; 118; 116; 49; 46; 99; 111; 109; 130; 17; 42; 46; 103; 99; 112; 99; 100; 110; 46; 103; 118; 116; 49; 46; 99; 111; 109; 130; 10; 42; 46; 103; 118; 116; 50; 46; 99; 111; 109; 130; 14; 42; 46; 103; 99; 112; 46; 103; 118; 116; 50; 46; 99; 111; 109; 130; 16; 42; 46; 117; 114; 108; 46; 103; 111; 111; 103; 108; 101; 46; 99; 111; 109; 130; 22; 42; 46; 121; 111; 117; 116; 117; 98; 101; 45; 110; 111; 99; 111; 111; 107; 105; 101; 46; 99; 111; 109; 130; 11; 42; 46; 121; 116; 105; 109; 103; 46; 99; 111; 109; 130; 11; 97; 110; 100; 114; 111; 105; 100; 46; 99; 111; 109; 130; 13; 42; 46; 97; 110; 100; 114; 111; 105; 100; 46; 99; 111; 109; 130; 19; 42; 46; 102; 108; 97; 115; 104; 46; 97; 110; 100; 114; 111; 105; 100; 46; 99; 111; 109; 130; 4; 103; 46; 99; 110; 130; 6; 42; 46; 103; 46; 99; 110; 130; 4; 103; 46; 99; 111; 130; 6; 42; 46; 103; 46; 99; 111; 130; 6; 103; 111; 111; 46; 103; 108; 130; 10; 119; 119; 119; 46; 103; 111; 111; 46; 103; 108; 130; 20; 103; 111; 111; 103; 108; 101; 45; 97; 110; 97; 108; 121; 116; 105; 99; 115; 46; 99; 111; 109; 130; 22; 42; 46; 103; 111; 111; 103; 108; 101; 45; 97; 110; 97; 108; 121; 116; 105; 99; 115; 46; 99; 111; 109; 130; 10; 103; 111; 111; 103; 108; 101; 46; 99; 111; 109; 130; 18; 103; 111; 111; 103; 108; 101; 99; 111; 109; 109; 101; 114; 99; 101; 46; 99; 111; 109; 130; 20; 42; 46; 103; 111; 111; 103; 108; 101; 99; 111; 109; 109; 101; 114; 99; 101; 46; 99; 111; 109; 130; 8; 103; 103; 112; 104; 116; 46; 99; 110; 130; 10; 42; 46; 103; 103; 112; 104; 116; 46; 99; 110; 130; 10; 117; 114; 99; 104; 105; 110; 46; 99; 111; 109; 130; 12; 42; 46; 117; 114; 99; 104; 105; 110; 46; 99; 111; 109; 130; 8; 121; 111; 117; 116; 117; 46; 98; 101; 130; 11; 121; 111; 117; 116; 117; 98; 101; 46; 99; 111; 109; 130; 13; 42; 46; 121; 111; 117; 116; 117; 98; 101; 46; 99; 111; 109; 130; 20; 121; 111; 117; 116; 117; 98; 101; 101; 100; 117; 99; 97; 116; 105; 111; 110; 46; 99; 111; 109; 130; 22; 42; 46; 121; 111; 117; 116; 117; 98; 101; 101; 100; 117; 99; 97; 116; 105; 111; 110; 46; 99; 111; 109; 130; 15; 121; 111; 117; 116; 117; 98; 101; 107; 105; 100; 115; 46; 99; 111; 109; 130; 17; 42; 46; 121; 111; 117; 116; 117; 98; 101; 107; 105; 100; 115; 46; 99; 111; 109; 130; 5; 121; 116; 46; 98; 101; 130; 7; 42; 46; 121; 116; 46; 98; 101; 130; 26; 97; 110; 100; 114; 111; 105; 100; 46; 99; 108; 105; 101; 110; 116; 115; 46; 103; 111; 111; 103; 108; 101; 46; 99; 111; 109; 130; 27; 100; 101; 118; 101; 108; 111; 112; 101; 114; 46; 97; 110; 100; 114; 111; 105; 100; 46; 103; 111; 111; 103; 108; 101; 46; 99; 110; 130; 28; 100; 101; 118; 101; 108; 111; 112; 101; 114; 115; 46; 97; 110; 100; 114; 111; 105; 100; 46; 103; 111; 111; 103; 108; 101; 46; 99; 110; 130; 24; 115; 111; 117; 114; 99; 101; 46; 97; 110; 100; 114; 111; 105; 100; 46; 103; 111; 111; 103; 108; 101; 46; 99; 110]))]); TLV CLASS_UNIVERSAL 16 (Nested [TLV CLASS_UNIVERSAL 6 (Octets (POid [2; 5; 29; 32])); TLV CLASS_UNIVERSAL 4 (Octets (POctets [48; 24; 48; 8; 6; 6; 103; 129; 12; 1; 2; 1; 48; 12; 6; 10; 43; 6; 1; 4; 1; 214; 121; 2; 5; 3]))]); TLV CLASS_UNIVERSAL 16 (Nested [TLV CLASS_UNIVERSAL 6 (Octets (POid [2; 5; 29; 31])); TLV CLASS_UNIVERSAL 4 (Octets (POctets [48; 51; 48; 49; 160; 47; 160; 45; 134; 43; 104; 116; 116; 112; 58; 47; 47; 99; 114; 108; 115; 46; 112; 107; 105; 46; 103; 111; 111; 103; 47; 103; 116; 115; 49; 99; 51; 47; 81; 79; 118; 74; 48; 78; 49; 115; 84; 50; 65; 46; 99; 114; 108]))]); TLV CLASS_UNIVERSAL 16 (Nested [TLV CLASS_UNIVERSAL 6 (Octets (POid [1; 3; 6; 1; 4; 1; 11129; 2; 4; 2])); TLV CLASS_UNIVERSAL 4 (Octets (POctets [4; 129; 242; 0; 240; 0; 118; 0; 81; 163; 176; 245; 253; 1; 121; 156; 86; 109; 184; 55; 120; 143; 12; 164; 122; 204; 27; 39; 203; 247; 158; 136; 66; 154; 13; 254; 212; 139; 5; 229; 0; 0; 1; 131; 48; 252; 237; 197; 0; 0; 4; 3; 0; 71; 48; 69; 2; 32; 68; 36; 216; 69; 0; 95; 115; 57; 255; 61; 80; 219; 194; 98; 186; 237; 142; 62; 133; 44; 40; 27; 160; 111; 239; 191; 5; 251; 239; 195; 38; 106; 2; 33; 0; 174; 45; 246; 39; 41; 198; 57; 157; 230; 122; 24; 173; 251; 42; 110; 22; 202; 146; 0; 191; 229; 75; 85; 73; 40; 222; 239; 4; 225; 213; 245; 133; 0; 118; 0; 70; 165; 85; 235; 117; 250; 145; 32; 48; 181; 162; 137; 105; 244; 243; 125; 17; 44; 65; 116; 190; 253; 73; 184; 133; 171; 242; 252; 112; 254; 109; 71; 0; 0; 1; 131; 48; 252; 237; 216; 0; 0; 4; 3; 0; 71; 48; 69; 2; 33; 0; 138; 121; 230; 89; 168; 163; 27; 47; 67; 52; 117; 160; 91; 134; 43; 16; 150; 219; 64; 163; 123; 5; 224; 82; 116; 192; 203; 86; 60; 37; 160; 216; 2; 32; 35; 183; 31; 171; 165; 200; 220; 101; 171; 197; 28; 186; 3; 105; 204; 27; 14; 12; 99; 3; 226; 137; 229; 1; 175; 22; 139; 108; 228; 192; 236; 159]))])])])]); TLV CLASS_UNIVERSAL 16 (Nested [TLV CLASS_UNIVERSAL 6 (Octets (POid [1; 2; 840; 113549; 1; 1; 11])); TLV CLASS_UNIVERSAL 5 (Octets (POctets []))]); TLV CLASS_UNIVERSAL 3 (Octets (PBits [71; 86; 33; 147; 33; 161; 2; 130; 236; 60; 76; 130; 129; 187; 32; 131; 188; 65; 227; 5; 54; 193; 39; 117; 222; 216; 223; 137; 62; 7; 69; 200; 198; 100; 167; 136; 100; 22; 120; 53; 184; 216; 7; 252; 200; 181; 22; 122; 50; 66; 135; 93; 66; 130; 145; 44; 5; 37; 5; 71; 142; 210; 22; 69; 182; 36; 48; 35; 25; 71; 61; 242; 36; 12; 222; 173; 62; 102; 204; 56; 131; 98; 193; 90; 209; 6; 128; 138; 159; 104; 1; 149; 28; 219; 46; 57; 36; 133; 53; 209; 246; 242; 104; 184; 162; 142; 202; 195; 167; 54; 52; 174; 201; 147; 34; 149; 183; 121; 225; 100; 224; 178; 118; 236; 29; 189; 232; 0; 140; 110; 97; 56; 207; 152; 119; 12; 246; 32; 72; 217; 51; 22; 219; 226; 17; 210; 65; 90; 243; 61; 145; 43; 46; 202; 200; 33; 116; 64; 194; 122; 46; 44; 58; 207; 125; 34; 74; 102; 102; 111; 5; 188; 24; 45; 71; 17; 81; 163; 171; 68; 118; 154; 68; 142; 199; 4; 28; 91; 80; 47; 155; 160; 58; 144; 220; 224; 64; 216; 241; 157; 0; 19; 1; 179; 254; 217; 109; 240; 67; 219; 13; 15; 95; 230; 106; 137; 231; 248; 154; 251; 229; 117; 249; 137; 39; 37; 179; 72; 8; 250; 172; 128; 56; 168; 201; 31; 50; 254; 250; 209; 203; 1; 188; 232; 88; 143; 104; 131; 20; 144; 172; 200; 149; 147; 82; 23] 2048))]).

(** rfc5280_test.go:19-31 (the serial number is looked at here).  The value that is read
    cannot be marshalled again: the NULL parameters of the signature algorithm have become
    nil (C77). *)
Example TestX509Parsing :
  match pkix_go with
  | Some f =>
      match unmarshal f 20 "Certificate" certificate with
      | Some (GStruct (GStruct (version :: serial :: l) :: rest) as v) =>
          version = GBig (Some 2) /\ serial = GBig (Some 50836835645070655885253083469294042504) /\
          marshal (fun l => l) f 20 "Certificate" v = None
      | _ => False
      end
  | None => False
  end.
Proof. vm_compute. repeat split. Qed.
