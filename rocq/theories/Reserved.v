(** RESERVED_WORDS of lexer.go:14-97, generated by tools/gen_tables.py. *)
From Coq Require Import ZArith String List.
From Verif Require Import Tokens.
Import ListNotations.
Local Open Scope string_scope.

(** lexer.go:14-97: word and token constant, in source order. *)
Definition RESERVED_WORDS : list (string * Z) :=
  [("ABSENT", T_ABSENT);
   ("ENCODED", T_ENCODED);
   ("INTEGER", T_INTEGER);
   ("RELATIVE-OID", T_RELATIVE_OID);
   ("ABSTRACT-SYNTAX", T_ABSTRACT_SYNTAX);
   ("END", T_END);
   ("INTERSECTION", T_INTERSECTION);
   ("SEQUENCE", T_SEQUENCE);
   ("ALL", T_ALL);
   ("ENUMERATED", T_ENUMERATED);
   ("ISO646String", T_ISO646String);
   ("SET", T_SET);
   ("APPLICATION", T_APPLICATION);
   ("EXCEPT", T_EXCEPT);
   ("MAX", T_MAX);
   ("SIZE", T_SIZE);
   ("AUTOMATIC", T_AUTOMATIC);
   ("EXPLICIT", T_EXPLICIT);
   ("MIN", T_MIN);
   ("STRING", T_STRING);
   ("BEGIN", T_BEGIN);
   ("EXPORTS", T_EXPORTS);
   ("MINUS-INFINITY", T_MINUS_INFINITY);
   ("SYNTAX", T_SYNTAX);
   ("BIT", T_BIT);
   ("EXTENSIBILITY", T_EXTENSIBILITY);
   ("NULL", T_NULL);
   ("T61String", T_T61String);
   ("BMPString", T_BMPString);
   ("EXTERNAL", T_EXTERNAL);
   ("NumericString", T_NumericString);
   ("TAGS", T_TAGS);
   ("BOOLEAN", T_BOOLEAN);
   ("FALSE", T_FALSE);
   ("OBJECT", T_OBJECT);
   ("TeletexString", T_TeletexString);
   ("BY", T_BY);
   ("FROM", T_FROM);
   ("ObjectDescriptor", T_ObjectDescriptor);
   ("TRUE", T_TRUE);
   ("CHARACTER", T_CHARACTER);
   ("GeneralizedTime", T_GeneralizedTime);
   ("OCTET", T_OCTET);
   ("TYPE-IDENTIFIER", T_TYPE_IDENTIFIER);
   ("CHOICE", T_CHOICE);
   ("GeneralString", T_GeneralString);
   ("OF", T_OF);
   ("UNION", T_UNION);
   ("CLASS", T_CLASS);
   ("GraphicString", T_GraphicString);
   ("OPTIONAL", T_OPTIONAL);
   ("UNIQUE", T_UNIQUE);
   ("COMPONENT", T_COMPONENT);
   ("IA5String", T_IA5String);
   ("PATTERN", T_PATTERN);
   ("UNIVERSAL", T_UNIVERSAL);
   ("COMPONENTS", T_COMPONENTS);
   ("IDENTIFIER", T_IDENTIFIER);
   ("PDV", T_PDV);
   ("UniversalString", T_UniversalString);
   ("CONSTRAINED", T_CONSTRAINED);
   ("IMPLICIT", T_IMPLICIT);
   ("PLUS-INFINITY", T_PLUS_INFINITY);
   ("UTCTime", T_UTCTime);
   ("CONTAINING", T_CONTAINING);
   ("IMPLIED", T_IMPLIED);
   ("PRESENT", T_PRESENT);
   ("UTF8String", T_UTF8String);
   ("DEFAULT", T_DEFAULT);
   ("IMPORTS", T_IMPORTS);
   ("PrintableString", T_PrintableString);
   ("VideotexString", T_VideotexString);
   ("DEFINITIONS", T_DEFINITIONS);
   ("INCLUDES", T_INCLUDES);
   ("PRIVATE", T_PRIVATE);
   ("VisibleString", T_VisibleString);
   ("EMBEDDED", T_EMBEDDED);
   ("INSTANCE", T_INSTANCE);
   ("REAL", T_REAL);
   ("WITH", T_WITH);
   ("ANY", T_ANY);
   ("DEFINED", T_DEFINED)].
