[
 {
  "property": "C01",
  "status": "proved",
  "theorems": [
   "C01_module_or_error"
  ],
  "note": ""
 },
 {
  "property": "C02",
  "status": "proved",
  "theorems": [
   "C02_terminates",
   "C02_string_terminates"
  ],
  "note": "with an explicit bound"
 },
 {
  "property": "C03",
  "status": "partial",
  "theorems": [
   "C03_comment_refuted",
   "C03_colon_refuted",
   "C03_returns_partial",
   "C03_fails_partial"
  ],
  "note": "false: in comments and after a colon or a full stop the lexer reads for ever. Proved for all texts that do not end there (C03_returns_partial); whenever ParseStream returns it returns an error (C03_fails_partial)"
 },
 {
  "property": "C04",
  "status": "proved",
  "theorems": [
   "C04_lexical_error"
  ],
  "note": ""
 },
 {
  "property": "C05",
  "status": "proved",
  "theorems": [
   "C05_grammar"
  ],
  "note": ""
 },
 {
  "property": "C06",
  "status": "partial",
  "theorems": [
   "C06_default_refuted",
   "C06_foreign_value_refuted",
   "C06_from_text_partial",
   "C46_components_partial"
  ],
  "note": "false: the pointer refers to a reused stack slot; the value is lost (C06_default_refuted) or replaced by one written elsewhere (C06_foreign_value_refuted). What holds of every text: the value is nil or is written somewhere in the text, up to what its references name (C06_from_text_partial); the pointer is non-nil exactly for the components written with DEFAULT (C46_components_partial), and all but its target is as derived (C05)"
 },
 {
  "property": "C07",
  "status": "partial",
  "theorems": [
   "C07_reference_refuted",
   "C07_foreign_reference_refuted",
   "C07_from_text_partial"
  ],
  "note": "false: the pointer refers to a reused stack slot; the name is lost (C07_reference_refuted) or replaced by one written elsewhere (C07_foreign_reference_refuted). What holds of every text: every reference of the tree is blank or is written somewhere in the text (C07_from_text_partial)"
 },
 {
  "property": "C08",
  "status": "proved",
  "theorems": [
   "C08_end_last"
  ],
  "note": ""
 },
 {
  "property": "C09",
  "status": "proved",
  "theorems": [
   "C09_no_panic",
   "C09_string_no_panic"
  ],
  "note": ""
 },
 {
  "property": "C10",
  "status": "partial",
  "theorems": [
   "C10_layout_refuted",
   "C10_layout_partial"
  ],
  "note": "false: a comment that starts with two hyphens right behind a word is taken for part of the word; proved for every layout that does not start with two hyphens"
 },
 {
  "property": "C11",
  "status": "proved",
  "theorems": [
   "C11_reserved_words",
   "C11_names_not_reserved",
   "C11_own_token"
  ],
  "note": ""
 },
 {
  "property": "C12",
  "status": "proved",
  "theorems": [
   "C12_names_well_formed",
   "C12_word_meaning"
  ],
  "note": ""
 },
 {
  "property": "C13",
  "status": "proved",
  "theorems": [
   "C13_number_value",
   "C13_number_tokens"
  ],
  "note": "assumes of the Unicode tables that digits are not letters"
 },
 {
  "property": "C14",
  "status": "proved",
  "theorems": [
   "C14_line_counter",
   "C14_error_line",
   "C14_lexer_error_line"
  ],
  "note": ""
 },
 {
  "property": "C15",
  "status": "partial",
  "theorems": [
   "C15_crlf_refuted",
   "C15_line_partial"
  ],
  "note": "false: each CR LF counts twice; exact line proved, as claimed for LF texts"
 },
 {
  "property": "C16",
  "status": "partial",
  "theorems": [
   "C16_line_comment_refuted",
   "C16_line_comment_exact",
   "C16_line_comment_partial"
  ],
  "note": "false for comments that start with three hyphens; true of all others"
 },
 {
  "property": "C17",
  "status": "partial",
  "theorems": [
   "C17_opening_refuted",
   "C17_unterminated_refuted",
   "C17_block_comment_exact",
   "C17_block_comment_partial"
  ],
  "note": "false for /*/ and for unterminated comments; true of all others"
 },
 {
  "property": "C18",
  "status": "proved",
  "theorems": [
   "C18_chunks",
   "C18_stream"
  ],
  "note": "over the model of bufio.Reader with its 4096-byte buffer; readers that return bytes and an error in one call are outside the statement (see C54)"
 },
 {
  "property": "C19",
  "status": "partial",
  "theorems": [
   "C19_real_refuted",
   "C19_zeros_refuted",
   "C19_whole_partial",
   "C19_binary_partial"
  ],
  "note": "false: 1.1 is read as 2; exact for whole values below 2^53 and for fractions of up to six digits with a finite binary expansion that neither begin with 0 nor are 1, 10, ..."
 },
 {
  "property": "C20",
  "status": "proved",
  "theorems": [
   "C20_round_trip",
   "C20_shape",
   "C20_round_trip_refuted"
  ],
  "note": "for every printable module without DEFAULT values and without references in object identifiers; for the others up to what the pointers point to (C20_shape), and exactness fails there (C20_round_trip_refuted, cf. C06, C07). Not printed: finite reals, enumerations with additions (the parser rejects them, C51), value references standing alone as values"
 },
 {
  "property": "C21",
  "status": "partial",
  "theorems": [
   "C21_first_error_refuted"
  ],
  "note": "false: the message of the parser replaces the one of the lexer; what can be reported is C64"
 },
 {
  "property": "C22",
  "status": "partial",
  "theorems": [
   "C22_all_or_nothing_refuted",
   "C22_all_or_nothing_partial"
  ],
  "note": "false for writers that fail half way; proved for all others"
 },
 {
  "property": "C23",
  "status": "proved",
  "theorems": [
   "C23_automatic_rejected"
  ],
  "note": ""
 },
 {
  "property": "C24",
  "status": "proved",
  "theorems": [
   "C24_imports"
  ],
  "note": ""
 },
 {
  "property": "C25",
  "status": "partial",
  "theorems": [
   "C25_used_imported_refuted",
   "C25_used_imported_values_refuted",
   "C25_used_imported_partial"
  ],
  "note": "false: asn1.RawValue and big.NewInt are used without import"
 },
 {
  "property": "C26",
  "status": "proved",
  "theorems": [
   "C26_type_declarations"
  ],
  "note": ""
 },
 {
  "property": "C27",
  "status": "proved",
  "theorems": [
   "C27_fields_mirror"
  ],
  "note": ""
 },
 {
  "property": "C28",
  "status": "partial",
  "theorems": [
   "C28_universal_refuted",
   "C28_tag_decodes_partial"
  ],
  "note": "false for UNIVERSAL tags; proved for the other classes"
 },
 {
  "property": "C29",
  "status": "partial",
  "theorems": [
   "C29_all_tags_refuted",
   "C29_innermost_tag_partial"
  ],
  "note": "false: only the innermost tag is honoured"
 },
 {
  "property": "C30",
  "status": "partial",
  "theorems": [
   "C30_exported_partial",
   "C30_distinct_partial",
   "C30_distinct_refuted",
   "C30_exported_refuted"
  ],
  "note": "proved for ASCII names; false above ASCII"
 },
 {
  "property": "C31",
  "status": "partial",
  "theorems": [
   "C31_unique_names_refuted",
   "C31_unique_names_partial",
   "C31_text_partial"
  ],
  "note": "false: a type may be called as the variable of a value; proved for type names that do not end in SET and in which Val neither ends the name nor stands before a capital letter (C31_text_partial starts from the text)"
 },
 {
  "property": "C32",
  "status": "proved",
  "theorems": [
   "C32_no_dangling_types"
  ],
  "note": ""
 },
 {
  "property": "C33",
  "status": "partial",
  "theorems": [
   "C33_no_dangling_values_refuted",
   "C33_no_dangling_values_partial"
  ],
  "note": "false for references to values not in the module"
 },
 {
  "property": "C34",
  "status": "partial",
  "theorems": [
   "C34_terminates_refuted",
   "C34_terminates_partial"
  ],
  "note": "false exactly for circular type references"
 },
 {
  "property": "C35",
  "status": "partial",
  "theorems": [
   "C35_set_types_refuted",
   "C35_set_types_partial"
  ],
  "note": "false for SEQUENCE OF SET"
 },
 {
  "property": "C36",
  "status": "partial",
  "theorems": [
   "C36_time_components_refuted",
   "C36_time_components_partial"
  ],
  "note": "false for UTCTime; proved for GeneralizedTime"
 },
 {
  "property": "C37",
  "status": "partial",
  "theorems": [
   "C37_naming_refuted",
   "C37_naming_time_refuted",
   "C37_naming_partial"
  ],
  "note": "false for alternatives that are references; proved for all others"
 },
 {
  "property": "C38",
  "status": "partial",
  "theorems": [
   "C38_lookup",
   "C38_kinds_refuted",
   "C38_kinds_partial"
  ],
  "note": "GetType and GetValue: only if types and values have different names"
 },
 {
  "property": "C39",
  "status": "proved",
  "theorems": [
   "C39_values_survive"
  ],
  "note": ""
 },
 {
  "property": "C40",
  "status": "partial",
  "theorems": [
   "C40_real_literals_refuted",
   "C40_real_literals_partial"
  ],
  "note": "false for infinities; finite values given fmt.Sprint's format"
 },
 {
  "property": "C41",
  "status": "proved",
  "theorems": [
   "C41_wireshark_round_trip"
  ],
  "note": ""
 },
 {
  "property": "C42",
  "status": "partial",
  "theorems": [
   "C42_strict_refuted",
   "C42_accepts_exactly_partial",
   "C42_every_text_has_words"
  ],
  "note": "false: signs and leading zeros are accepted; exact set of accepted texts proved"
 },
 {
  "property": "C43",
  "status": "partial",
  "theorems": [
   "C43_output_intact_refuted",
   "C43_output_intact_partial"
  ],
  "note": "false: the output is truncated before parsing"
 },
 {
  "property": "C44",
  "status": "proved",
  "theorems": [
   "C44_success_writes_output",
   "C44_success_writes_stdout"
  ],
  "note": ""
 },
 {
  "property": "C45",
  "status": "partial",
  "theorems": [
   "C45_error_verbatim_refuted",
   "C45_error_verbatim_partial"
  ],
  "note": "false: the error is used as a format string; true without percent signs"
 },
 {
  "property": "C46",
  "status": "partial",
  "theorems": [
   "C46_group_refuted",
   "C46_components_partial"
  ],
  "note": "false: extension groups are dropped. C46_components_partial: in every accepted text the components (name, OPTIONAL, DEFAULT) of the tree are those written outside of extension groups, exceptions and WITH COMPONENT(S)"
 },
 {
  "property": "C47",
  "status": "partial",
  "theorems": [
   "C47_unsupported_partial",
   "C47_choice_refuted",
   "C47_element_tag_refuted"
  ],
  "note": "false below a CHOICE with several alternatives and for tags of elements"
 },
 {
  "property": "C48",
  "status": "proved",
  "theorems": [
   "C48_runes",
   "C48_invalid_rejected",
   "C48_accepted_valid"
  ],
  "note": ""
 },
 {
  "property": "C49",
  "status": "proved",
  "theorems": [
   "C49_marshal_to_file"
  ],
  "note": ""
 },
 {
  "property": "C50",
  "status": "proved",
  "theorems": [
   "C50_tag_mode"
  ],
  "note": ""
 },
 {
  "property": "C51",
  "status": "partial",
  "theorems": [
   "C51_accepts_exactly",
   "C51_complete_partial",
   "C51_complete_refuted"
  ],
  "note": "False of the code: goyacc's default conflict resolution rejects some derivable texts (C51_complete_refuted: two extension markers). C51_accepts_exactly characterises the accepted texts: those with a derivation tree free of the lost productions listed in Conflicts.v; hence C51_complete_partial."
 },
 {
  "property": "C52",
  "status": "proved",
  "theorems": [
   "C52_type_mapping"
  ],
  "note": ""
 },
 {
  "property": "C53",
  "status": "proved",
  "theorems": [
   "C53_supported"
  ],
  "note": ""
 },
 {
  "property": "C54",
  "status": "partial",
  "theorems": [
   "C54_no_panic_refuted",
   "C54_returns_partial"
  ],
  "note": "false for readers that return bytes together with io.EOF when the text fills the buffer and ends with a colon or a full stop; proved for readers that return an error only without bytes and end with EOF"
 },
 {
  "property": "C55",
  "status": "proved",
  "theorems": [
   "C55_parse_file",
   "C55_unreadable"
  ],
  "note": "a file whose reads fail: an error whenever the parser returns (C03)"
 },
 {
  "property": "C56",
  "status": "partial",
  "theorems": [
   "C56_words_refuted",
   "C56_words_partial",
   "C56_from_text"
  ],
  "note": "false: export lists, exceptions, WITH COMPONENT(S) and extension groups are read and forgotten (C56_words_refuted). Nothing else is: in every accepted text the words outside of these constructs are those of the tree, up to the targets of the pointers of C06/C07 (C56_words_partial). That nothing is invented, also behind those pointers, is proved for every accepted text (C56_from_text). Numbers are in C75."
 },
 {
  "property": "C57",
  "status": "proved",
  "theorems": [
   "C57_package"
  ],
  "note": "for texts in ASCII"
 },
 {
  "property": "C58",
  "status": "partial",
  "theorems": [
   "C58_identifiers_partial",
   "C58_identifiers_refuted"
  ],
  "note": "proved for texts in ASCII; false above (letters without case)"
 },
 {
  "property": "C59",
  "status": "proved",
  "theorems": [
   "C59_error_stable",
   "C59_no_completion"
  ],
  "note": "errors about the end of the text ($end) are not errors about a token and are excluded, which includes the report that follows a lexical error"
 },
 {
  "property": "C60",
  "status": "proved",
  "theorems": [
   "C60_command_line",
   "C60_other_lines"
  ],
  "note": "package flag of go1.16 transcribed from its documentation and source"
 },
 {
  "property": "C61",
  "status": "partial",
  "theorems": [
   "C61_flag_as_file_refuted",
   "C61_flag_as_file_partial"
  ],
  "note": "false: `asn1go in -package=mine` writes to a file called -package=mine; proved for the input file"
 },
 {
  "property": "C62",
  "status": "partial",
  "theorems": [
   "C62_message_refuted",
   "C62_message_partial"
  ],
  "note": "false: the message about the output names the input; proved for the input, and that the reason is printed"
 },
 {
  "property": "C63",
  "status": "proved",
  "theorems": [
   "C63_exit_status"
  ],
  "note": "file names are assumed not to be empty strings (an empty name means the standard stream)"
 },
 {
  "property": "C64",
  "status": "proved",
  "theorems": [
   "C64_error_names_token"
  ],
  "note": ""
 },
 {
  "property": "C65",
  "status": "proved",
  "theorems": [
   "C65_error_position",
   "C65_error_token"
  ],
  "note": "a module of the grammar; the parser itself rejects some of them (C51)"
 },
 {
  "property": "C66",
  "status": "proved",
  "theorems": [
   "C66_expected"
  ],
  "note": "a module of the grammar; the parser itself rejects some of them (C51)"
 },
 {
  "property": "C67",
  "status": "partial",
  "theorems": [
   "C67_all_expected_refuted"
  ],
  "note": "false: default reductions made before the error forget the alternatives; the lists are right but not complete (C66)"
 },
 {
  "property": "C68",
  "status": "partial",
  "theorems": [
   "C68_marshal_partial",
   "C68_set_refuted",
   "C68_string_refuted",
   "C68_tag_refuted",
   "C68_time_refuted",
   "C68_default_refuted",
   "C68_real_refuted",
   "C68_number_refuted"
  ],
  "note": "proved for the types of the fragment of Wire.v (SEQUENCE, SEQUENCE OF, SET OF, CHOICE with tagged alternatives, simple types; tags on components); outside of it the encoding is wrong: named SET types, named strings and strings as elements, tags of type assignments and elements, times as elements, defaults that are not numbers, REAL, and CHOICE without tagged alternatives (C77)"
 },
 {
  "property": "C69",
  "status": "partial",
  "theorems": [
   "C69_order_partial"
  ],
  "note": "for what is written outside of exceptions, WITH COMPONENT(S) and extension groups, in every accepted text; components of groups are dropped (C46_group_refuted)"
 },
 {
  "property": "C70",
  "status": "partial",
  "theorems": [
   "C70_sendable_partial",
   "C70_blank_refuted"
  ],
  "note": "proved for the types of the fragment of Wire.v and values without OPTIONAL components that are present with a blank value (0, FALSE, empty string); those cannot be sent, because the fields of optional components are not pointers"
 },
 {
  "property": "C71",
  "status": "partial",
  "theorems": [
   "C71_recursive_partial",
   "C71_exactly_partial",
   "C71_recursive_refuted"
  ],
  "note": "false for ASN.1 types that embed themselves as OPTIONAL component (legal ASN.1, rejected by Go); proved for modules without such types and with type names in ASCII; C71_exactly_partial gives the exact condition on the module, in both directions"
 },
 {
  "property": "C72",
  "status": "proved",
  "theorems": [
   "C72_locality"
  ],
  "note": "further assignments must not define a type GeneralizedTime, which is predefined"
 },
 {
  "property": "C73",
  "status": "proved",
  "theorems": [
   "C73_order",
   "C73_twice_refuted"
  ],
  "note": "C73_twice_refuted: the condition on names is necessary"
 },
 {
  "property": "C74",
  "status": "partial",
  "theorems": [
   "C74_compiles_partial",
   "C74_alias_refuted",
   "C74_real_refuted",
   "C74_components_refuted"
  ],
  "note": "the full statement is false: C74_compiles_partial proves it for modules that satisfy the record 'sound' of GoCheck.v (names distinct and clear of the affixes, values of their types, no type that contains itself or is spelled with itself, asn1 imported when a CHOICE needs it); what is missing are legal modules that are not sound, with one refutation per kind (here and C25, C31, C33, C40, C71)"
 },
 {
  "property": "C75",
  "status": "partial",
  "theorems": [
   "C75_from_text",
   "C75_values_partial",
   "C75_numbers_partial",
   "C75_numbers_refuted"
  ],
  "note": "C75_from_text (nothing is made up, all within int64) is for every accepted text; so is C75_values_partial (none but 0 is lost, signs are kept, REAL numbers included), but it leaves out numbers in exceptions, WITH COMPONENT(S) and extension groups, which are dropped (C75_numbers_refuted); values behind DEFAULT, which C75_from_text includes, are in C75_values_partial those of the derivation (C06). C75_numbers_partial is the same without signs, in terms of the tokens only, for trees without REAL"
 },
 {
  "property": "C76",
  "status": "partial",
  "theorems": [
   "C76_unmarshal_partial",
   "C76_round_trip_partial",
   "C76_set_refuted",
   "C76_strings_refuted",
   "C76_private_refuted",
   "C76_time_refuted",
   "C76_last_refuted",
   "C76_assignment_refuted",
   "C76_default_refuted",
   "C76_optional_refuted",
   "C76_range_refuted"
  ],
  "note": "Proved for the types of the fragment of C68 whose components are clear (WireRead.v: no SET, no explicit PRIVATE tag, no implicitly tagged time, defaults only with int64, what follows an absent component cannot be taken for it) and for the values that can be sent (C70) and fit (ENUMERATED 32 bits, OBJECT IDENTIFIER parts 31 bits): every encoding is read as a Go value for that value, and what is marshalled is unmarshalled again. Missing: everything else; each condition has a refutation with a text, a value and an encoding."
 },
 {
  "property": "C77",
  "status": "partial",
  "theorems": [
   "C77_tagged_choice_kept_partial",
   "C77_interface_exactly",
   "C77_implicit_refuted",
   "C77_string_refuted",
   "C77_structured_refuted",
   "C77_parameters_refuted",
   "C77_list_refuted",
   "C77_absent_refuted",
   "C77_foreign_refuted"
  ],
  "note": "A CHOICE with tagged alternatives keeps every element (as components: C68, C76). For types generated as interface{} the elements that are given back are listed exactly; all others are lost or changed. Refuted in general: implicit tags on a CHOICE, strings other than PrintableString, structured alternatives, NULL or absent parameters of AlgorithmIdentifier, lists of ANY, absent untagged alternatives before another component, elements that are no alternative at all."
 },
 {
  "property": "C78",
  "status": "partial",
  "theorems": [
   "C78_message",
   "C78_no_problem",
   "C78_printed_partial",
   "C78_printed_refuted"
  ],
  "note": "The text is exact for every module. What asn1go prints is that text unless it contains a percent sign (it is used as a format); refuted for -default-integer-repr=%d. fmt's %#v of types and values is a parameter."
 },
 {
  "property": "C79",
  "status": "partial",
  "theorems": [
   "C79_reads",
   "C79_calendar",
   "C79_strict_refuted",
   "C79_accepts_exactly_partial"
  ],
  "note": "Every valid text is read correctly. That all others are rejected is refuted: one-digit hours, several spaces and a fraction are accepted; the accepted texts and their meaning are characterised exactly. time.Parse and time.Date are modelled as of Go 1.16."
 },
 {
  "property": "C80",
  "status": "partial",
  "theorems": [
   "C80_from_text",
   "C80_ranges_partial",
   "C80_ranges_refuted"
  ],
  "note": "C80_from_text (nothing is made up) and C80_ranges_partial (nothing is lost) are for every accepted text; the latter leaves out ranges in exceptions, WITH COMPONENT(S) and extension groups, which are dropped (C80_ranges_refuted)"
 },
 {
  "property": "C81",
  "status": "proved",
  "theorems": [
   "C81_renaming"
  ],
  "note": "renaming of tokens and trees is specified in Rename.v; texts with lexical errors are outside, their messages may quote the name"
 },
 {
  "property": "C82",
  "status": "proved",
  "theorems": [
   "C82_kinds"
  ],
  "note": ""
 },
 {
  "property": "C83",
  "status": "partial",
  "theorems": [
   "C83_from_text_partial",
   "C83_structs_partial",
   "C83_exactly_partial",
   "C83_choice_refuted"
  ],
  "note": "false for types inside a CHOICE with several alternatives, whose structs are not generated (C83_choice_refuted). No struct is made up (C83_from_text_partial), and all are there if none is written in a CHOICE, a constraint or the type of a value (C83_structs_partial). Both are for every accepted text, not counting what is written in exceptions, WITH COMPONENT(S) and extension groups, which are dropped (C46, C69). C83_exactly_partial lists, for every module, exactly which types become structs, in order"
 },
 {
  "property": "C84",
  "status": "partial",
  "theorems": [
   "C84_tags_partial",
   "C84_tags_refuted"
  ],
  "note": "C84_tags_partial is for every accepted text and leaves out only the tags inside exceptions and extension groups, which are dropped (C84_tags_refuted)"
 },
 {
  "property": "C85",
  "status": "proved",
  "theorems": [
   "C85_parts"
  ],
  "note": "for every accepted text; the parts of a text are described by its tokens (Parts.v)"
 },
 {
  "property": "C86",
  "status": "partial",
  "theorems": [
   "C86_contents_partial",
   "C86_contents_refuted"
  ],
  "note": "C86_contents_partial is for every accepted text, assignment by assignment; it leaves out what is written in exceptions, WITH COMPONENT(S) and extension groups, which is dropped (C86_contents_refuted), and the targets of pointers (C06, C07)"
 },
 {
  "property": "C87",
  "status": "partial",
  "theorems": [
   "C87_items_partial",
   "C87_items_refuted"
  ],
  "note": "for everything outside of the four constructs that leave no trace (C56); the lists of a text are those of the derivation tree that the parser follows, read off their tokens; refuted for lists in exceptions. Enumerations with ... are rejected (C51), so the additions of enumerations are always empty for accepted texts"
 },
 {
  "property": "C88",
  "status": "partial",
  "theorems": [
   "C88_types_partial",
   "C88_types_refuted"
  ],
  "note": "for everything outside of the four constructs that leave no trace (C56); a type is compared by how it starts (tag, name or word), what is behind that is the subject of C46, C69, C84 and C87; refuted for types in exceptions"
 },
 {
  "property": "C89",
  "status": "partial",
  "theorems": [
   "C89_values_partial",
   "C89_values_refuted"
  ],
  "note": "for everything outside of the four constructs that leave no trace (C56); a reference to a value is compared by its name, in an object identifier only by being one (its target is the subject of C07); defaults are the subject of C06; refuted for values in exceptions"
 },
 {
  "property": "C90",
  "status": "proved",
  "theorems": [
   "C90_declarations"
  ],
  "note": "From the text to the declarations of the Go file, through lexer, parser and generator. The Go type of each declaration is the subject of C52; how a REAL is written that of C40."
 }
]