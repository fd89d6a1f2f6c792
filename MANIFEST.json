{"claims": [
{"property": "C01", "status": "proved", "theorems": ["C01_partition", "C01_checked", "C01_descriptor_ok", "C01_wrapping_refuted"], "note": "fits_u32 is a side condition only for a macro built without overflow checks; C01_wrapping_refuted is the counterexample without it."},
{"property": "C02", "status": "proved", "theorems": ["C02_offsets", "C02_fields_declared", "C02_order", "C02_msb_is_reversed_lsb"], "note": "The reversal theorem asks that the reversed declaration also has legal names (a reserved name repeated by a later ignored field is only legal in one order)."},
{"property": "C03", "status": "proved", "theorems": ["C03_set_get", "C03_set_get_lossless", "C03_representable", "C03_custom_roundtrip", "C03_partial_byte_array_refuted"], "note": "Custom fields: the value decoded from the low bits (C03_custom_roundtrip, C03_set_get). Widths of array fields of integer backed bitfields that are no multiple of 8 are excluded by bf_ok; C03_partial_byte_array_refuted shows why."},
{"property": "C04", "status": "proved", "theorems": ["C04_set_other_bits", "C04_set_other_fields"], "note": ""},
{"property": "C05", "status": "proved", "theorems": ["C05_get_is_decode", "C05_get_depends_only", "C05_signed_range", "C05_unsigned_range"], "note": ""},
{"property": "C06", "status": "proved", "theorems": ["C06_checked_set", "C06_checked_set_get"], "note": "For fields satisfying `checkable`; the excluded cases are C07."},
{"property": "C07", "status": "partial", "theorems": ["C07_exact", "C07_fits_passes", "C07_holds_iff", "C07_refuted", "C07_array_field_refuted"], "note": "REFUTED as stated (C07_refuted, C07_array_field_refuted). C07_exact says for every field and value which values are accepted (passes) and that acceptance behaves like the setter and rejection changes nothing; C07_fits_passes: a value that fits is never rejected; C07_holds_iff: the claim holds of an integer, bool or array field exactly if it is 'checkable'."},
{"property": "C08", "status": "proved", "theorems": ["C08_into_from", "C08_from_into", "C08_fieldwise", "C08_lossy_refuted"], "note": "C08_lossy_refuted shows that the losslessness condition is needed."},
{"property": "C09", "status": "proved", "theorems": ["C09_reversal_involutive", "C09_from_le_be", "C09_into_le_be", "C09_identity", "C09_configured"], "note": ""},
{"property": "C10", "status": "proved", "theorems": ["C10_from_with_defaults"], "note": ""},
{"property": "C11", "status": "proved", "theorems": ["C11_new", "C11_new_without_defaults", "C11_default_trait", "C11_builder_new", "C11_default_refuted"], "note": "Default equals new() when custom types encode 0 canonically; C11_default_refuted shows the condition is needed."},
{"property": "C12", "status": "proved", "theorems": ["C12_clear_all", "C12_clear_field", "C12_clear_field_to_default"], "note": ""},
{"property": "C13", "status": "proved", "theorems": ["C13_write", "C13_write_protected_bits"], "note": ""},
{"property": "C14", "status": "proved", "theorems": ["C14_write_defaults", "C14_write_with_defaults"], "note": ""},
{"property": "C15", "status": "proved", "theorems": ["C15_set_bit"], "note": ""},
{"property": "C16", "status": "proved", "theorems": ["C16_get_bit"], "note": ""},
{"property": "C17", "status": "proved", "theorems": ["C17_set_range", "C17_checked_set_range", "C17_out_of_range"], "note": ""},
{"property": "C18", "status": "proved", "theorems": ["C18_get_range", "C18_checked_get_range", "C18_out_of_range"], "note": ""},
{"property": "C19", "status": "partial", "theorems": ["C19_array_empty", "C19_empty_panics", "C19_empty_wraps", "C19_overflow_panics", "C19_refuted"], "note": "REFUTED for integer backed bitfields (C19_refuted); the exact behaviour is proved in C19_empty_panics, C19_empty_wraps, C19_overflow_panics; array backed empty ranges behave as claimed (C19_array_empty)."},
{"property": "C20", "status": "proved", "theorems": ["C20_invert_bits", "C20_invert_twice"], "note": ""},
{"property": "C21", "status": "proved", "theorems": ["C21_invert_field", "C21_inverted_unsigned", "C21_invert_is_set_inverted", "C21_invert_twice"], "note": ""},
{"property": "C22", "status": "proved", "theorems": ["C22_exact", "C22_builder", "C22_fails_iff", "C22_other_fields"], "note": "C22_exact needs no complete checks: every link is given a value its check lets through. C22_builder is the special case of complete checks. C60_builder_exact is the same on the emitted text."},
{"property": "C23", "status": "proved", "theorems": ["C23_no_panic", "C23_wide_array_refuted", "C23_wide_custom_refuted"], "note": "For bf_ok descriptors. The two C23_*_refuted theorems give accepted declarations outside bf_ok whose accessors panic."},
{"property": "C24", "status": "proved", "theorems": ["C24_modes_agree"], "note": ""},
{"property": "C25", "status": "proved", "theorems": ["C25_storage_in_range", "C25_from_constructors"], "note": ""},
{"property": "C26", "status": "proved", "theorems": ["C26_refines", "C26_same_effect"], "note": "All custom types lossless; checked setters on `checkable` fields. C64 does without both."},
{"property": "C27", "status": "proved", "theorems": ["C27_protected", "C27_protected_bits", "C27_lossy_refuted"], "note": "C27_lossy_refuted: invert_bits changes a read-only field of a lossy custom type."},
{"property": "C28", "status": "proved", "theorems": ["C28_from_slice", "C28_checked_from_slice", "C28_into_slice"], "note": ""},
{"property": "C29", "status": "proved", "theorems": ["C29_same_histories", "C29_into_bytes", "C29_from_bytes"], "note": ""},
{"property": "C30", "status": "proved", "theorems": ["C30_accepted", "C30_descriptor", "C30_from_bits", "C30_into_bits", "C30_round_trip"], "note": "Acceptance (iff), descriptor, from_bits (listed and unlisted values), into_bits, round trip; with different byte orders there is no round trip (C30_mixed_ex)."},
{"property": "C31", "status": "proved", "theorems": ["C31_accept_iff", "C31_wrong_sum_rejected", "C31_accepted_valid", "C31_i128_min_refuted", "C31_huge_refuted"], "note": "C31_accept_iff with C31_accepted_valid is an exact characterisation; the default -2^127 and backing arrays of 2^29 bytes are refutations (macro panics)."},
{"property": "C32", "status": "proved", "theorems": ["C32_zero_width", "C32_too_wide", "C32_custom_without_width", "C32_unsupported_type", "C32_bad_attribute", "C32_duplicate_name", "C32_reserved_access", "C32_default_out_of_range", "C32_huge_negative_refuted"], "note": "C32_huge_negative_refuted: literals below -2^127 wrap in the check and are accepted."},
{"property": "C33", "status": "partial", "theorems": ["C33_int_default_partial", "C33_bool_default", "C33_large_refuted", "C33_suffix_refuted", "C33_signed_identity_refuted", "C33_exact"], "note": "Proved for literals that keep their value in the type rustc gives them where the generated code puts them (literal_kept): every default within i32, every field of at most 32 bits, every field without a setter, every literal whose suffix type holds it. Refuted outside: C33_large_refuted (an unsuffixed default of 2^31 or more on a settable field wider than 32 bits: the generated call 'set_x(LIT as _)' types the literal i32), C33_suffix_refuted (300u8 on a u16 field). C33_signed_identity_refuted: a positive literal above 2^(n-1)-1 is accepted for a signed field and reads back negative (as the statement allows). C33_exact covers every accepted literal: the field holds what rustc makes of the literal reduced to the field's width, and an exact condition for that to be the literal."},
{"property": "C34", "status": "proved", "theorems": ["C34_items", "C34_names", "C34_unique", "C34_builder"], "note": "Items, names, uniqueness and builder functions."},
{"property": "C35", "status": "partial", "theorems": ["C35_exact", "C35_plain", "C35_builder", "C35_refuted", "C35_val_refuted"], "note": "REFUTED in general (C35_refuted lists clashing pairs of accepted names, C35_val_refuted an ignored field named val). C35_exact: for every accepted declaration, the names are distinct iff no field takes the name of a function of the whole bitfield and no two fields clash in one of five listed ways. Special cases: plain names distinct up to case (C35_plain), the builder always (C35_builder)."},
{"property": "C36", "status": "partial", "theorems": ["C36_groups", "C36_write_actual", "C36_write_refuted"], "note": "Proved for the clear, set_get and invert groups; REFUTED for the write group (C36_write_refuted), which follows bit_ops alone (C36_write_actual)."},
{"property": "C37", "status": "partial", "theorems": ["C37_integer", "C37_array_swapped", "C37_refuted"], "note": "Proved for integer backing; REFUTED for array backing (C37_refuted, C37_array_swapped gives what happens)."},
{"property": "C38", "status": "proved", "theorems": ["C38_nested_lossless", "C38_nested_set_get"], "note": ""},
{"property": "C39", "status": "proved", "theorems": ["C39_set_range_is_setter", "C39_get_range_is_getter"], "note": ""},
{"property": "C40", "status": "proved", "theorems": ["C40_trait_from", "C40_trait_into"], "note": ""},
{"property": "C41", "status": "partial", "theorems": ["C41_refuted", "C41_truncates"], "note": "REFUTED: the documented error does not exist (C41_refuted); C41_truncates says what happens."},
{"property": "C42", "status": "partial", "theorems": ["C42_exact", "C42_refuted", "C42_signed_partial"], "note": "REFUTED as stated (C42_refuted). C42_exact gives the returned number for every signed field: -z-1 iff the field has the full width of its type or reads negative, else the complement of its bits as an unsigned number; invert_x always stores -z-1."},
{"property": "C43", "status": "proved", "theorems": ["C43_set_commute", "C43_set_overwrite", "C43_set_get_same"], "note": ""},
{"property": "C44", "status": "proved", "theorems": ["C44_literal_value", "C44_bool_literals", "C44_negative_hex_refuted"], "note": "For every literal of the Rust grammar below 2^128 that the float check does not catch; C44_negative_hex_refuted shows the literals it wrongly catches."},
{"property": "C45", "status": "proved", "theorems": ["C45_remove_ignored", "C45_add_ignored", "C45_same_layout", "C45_unsupported_refuted"], "note": "C45_unsupported_refuted shows why the ignored fields must have supported types."},
{"property": "C46", "status": "proved", "theorems": ["C46_reserved"], "note": ""},
{"property": "C47", "status": "proved", "theorems": ["C47_fields_determine", "C47_getters_determine"], "note": ""},
{"property": "C48", "status": "proved", "theorems": ["C48_nonreserved", "C48_reserved", "C48_reserved_bits", "C48_reserved_width_refuted"], "note": "C48_reserved_width_refuted: a reserved field with a width and no default gets rw access (readable, still never writable)."},
{"property": "C49", "status": "partial", "theorems": ["C49_exact", "C49_prefixed_expression_refuted", "C49_identifier_refuted", "C49_expression_partial"], "note": "REFUTED as stated (two witnesses). C49_exact classifies every text: reported as a float, panic of the macro, the literal it spells, or left to rustc (relation 'reads', with an independent definition of numerals, suffixes and signs)."},
{"property": "C50", "status": "proved", "theorems": ["C50_accepted", "C50_values"], "note": ""},
{"property": "C51", "status": "partial", "theorems": ["C51_features_refuted", "C51_exact", "C51_mirror_exact", "C51_forwarded_partial"], "note": "False for the crate: C51_features_refuted says that every declaration is parsed as if no feature existed, whatever the user selects, whatever table the bitfields crate had and whatever other crates ask of the macro crate. C51_exact gives the features of the macro crate, C51_mirror_exact says when the features of the bitfields crate agree with them. C51_forwarded_partial: the claim would hold with forwarded features and a dependency without default features; missing: the crate does neither."},
{"property": "C52", "status": "partial", "theorems": ["C52_visibility", "C52_refuted"], "note": "REFUTED (C52_refuted); C52_visibility is the exact rule."},
{"property": "C53", "status": "partial", "theorems": ["C53_struct", "C53_visibility_refuted"], "note": "Shape proved; the visibility part is REFUTED: ignored fields are always private (C53_visibility_refuted)."},
{"property": "C54", "status": "partial", "theorems": ["C54_entries", "C54_unsigned", "C54_array", "C54_values_refuted", "C54_unreadable_refuted"], "note": "Proved: no panic, every field once in order, raw bits; equal to the getter for unsigned and byte array fields. REFUTED that the printed number is the field's value for signed fields."},
{"property": "C55", "status": "partial", "theorems": ["C55_generates", "C55_raw_refuted", "C55_exact"], "note": "REFUTED for raw identifiers as field names (C55_raw_refuted). C55_exact: a declaration whose names are Rust identifiers (ordinary or raw, ASCII) generates code iff every field with a raw name has access na and no builder is generated; C55_generates is the case of ordinary names."},
{"property": "C56", "status": "proved", "theorems": ["C56_functions", "C56_traits"], "note": ""},
{"property": "C57", "status": "partial", "theorems": ["C57_set_get", "C57_set_get_big", "C57_unlisted", "C57_lossless", "C57_little_refuted", "C57_exact"], "note": "REFUTED as stated: with little endian conversions and a field narrower than the enum the variant is lost (C57_little_refuted). C57_exact: a variant is read back iff its raw value (discriminant in the configured byte order) fits, or it is the fallback and the bits that remain are the raw value of no variant."},
{"property": "C58", "status": "partial", "theorems": ["C58_match_partial", "C58_expression_refuted", "C58_type_refuted", "C58_exact"], "note": "REFUTED as stated: discriminants that are operator expressions are accepted but are not patterns (C58_expression_refuted); bool and byte arrays are accepted as backing types (C58_type_refuted). C58_exact: on the five integer types the match is valid iff every variant other than the base has a literal or path as value."},
{"property": "C59", "status": "partial", "theorems": ["C59_type_checks", "C59_builder_refuted"], "note": "REFUTED as stated (C59_builder_refuted, finding 21): a builder without new and with a read-only field does not compile. C59_type_checks gives the exact condition and proves everything else. Rust.v covers names, types, literal inference, mut and const calls; not borrows, moves, visibility, lints."},
{"property": "C60", "status": "proved", "theorems": ["C60_step", "C60_refines", "C60_total", "C60_builder_exact", "C60_builder", "C60_from_slice", "C60_into_slice", "C60_debug"], "note": "Emitted text (Emit.v) run by the semantics of Rust.v. C60_refines needs lossless custom types and complete checks as C26 does; C60_total does not. Histories are restricted to arguments that do not panic (op_ok), C60_step has no such restriction."},
{"property": "C61", "status": "proved", "theorems": ["C61_literal_value", "C61_new_returns_literal", "C61_new_returns_bool", "C61_type_checks", "C61_negative_refuted"], "note": "C61_new_returns_literal and C61_new_returns_bool follow the literal from its text to the value returned by running the emitted new() and getter; C61_type_checks: such declarations type check. Hypotheses: rustc accepts the literal where the template puts it (emitted_literal) and the casts keep the value (literal_kept), both shown necessary: C61_negative_refuted, C33_large_refuted, C33_suffix_refuted. isize suffixes are outside Rust.v. C61_literal_value: the type rules of Rust.v and the separate account of C33 agree on every literal."},
{"property": "C62", "status": "proved", "theorems": ["C62_arguments", "C62_bits", "C62_first_attribute", "C62_bitfield", "C62_bitflag", "C62_errors", "C62_declaration", "C62_separators_refuted", "C62_second_refuted"], "note": "Token lists; syn's expression and type parsers are parameters assumed only to consume at least one token from the front. C62_bits, C62_bitfield and C62_bitflag: accepted exactly on the grammar, with the outcome Parser.v / Bitflag.v give for the split declaration. C62_declaration: a whole declaration with token attributes is accepted exactly if it spells a declaration Parser.v accepts, with the same result. C62_errors: no panic, and the error is the first mistake. The documented separators are not enforced (C62_separators_refuted) and a second #[bits] is dropped (C62_second_refuted): findings 42, 43."},
{"property": "C63", "status": "proved", "theorems": ["C63_unambiguous", "C63_bits", "C63_getter", "C63_setter", "C63_invert", "C63_clear", "C63_announced", "C63_error", "C63_error_refuted", "C63_verb", "C63_inverted_refuted", "C63_constants", "C63_sign", "C63_sign_bit_refuted", "C63_unit_refuted"], "note": "Docs.v models the texts. C63_bits and C63_unambiguous: the numbers read from the text are the field's positions; C63_getter, C63_setter, C63_invert, C63_clear: they are the bits the function acts on. Custom types must be lossless (zero-preserving for clear), because a lossy type ignores bits. C63_announced and C63_error: the word \"error\" is there for the checked functions of every type but bool, which covers every function that can fail. Beyond the claim: the signed getter's text calls the lowest bit the sign bit (C63_sign, C63_sign_bit_refuted, finding 44) and texts of array fields count bits as bytes (C63_unit_refuted, finding 45). A checked function of a full-width field announces an error it never returns (C63_error_refuted, finding 49). C63_verb: the first word; x_inverted is announced like invert_x although it changes nothing (C63_inverted_refuted, finding 50). C63_constants: the texts of the constants."},
{"property": "C64", "status": "proved", "theorems": ["C64_emitted", "C64_refines", "C64_lossless", "C64_settled", "C64_bitflag", "C64_bitflag_history", "C64_same_histories"], "note": "C64_refines: any conversion functions, checked setters on any field; C64_lossless: C26's specification is the special case; C64_emitted: the same for the emitted code; C64_settled, C64_bitflag, C64_bitflag_history: idempotent conversions; C64_same_histories: C29 without lossless types. Conversion functions are total (no panic inside user code)."},
{"property": "C65", "status": "partial", "theorems": ["C65_std_iff", "C65_exact", "C65_bitflag", "C65_bitflag_exact", "C65_no_std_refuted"], "note": "The claim is false: the derive of `copy`, on by default, is written std::marker::Copy (C65_no_std_refuted, finding 46). C65_std_iff and C65_bitflag give the exact condition: std is named iff `copy` is on or the storage is boxed. C65_exact and C65_bitflag_exact: the complete list of the paths named and when each is. Paths.v lists paths per item, not per occurrence."},
{"property": "C66", "status": "proved", "theorems": ["C66_struct", "C66_enum", "C66_fields"], "note": "Outer.v models the emitted items with their attributes. C66_struct, C66_enum: pass-through; C66_fields: same result (also the same error) for field lists that differ only in attributes other than the first #[bits]. The tokens of an attribute are opaque."},
{"property": "C67", "status": "partial", "theorems": ["C67_struct_exact", "C67_enum_exact", "C67_field_refuted", "C67_cfg_refuted", "C67_dropped", "C67_generics_refuted"], "note": "The claim is false in every part (C67_field_refuted, C67_cfg_refuted, C67_generics_refuted, findings 47 and 48). Exactly: C67_struct_exact and C67_enum_exact say for which configurations the rest still resolves; C66_fields: conditions of fields are ignored; C67_dropped: generic parameters and payloads are always dropped. That attribute macros receive inner #[cfg] unevaluated is the Rust reference, not proved."},
{"property": "C68", "status": "proved", "theorems": ["C68_moves"], "note": "Moves.v is the rule for moves (use after move, move in a loop, join of branches) over the emitted program text of Emit.v; types are not consulted, every value that is not visibly a number, boolean or byte array counts as not Copy. C68_moves: all functions of the impl block, the traits and the builder. Default expressions must be closed (standalone). Borrow regions are not modelled."},
{"property": "C69", "status": "proved", "theorems": ["C69_injective", "C69_plain", "C69_lines"], "note": "DebugText.v transcribes DebugStruct, DebugList and PadAdapter of core::fmt (trusted) on top of the calls of Gen.debug_bf, which C60_debug connects with the emitted text. C69_lines asks that field names have no line break, which holds of identifiers. Formatter options other than # are not modelled."},
{"property": "C70", "status": "proved", "theorems": ["C70_local", "C70_idempotent", "C70_comments", "C70_prelude", "C70_section", "C70_update"], "note": "C70_update asks for the layout of the repository (general pair first, bitflag pair after it, no start tag repeated inside the sections); C70_repeated_tag computes a README that violates it and grows lib.rs at every run. Texts are lists of Unicode scalar values; reading and writing the files, and a section ending in an unfinished ```rust line, are left out (C70_prelude excludes the latter)."},
{"property": "C71", "status": "proved", "theorems": ["C71_ignored"], "note": "About every run of the relation in Ignored.v on the emitted code of Emit.v: values other than ignored fields are forgotten, so both branches of conditions, any number of loop rounds and panics anywhere are included. User default expressions are constants (no variables of the function around them). C71_ex gives runs of set_a, new and build for a concrete bitfield; C71_reset a function that the statement excludes. Functions the user writes on the struct, and derived Clone, are outside."},
{"property": "C72", "status": "partial", "theorems": ["C72_scope", "C72_partial", "C72_exact", "C72_self_exact", "C72_capture_refuted", "C72_self_refuted"], "note": "False as stated. C72_capture_refuted: `default = mask` on a read-only field, which means nothing at the declaration, is accepted and new() stores the macro's own mask. C72_self_refuted: `default = Self::A_BITS` compiles in the bitfield but not in the builder of a bitfield without new. What holds: C72_scope/C72_exact, the locals in scope at default expressions have exactly ten names, so (C72_partial) an expression using none of them keeps type and meaning; C72_self_exact says exactly when Self is another type. Scope.v computes scopes by the scoping rule of let and of parameters, on the syntax of Rust.v; that the identifiers are resolved at the call site is read off quote! and syn::parse_str."},
{"property": "C73", "status": "partial", "theorems": ["C73_exact", "C73_integer", "C73_no_derives", "C73_bitflag_exact", "C73_conflicts", "C73_ignored_refuted"], "note": "False in its last sentence (C73_ignored_refuted, finding 52): with copy = true, the default, ignored fields must be Clone and Copy as well. C73_exact: for every bitfield, list of user attributes and assignment of traits to ignored field types, the trait implementations are accepted iff five conditions on the user's derives and the ignored fields hold; C73_integer and C73_no_derives are the plain cases, C73_bitflag_exact the same for enums, C73_conflicts: four derives that clash with the default switches. Derives.v assumes that a derive path means the standard trait of its last segment; derives of other crates, cfg_attr, and array or generic types whose default() does not parse (finding 38) are outside."},
{"property": "C74", "status": "partial", "theorems": ["C74_same", "C74_call", "C74_accepted", "C74_exact", "C74_traits", "C74_admitted", "C74_refuted"], "note": "False as stated in its first sentence (C74_refuted, finding 53): on a beta compiler no function is const. C74_exact says for every bitfield and compiler which functions are const, C74_admitted that among the admitted compilers only beta lacks them, C74_traits that trait functions never are. The second sentence is proved: C74_same (any program of the modelled language: what type checks keeps type and meaning on every compiler), C74_call (every call), C74_accepted (every accepted declaration: methods, trait functions and builder; the converse, that a function which type checks on beta does so elsewhere, is not claimed for builders that C59 rejects). The model of a compiler is its channel and minor version; other language changes between compilers are outside."}
]}
