{
 "C01": [
  "proved",
  "fits_u32 is a side condition only for a macro built without overflow checks; C01_wrapping_refuted is the counterexample without it."
 ],
 "C02": [
  "proved",
  "The reversal theorem asks that the reversed declaration also has legal names (a reserved name repeated by a later ignored field is only legal in one order)."
 ],
 "C03": [
  "proved",
  "Custom fields: the value decoded from the low bits (C03_custom_roundtrip, C03_set_get). Widths of array fields of integer backed bitfields that are no multiple of 8 are excluded by bf_ok; C03_partial_byte_array_refuted shows why."
 ],
 "C06": [
  "proved",
  "For fields satisfying `checkable`; the excluded cases are C07."
 ],
 "C07": [
  "partial",
  "REFUTED as stated (C07_refuted, C07_array_field_refuted). C07_exact says for every field and value which values are accepted (passes) and that acceptance behaves like the setter and rejection changes nothing; C07_fits_passes: a value that fits is never rejected; C07_holds_iff: the claim holds of an integer, bool or array field exactly if it is 'checkable'."
 ],
 "C08": [
  "proved",
  "C08_lossy_refuted shows that the losslessness condition is needed."
 ],
 "C11": [
  "proved",
  "Default equals new() when custom types encode 0 canonically; C11_default_refuted shows the condition is needed."
 ],
 "C19": [
  "partial",
  "REFUTED for integer backed bitfields (C19_refuted); the exact behaviour is proved in C19_empty_panics, C19_empty_wraps, C19_overflow_panics; array backed empty ranges behave as claimed (C19_array_empty)."
 ],
 "C23": [
  "proved",
  "For bf_ok descriptors. The two C23_*_refuted theorems give accepted declarations outside bf_ok whose accessors panic."
 ],
 "C26": [
  "proved",
  "All custom types lossless; checked setters on `checkable` fields. C64 does without both."
 ],
 "C27": [
  "proved",
  "C27_lossy_refuted: invert_bits changes a read-only field of a lossy custom type."
 ],
 "C31": [
  "proved",
  "C31_accept_iff with C31_accepted_valid is an exact characterisation; the default -2^127 and backing arrays of 2^29 bytes are refutations (macro panics)."
 ],
 "C32": [
  "proved",
  "C32_huge_negative_refuted: literals below -2^127 wrap in the check and are accepted."
 ],
 "C37": [
  "partial",
  "Proved for integer backing; REFUTED for array backing (C37_refuted, C37_array_swapped gives what happens)."
 ],
 "C41": [
  "partial",
  "REFUTED: the documented error does not exist (C41_refuted); C41_truncates says what happens."
 ],
 "C42": [
  "partial",
  "REFUTED as stated (C42_refuted). C42_exact gives the returned number for every signed field: -z-1 iff the field has the full width of its type or reads negative, else the complement of its bits as an unsigned number; invert_x always stores -z-1."
 ],
 "C44": [
  "proved",
  "For every literal of the Rust grammar below 2^128 that the float check does not catch; C44_negative_hex_refuted shows the literals it wrongly catches."
 ],
 "C45": [
  "proved",
  "C45_unsupported_refuted shows why the ignored fields must have supported types."
 ],
 "C48": [
  "proved",
  "C48_reserved_width_refuted: a reserved field with a width and no default gets rw access (readable, still never writable)."
 ],
 "C49": [
  "partial",
  "REFUTED as stated (two witnesses). C49_exact classifies every text: reported as a float, panic of the macro, the literal it spells, or left to rustc (relation 'reads', with an independent definition of numerals, suffixes and signs)."
 ],
 "C50": [
  "proved",
  ""
 ],
 "C51": [
  "partial",
  "False for the crate: C51_features_refuted says that every declaration is parsed as if no feature existed, whatever the user selects, whatever table the bitfields crate had and whatever other crates ask of the macro crate. C51_exact gives the features of the macro crate, C51_mirror_exact says when the features of the bitfields crate agree with them. C51_forwarded_partial: the claim would hold with forwarded features and a dependency without default features; missing: the crate does neither."
 ],
 "C33": [
  "partial",
  "Proved for literals that keep their value in the type rustc gives them where the generated code puts them (literal_kept): every default within i32, every field of at most 32 bits, every field without a setter, every literal whose suffix type holds it. Refuted outside: C33_large_refuted (an unsuffixed default of 2^31 or more on a settable field wider than 32 bits: the generated call 'set_x(LIT as _)' types the literal i32), C33_suffix_refuted (300u8 on a u16 field). C33_signed_identity_refuted: a positive literal above 2^(n-1)-1 is accepted for a signed field and reads back negative (as the statement allows). C33_exact covers every accepted literal: the field holds what rustc makes of the literal reduced to the field's width, and an exact condition for that to be the literal."
 ],
 "C34": [
  "proved",
  "Items, names, uniqueness and builder functions."
 ],
 "C35": [
  "partial",
  "REFUTED in general (C35_refuted lists clashing pairs of accepted names, C35_val_refuted an ignored field named val). C35_exact: for every accepted declaration, the names are distinct iff no field takes the name of a function of the whole bitfield and no two fields clash in one of five listed ways. Special cases: plain names distinct up to case (C35_plain), the builder always (C35_builder)."
 ],
 "C36": [
  "partial",
  "Proved for the clear, set_get and invert groups; REFUTED for the write group (C36_write_refuted), which follows bit_ops alone (C36_write_actual)."
 ],
 "C52": [
  "partial",
  "REFUTED (C52_refuted); C52_visibility is the exact rule."
 ],
 "C53": [
  "partial",
  "Shape proved; the visibility part is REFUTED: ignored fields are always private (C53_visibility_refuted)."
 ],
 "C54": [
  "partial",
  "Proved: no panic, every field once in order, raw bits; equal to the getter for unsigned and byte array fields. REFUTED that the printed number is the field's value for signed fields."
 ],
 "C55": [
  "partial",
  "REFUTED for raw identifiers as field names (C55_raw_refuted). C55_exact: a declaration whose names are Rust identifiers (ordinary or raw, ASCII) generates code iff every field with a raw name has access na and no builder is generated; C55_generates is the case of ordinary names."
 ],
 "C56": [
  "proved",
  ""
 ],
 "C30": [
  "proved",
  "Acceptance (iff), descriptor, from_bits (listed and unlisted values), into_bits, round trip; with different byte orders there is no round trip (C30_mixed_ex)."
 ],
 "C57": [
  "partial",
  "REFUTED as stated: with little endian conversions and a field narrower than the enum the variant is lost (C57_little_refuted). C57_exact: a variant is read back iff its raw value (discriminant in the configured byte order) fits, or it is the fallback and the bits that remain are the raw value of no variant."
 ],
 "C58": [
  "partial",
  "REFUTED as stated: discriminants that are operator expressions are accepted but are not patterns (C58_expression_refuted); bool and byte arrays are accepted as backing types (C58_type_refuted). C58_exact: on the five integer types the match is valid iff every variant other than the base has a literal or path as value."
 ],
 "C59": [
  "partial",
  "REFUTED as stated (C59_builder_refuted, finding 21): a builder without new and with a read-only field does not compile. C59_type_checks gives the exact condition and proves everything else. Rust.v covers names, types, literal inference, mut and const calls; not borrows, moves, visibility, lints."
 ],
 "C60": [
  "proved",
  "Emitted text (Emit.v) run by the semantics of Rust.v. C60_refines needs lossless custom types and complete checks as C26 does; C60_total does not. Histories are restricted to arguments that do not panic (op_ok), C60_step has no such restriction."
 ],
 "C61": [
  "proved",
  "C61_new_returns_literal and C61_new_returns_bool follow the literal from its text to the value returned by running the emitted new() and getter; C61_type_checks: such declarations type check. Hypotheses: rustc accepts the literal where the template puts it (emitted_literal) and the casts keep the value (literal_kept), both shown necessary: C61_negative_refuted, C33_large_refuted, C33_suffix_refuted. isize suffixes are outside Rust.v. C61_literal_value: the type rules of Rust.v and the separate account of C33 agree on every literal."
 ],
 "C62": [
  "proved",
  "Token lists; syn's expression and type parsers are parameters assumed only to consume at least one token from the front. C62_bits, C62_bitfield and C62_bitflag: accepted exactly on the grammar, with the outcome Parser.v / Bitflag.v give for the split declaration. C62_declaration: a whole declaration with token attributes is accepted exactly if it spells a declaration Parser.v accepts, with the same result. C62_errors: no panic, and the error is the first mistake. The documented separators are not enforced (C62_separators_refuted) and a second #[bits] is dropped (C62_second_refuted): findings 42, 43."
 ],
 "C63": [
  "proved",
  "Docs.v models the texts. C63_bits and C63_unambiguous: the numbers read from the text are the field's positions; C63_getter, C63_setter, C63_invert, C63_clear: they are the bits the function acts on. Custom types must be lossless (zero-preserving for clear), because a lossy type ignores bits. C63_announced and C63_error: the word \"error\" is there for the checked functions of every type but bool, which covers every function that can fail. Beyond the claim: the signed getter's text calls the lowest bit the sign bit (C63_sign, C63_sign_bit_refuted, finding 44) and texts of array fields count bits as bytes (C63_unit_refuted, finding 45). A checked function of a full-width field announces an error it never returns (C63_error_refuted, finding 49). C63_verb: the first word; x_inverted is announced like invert_x although it changes nothing (C63_inverted_refuted, finding 50). C63_constants: the texts of the constants."
 ],
 "C64": [
  "proved",
  "C64_refines: any conversion functions, checked setters on any field; C64_lossless: C26's specification is the special case; C64_emitted: the same for the emitted code; C64_settled, C64_bitflag, C64_bitflag_history: idempotent conversions; C64_same_histories: C29 without lossless types. Conversion functions are total (no panic inside user code)."
 ],
 "C65": [
  "partial",
  "The claim is false: the derive of `copy`, on by default, is written std::marker::Copy (C65_no_std_refuted, finding 46). C65_std_iff and C65_bitflag give the exact condition: std is named iff `copy` is on or the storage is boxed. C65_exact and C65_bitflag_exact: the complete list of the paths named and when each is. Paths.v lists paths per item, not per occurrence."
 ],
 "C66": [
  "proved",
  "Outer.v models the emitted items with their attributes. C66_struct, C66_enum: pass-through; C66_fields: same result (also the same error) for field lists that differ only in attributes other than the first #[bits]. The tokens of an attribute are opaque."
 ],
 "C67": [
  "partial",
  "The claim is false in every part (C67_field_refuted, C67_cfg_refuted, C67_generics_refuted, findings 47 and 48). Exactly: C67_struct_exact and C67_enum_exact say for which configurations the rest still resolves; C66_fields: conditions of fields are ignored; C67_dropped: generic parameters and payloads are always dropped. That attribute macros receive inner #[cfg] unevaluated is the Rust reference, not proved."
 ],
 "C68": [
  "proved",
  "Moves.v is the rule for moves (use after move, move in a loop, join of branches) over the emitted program text of Emit.v; types are not consulted, every value that is not visibly a number, boolean or byte array counts as not Copy. C68_moves: all functions of the impl block, the traits and the builder. Default expressions must be closed (standalone). Borrow regions are not modelled."
 ],
 "C22": [
  "proved",
  "C22_exact needs no complete checks: every link is given a value its check lets through. C22_builder is the special case of complete checks. C60_builder_exact is the same on the emitted text."
 ],
 "C69": [
  "proved",
  "DebugText.v transcribes DebugStruct, DebugList and PadAdapter of core::fmt (trusted) on top of the calls of Gen.debug_bf, which C60_debug connects with the emitted text. C69_lines asks that field names have no line break, which holds of identifiers. Formatter options other than # are not modelled."
 ],
 "C70": [
  "proved",
  "C70_update asks for the layout of the repository (general pair first, bitflag pair after it, no start tag repeated inside the sections); C70_repeated_tag computes a README that violates it and grows lib.rs at every run. Texts are lists of Unicode scalar values; reading and writing the files, and a section ending in an unfinished ```rust line, are left out (C70_prelude excludes the latter)."
 ],
 "C71": [
  "proved",
  "About every run of the relation in Ignored.v on the emitted code of Emit.v: values other than ignored fields are forgotten, so both branches of conditions, any number of loop rounds and panics anywhere are included. User default expressions are constants (no variables of the function around them). C71_ex gives runs of set_a, new and build for a concrete bitfield; C71_reset a function that the statement excludes. Functions the user writes on the struct, and derived Clone, are outside."
 ],
 "C72": [
  "partial",
  "False as stated. C72_capture_refuted: `default = mask` on a read-only field, which means nothing at the declaration, is accepted and new() stores the macro's own mask. C72_self_refuted: `default = Self::A_BITS` compiles in the bitfield but not in the builder of a bitfield without new. What holds: C72_scope/C72_exact, the locals in scope at default expressions have exactly ten names, so (C72_partial) an expression using none of them keeps type and meaning; C72_self_exact says exactly when Self is another type. Scope.v computes scopes by the scoping rule of let and of parameters, on the syntax of Rust.v; that the identifiers are resolved at the call site is read off quote! and syn::parse_str."
 ],
 "C73": [
  "partial",
  "False in its last sentence (C73_ignored_refuted, finding 52): with copy = true, the default, ignored fields must be Clone and Copy as well. C73_exact: for every bitfield, list of user attributes and assignment of traits to ignored field types, the trait implementations are accepted iff five conditions on the user's derives and the ignored fields hold; C73_integer and C73_no_derives are the plain cases, C73_bitflag_exact the same for enums, C73_conflicts: four derives that clash with the default switches. Derives.v assumes that a derive path means the standard trait of its last segment; derives of other crates, cfg_attr, and array or generic types whose default() does not parse (finding 38) are outside."
 ],
 "C74": [
  "partial",
  "False as stated in its first sentence (C74_refuted, finding 53): on a beta compiler no function is const. C74_exact says for every bitfield and compiler which functions are const, C74_admitted that among the admitted compilers only beta lacks them, C74_traits that trait functions never are. The second sentence is proved: C74_same (any program of the modelled language: what type checks keeps type and meaning on every compiler), C74_call (every call), C74_accepted (every accepted declaration: methods, trait functions and builder; the converse, that a function which type checks on beta does so elsewhere, is not claimed for builders that C59 rejects). The model of a compiler is its channel and minor version; other language changes between compilers are outside."
 ]
}