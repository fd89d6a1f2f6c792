{"id": "C01", "title": "Accepted fields partition the backing storage", "statement": "If the #[bitfield] macro accepts a struct whose backing type has S bits, then every bit position 0..S belongs to exactly one non-ignored field (given by its offset and width), every field is at least 1 bit wide, and no field extends past S.", "quantifier": "for every struct declaration (any number of fields, types, attributes, order) accepted by the macro, and every bit position", "why_tests_cant": "The set of declarations is infinite; tests only exercise a few dozen hand written structs, and overlap would only show for particular width combinations.", "anchors": ["bitfields_impl/src/parsing/bitfields/bitfield_parser.rs: calculate_field_offset, check_fields_fit_in_bitfield_type, parse_fields"]}
{"id": "C02", "title": "Field offsets follow the declared order", "statement": "With order = lsb a field's OFFSET constant is the sum of the widths of the non-ignored fields declared before it; with order = msb it is S minus the sum of the widths up to and including it. Declaring with msb gives the same layout as declaring the fields in reverse order with lsb.", "quantifier": "for every accepted declaration and every field in it", "why_tests_cant": "Needs all field lists; a test fixes one list.", "anchors": ["bitfields_impl/src/parsing/bitfields/bitfield_parser.rs: calculate_field_offset", "bitfields_impl/src/generating/bitfield/features/field_constants_feature.rs"]}
{"id": "C03", "title": "Setter then getter returns the written value", "statement": "After set_x(v) the getter x() returns v whenever v is representable in the field's n bits (two's complement for signed fields); otherwise it returns v reduced modulo 2^n (sign extended for signed fields). bool fields return exactly the bool, custom fields return the value decoded from its n low bits, array fields return the bytes covered by the field.", "quantifier": "for every accepted bitfield (integer or array backed), every readable and writable field, every value of the field's type and every prior state, in debug and release arithmetic", "why_tests_cant": "2^128 values times 2^128 states times all layouts.", "anchors": ["bitfields_impl/src/generating/bitfield/features/field_setters_feature.rs: generate_field_setters_functions", "bitfields_impl/src/generating/bitfield/features/field_getters_feature.rs: generate_field_getters_feature_tokens", "bitfields_impl/src/generating/bitfield/features/common/generator_helper.rs: generate_setting_field_from_variable_tokens, generate_sign_extend_bit_operation_tokens"]}
{"id": "C04", "title": "A setter changes only its own field", "statement": "set_x(v) leaves every bit outside field x unchanged, so every other field's getter returns what it returned before.", "quantifier": "for every accepted bitfield, every pair of distinct fields, every value and every prior state", "why_tests_cant": "Interference only shows for specific neighbouring offsets / values; tests sample a handful.", "anchors": ["bitfields_impl/src/generating/bitfield/features/common/generator_helper.rs: generate_setting_field_without_setter_tokens"]}
{"id": "C05", "title": "A getter depends on exactly the bits of its field", "statement": "x() equals the n bits at the field's offset, zero extended (unsigned), sign extended (signed), compared with zero (bool), decoded (custom) or split into bytes (array); two states agreeing on these bits give the same result, and signed results lie in [-2^(n-1), 2^(n-1)).", "quantifier": "for every accepted bitfield, readable field and state", "why_tests_cant": "All states and layouts cannot be enumerated.", "anchors": ["bitfields_impl/src/generating/bitfield/features/field_getters_feature.rs", "bitfields_impl/src/generating/bitfield/features/common/generator_helper.rs: generate_extract_field_bits_from_source_into_variable_tokens, generate_sign_extend_bit_operation_tokens"]}
{"id": "C06", "title": "Checked setter accepts exactly the representable values", "statement": "checked_set_x(v) returns Ok and behaves as set_x(v) exactly when v fits in the field's n bits, and otherwise returns Err(\"Value is too big to fit within the field bits.\") and leaves the bitfield unchanged.", "quantifier": "for every accepted bitfield, every writable integer field whose Rust type is not wider than an integer backing type (any integer field for array backed), every value, every state", "why_tests_cant": "Boundary values exist per width and sign for all widths 1..128; tests sample a few widths.", "anchors": ["bitfields_impl/src/generating/bitfield/features/field_setters_feature.rs", "bitfields_impl/src/generating/bitfield/features/common/generator_helper.rs: generate_bit_size_check_tokens, generate_signed_bit_size_check_tokens"]}
{"id": "C07", "title": "Checked setter on a field type wider than the backing integer", "statement": "checked_set_x(v) should reject every v that does not fit in n bits even when the field's type is wider than the backing integer (for example a 4-bit u32 field of a u8 bitfield).", "quantifier": "for every accepted integer-backed bitfield, field and value", "why_tests_cant": "Only values that vanish under the narrowing cast show the problem.", "anchors": ["bitfields_impl/src/generating/bitfield/features/common/generator_helper.rs: generate_extract_field_bits_from_source_into_variable_tokens (cast before check), generate_bit_size_check_tokens"]}
{"id": "C08", "title": "from_bits and into_bits are inverse", "statement": "into_bits(from_bits(b)) = b (same for from_bytes/into_bytes and the _le_/_be_ pairs, and the configured endians when equal), and from_be_bits(x.into_be_bits()) has the same bits as x, provided custom field types decode and re-encode every n-bit value losslessly and array fields of integer backed bitfields cover whole bytes.", "quantifier": "for every accepted bitfield meeting the stated side conditions and every raw value", "why_tests_cant": "2^S raw values for every layout.", "anchors": ["bitfields_impl/src/generating/bitfield/features/from_into_bits_feature.rs", "bitfields_impl/src/generating/bitfield/features/common/generator_helper.rs: generate_extract_all_field_bits_from_variable_into_variable_tokens_and_set_fields_tokens"]}
{"id": "C09", "title": "Little-endian conversions are byte reversals of big-endian ones", "statement": "from_le_bits(b) equals from_be_bits of b with its bytes reversed; into_le_bits is into_be_bits with its bytes reversed (likewise for bytes); the unsuffixed functions coincide with the variant selected by from_endian / into_endian; byte reversal is an involution.", "quantifier": "for every accepted bitfield, endian configuration, raw value and state", "why_tests_cant": "Byte reversal over arrays of arbitrary length (in-place xor swap loop) and all integer widths.", "anchors": ["bitfields_impl/src/generating/bitfield/features/from_into_bits_feature.rs", "bitfields_impl/src/generating/common/endian_conversion.rs"]}
{"id": "C10", "title": "from_*_with_defaults applies defaults over the given bits", "statement": "from_bits_with_defaults(b) equals from_bits(b) on fields without default and holds the default on fields with one (RO, reserved and inaccessible fields included).", "quantifier": "for every accepted bitfield and raw value", "why_tests_cant": "All raw values/layout combinations.", "anchors": ["bitfields_impl/src/generating/bitfield/features/from_into_bits_feature.rs", "bitfields_impl/src/generating/bitfield/features/common/generator_helper.rs: generate_setting_fields_to_default_value_tokens_list"]}
{"id": "C11", "title": "new / new_without_defaults / Default initialise every field", "statement": "new() and Default::default() give every field with a default that default and every other field the zero encoding; new_without_defaults() gives only reserved fields their defaults and every other field the zero encoding. The result does not depend on whether the new feature is enabled (builder and Default inline the same logic).", "quantifier": "for every accepted bitfield", "why_tests_cant": "All declarations.", "anchors": ["bitfields_impl/src/generating/bitfield/features/new_functions_feature.rs", "bitfields_impl/src/generating/bitfield/features/default_trait_feature.rs", "bitfields_impl/src/generating/bitfield/features/common/generator_helper.rs: generate_new_function_implementation_tokens"]}
{"id": "C12", "title": "clear operations", "statement": "clear_bits()/clear_bytes() yields the same bits as new_without_defaults() from any state; the _with_defaults form yields the bits of new(); clear_x() zeroes exactly field x; clear_x_to_default() sets exactly field x to its default.", "quantifier": "for every accepted bitfield and every prior state", "why_tests_cant": "All states.", "anchors": ["bitfields_impl/src/generating/bitfield/features/clear_bit_ops_feature.rs", "bitfields_impl/src/generating/bitfield/features/common/generator_helper.rs: generate_setting_field_to_zero_tokens, generate_setting_field_to_default_tokens"]}
{"id": "C13", "title": "write_bits replaces exactly the writable fields", "statement": "write_bits(b) (after endian conversion) gives every writable field the corresponding bits of b and leaves every read-only, inaccessible and reserved bit unchanged.", "quantifier": "for every accepted bitfield with lossless custom types, every raw value and prior state", "why_tests_cant": "All raw values, states and access layouts.", "anchors": ["bitfields_impl/src/generating/bitfield/features/write_bit_ops_feature.rs"]}
{"id": "C14", "title": "write_defaults / write_*_with_defaults", "statement": "write_defaults() sets each field having a default to it and changes nothing else; write_*_with_defaults(b) equals write_*(b) followed by write_defaults().", "quantifier": "for every accepted bitfield, raw value and prior state", "why_tests_cant": "All states.", "anchors": ["bitfields_impl/src/generating/bitfield/features/write_bit_ops_feature.rs"]}
{"id": "C15", "title": "set_bit / checked_set_bit", "statement": "set_bit(i, b) sets bit i to b when i < S and bit i belongs to a writable field and otherwise changes nothing; checked_set_bit performs the same and returns Ok exactly in the first case, Err with the offset message when i >= S and the non-writable message otherwise.", "quantifier": "for every accepted bitfield, u32 offset, bit value and state", "why_tests_cant": "2^32 offsets and all layouts.", "anchors": ["bitfields_impl/src/generating/bitfield/features/set_get_bit_ops_feature.rs: generate_set_bit_ops_tokens, generate_field_bits_access_guard_tokens"]}
{"id": "C16", "title": "get_bit / checked_get_bit", "statement": "get_bit(i) is bit i when i < S and bit i belongs to a field with read access, else false; checked_get_bit returns Ok of that bit in the first case and otherwise Err with the offset or non-readable message. Reads never change the bitfield.", "quantifier": "for every accepted bitfield, u32 offset and state", "why_tests_cant": "2^32 offsets and all layouts.", "anchors": ["bitfields_impl/src/generating/bitfield/features/set_get_bit_ops_feature.rs: generate_get_bit_ops_tokens"]}
{"id": "C17", "title": "Range writes", "statement": "For 1 <= len and offset+len <= S, set_bits_range(offset,len,v) writes the low len bits of v to the writable bits among offset..offset+len and nothing else; checked_set_bits_range does so and returns Ok iff all bits of the range are writable, otherwise Err and unchanged. Same for set_bytes_range (there also for len = 0).", "quantifier": "for every accepted bitfield, offset, length, value and state with offset+length < 2^32", "why_tests_cant": "Unbounded product of offsets, lengths, values and access masks.", "anchors": ["bitfields_impl/src/generating/bitfield/features/set_get_bit_ops_feature.rs"]}
{"id": "C18", "title": "Range reads", "statement": "For 1 <= len and offset+len <= S, get_bits_range(offset,len) returns the bits of the range shifted to bit 0 with unreadable bits forced to 0; the checked form returns Ok of the raw bits iff all bits of the range are readable. Out of range calls return 0 / the documented Err. Same for get_bytes_range.", "quantifier": "for every accepted bitfield, offset, length and state with offset+length < 2^32", "why_tests_cant": "Unbounded product of offsets, lengths and access masks.", "anchors": ["bitfields_impl/src/generating/bitfield/features/set_get_bit_ops_feature.rs"]}
{"id": "C19", "title": "Zero-length and overflowing ranges of integer backed bitfields", "statement": "A range operation with len = 0 should be a no-op / return 0, and a range whose offset+len overflows u32 should be treated as out of range, never panic, in debug and release builds.", "quantifier": "for every accepted integer-backed bitfield, offset and length (any u32)", "why_tests_cant": "Only the corner arguments show the failure and behaviour differs between build profiles.", "anchors": ["bitfields_impl/src/generating/bitfield/features/set_get_bit_ops_feature.rs: generate_check_offset_and_length_bitfield_range_tokens"]}
{"id": "C20", "title": "invert_bits flips exactly the writable bits", "statement": "invert_bits()/invert_bytes() flips every bit of every writable field and leaves all other bits unchanged (custom types lossless, whole-byte array fields); applying it twice restores the state.", "quantifier": "for every accepted bitfield meeting the side conditions and every state", "why_tests_cant": "All states.", "anchors": ["bitfields_impl/src/generating/bitfield/features/invert_bit_ops_feature.rs: generate_invert_bitfield_tokens"]}
{"id": "C21", "title": "invert_x and x_inverted", "statement": "invert_x() flips exactly the bits of x; x_inverted() leaves the state unchanged and, for unsigned fields, equals 2^n-1-x(); calling invert_x() and then x() gives the same n bits as x_inverted() before.", "quantifier": "for every accepted bitfield, field and state", "why_tests_cant": "All states and widths.", "anchors": ["bitfields_impl/src/generating/bitfield/features/invert_bit_ops_feature.rs"]}
{"id": "C22", "title": "Builder equals construction plus setters", "statement": "For any chain of with_x(v) / checked_with_x(v) calls on BuilderName::new() followed by build(), the result equals new() with the corresponding field assignments applied in order (read-only and inaccessible fields included); the chain fails exactly when some checked value does not fit, and reserved fields are never changed by with_ calls.", "quantifier": "for every accepted bitfield and every finite chain of builder calls", "why_tests_cant": "Chains are unbounded.", "anchors": ["bitfields_impl/src/generating/bitfield/features/builder_feature.rs", "bitfields_impl/src/generating/bitfield/features/common/generator_helper.rs: generate_builder_direct_setter_call_tokens"]}
{"id": "C23", "title": "Generated operations never panic", "statement": "Getters, setters, checked setters, conversions, constructors, clear, write, invert, bit and (nonempty, non-overflowing) range operations terminate without panicking, both with overflow checks (debug) and without (release).", "quantifier": "for every accepted bitfield whose array fields fit their type and custom fields of array backed bitfields have at most 128 bits, every state and every argument", "why_tests_cant": "Panics are argument and layout dependent.", "anchors": ["bitfields_impl/src/generating/bitfield/features/common/generator_helper.rs", "bitfields_impl/src/generating/bitfield/features/set_get_bit_ops_feature.rs"]}
{"id": "C24", "title": "Debug and release builds agree", "statement": "Every operation of C23 yields the same result and state in debug (overflow-checked) and release (wrapping) arithmetic.", "quantifier": "for every accepted bitfield, operation, argument and state as in C23", "why_tests_cant": "Requires comparing two semantics on all inputs.", "anchors": ["bitfields_impl/src/generating/bitfield/features/common/generator_helper.rs"]}
{"id": "C25", "title": "Storage stays in range", "statement": "Starting from any constructor, after any sequence of operations the stored value stays a valid value of the backing type (S bits, or N bytes each below 256), so into_bits never exposes extra bits.", "quantifier": "for every accepted bitfield and every finite operation history", "why_tests_cant": "Histories are unbounded; needs an inductive invariant.", "anchors": ["bitfields_impl/src/generating/bitfield/features/common/generator_helper.rs"]}
{"id": "C26", "title": "Operation histories refine a map from fields to raw values", "statement": "Running any sequence of operations from any state and then reading all fields gives the same as running the corresponding assignments on an abstract independent map field -> n-bit value.", "quantifier": "for every accepted bitfield, every finite operation history", "why_tests_cant": "Histories are unbounded; refinement proof.", "anchors": ["bitfields_impl/src/generating/bitfield/features/common/generator_helper.rs"]}
{"id": "C27", "title": "Non-writable fields are immutable under field/bit/range/write/invert operations", "statement": "Any history of set_x, checked_set_x, set_bit, set_bits_range, write_bits, invert_bits, invert_x, clear_x and clear_x_to_default operations (checked or not, successful or not) leaves every bit of read-only, inaccessible and reserved fields as it was.", "quantifier": "for every accepted bitfield (lossless custom types in non-writable positions for invert_bits) and every finite history of those operations", "why_tests_cant": "Histories are unbounded.", "anchors": ["bitfields_impl/src/generating/bitfield/features/set_get_bit_ops_feature.rs", "bitfields_impl/src/generating/bitfield/features/write_bit_ops_feature.rs", "bitfields_impl/src/generating/bitfield/features/invert_bit_ops_feature.rs", "bitfields_impl/src/generating/bitfield/features/common/generator_helper.rs: ProtectionType"]}
{"id": "C28", "title": "Slice conversions", "statement": "from_slice(s) equals from_bytes of the first N bytes of s padded with zeros; checked_from_slice returns Err(\"Slice is too small to fill the bitfield.\") exactly when s is shorter than N and otherwise equals from_slice; into_slice writes the first min(len,N) bytes of into_bytes and leaves the rest untouched; checked_into_slice errs exactly when the slice is shorter than N, leaving it untouched. Same for le/be and _with_defaults.", "quantifier": "for every accepted array-backed bitfield, every slice length and content", "why_tests_cant": "Slice lengths and contents are unbounded.", "anchors": ["bitfields_impl/src/generating/bitfield/features/from_into_bits_feature.rs: generate_array_backed_from_slice_tokens, generate_array_backed_into_slice_tokens"]}
{"id": "C29", "title": "Array backing agrees with integer backing", "statement": "A bitfield over [u8; N] and the same declaration over the N*8-bit integer give the same field values under every common operation, and into_le_bytes is the little-endian byte sequence of into_be_bits.", "quantifier": "for every declaration accepted with both backings, every state and operation", "why_tests_cant": "Two different generated implementations (bit loops versus masks) have to agree on all inputs.", "anchors": ["bitfields_impl/src/generating/bitfield/features/common/generator_helper.rs", "bitfields_impl/src/generating/bitfield/features/set_get_bit_ops_feature.rs"]}
{"id": "C30", "title": "Bitflag round trip", "statement": "For an accepted #[bitflag] enum with distinct discriminants, from_bits(v.into_bits()) = v for every variant when from_endian = into_endian, and from_bits of a value that is no discriminant gives the #[base] variant, or the first #[default] variant when there is no base.", "quantifier": "for every accepted bitflag enum, every variant and every raw value", "why_tests_cant": "All enums and raw values.", "anchors": ["bitfields_impl/src/generating/bitflag/bitflag_generator.rs", "bitfields_impl/src/parsing/bitflags/bitflag_parser.rs"]}
{"id": "C31", "title": "Declarations are accepted exactly when the widths add up", "statement": "For a struct whose individual fields are valid, the macro accepts it if and only if the sum of the non-ignored widths equals the backing size; every over- or under-full struct is rejected.", "quantifier": "for every declaration", "why_tests_cant": "Infinite set of declarations.", "anchors": ["bitfields_impl/src/parsing/bitfields/bitfield_parser.rs: check_fields_fit_in_bitfield_type, calculate_field_offset"]}
{"id": "C32", "title": "Invalid fields are rejected", "statement": "The macro rejects: a zero-width field, an integer field wider than its type, a custom field without width, two non-reserved fields with the same name, an access attribute on a reserved field, an out-of-range literal default, a negative default on an unsigned field.", "quantifier": "for every declaration containing such a field at any position", "why_tests_cant": "Infinite set of declarations.", "anchors": ["bitfields_impl/src/parsing/bitfields/bitfield_parser.rs"]}
{"id": "C33", "title": "Accepted literal defaults are read back unchanged", "statement": "If an accepted field has an integer or bool literal default d, then after new() the field's getter returns d (for signed fields d reduced to two's complement, which is d itself whenever d <= 2^(n-1)-1).", "quantifier": "for every accepted declaration and every field with literal default", "why_tests_cant": "All widths and values.", "anchors": ["bitfields_impl/src/parsing/bitfields/bitfield_parser.rs: check_default_value_fit_in_field", "bitfields_impl/src/parsing/common/const_expr.rs"]}
{"id": "C34", "title": "Generated API matches the access level", "statement": "A getter exists iff the field is non-reserved with ro or rw access; setters, clear_x, invert_x exist iff it is non-reserved with wo or rw access; with_x exists iff non-reserved; constants exist iff a getter or setter exists; clear_x_to_default iff writable with default; reserved and ignored fields have none of these.", "quantifier": "for every accepted declaration and field", "why_tests_cant": "All declarations.", "anchors": ["bitfields_impl/src/parsing/bitfields/bitfield.rs: has_setter, has_getter, has_constants", "bitfields_impl/src/generating/bitfield/features/"]}
{"id": "C35", "title": "Generated item names do not clash", "statement": "Two generated associated items of the same bitfield never have the same name when field names are distinct.", "quantifier": "for every accepted declaration", "why_tests_cant": "Requires reasoning about all names.", "anchors": ["bitfields_impl/src/generating/bitfield/features/common/naming_extensions.rs", "bitfields_impl/src/generating/bitfield/features/"]}
{"id": "C36", "title": "Bit-operation switches behave as documented", "statement": "With bit_ops = false a bit-operation group is generated only if explicitly set to true; with bit_ops = true a group is generated unless set to false. This holds for the write, clear, set_get and invert groups.", "quantifier": "for every combination of switches given by the user", "why_tests_cant": "The combination of flags and defaults is only spot-checked by tests.", "anchors": ["bitfields_impl/src/generating/bitfield/feature.rs: is_bit_ops_feature_enabled", "bitfields_impl/src/generating/bitfield/features/write_bit_ops_feature.rs: enabled"]}
{"id": "C37", "title": "write endian agrees with from/into endian", "statement": "write_le_bits(b) makes all-writable bitfields equal to from_le_bits(b), write_be_bits to from_be_bits; write_bytes(b) followed by into_bytes() returns b under the default configuration.", "quantifier": "for every accepted bitfield with all fields writable, every raw value", "why_tests_cant": "All raw values; array and integer code paths differ.", "anchors": ["bitfields_impl/src/generating/bitfield/features/write_bit_ops_feature.rs: generate_bits_variable_endian_conversion_tokens"]}
{"id": "C38", "title": "Nested bitfields compose", "statement": "A bitfield used as a custom field type of another bitfield is a lossless codec: setting the outer field to an inner bitfield and reading it back gives the same inner bits, and the getters of the inner value read the corresponding bits of the outer one.", "quantifier": "for every accepted pair of inner/outer bitfields where the inner size equals the field width", "why_tests_cant": "Composition over all inner layouts.", "anchors": ["bitfields_impl/src/generating/bitfield/features/common/generator_helper.rs", "bitfields_impl/src/generating/bitfield/features/from_into_bits_feature.rs"]}
{"id": "C39", "title": "Range access to a field agrees with its accessors", "statement": "For a writable field, set_bits_range(X_OFFSET, X_BITS, v) has the effect of set_x(v) (unsigned fields); for a readable field, get_bits_range(X_OFFSET, X_BITS) = x().", "quantifier": "for every accepted integer-backed bitfield, unsigned field, value and state", "why_tests_cant": "All layouts/values.", "anchors": ["bitfields_impl/src/generating/bitfield/features/set_get_bit_ops_feature.rs", "bitfields_impl/src/generating/bitfield/features/field_constants_feature.rs"]}
{"id": "C40", "title": "From traits agree with from/into functions", "statement": "Bitfield::from(b) equals from_bits(b) (from_bytes), and Backing::from(x) equals x.into_bits() (into_bytes), for every endian configuration.", "quantifier": "for every accepted bitfield, raw value and state", "why_tests_cant": "Different code (temp swap versus xor swap) must agree on arrays of all lengths.", "anchors": ["bitfields_impl/src/generating/bitfield/features/from_traits_feature.rs"]}
{"id": "C41", "title": "Checked range write rejects values that are too large", "statement": "checked_set_bits_range(offset, len, v) returns an error if v does not fit in len bits, as its documentation says.", "quantifier": "for every accepted bitfield, offset, length and value", "why_tests_cant": "Documentation claim over all values.", "anchors": ["bitfields_impl/src/generating/bitfield/features/set_get_bit_ops_feature.rs lines 139-144, 220-224"]}
{"id": "C42", "title": "x_inverted of a signed field is the complement", "statement": "For a signed field, x_inverted() equals the bitwise complement -x()-1, i.e. the value x() returns after invert_x().", "quantifier": "for every accepted bitfield, signed field and state", "why_tests_cant": "All widths and states.", "anchors": ["bitfields_impl/src/generating/bitfield/features/invert_bit_ops_feature.rs: generate_inverted_fields_getter_tokens"]}
{"id": "C43", "title": "Setters commute and overwrite", "statement": "Setting two distinct fields in either order gives the same state; setting a field twice is the same as setting it once to the last value.", "quantifier": "for every accepted bitfield, two distinct writable fields, all values and states", "why_tests_cant": "All states and values.", "anchors": ["bitfields_impl/src/generating/bitfield/features/common/generator_helper.rs: generate_setting_field_without_setter_tokens"]}
{"id": "C44", "title": "Literal defaults are understood with their Rust value", "statement": "For a default written as an integer literal (decimal, 0x, 0b, 0o, with underscores, type suffix and optional minus sign), the number the macro range-checks equals the literal's value in Rust.", "quantifier": "for every integer literal text whose value is below 2^128", "why_tests_cant": "Infinite set of literals.", "anchors": ["bitfields_impl/src/parsing/common/const_expr.rs"]}
{"id": "C45", "title": "Ignored fields do not influence the layout", "statement": "Adding or removing fields with #[bits(ignore = true)] (of supported types) changes neither acceptance nor the offsets, widths, access of the other fields.", "quantifier": "for every declaration and every position of the ignored fields, provided their names are distinct from the others", "why_tests_cant": "All declarations.", "anchors": ["bitfields_impl/src/parsing/bitfields/bitfield_parser.rs: parse_fields, parse_ignored_field"]}
{"id": "C46", "title": "Reserved fields hold their default", "statement": "From new(), Default, new_without_defaults() or the builder, and under every later operation (including clear and write, with or without defaults), a reserved field holds its default or zero; only from_bits-style conversions can load other bits into it.", "quantifier": "for every accepted bitfield and every finite history", "why_tests_cant": "Histories are unbounded.", "anchors": ["bitfields_impl/src/generating/bitfield/features/common/generator_helper.rs: generate_new_function_implementation_tokens", "bitfields_impl/src/parsing/bitfields/bitfield_parser.rs: get_field_access"]}
{"id": "C47", "title": "Field values determine the bits", "statement": "If all fields of two values of a bitfield hold the same n-bit contents then their into_bits are equal; in particular if every field is readable and of integer or bool type, equal getters imply equal bits.", "quantifier": "for every accepted bitfield and every two states", "why_tests_cant": "All pairs of states.", "anchors": ["bitfields_impl/src/generating/bitfield/features/field_getters_feature.rs", "bitfields_impl/src/parsing/bitfields/bitfield_parser.rs"]}
{"id": "C48", "title": "Access levels are assigned as documented", "statement": "A non-reserved field gets the access given by its access argument (default rw); a reserved field gets no access, or read-only access when it has a default; reserved fields are never writable through any bit-level operation.", "quantifier": "for every accepted field declaration", "why_tests_cant": "All attribute combinations.", "anchors": ["bitfields_impl/src/parsing/bitfields/bitfield_parser.rs: get_field_access", "README.md Reserved Fields"]}
{"id": "C49", "title": "Non-literal default expressions are left to the compiler", "statement": "A default (or bitflag value) that is a path, a call or an operator expression is never rejected and never crashes the macro: it is emitted unchanged and evaluated by the compiler.", "quantifier": "for every default expression that is not an integer or bool literal", "why_tests_cant": "Unbounded set of expression texts; classification is by text prefixes and suffixes.", "anchors": ["bitfields_impl/src/parsing/common/const_expr.rs"]}
{"id": "C50", "title": "Attribute arguments: last one wins, unset ones come from the features", "statement": "The arguments of #[bitfield(..)] are accepted iff each is a known key with a well-formed value; every setting then has the value of its last argument, and without one the default given by the macro crate's cargo features.", "quantifier": "for every argument list and every feature selection", "why_tests_cant": "All argument lists and feature combinations.", "anchors": ["bitfields_impl/src/parsing/bitfields/bitfield_attribute/bitfield_arguments.rs"]}
{"id": "C51", "title": "Global cargo features of the bitfields crate set the defaults", "statement": "Selecting features of the bitfields crate (with default features disabled), e.g. order_msb or disable_debug, changes the default arguments of every bitfield as the README documents.", "quantifier": "for every feature selection", "why_tests_cant": "Feature tests are compiled only under the selected features, so they never run under others.", "anchors": ["bitfields/Cargo.toml", "bitfields_impl/Cargo.toml", "README.md Global Cargo Feature Flags"]}
{"id": "C52", "title": "Visibility of field functions", "statement": "Every function and constant generated for a field has the visibility written on the field.", "quantifier": "for every accepted declaration, field and generated item", "why_tests_cant": "Visibility is only observable from other modules and crates; the repository's tests are in the same module.", "anchors": ["README.md Visibility", "bitfields_impl/src/parsing/bitfields/bitfield.rs", "bitfields_impl/src/generating/bitfield/features/"]}
{"id": "C53", "title": "Shape of the generated struct", "statement": "The generated struct has the declared visibility; it is a tuple struct over the backing value without ignored fields, otherwise a struct with the backing value followed by the ignored fields in order, each with its declared visibility.", "quantifier": "for every accepted declaration", "why_tests_cant": "Tests use ignored fields inside the defining module only.", "anchors": ["README.md Ignored Fields", "bitfields_impl/src/generating/bitfield/features/bitfield_struct_feature.rs"]}
{"id": "C54", "title": "Debug prints the fields and their values", "statement": "The Debug implementation never panics and prints every field once, in declaration order, with its name and its value.", "quantifier": "for every bitfield and every state", "why_tests_cant": "Holds for all states and layouts.", "anchors": ["README.md Debug Trait", "bitfields_impl/src/generating/bitfield/features/debug_trait_feature.rs"]}
{"id": "C55", "title": "Accepted declarations expand", "statement": "If the parser accepts a declaration, then code generation does not fail with an internal error.", "quantifier": "for every accepted declaration", "why_tests_cant": "Names are arbitrary.", "anchors": ["bitfields_impl/src/generating/bitfield/features/common/naming_extensions.rs", "bitfields_impl/src/lib.rs"]}
{"id": "C56", "title": "Switches select the generated functions and traits", "statement": "new, the conversion functions, From/Into, Default, Debug, Clone/Copy and the builder are generated iff their switch (last argument, otherwise feature default) is on; no other whole-bitfield functions are generated and all have the bitfield's visibility.", "quantifier": "for every accepted declaration and feature selection", "why_tests_cant": "2^13 combinations of switches, times features and backing types.", "anchors": ["bitfields_impl/src/generating/bitfield/bitfield_generator.rs", "bitfields_impl/src/generating/bitfield/features/"]}
{"id": "C57", "title": "Bitflag as a field type", "statement": "When a field's type is an accepted #[bitflag] enum, setting the field to a variant whose discriminant fits in the field and reading it back gives that variant, and bits that are no discriminant are read as the #[base] (else first #[default]) variant.", "quantifier": "for every accepted bitflag enum with equal from/into endianness, every bitfield containing it, every variant and storage value", "why_tests_cant": "All enums, widths, endiannesses and storage values.", "anchors": ["bitfields_impl/src/generating/bitflag/bitflag_generator.rs", "bitfields_impl/src/generating/bitfield/features/common/generator_helper.rs"]}
{"id": "C58", "title": "Accepted bitflags generate a valid match", "statement": "For every enum accepted by #[bitflag] with distinct in-range constant discriminants the generated from_bits is an exhaustive match over valid patterns, and the backing type is one of u8, u16, u32, u64, u128.", "quantifier": "for every accepted bitflag enum", "why_tests_cant": "Discriminant expressions and enums are unbounded.", "anchors": ["bitfields_impl/src/generating/bitflag/bitflag_generator.rs: generate_match_cases_tokens_list", "bitfields_impl/src/parsing/bitflags/bitflag_attribute_parser.rs: check_supported_bitflag_type"]}
{"id": "C59", "title": "Emitted functions type check", "statement": "For every accepted declaration whose generated names are distinct, every function emitted into the bitfield's impl, its trait impls and its builder type checks: names, types, inferred literal types, mutability and const calls.", "quantifier": "for every accepted declaration whose generated names are distinct (C35), every endianness, bit order and switch, both backings (inline and boxed), every default expression that is a constant of the field's value", "why_tests_cant": "Compile tests cover a finite list of declarations; the space of types, widths, switches and defaults is unbounded.", "anchors": ["bitfields_impl/src/generating/bitfield/features", "bitfields_impl/src/generating/bitfield/features/common/generator_helper.rs", "bitfields_impl/src/generating/bitfield/features/builder_feature.rs"]}
{"id": "C60", "title": "Emitted functions behave as specified", "statement": "Calling the emitted functions by name in any order on any bitfield never panics, and every returned value and every field afterwards is what the specification on a map from fields to raw values gives; the builder chain makes the fresh bitfield with the setters applied, or the error of a checked setter; slice conversions copy exactly the common prefix; Debug prints every field.", "quantifier": "for every accepted declaration whose generated names are distinct (C35), every bitfield value, every finite history of well typed calls, overflow checks on or off", "why_tests_cant": "Unbounded histories, all descriptors, all storage values.", "anchors": ["bitfields_impl/src/generating/bitfield/features", "bitfields_impl/src/generating/bitfield/features/common/generator_helper.rs"]}
{"id": "C61", "title": "A literal default reaches the getter through the emitted code", "statement": "For an accepted declaration whose defaults are integer or bool literals that Rust's literal typing accepts where the template puts them, everything emitted for the bitfield type checks, and running the emitted new() and then the emitted getter of a field with a literal default returns the value the text of the literal denotes (modulo 2^width for a signed field when the value is above the signed maximum).", "quantifier": "for every accepted declaration whose generated names are distinct (C35), every literal (base, digits, underscores, suffix, sign) whose value survives the emitted casts, every field order, backing and access, overflow checks on or off", "why_tests_cant": "Infinitely many literal texts, declarations and positions; links the macro's reading of the text, the template and rustc's literal typing.", "anchors": ["bitfields_impl/src/parsing/common/const_expr.rs", "bitfields_impl/src/generating/bitfield/features/common/generator_helper.rs", "bitfields_impl/src/generating/bitfield/features/new_functions_feature.rs"]}
{"id": "C62", "title": "Attribute arguments follow one exact grammar", "statement": "The token list of #[bits(..)], #[bitfield(..)] and #[bitflag(..)] is accepted exactly when it is a count (or a type, or for bits nothing) followed by `key = value` arguments with known keys separated by commas with an optional trailing comma, where the comma after the count or type may be missing and, for bits, doubled or leading; the outcome is then that of the count or type with this list of arguments; otherwise the error names the first mistake in the list, and argument parsing never panics. Of several #[bits] attributes of a field the first counts.", "quantifier": "for every token list, every list of attributes of a field, every expression and type parser that consumes tokens from the front, every set of cargo features", "why_tests_cant": "Unboundedly many token lists; the compile error cases contain a handful of malformed ones.", "anchors": ["bitfields_impl/src/parsing/common/attribute_argument_parser.rs", "bitfields_impl/src/parsing/bitfields/bits_attribute/bits_attribute_parser.rs", "bitfields_impl/src/parsing/bitfields/bitfield_attribute/bitfield_attribute_parser.rs", "bitfields_impl/src/parsing/bitflags/bitflag_attribute_parser.rs"]}
{"id": "C63", "title": "Generated documentation names the bits a function acts on", "statement": "The documentation generated for every function of a field quotes, as its first quoted passage and readable in one way only, a bit number or a range of bit numbers; these are exactly the bits the function acts on: those the getter's result depends on, those some call of the setter (or builder setter) changes, those invert and clear can change. Ranges run from the lowest bit up, or from the highest down when order = msb. A function that can return an error says \"Returns an error\", and only checked functions do. The first word tells readers (\"Returns\"), setters (\"Sets\"), clearing and inverting functions apart, and the constants name their field.", "quantifier": "for every well-formed bitfield, every field whose type converts without loss (clear: whose zero converts to zero), every bit position, both overflow modes", "why_tests_cant": "The repository's tests do not look at documentation at all, and the claim relates the text to the behaviour in all states.", "anchors": ["bitfields_impl/src/generating/bitfield/features/common/generator_helper.rs", "bitfields_impl/src/generating/bitfield/features/field_getters_feature.rs", "bitfields_impl/src/generating/bitfield/features/clear_bit_ops_feature.rs", "bitfields_impl/src/generating/bitfield/features/invert_bit_ops_feature.rs", "bitfields_impl/src/generating/bitfield/features/field_constants_feature.rs", "bitfields_impl/src/generating/bitfield/features/builder_feature.rs"]}
{"id": "C64", "title": "Histories with arbitrary conversion functions", "statement": "Whatever the from_bits/into_bits functions of custom field types do, every sequence of calls behaves like independent registers, one per field: an assignment, clear or default stores the converted value's low bits, a getter returns the conversion of the stored bits, other fields are untouched. Where converting twice gives the same bits as converting once (bitflag enums, for instance), a field written only through conversions always holds exactly the bits of the value it reads back.", "quantifier": "for every well-formed bitfield, all conversion functions, every finite call sequence, every starting storage, both overflow modes", "why_tests_cant": "The repository tests use a few enums whose conversions lose nothing; lossy conversions and call sequences are unbounded.", "anchors": ["bitfields_impl/src/generating/bitfield/features/field_setters_feature.rs", "bitfields_impl/src/generating/bitfield/features/field_getters_feature.rs", "bitfields_impl/src/generating/bitfield/features/clear_bit_ops_feature.rs", "bitfields_impl/src/generating/bitfield/features/common/generator_helper.rs", "bitfields_impl/src/generating/bitflag/bitflag_generator.rs"]}
{"id": "C65", "title": "Generated code needs only core unless the storage is boxed", "statement": "The library paths named by the generated code belong to core or std; std is named exactly if the storage is a boxed array (array_heap).", "quantifier": "for every accepted bitfield or bitflag declaration and every set of cargo features", "why_tests_cant": "The repository's tests are built with std; no test builds a generated bitfield in a no_std crate.", "anchors": ["bitfields_impl/src/generating/bitfield/features/bitfield_struct_feature.rs", "bitfields_impl/src/generating/bitflag/bitflag_generator.rs", "README.md"]}
{"id": "C66", "title": "Attributes reach the item they were written on", "statement": "Every attribute written below #[bitfield] is on the generated struct, and below #[bitflag] on the generated enum: all of them, unchanged and in order, next to one repr and at most one derive of the macro, and on no other generated item. A variant keeps all its attributes but #[base]. An attribute of a field other than its first #[bits] changes nothing: neither the layout, nor an error, nor a generated item.", "quantifier": "for every accepted declaration, every list of attributes and every set of cargo features", "why_tests_cant": "The repository tests one derive on one struct; which attributes are kept or ignored concerns arbitrary attribute lists.", "anchors": ["bitfields_impl/src/generating/bitfield/features/bitfield_struct_feature.rs", "bitfields_impl/src/parsing/bitflags/bitflag_parser.rs", "bitfields_impl/src/generating/bitflag/bitflag_generator.rs", "README.md"]}
{"id": "C67", "title": "Conditions, generic parameters and payloads of a declaration are respected", "statement": "A field or variant under a false #[cfg] is treated as not written, a struct or enum under a false #[cfg] disappears with everything generated for it, and generic parameters and variant payloads appear in the generated item or are rejected.", "quantifier": "for every accepted declaration and every configuration", "why_tests_cant": "No test has conditional members, generic parameters or payloads; the effect of a false condition depends on all other members.", "anchors": ["bitfields_impl/src/parsing/bitfields/bitfield_parser.rs", "bitfields_impl/src/parsing/bitflags/bitflag_parser.rs", "bitfields_impl/src/generating/bitfield/bitfield_generator.rs"]}
{"id": "C68", "title": "Custom field types and the bitfield need not be Copy", "statement": "No generated function uses a value after it has been moved: values of custom field types, the bitfield, the builder and exclusive references are each consumed at most once on every path, not inside a loop, and the box of a heap-stored bitfield is only dereferenced or indexed, never taken out.", "quantifier": "for every bitfield, every list and type of fields, every combination of enabled features and every default expression that names no local variable", "why_tests_cant": "The custom types in the tests derive Copy, so a second use of a moved value compiles there; which statements are generated depends on the backing type, the field types and their order.", "anchors": ["bitfields_impl/src/generating/bitfield/features/common/generator_helper.rs", "bitfields_impl/src/generating/bitfield/features/field_setters_feature.rs", "bitfields_impl/src/generating/bitfield/features/from_into_bits_feature.rs", "bitfields_impl/src/generating/bitfield/features/builder_feature.rs"]}
{"id": "C69", "title": "Debug text determines the bits", "statement": "The text printed by {:?} is the name of the bitfield and, in braces and declaration order, every field's name followed by its raw bits in decimal without leading zeros (byte array fields of array backed bitfields: the bytes in brackets); {:#?} prints the same with one field, or byte, per line and the documented indentation. Two bitfields of one type print the same text, in either form, exactly if they hold the same bits.", "quantifier": "for every well-formed bitfield and every two states, both forms, both overflow modes", "why_tests_cant": "The tests compare one text of one state; that no two states share a text is a statement about all pairs.", "anchors": ["bitfields_impl/src/generating/bitfield/features/debug_trait_feature.rs", "bitfields_impl/src/generating/bitfield/features/common/generator_helper.rs"]}
{"id": "C70", "title": "Documentation update is local and repeatable", "statement": "UPDATE_DOCS=1 cargo build writes into lib.rs, between the last pair of tags of each kind, the section of README.md with that pair of tags: trimmed, with the hidden import line after exactly the lines that open a Rust example, each line as a documentation comment. Nothing outside the two pairs changes, a file without a pair stays as it is, what stood between the tags does not matter, and a second run changes nothing, provided no section repeats its own start tag and lib.rs has the bitflag pair after the other one.", "quantifier": "for every README text and every text of lib.rs with the two pairs in this order", "why_tests_cant": "build.rs has no tests; that text outside the tags survives and that runs repeat is about all files, and the two sections are nested in the README, so that the tags of one are copied with the other.", "anchors": ["bitfields/build.rs"]}
{"id": "C71", "title": "Ignored fields keep their values", "statement": "A bitfield or builder made by a function without receiver (new, new_without_defaults, from_*, Default, From, the builder's new) has the default values in its ignored fields. No generated function changes the ignored fields of its receiver, whatever it does to the bits and also when it panics; the with_* functions and build hand the ignored fields of the builder on.", "quantifier": "for every bitfield, every set of generated functions, every run of every generated function including the calls it makes", "why_tests_cant": "The tests read an ignored field right after new(); that no setter, clear, write or invert function resets it is about all functions and all states.", "anchors": ["bitfields_impl/src/generating/bitfield/features/common/generator_helper.rs:44-117", "README.md:1935-1975"]}
{"id": "C72", "title": "Default expressions mean the same everywhere", "statement": "The expression given as default = ... has in every generated function the meaning it has at the declaration: no name in it refers to a local variable of the generated function, and Self in it is the bitfield.", "quantifier": "for every bitfield, every generated function and every default expression", "why_tests_cant": "The tests use literals, constants and const functions with names that no template uses; which names are in scope depends on the other fields, the access of the field and the function.", "anchors": ["bitfields_impl/src/parsing/common/const_expr.rs:209-228", "bitfields_impl/src/generating/bitfield/features/common/generator_helper.rs:126-161", "bitfields_impl/src/generating/bitfield/features/builder_feature.rs:92-126"]}
{"id": "C73", "title": "Derives of the user and ignored fields fit the generated implementations", "statement": "Attributes below #[bitfield] and #[bitflag] reach the generated type, so a standard derive written there is accepted whenever the members of the struct have the trait, the traits it extends are implemented, and no switch makes the macro implement the trait itself (copy: Clone and, unless boxed, Copy; default, debug, from_traits: Default, Debug, From); nothing is implemented twice by the macro alone. Ignored fields need only Default.", "quantifier": "for every bitfield and every bitflag, every list of attributes of the user, every assignment of traits to the types of ignored fields", "why_tests_cant": "A conflict is a compile error of one combination of switches, derives and field types; the tests compile a few combinations, and all ignored fields in them are Copy.", "anchors": ["bitfields_impl/src/generating/bitfield/features/bitfield_struct_feature.rs:62-96", "bitfields_impl/src/generating/bitfield/features/common/generator_helper.rs:74-117", "bitfields_impl/src/generating/bitflag/bitflag_generator.rs:40-48", "README.md:1920-1946"]}
{"id": "C74", "title": "const functions, and the same behaviour on every compiler", "statement": "On every compiler that rust-version in Cargo.toml admits (1.83 or later), all functions in the impl blocks of the bitfield and of its builder are const if the bitfield has no ignored fields and is not boxed; trait functions never are. Whether they are const is all that depends on the compiler: every function that type checks where functions can be const also type checks on all other compilers, and every call of it gives the same result and leaves the same bits.", "quantifier": "for every bitfield, every channel and version of the compiler, every function, all arguments, overflow modes and states", "why_tests_cant": "The tests run on one compiler, and a test suite cannot be run on every channel and version; a missing const is only seen by code that uses a function in a constant.", "anchors": ["bitfields_impl/src/generating/bitfield/features/common/generator_helper.rs:19-28", "bitfields_impl/Cargo.toml:12", "bitfields/Cargo.toml:12", "README.md:36"]}
