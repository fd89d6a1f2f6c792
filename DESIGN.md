# Formal model of bitfields-rs (Rocq / Coq 8.16.1)

Source: `/repo` (crate `bitfields_impl`, read as text, never built or run).
Formal development: `/verif/rocq/theories`, logical name `Verif`.
Statements: `properties.jsonl`.  Claim -> theorems: `MANIFEST.json`.

## What is modelled, and how

The crate is a procedural macro.  It has two halves and both are modelled.

1. **The parser** (`parsing/**`): declaration -> descriptor, or a compile error,
   or a panic of the macro itself.  Total functions on a declaration AST (what
   `syn` hands to the macro).
2. **The generator** (`generating/**`): descriptor -> Rust source.  `Gen.v` gives
   for every generated method a Gallina function computing what the emitted Rust
   text computes, expression by expression, with explicit fixed-width arithmetic:
   * `mode` = `Checked` (overflow checks on: overflowing add/sub/shift panics) or
     `Wrapping` (release: add/sub wrap, shift amount is masked).  Every generated
     method takes the mode; theorems quantify over it.
   * `outcome A` = `Val a | Panic`; array indexing out of bounds is `Panic`.
   * API-level `Result` is data: `Ok a | Err msg` with the literal message.
   * Integer-backed storage is a `Z` in `[0,2^w)`, array-backed storage a list of
     bytes.  Mask/shift code and bit loops are modelled separately, as in the
     source; nothing is shared between the two except what the source shares.
   * `while i < n { .. i += 1 }` loops are structural recursion on the number of
     remaining iterations with the same index sequence.
   * A user's custom field type is an arbitrary pair of functions
     (`from_bits`, `into_bits`) with the integer types of its parameter/result.
   * The text of a literal default is followed to the value rustc gives it at the
     place where the generator puts it (`PropDefault.v`).

   Beside `Gen.v` there is a second, deeper model of the same half.  `Rust.v` is a
   subset of Rust as abstract syntax with a type checker (names, types, `mut`,
   const calls, inference of literal types) and a meaning.  `Emit.v` transcribes
   the `quote!` templates into it.  C59 proves that every emitted function type
   checks, C60 that running it does what `Gen.v`/`Hist.v` say; so `Gen.v` need
   not be trusted to be a faithful reading of the templates, only `Rust.v` and the
   transcription `Emit.v`.

   `Surface.v` models which items are generated, with which names and
   visibilities, and when the generator itself panics.

Specifications are written with plain integer arithmetic
(`slice v off n = (v / 2^off) mod 2^n`, `splice`), bit positions (`Z.testbit`)
and abstract maps from field index to raw value (`Spec.v`, `Hist.v`), or with an
independent reading of declarations and names (`SpecDecl.v`, `SpecSurface.v`,
`Words.v`).  They do not use the model's mask/shift/loop/parse helpers.

## Files

| file | content | models (under /repo/bitfields_impl/src) |
|---|---|---|
| `RustInt.v` | overflow modes, outcomes, fixed width integer operations, arrays, loops | nothing: Rust reference semantics |
| `Syntax.v` | data types, access, field and bitfield descriptors | parsing/bitfields/{bitfield,bitfield_field}.rs, spanned_data_type.rs |
| `GenInt.v`, `GenArr.v` | emitted field code, integer / array backing | generating/bitfield/features/common/generator_helper.rs |
| `Gen.v` | emitted methods | every file of generating/bitfield/features |
| `Hist.v` | operations as data, `step`, `run`; specification on field maps | - |
| `ConstExpr.v` | text of a value -> literal | parsing/common/const_expr.rs |
| `Parser.v` | declaration -> descriptor | parsing/bitfields/**, parsing/common/** |
| `Attr.v` | tokens of an attribute -> count or type, arguments | parsing/common/attribute_argument_parser.rs, the `*_attribute_parser.rs` files |
| `Docs.v` | a field -> documentation of its generated items | features/common/generator_helper.rs:818-871, `get_*_documentation` of the features, field_constants_feature.rs:56-60 |
| `DebugText.v` | the text of `{:?}` and `{:#?}` | debug_trait_feature.rs:36-72 and `core::fmt` builders |
| `BuildDocs.v` | the documentation update: `find`, `rfind`, `trim`, `lines`, extraction, prelude, replacement | bitfields/build.rs:1-143 |
| `Cargo.v` | the feature tables of the two crates and Cargo's resolution of them (closure of what is asked for; features asked for by several crates are unified) | bitfields/Cargo.toml:15, 22-111, bitfields_impl/Cargo.toml:30-116 |
| `Paths.v` | library paths named by the emitted items, per item (not per occurrence; the boxed initialisation is listed wherever a constructor or conversion exists) | bitfield_struct_feature.rs:86-113, from_traits_feature.rs:72-92, default_trait_feature.rs:39, debug_trait_feature.rs:39, bitflag_generator.rs:40-48 |
| `Outer.v` | the emitted types and `impl` blocks with their attributes, generic parameters and members | bitfield_struct_feature.rs:60-191, bitfield_generator.rs:84-104, bitflag_generator.rs:8-63 |
| `Surface.v` | which items are generated, names, visibilities | generating/bitfield/bitfield_generator.rs, feature.rs, features/*, naming_extensions.rs |
| `Bitflag.v` | `#[bitflag]` parser and conversions | parsing/bitflags/*, generating/bitflag/bitflag_generator.rs |
| `Rust.v` | the subset of Rust of the emitted code: syntax, type checker, meaning | nothing: Rust reference |
| `Emit.v` | the emitted functions as program text | every `quote!` of generating/bitfield/features |
| `EmitVocab.v`, `SpecEmit.v` | how stores and values appear in Rust; what it means to call an emitted function; sample declarations | - |
| `RustLemmas`, other `Emit*` | emitted text = `Gen.v`, function by function; `EmitStep.v`: calls by name | - |
| `Spec.v`, `SpecDecl.v`, `SpecSurface.v`, `Words.v` | independent specifications (no model helper) | documentation only |
| `BitsLemmas`, `CoreLemmas`, `GenLemmas`, `ConvLemmas`, `BitOpLemmas`, `ParserLemmas`, `ParserLoop`, `SurfaceLemmas` | proofs | - |
| `Examples.v` | concrete bitfields; `bf_ok` decision procedure | - |
| `TestRun.v`, `RepoTests.v` | the repository's own tests run on the model (see below) | bitfields/tests, README.md, examples |
| `PropVocab.v` | the arithmetic words that specification and model share, pinned to `/`, `mod` and `Z.testbit` | - |
| `Ignored.v` | runs of emitted code seen from the ignored fields, over the syntax of `Rust.v` | - (language rule) |
| `Scope.v` | locals in scope at the user's default expressions, over the syntax of `Rust.v` | parsing/common/const_expr.rs:209-228, generator_helper.rs:138-161 |
| `Toolchain.v` | which compilers get `const` functions, and the emitted program on each | generator_helper.rs:19-28, Cargo.toml:12; that the predicates `stable`, `beta`, `nightly` of the crate `rustversion` exclude each other is assumed |
| `Derives.v` | traits implemented by the items of `Outer.v` (derives in attributes, `impl` blocks), coherence, supertraits, what derives ask of the members | bitfield_struct_feature.rs:62-190, generator_helper.rs:44-117; the rest are language rules |
| `Moves.v` | rustc's rule for moved values, over the syntax of `Rust.v` | - (language rule) |
| `Prop*.v` | the property theorems, named `Cnn_...`, each with `Example`s; `PropExact.v`: for refuted claims, what the code does instead, for every input | - |

## Not modelled

* `syn`/`quote`/`proc_macro2` tokenising and printing, spans, doc comments other
  than those of `Docs.v`, the file access of `build.rs`.  `syn`'s expression and type parsers are
  parameters of `Attr.v`; a declaration in `Parser.v` has its attributes already
  split into count or type and `key = value` pairs, C62 connects the two.
* Whether rustc accepts the emitted text, beyond C59 and the cases listed as
  findings: not covered are the borrow checker (moves: C68), visibility, lints (also
  those that deny by default), and whether the user's functions are `const`.
* Allocation: `array_heap` only changes `[u8;N]` to `Box<[u8;N]>`, the emitted
  code indexes it in the same places; the functions made by derives, and the effect of the user's attributes other than `#[cfg]` and `#[derive]`;
  formatter options other than `#` in `Debug` output.
* Panics raised inside user-written `from_bits`/`into_bits`.
* Targets other than 64 bit (`usize` is 64 bits wide).

## Trusted base

* Coq 8.16.1 kernel (`vm_compute` is used for examples and counterexamples).
* Axioms: none of our own.  `Print Assumptions` answers "Closed under the global
  context" for every theorem of MANIFEST.json.  `coqchk -o` / `vcheck`
  list seven constants `Coq.ssr.ssrunder.Under_rel.*`: they are
  part of the standard library's ssreflect plugin, loaded with `Lia`'s
  dependencies, and no theorem depends on them.
* That the Gallina functions say what the source and the emitted text do (each
  definition cites file and lines), and that `RustInt.v` is the Rust reference
  semantics of the fixed-width operations.

## Conventions

* `Cnn_...` proves (part of) property Cnn.  `Cnn_..._refuted` proves that the
  claim, or a stronger reading of it, is false of the code, with a computed
  witness.  `..._partial` proves a part, the note in MANIFEST.json says which.
  `Cnn_exact` says for every input what happens where the claim is false.
* `bf_ok` (Spec.v) is the descriptor invariant; `C01_descriptor_ok` proves that
  accepted declarations satisfy it when every field type is one the emitted code
  can handle.  `bf_okb` decides it, examples are checked with it.

## Testing the model against the repository's tests

`tools/repo_tests.py` translates `bitfields/tests/*.rs`, the programs of README.md,
of the crate documentation and of `bitfields/examples`, and the cases of
`compile_error_cases` into `RepoTests.v`.  Each becomes an `Example` that parses the
declarations with `Parser.v`, type checks everything `Emit.v` emits for them, and
runs the statements of the test by calling the emitted functions by name
(`TestRun.v`); for a compile error case the parser returns the error that the
`.stderr` file shows, or the missing function is indeed not emitted.  593 of 618
tests, 77 of 92 programs and 131 declarations of the 117 error cases are
translated, all hold; the rest is listed with reasons at the end of the file.
These are tests of the transcription (expected values come from the authors, not
from this model), not proofs.

## Testing the theorems against wrong programs

`seeded/mutants.json` lists edits of the model (one realistic bug each) with the
claim each breaks.  `tools/mutate.py` applies an edit to a scratch copy, rebuilds
with `make -k`, and records which claim theorems no longer have a `.vo`.  That a
proof script breaks does not show that the statement excludes the bug.  So each
mutant also carries a refutation script: a closed proof, in the mutated model,
that the statement of a named theorem is false.  LOG.jsonl separates the two
(`failed`, `refuted`) and lists the theorems about the same claim that survive
(`still_proved`) and those tightened because of the attempt.

## Findings

Behaviour of the code that differs from its documentation or from the obvious
reading; each is a `_refuted` theorem or is excluded by a stated hypothesis.

 1. Integer-backed range operations with length 0 panic or act on a full word (C19).
 2. `offset + length` overflows `u32` (C19).
 3. `checked_set_bits_range` masks values that are too large, silently (C41).
 4. A checked setter whose field type is wider than the backing integer accepts
    values that do not fit (C07).
 5. An array field with a partial last byte loses its top bits (C03).
 6. Array or custom fields wider than the backing word panic (C23).
 7. Array-backed `write` with little endian reverses the bytes (C37).
 8. `write_bit_ops` has no effect (C36).
 9. `x_inverted` of a signed field is not the complement (C42).
10. `write_defaults` and `clear` modify read-only and no-access fields (documented).
11. `#[bits(8)] _r: u8` gets read-write access instead of none (C48).
12. The setter and the constants of a write-only field are private (C52).
13. A positive default above the signed maximum is accepted and reads back
    negative (C33).
14. Quirks of literal recognition: `-0x1f32` is taken for a float; some constant
    names are rejected; prefixes of expressions are read as numbers (C44, C49).
15. A release-built macro wraps the sum of widths (C01); huge backing arrays make
    the macro panic (C31).
16. `bool` is accepted as the type of a bitfield and of a bitflag, arrays as the
    type of a bitflag (C58).
17. An ignored field of unsupported type makes the macro panic (C45).
18. `Debug` prints raw bits, of protected fields too; negative values appear
    unsigned (C54).
19. Generated names can collide (C35).
20. `Default` differs from `new()` for custom types that do not encode 0 as 0 (C11).
21. A builder with `new = false` and a read-only field does not compile: the
    builder's `new` uses `Self::X_BITS` inside the builder's own `impl`.
22. A negative default on a signed field without a setter does not compile.
23. `[u8; 0]` fields are accepted by the type parser.
24. `invert_bits` passes protected custom fields through their conversions (C27).
25. Literals below -2^127 wrap in the range check and are accepted (C32); -2^127
    itself makes the macro panic (C31).
26. `pub(in a::b)` is printed as `pub(ab)`.
27. See 14.
28. `catch_panics` prints "unable to parse panic payload" for `String` payloads.
29. Cargo features of `bitfields` are not forwarded to `bitfields_impl`, and forwarding
    them would not be enough: the dependency keeps the default features of the macro
    crate on, and every default wins over its opposite (C51).
30. Raw identifiers as field names make the macro panic (C55).
31. The README says a private field has private functions; they are not when the
    field is written as in its example (C52).
32. Ignored fields are always private (C53).
33. `clear_x`, `clear_x_to_default`, `invert_x`, `x_inverted` have the visibility of
    the bitfield, not of the field (C52).
34. Bitflag discriminants that are operator expressions are accepted but are not
    patterns (C58).
35. A little-endian bitflag in a narrower field loses its variant (C57).
36. `#[default]` on a bitflag variant is kept as an attribute; several are accepted.
37. An unsuffixed literal default of 2^31 or more on a settable field wider than 32
    bits is typed `i32` in `set_x(LIT as _)`: the stored default is wrong.  The
    suffix of a literal is ignored by the range check: `300u8` stores 44 (C33).
38. Ignored fields of array or generic type emit `[u8; 4]::default()` /
    `Vec<u8>::default()`, which do not parse.
39. Custom field types with generics emit `Wrapper<u8>::from_bits(..)`, likewise.
40. Default expressions are inserted without parentheses (`A + B as u128`).
41. An array literal default on a read-only array field of an array-backed
    bitfield leaves the element type to inference (`i32`); on an integer-backed
    one it does not compile.
42. The comma after the count or type of an attribute may be missing, and in
    `#[bits(..)]` doubled or leading: `#[bits(8 default = 5)]`, `#[bits(8,, default = 5)]`,
    `#[bitfield(u32 order = msb)]` are accepted (C62).
43. A second `#[bits(..)]` attribute on a field is dropped silently (C62).
44. The documentation of a signed getter calls the lowest bit of the field "the
    sign-bit", with an unclosed backquote; the sign is the highest bit (C63).
45. The documentation of array fields gives bit numbers and bit counts but calls
    them bytes ("Returns bytes `8..=23`" in a three-byte bitfield) (C63).
46. Generated code with `copy` (the default) derives `std::marker::Copy`, so it does
    not compile in the `no_std` crates that README.md:35 and 259 promise to support
    (bitfield_struct_feature.rs:90, bitflag_generator.rs:43) (C65).
47. `#[cfg(..)]` inside a declaration does not work: on a field it is ignored (the
    field stays and keeps its bits), on a bitflag variant or below `#[bitfield]` a
    false condition leaves code that names the removed item (C67).
48. Generic parameters of the struct or enum and payloads of bitflag variants
    (`A(u8) = 1`) are dropped without an error (C67).
49. The checked setter of a field as wide as its type is documented as returning an
    error if the value is too big; no call returns one (C63).
50. `x_inverted()`, which returns a value and changes nothing, is documented like
    `invert_x()` as inverting the bits (C63).
51. Default expressions are not protected from the locals of the generated functions
    (`self`, `this`, `bits`, `bytes`, `slice`, `copy_len`, `i`, `mask`, `value`,
    `field_bits`): `default = mask()` with a function `mask` of the user does not
    compile on a read-only field, and `default = mask` without one does.  In the
    builder of a bitfield with `new = false`, `Self` in a default is the builder
    (C72).
52. README.md:1942 asks of ignored fields only `Default`; with the default `copy = true`
    they must be `Copy` and `Clone`, too (boxed storage: `Clone`), or the derive of
    the macro does not compile (C73).
53. No generated function is `const` when the macro is built by a beta compiler, of
    whatever version, although Cargo.toml admits it: `generator_helper.rs:27` asks for
    stable or nightly.  `const R: Reg = Reg::new();` then does not compile.  Nothing else
    depends on the compiler (C74).

## Properties

| id | property | proof |
|---|---|---|
| C01 | Accepted fields partition the backing storage | `Parser.v`; induction over the field list; acceptance is characterised exactly |
| C02 | Field offsets follow the declared order | `Parser.v`; induction over the field list; acceptance is characterised exactly |
| C03 | Setter then getter returns the written value | setter = `splice`, getter = decode of `slice`; bit extensionality |
| C04 | A setter changes only its own field | setter = `splice`, getter = decode of `slice`; bit extensionality |
| C05 | A getter depends on exactly the bits of its field | setter = `splice`, getter = decode of `slice`; bit extensionality |
| C06 | Checked setter accepts exactly the representable values | exact case split; C07 refuted |
| C07 | Checked setter on a field type wider than the backing integer | exact case split; C07 refuted |
| C08 | from_bits and into_bits are inverse | induction over the fields; xor-swap loop = reversal |
| C09 | Little-endian conversions are byte reversals of big-endian ones | induction over the fields; xor-swap loop = reversal |
| C10 | from_*_with_defaults applies defaults over the given bits | induction over the fields; xor-swap loop = reversal |
| C11 | new / new_without_defaults / Default initialise every field | folds over fields against the field map |
| C12 | clear operations | folds over fields against the field map |
| C13 | write_bits replaces exactly the writable fields | folds over fields against the field map |
| C14 | write_defaults / write_*_with_defaults | folds over fields against the field map |
| C15 | set_bit / checked_set_bit | bit extensionality over protected masks |
| C16 | get_bit / checked_get_bit | bit extensionality over protected masks |
| C17 | Range writes | bit extensionality over protected masks |
| C18 | Range reads | bit extensionality over protected masks |
| C19 | Zero-length and overflowing ranges of integer backed bitfields | bit extensionality over protected masks |
| C20 | invert_bits flips exactly the writable bits | folds over fields against the field map |
| C21 | invert_x and x_inverted | folds over fields against the field map |
| C22 | Builder equals construction plus setters | induction over call chains |
| C23 | Generated operations never panic | induction over histories, refinement to the field map |
| C24 | Debug and release builds agree | induction over histories, refinement to the field map |
| C25 | Storage stays in range | induction over histories, refinement to the field map |
| C26 | Operation histories refine a map from fields to raw values | induction over histories, refinement to the field map |
| C27 | Non-writable fields are immutable under field/bit/range/write/invert operations | induction over histories, refinement to the field map |
| C28 | Slice conversions | induction over the fields; xor-swap loop = reversal |
| C29 | Array backing agrees with integer backing | both backings refine the same specification |
| C30 | Bitflag round trip | `Bitflag.v`; induction over variants |
| C31 | Declarations are accepted exactly when the widths add up | `Parser.v`; induction over the field list; acceptance is characterised exactly |
| C32 | Invalid fields are rejected | `Parser.v`; induction over the field list; acceptance is characterised exactly |
| C33 | Accepted literal defaults are read back unchanged | `ConstExpr.v`, `Parser.v`; induction over digit strings |
| C34 | Generated API matches the access level | `Surface.v`; case analysis over features, strings |
| C35 | Generated item names do not clash | `Surface.v`; case analysis over features, strings; exact condition in `PropClash.v` |
| C36 | Bit-operation switches behave as documented | `Surface.v`; case analysis over features, strings |
| C37 | write endian agrees with from/into endian | induction over the fields; xor-swap loop = reversal |
| C38 | Nested bitfields compose | the custom codec is another bitfield's conversion |
| C39 | Range access to a field agrees with its accessors | bit extensionality over protected masks |
| C40 | From traits agree with from/into functions | induction over the fields; xor-swap loop = reversal |
| C41 | Checked range write rejects values that are too large | bit extensionality over protected masks |
| C42 | x_inverted of a signed field is the complement | folds over fields against the field map |
| C43 | Setters commute and overwrite | setter = `splice`, getter = decode of `slice`; bit extensionality |
| C44 | Literal defaults are understood with their Rust value | `ConstExpr.v`, `Parser.v`; induction over digit strings |
| C45 | Ignored fields do not influence the layout | `Parser.v`; induction over the field list; acceptance is characterised exactly |
| C46 | Reserved fields hold their default | induction over histories, refinement to the field map |
| C47 | Field values determine the bits | setter = `splice`, getter = decode of `slice`; bit extensionality |
| C48 | Access levels are assigned as documented | `Parser.v`; induction over the field list; acceptance is characterised exactly |
| C49 | Non-literal default expressions are left to the compiler | `ConstExpr.v`, `Parser.v`; induction over digit strings |
| C50 | Attribute arguments: last one wins, unset ones come from the features | `Parser.v`; induction over the argument list |
| C51 | Global cargo features of the bitfields crate set the defaults | `Cargo.v`, `Parser.v`; induction over the resolution; false as stated, exact features proved |
| C52 | Visibility of field functions | `Surface.v`; case analysis over features, strings |
| C53 | Shape of the generated struct | `Surface.v`; case analysis over features, strings |
| C54 | Debug prints the fields and their values | `Gen.v`; getters against raw bits |
| C55 | Accepted declarations expand | `Surface.v`; case analysis over features, strings; exact condition for raw names in `PropRaw.v` |
| C56 | Switches select the generated functions and traits | `Surface.v`; case analysis over features, strings |
| C57 | Bitflag as a field type | `Bitflag.v`; induction over variants |
| C58 | Accepted bitflags generate a valid match | `Bitflag.v`; induction over variants |
| C59 | Emitted functions type check | `Rust.v`, `Emit.v`; function by function |
| C60 | Emitted functions behave as specified | `Rust.v`, `Emit.v`; function by function against `Gen.v` |
| C61 | A literal default reaches the getter through the emitted code | C33 and C60 composed; literal typing of `Rust.v` = the account of C33 |
| C62 | Attribute arguments follow one exact grammar | `Attr.v`; induction over the token list |
| C63 | Generated documentation names the bits a function acts on | `Docs.v`; decimal text read back, then C04, C05, C12, C21; announced errors against the checked functions |
| C64 | Histories with arbitrary conversion functions | `PropLossy.v`; the map specification of C26 with conversions in place, induction over the history |
| C65 | Generated code needs only core unless the storage is boxed | `Paths.v`; false as stated, exact condition proved |
| C66 | Attributes reach the item they were written on | `Outer.v`; case analysis, induction over the fields |
| C67 | Conditions, generic parameters and payloads are respected | `Outer.v`; false as stated, exact conditions proved |
| C68 | Custom field types and the bitfield need not be `Copy` | `Moves.v` on `Emit.v`; bindings that a fragment does not look at can be inserted anywhere, then computation per shape of field |
| C69 | Debug text determines the bits | `DebugText.v`; numbers are cut off at the first character that is no digit, indentation is injective |
| C70 | documentation update is local and repeatable | `BuildDocs.v`; the tags lie in one line and the inserted text begins and ends with a line break, so no tag can arise across its borders |
| C71 | ignored fields start at their defaults and are never changed | `Ignored.v` on `Emit.v`; a computed condition on function bodies (assignments only to locals and to the storage, struct expressions only without receiver) and a soundness proof by induction on runs |
| C72 | default expressions mean the same in every function; false, exact set of captured names, exact condition for `Self` | `Scope.v` on `Emit.v`; scopes of every template, and an induction over the syntax of `Rust.v`: the meaning depends only on the variables that occur |
| C73 | which derives of the user, and which ignored fields, are accepted next to what the macro implements; the README's condition is false | `Derives.v` on `Outer.v`; the list of implementations of all emitted items, split into own, user's and builder's |
| C74 | the generated functions are `const` on every compiler Cargo admits (false on beta), and behave the same on all compilers | `Toolchain.v` on `Emit.v`; inductions over the syntax of `Rust.v`: what checks in a `const` function uses only `const` functions, such code has the same meaning elsewhere, and a meaning depends on callees only through their results |
