# Formal model of buntine/barcoders in Rocq (Coq 8.16.1)

Sections 1–3 are the design (first written before the proofs, kept current); section 4 is the trusted
base, section 5 what the model leaves out, section 6 the defects of the code that the proofs exhibit,
section 7 how the theorems were tested, section 8 the status of every property.

## 1. Shape of the development

| layer | files (rocq/theories) | content |
|---|---|---|
| machine | `Rust.v` | Rust semantics used by the model: panic monad, build profile, fixed-width integers, `str`, slices |
| model | `M_*.v` | the code of /repo/src, function by function, each definition citing file and lines; constant tables (`M_Tables.v`) transcribed by script |
| tests of the model | `T_Vectors.v` | the repository's own unit-test vectors and README examples (with its PNG picture), replayed by computation |
| specification | `Symbology.v`, `S_*.v` | independent specifications: element-width tables of the symbology standards, width-based *readers* (scanners), GS1 check digit, JSON/XML/SVG readers, pixel semantics, kinds of damage |
| proofs | `P_*.v` | lemmas |
| properties | `C_*.v` | only the property theorems, concrete `Example`s meeting their hypotheses, and `Print Assumptions` |

`S_*.v` do not import `M_*.v`; they share with the model only `Rust.v` (data types, `lit`) and the
enumeration of symbologies.  The one exception is `S_Gen.v`, which needs the data types (pixel, rotation, buffer)
of `M_Image.v` to read pictures; it uses no function of the model.  Theorem names begin with the identifier of their property.

### Machine model
* A Rust call becomes a value of `M A := Ret a | Panic reason`. `Result` stays data (`Ok`/`Err e`), so
  "returns Err(Length)" and "panics" are different observations.
* `profile := Debug | Release` is a parameter of every function that does fixed-width arithmetic.
  Debug: overflow panics. Release: it wraps. Every theorem quantifies over the profile unless it is about one.
* `u8`, `u32`, `usize` (64-bit; other widths in `M_Target.v`) are `N` with explicit range checks at each operation; `i32` is `Z`.
* A `&str` is the list of its Unicode scalar values; `len()` is the sum of UTF-8 lengths.
* Slicing and indexing panic when out of range; `unwrap`/`expect`/`panic!` are explicit.
* `f64` (the SVG opacity) is the stdlib's `SpecFloat` binary64; no primitive floats are used.

### Specification of "scanner"
A printed symbol is alternating bars and spaces. `render ws` draws the element widths `ws` starting with a bar;
`scan bits` measures the run lengths back (quiet zones trimmed). Each symbology's standard is a table of element
widths, a layout, and a reader from widths to data. Conformance theorems say `encode = render (layout data)`;
round-trip theorems say `reader (scan (encode data)) = Some data`. The standard tables in `S_*.v` were written from
knowledge of the published standards (GS1 General Specifications, ISO/IEC 15417/16388/16390, AIM USS), not from the
code; there is no network here to re-check them.

## 2. What is modelled

| source | model | covered |
|---|---|---|
| src/sym.rs | `M_Parse.v` | `Parse::parse` |
| src/sym/helpers.rs | `M_Helpers.v` | `join_slices`, `join_iters`, `modulo_10_checksum` (u8 arithmetic) |
| src/sym/ean13.rs, ean8.rs, upca.rs | `M_Ean13.v`, `M_Ean8.v`, `M_Upca.v` | constructors, check digits, `encode` and every helper |
| src/sym/ean_supp.rs | `M_EanSupp.v` | constructor, `encode` on arbitrary public vectors |
| src/sym/code39.rs, code93.rs, code11.rs | `M_Code39.v`, `M_Code93.v`, `M_Code11.v` | constructors, check characters (usize/i32 arithmetic), `encode` |
| src/sym/codabar.rs | `M_Codabar.v` | `Unit` conversions, constructor, `encode` |
| src/sym/code128.rs | `M_Code128.v` | tokenizer, character sets, check symbol (i32), `encode` |
| src/sym/tf.rs | `M_Tf.v` | both constructors, `encode` on arbitrary public vectors |
| src/generators/ascii.rs, json.rs | `M_Ascii.v`, `M_Json.v` | constructors, setters, `generate` |
| src/generators/svg.rs | `M_Svg.v` | colours, setters, every formatting function, `generate` |
| src/generators/image.rs | `M_Image.v` | colours, setters, rotation, pixel loops, `generate_buffer`, `generate` around an arbitrary codec; the `image`-crate buffer operations it calls |
| src/error.rs | `M_Error.v` | the error values and their messages |
| everything that computes with usize | `M_Target.v` | the same functions with the width of usize as an argument (C87) |
| `derive(Debug)` on all of these | `M_Debug.v`, `M_Pretty.v` | the texts of `{:?}` and `{:#?}` for every symbology, error and generator (which characters beyond ASCII core escapes is an argument, `unicode`; the theorems hold for all) |
| README calling sequence | `M_Use.v` | `new(data)?.encode()` for all twelve constructors |

Simplifications are stated beside the definitions.  They are: iterators and `Vec` are lists; an `RgbaImage`
is its dimensions and row-major pixels; `String` capacity and allocation are not represented; the u32/usize
sizes of collections are the lengths of lists (the few places where they could overflow are explicit).

## 3. How the properties are proved

* Acceptance (C01, C08, C11, C15, C18, C22, C26, C29, C33, C35, C38, C76): the complete decision table of `new` for every
  string, by case analysis on the guard and `find`; for Code 128 by induction over the tokenizer against an
  independent grammar of segments.
* Conformance (C02, C09, C12, C16, C19, C23, C27, C34, C35, C39, C82): encode = `render` of the standard's widths
  (C82: by rules that use no table, as a check of the tables).
  Finite table checks (`vm_compute` + `forallb_forall`) lifted by induction over the payload.
* Scanner round trip (C03, C09, C12, C16, C20, C24, C28, C34, C35, C40, C58): from conformance, `scan (render ws) = ws`,
  and the reader inverting the layout by induction.
* Check characters (C04–C06, C10, C14, C21, C25, C61–C63, C71, C73, C84, C85): modular arithmetic over weighted sums, splitting
  the list at the position.
* Public enum variants (C17, C37): encode on arbitrary byte vectors, panics exactly characterised.
* Arithmetic limits (C07, C33, C41, C51, C55): exact overflow conditions in both profiles.
* Documentation (C80, C81): comparisons of widths from C59; book numbers by arithmetic modulo 11.
* Identification (C31, C42, C64, C65, C68, C92): unique decodability through readers; signatures of start patterns.
* Generators (C46–C58, C66, C67, C77, C79): outputs read back by small independent parsers; pixels by induction over the loops;
  the codec of C56 is a universally quantified function argument.
* Direction, neighbours and damage (C45, C69, C70, C72, C74, C75, C78, C83, C86): reversed, inverted, replaced, added or missing modules, seen as changes
  of the list of element widths; parity of sums, Hamming distance of the tables, no start pattern inside a symbol; a width changed by any
  amount either breaks a constant sum or is a small change of the wide/narrow pattern.
  C83 and C86 count wrong modules and characters: distance between table entries, and how many characters a check character must see changed.
* Narrow targets (C87): the model with the width of usize as an argument, compared with the 64-bit model.
* Print quality (C88): edges on the integers at any resolution; rounding back to the grid is unique below the limits.
* All symbols (C89): each reader inverted, so that accepted widths are the symbol of their reading; then the conformance theorems.
* Full-ASCII mode (C90): the shift tables of the standards over the exact readings of C20 and C24.
* Texts in Code 128 (C94): the spelling is a message without SHIFT and with settled FNC1, so C40 gives its reading.
* Slips with item numbers (C96): the decision tables of C01, C08, C11, C33 and the readings of C84.
* Printed characters missing or printed twice (C97): `S_Skip.v` cuts a symbol at the edges of its characters and
  joins the parts again; what the readers of the specification then report.
* Parts of a symbol (C98): `P_Part.v` turns a two-sided cut into element widths (`inside`), and reads on across the
  borders of the printed characters: at every even offset within a character, the characters in which a window can end
  that began like a start character form a set (`closed`) from which no stop pattern is reached (`never`), both checked by
  evaluation over the whole alphabet. At offset 0 the start is the printed one, and C74 applies.
* Parts read backwards (C99): `P_Back.v` takes a turned part back to the printed widths (`inside_rev`) and reads on as for C98, now
  from odd offsets (a bar ends Code 93 and Code 128) or, for Codabar, from even ones: the first window is nowhere, or nothing behind
  it leads to the last one (`apart`).
* Debug texts (C95): a reader of the notation inverts a printer of trees, by induction over its fuel; every text is such a print.
* Pretty-printed texts (C100): the padding of nested texts turned into a printer with a depth; the reader inverts that printer, and both texts print one tree.
* Blots (C101): a blot changes one element and swallows others; with the number of elements fixed modulo the character length either whole characters vanish (too few modules for the width of the blot), or at most two neighbouring characters differ, and the tables and check characters decide.
* Places (C102): every conforming symbol is a head, tiles and a tail; the tiles before the i-th give its offset, and depend only on the characters before it.
* Enlarged and joined pictures (C103): the output functions distribute over repetition and concatenation of modules.
* Crossings (C104): places (C102) cut both symbols into tiles, so the crossing of two symbols draws the crossing of what they show; the check formulas then decide.
* Lengths of parts (C105): the number of elements fixes the number of characters; with all elements left only the outer bars can be narrower, which no table allows.
* Symbols side by side (C106): the elements of the line are those of both symbols with one space between; the stop or guard of the first would have to be a character of the joined symbol, or the number of elements is wrong.
* Ink added or lost all over a symbol (C107): the damaged modules are compared with the printed ones by three counts that one-sided damage can move only one way: dark modules, wide bars and wide spaces. In 2 of 5 symbols these fix the number of digits and then leave at most one module open (C70). In Code 39 and Codabar the characters are kept in step by a table check and compared one by one.
* Other marks on the line (C108): a line that is read is, by definition of the readers, laid out like a printed one, so the symbol on it is a part cut off from a readable line; the cutting lemmas of C74 and the lemmas of C98 on parts inside a symbol are then used with the whole line in the role of the symbol.
* Pictures in negative (C109): the negative has two elements more or less than the symbol, which no reader accepts, or, with dark paper on one side only, the same elements shifted by one, which contradicts the start or stop pattern (retail symbols: the table of right-hand digits).
* Touching symbols (C110): that no symbol begins (or ends) with another one follows from C108, and in 2 of 5, where C108 has its exceptions, from the places of the elements that are two modules wide; lists are then compared from the front, lists of add-ons from the back, and Codabar lists character by character, since no Codabar character begins with another one.
* Illegible modules (C111): two lines that both fit what is seen differ in no more modules than are illegible or wrong, so C83 applies to them.
* Majority of the pixels (C112): a module is taken wrong only if half of its pixels were changed, which reduces damaged images to lines with wrong modules (C83, C111).
* A missing digit (C113): the weights 1 and 3 have inverses modulo ten, so the check equation has one solution for every place; for Code 39 the values are a bijection with the residues modulo 43; for Code 93 every weight 1 to 20 has an inverse modulo the prime 47, for Code 11 every weight 1 to 10 modulo 11.
* Quiet zones (C91): the margins of the modules found in each output by C57.  Parts of a line of symbols (C93): no printed symbol and no
  accepted reading has five light modules in a row, so a part with quiet zones is a whole symbol.

## 4. Trusted base
* Coq's kernel (8.16.1), including its virtual machine (`vm_compute`); `coqchk` is run by the checker.
* `Print Assumptions` is run on every property theorem in the `C_*.v` files and answers
  **"Closed under the global context"** for all of them (367 theorems): no axiom, of the standard library or
  otherwise, is used.  Loading `Lia` and friends loads stdlib modules that declare a module type's fields
  (`Coq.ssr.ssrunder.Under_rel`); they are not used by any theorem.
* No `Admitted`, `admit`, `Axiom`, `Parameter`, section-less `Variable`/`Hypothesis`, no functors or module types, no
  disabled kernel checks, no plugins beyond the stdlib's.
* That `Rust.v` and `M_*.v` say what the Rust code does.  Every definition cites its lines; the constant tables were
  transcribed by script; the repository's own test vectors and README examples are replayed in `T_Vectors.v`.
* That the tables and readers of `S_*.v` are those of the standards (written from knowledge of them; offline).

## 5. Not modelled
The compression codecs of the `image` crate (an arbitrary function in C56), file IO, core's tables of
printable characters (an arbitrary predicate in C95 and C100), feature gating (`no_std`), memory exhaustion other than the explicit size check of
`ImageBuffer::new`, threads (the library has none).  Strings of 2^48 bytes and more are outside the theorems that say so
(the usize/i32 arithmetic of check characters; acceptance is nevertheless stated for all sizes).

## 6. Defects found
| where | defect | theorem |
|---|---|---|
| sym.rs `parse` | byte length cast to u32: strings of 2^32+12 digits are accepted | C07 |
| ean13.rs | `Bookland` and `JAN` are aliases of `EAN13`: their number systems are not checked | C81 |
| codabar.rs | `+` is printed unreadably, B and C are exchanged; start/stop characters not required | C30, C32 |
| tf.rs, helpers.rs | ITF check digit computed in u8: panics (debug) or wrong digit (release) from 15 nines on | C33 |
| tf.rs | guards use wide = 2 modules, data wide = 3 | C36 |
| code128.rs | SHIFT looks the next character up in the wrong set; FNC1 inside a digit pair moves in front of it | C40, C42 |
| code128.rs | weighted i32 sum overflows from 6490 symbol characters on, panics even in release | C41 |
| code128.rs | check symbol blind at weights divisible by 103 (a limit of the standard) | C71 |
| svg.rs | width is a u32 product: panics or wraps; xmlns is copied unescaped | C51, C67 |
| image.rs | width is a u32 product: panics | C55 |
| generators | disagree on bytes other than 0 and 1 (ASCII panics, JSON and image draw them, SVG does not) | C57 |
| code93.rs | on a target with a 16-bit usize the check sums overflow from 138 characters on: panic (debug) or unreadable symbol (release) | C87 |
| code93.rs | the data characters ( ) [ ] are the shift characters: never read back as given by a reader in full-ASCII mode (documented; the same comment in code11.rs has no meaning there) | C90 |
| generators | draw no quiet zones: readers that insist on them read nothing unless the caller adds light modules; readers that do not insist on them can take the end of a Code 39 symbol for an ITF number | C91, C93 |
| symbologies | unframed Codabar prints like Code 11; EAN-2 misread after one wrong module; 2 of 5 and five-digit add-ons can be read as shorter data when an end is missing; two wrong modules are enough to misread an EAN-13, against four for UPC-A (limits of the standards) | C65, C70, C74, C83 |

## 7. Testing the theorems against wrong programs
`seeded/LOG.jsonl` records 2225 edits of the model, made in a scratch copy: what was edited, the
claims it falsifies, the theorems that lost their proof, and the theorems tightened when a claim survived.  A script
applies the edit, rebuilds everything that depends on it, replaces every proof that fails, and follows dependencies
up to the property theorems, so a theorem *not* listed as failed was re-proved under the edit.
The first 246 are realistic bugs written by hand.  The entries `auto-…` are one-token edits made systematically (operators,
constants, constructors, literals) in every model file but the large tables, which were sampled; there the run stops at the
first proof that fails.  57 of these 923 survived: 55 change nothing that a caller can observe, two changed the text of an error
that had not been claimed (now `C76_generator_text`).  The 482 entries `struct-…` exchange arguments or list elements, drop
parts, negate conditions and put another variable of the same scope; 19 survived, none of them observable.

## 8. Status
"partial" means that the full claim is false of the code: the property has a `…_refuted` theorem with a witness and
`…_partial` theorems that say exactly what does hold.

| | status | claim | theorems |
|---|---|---|---|
| C01 | proved | EAN-13 accepts exactly the well-formed numbers, with a fixed error precedence | `ean13_new` |
| C02 | proved | EAN-13 symbols are the GS1 symbols | `ean13_encode` |
| C03 | proved | A scanner reads back the EAN-13 digits | `ean13_round_trip`, `ean13_injective` |
| C04 | proved | EAN-13 with and without check digit agree; exactly one check digit is accepted | `ean13_check_digit` |
| C05 | proved | EAN-13 rejects every single-digit typo | `ean13_typo` |
| C06 | proved | EAN-13 adjacent transpositions are rejected unless the two digits differ by five | `ean13_swap` |
| C07 | partial | Fixed-length symbologies enforce their length on every string | `length_check_refuted`, `huge_ean13_partial`, `huge_ean8_partial`, `huge_upca_partial` |
| C08 | proved | EAN-8 accepts exactly the well-formed numbers, with a fixed error precedence | `ean8_new` |
| C09 | proved | EAN-8 symbols are the GS1 symbols and scan back | `ean8_encode`, `ean8_round_trip` |
| C10 | proved | EAN-8 check digit: unique, catches every single-digit typo, and transpositions not differing by five | `ean8_check_digit`, `ean8_typo`, `ean8_swap` |
| C11 | proved | UPC-A accepts exactly the well-formed numbers, with a fixed error precedence | `upca_new` |
| C12 | proved | UPC-A symbols are the GS1 symbols and scan back | `upca_encode`, `upca_round_trip` |
| C13 | proved | A UPC-A number is the EAN-13 number with a leading zero | `upca_is_ean13` |
| C14 | proved | UPC-A check digit: unique, catches every single-digit typo, and transpositions not differing by five | `upca_check_digit`, `upca_typo`, `upca_swap` |
| C15 | proved | EAN supplemental accepts exactly two- and five-digit strings | `eansupp_new` |
| C16 | proved | EAN-2 and EAN-5 symbols are the GS1 add-on symbols and scan back | `eansupp_encode` |
| C17 | proved | Hand-built EAN supplementals: exactly which ones panic | `ean2_hand_built`, `ean5_hand_built`, `ean2_returns`, `ean5_returns_debug`, `ean5_returns_release`, `ean2_printed`, `ean5_printed`, `hand_built_read` |
| C18 | proved | Code 39 accepts exactly its 43-character alphabet, 1 to 256 characters | `code39_new`, `code39_with_checksum` |
| C19 | proved | Code 39 symbols conform to the Code 39 element table | `code39_encode` |
| C20 | proved | A scanner reads back Code 39 data | `code39_round_trip` |
| C21 | proved | The Code 39 check character catches every single-character misread and identifies data uniquely | `code39_misread` |
| C22 | proved | Code 93 accepts exactly its 47-character alphabet, 1 to 256 characters | `code93_new` |
| C23 | proved | Code 93 symbols conform to the Code 93 element table with correct C and K check characters | `code93_encode` |
| C24 | proved | A scanner reads back Code 93 data | `code93_round_trip` |
| C25 | proved | Code 93 check characters catch every single-character misread | `code93_misread` |
| C26 | proved | Code 11 accepts exactly digits and dash, 1 to 256 characters | `code11_new` |
| C27 | proved | Code 11 symbols conform to the Code 11 element table with correct C and K check characters | `code11_encode` |
| C28 | proved | A scanner reads back Code 11 data | `code11_round_trip` |
| C29 | proved | Codabar accepts exactly its 20-character alphabet, 1 to 256 characters | `codabar_new` |
| C30 | partial | Codabar symbols conform to the Codabar element table | `codabar_conformance_refuted`, `codabar_read_partial`, `codabar_conformance_partial` |
| C31 | proved | Codabar symbols determine their data | `codabar_injective`, `codabar_returns`, `codabar_any_value` |
| C32 | partial | Codabar symbols are framed by start/stop characters | `codabar_framing_refuted`, `codabar_framing_partial` |
| C33 | partial | ITF accepts exactly digit strings of 1 to 256 digits and appends the right check digit to odd-length data | `itf_check_digit_refuted`, `itf_new_partial`, `itf_short_partial`, `itf_release_partial` |
| C34 | proved | ITF symbols conform to Interleaved 2 of 5 and scan back | `itf_encode`, `itf_encode_value` |
| C35 | proved | STF accepts exactly digit strings of 1 to 256 digits, conforms to Standard 2 of 5 and scans back | `stf_new`, `stf_encode` |
| C36 | partial | 2-of-5 symbols use one wide-to-narrow ratio | `one_ratio_refuted`, `data_ratio_partial` |
| C37 | proved | Hand-built 2-of-5 values: exactly which ones panic | `standard`, `interleaved`, `same_as_constructor` |
| C38 | proved | Code 128 accepts exactly the documented input language | `code128_new`, `code128_segments_unique` |
| C39 | proved | Code 128 symbols conform to the Code 128 element table with the right check symbol | `code128_conformance` |
| C40 | partial | A scanner reads back Code 128 data | `code128_round_trip_refuted`, `code128_round_trip_partial`, `code128_round_trip_no_shift_partial`, `code128_heard_partial`, `code128_shift_partial`, `code128_two_faults` |
| C41 | partial | Code 128 encode never panics | `code128_encode_refuted`, `code128_encode_exact_partial`, `code128_encode_safe_partial` |
| C42 | partial | Code 128 symbols determine their data | `code128_injective_refuted`, `code128_injective_partial`, `code128_injective_aligned_partial` |
| C43 | proved | Every encoder emits only 0 and 1, and starts with a bar | `encode_modules` |
| C44 | proved | Debug and release builds agree and no encoder panics on validated data | `profile_independent`, `constructors` |
| C45 | proved | A symbol read right-to-left is never taken for another message | `reversed_rejected` |
| C46 | proved | ASCII output is exactly the barcode, row by row | `ascii_lines`, `ascii_text` |
| C47 | proved | ASCII generation panics exactly on bytes other than 0 and 1 | `ascii_panics_iff` |
| C48 | proved | JSON output is well-formed and parses back | `json_object` |
| C49 | proved | SVG output is well-formed and parses back to the intended rectangles | `svg_document`, `bar_positions` |
| C50 | proved | SVG paints exactly the bars | `svg_painting` |
| C51 | partial | SVG dimensions never overflow | `svg_width_refuted`, `svg_checked_partial`, `svg_unchecked_partial`, `svg_exact_partial` |
| C52 | proved | SVG colours are rendered faithfully | `svg_colours`, `rounding_unique` |
| C53 | proved | Image pixels are exactly the barcode | `image_pixels` |
| C54 | proved | Image rotations move pixels exactly | `rotate_90`, `rotate_180`, `rotate_270`, `generate_rotated` |
| C55 | partial | Image dimensions never overflow | `image_width_refuted`, `image_width_partial`, `image_overflow_partial`, `image_returns_partial` |
| C56 | proved | Image::generate and generate_buffer draw the same picture | `generate_codec`, `generate_panics`, `generate_buffer_variant`, `buffer_any_variant`, `buffer_no_error` |
| C57 | proved | All generators draw the same bars for encoder output; they disagree on other bytes | `same_bars`, `other_bytes` |
| C58 | partial | End to end: what any generator draws for any symbology scans back to the data | `exact_partial`, `profiles_partial`, `end_to_end_ascii`, `end_to_end_json`, `end_to_end_svg`, `end_to_end_image`, `end_to_end_file`, `caller_data_partial`, `caller_data_refuted` |
| C59 | proved | Symbol widths are determined by data length | `lengths`, `code11_width`, `codabar_width` |
| C60 | proved | Printed elements stay within each symbology's width range | `element_widths` |
| C61 | proved | Code 93 readers refuse every single misread character and every exchange of neighbours | `code93_detection` |
| C62 | proved | Code 11 readers refuse every single misread character and every exchange of neighbours | `code11_detection` |
| C63 | proved | The Code 39 check character is blind to the order of the data | `code39_order` |
| C64 | proved | Code 39, Code 93 and Code 11 symbols determine their data | `code39_injective`, `code93_injective`, `code11_injective` |
| C65 | proved | Symbols of one symbology are never taken for symbols of another | `symbols_apart`, `upca_ean13`, `unframed_codabar_alike` |
| C66 | proved | Generators draw what was set last, and the documented defaults otherwise | `ascii_defaults`, `json_defaults`, `image_defaults`, `image_formats`, `svg_builder` |
| C67 | partial | The SVG document carries the xmlns value that was set, and nothing else | `xmlns_refuted`, `xmlns_injection`, `xmlns_partial` |
| C68 | proved | Symbols determine their data, for all symbologies but Code 128 | `same_symbol_same_data`, `same_length`, `retail_check_optional`, `itf_check_optional`, `code39_check_explicit` |
| C69 | proved | Pictures turned upside down are not misread | `upside_down` |
| C70 | proved | A symbol with a single wrong module is never misread | `one_wrong_module`, `data`, `ean2_misread` |
| C71 | proved | The Code 128 check character catches misread and exchanged characters | `code128_misread`, `readable`, `blind_places`, `blind_exchange` |
| C72 | proved | A symbol with one wrong character is never misread | `one_wrong_character`, `data` |
| C73 | proved | ITF check digits and EAN-2 parities detect misread digits as far as they can | `itf_check_digit`, `ean2_parities` |
| C74 | proved | A scan line that misses one end of a symbol is never misread, 2 of 5 and add-ons excepted | `cut_right`, `cut_left`, `fixed_length`, `data`, `two_of_five_cut`, `both_ends_misread` |
| C75 | proved | A bar or space printed too wide, too narrow or not at all is never misread | `stretched`, `stretched_refused`, `codabar_unframed_misread` |
| C76 | proved | The error text a caller is shown names the fault of the data | `error_text`, `code128_error_text`, `generator_text`, `generators_never_fail`, `texts_differ` |
| C77 | proved | Symbols can be read without knowing the module width, along any line, whichever way the picture is turned | `width_unknown`, `data`, `any_line`, `turned_any_way` |
| C78 | proved | Symbols printed next to each other are read separately | `side_by_side` |
| C79 | proved | Sizes of outputs | `ascii_size`, `json_size`, `empty_size`, `svg_size`, `image_size` |
| C80 | proved | Documented densities | `code93_wider`, `code93_denser`, `code93_denser_checked`, `itf_denser`, `code128_double` |
| C81 | partial | Bookland and JAN values carry their number systems | `number_system_refuted`, `number_system_partial`, `book_partial`, `books_apart_partial` |
| C82 | partial | Printed characters have the structure of their standards | `structure_partial`, `plus_refuted`, `plus_exact_partial`, `two_of_five_unique` |
| C83 | proved | How many wrong modules it takes to be misread | `wrong_modules`, `data`, `needed_tight`, `every_symbology` |
| C84 | proved | One item number, one check digit, whichever symbology carries it | `carrier`, `one_number`, `same_acceptance`, `itf_trusts` |
| C85 | proved | Which pairs of wrong digits an EAN or UPC check digit catches | `two_wrong_digits`, `one_in_ten`, `jump_exchange`, `twins` |
| C86 | proved | How many wrong characters it takes to be misread | `wrong_characters`, `data`, `needed_tight`, `every_symbology` |
| C87 | proved | Targets with a narrower usize | `every_width`, `17_bits`, `code93_16_bits`, `code93_137`, `code93_138`, `text`, `picture`, `64_bits` |
| C88 | proved | Symbols printed with edges out of place | `unmoved`, `half_module`, `quarter_module`, `spread`, `data`, `tight` |
| C89 | proved | Every symbol a reader accepts can be printed | `printed_again`, `exactly_these`, `one_symbol`, `code128`, `code128_two_symbols`, `plus_unprintable` |
| C90 | proved | Full-ASCII mode of Code 39 and Code 93 | `every_ascii_text`, `128_characters`, `exactly`, `as_written`, `brackets_are_shifts` |
| C91 | proved | Quiet zones | `margins`, `none_by_default`, `eleven`, `data` |
| C92 | proved | A reader that tries every symbology in both directions | `nothing_backwards`, `one_finding`, `data_found` |
| C93 | proved | Readers that ask for quiet zones never read a part of a symbol | `only_whole_symbols`, `every_symbol_found`, `data_found`, `parts_without_zones` |
| C94 | proved | Texts and GS1 element strings in Code 128 | `every_latin1_text`, `2163_characters`, `nothing_but_latin1`, `gs1_128` |
| C95 | proved | What Debug texts say | `new_shown`, `same_text_same_outcome`, `one_line`, `generators_one_line`, `ascii`, `json`, `svg`, `image` |
| C96 | proved | Item numbers with a digit left out or added, or given to the wrong symbology | `digit_missing`, `digit_added`, `second_check_digit`, `wrong_symbology` |
| C97 | proved | Printed characters missing from a symbol, or printed twice | `unchecked`, `unchecked_data`, `retail`, `code39_check`, `code93`, `code93_tight`, `code11`, `code128`, `code128_readable`, `code39_runs`, `code93_runs`, `code11_runs`, `code128_runs` |
| C98 | proved | Parts of a symbol are not symbols | `no_part_read`, `parts_misread` |
| C99 | proved | Parts of a symbol read backwards | `no_part_backwards`, `parts_misread` |
| C100 | proved | Pretty-printed Debug texts | `_new_shown`, `_same_as_plain`, `_same_text_same_outcome`, `_only_line_breaks`, `_svg_only_line_breaks`, `_ascii`, `_json`, `_svg`, `_image` |
| C101 | proved | Ink blots and scratches | `_dark`, `_light_inside`, `_light`, `_code128_any_length`, `_ean2`, `_ean2_misread`, `_code128_misread` |
| C102 | proved | Where each character is printed | `_places`, `_beginnings`, `_addon_beginnings` |
| C103 | proved | Enlarged pictures, and pictures put together | `_ascii_enlarged`, `_image_enlarged`, `_svg_enlarged`, `_ascii_joined`, `_image_joined`, `_svg_joined` |
| C104 | proved | Scan lines that cross from one symbol into another | `_unchecked`, `_code39_check`, `_code93`, `_code11`, `_code128`, `_retail_uneven`, `_retail`, `_ean13`, `_addon` |
| C105 | proved | No part of a symbol reads as long as the whole | `_parts_shorter` |
| C106 | proved | Symbols next to each other are never taken for one symbol | `_never_one`, `_codabar` |
| C107 | proved | Ink added, or lost, all over a symbol | `_added`, `_lost`, `_codabar`, `_code39_added`, `_code39_lost`, `_overprinted`, `_codabar_overprinted`, `_others_misread` |
| C108 | proved | Other marks on the line of a symbol | `_after`, `_before`, `_refused`, `_five_digits`, `_codabar`, `_both_sides`, `_both_sides_misread`, `_gained` |
| C109 | proved | Pictures in negative | `_negative`, `_printed`, `_one_polarity`, `_backwards`, `_backwards_printed`, `_one_side_misread`, `_light_bars` |
| C110 | proved | Symbols printed one behind the other, touching | `_no_prefix`, `_no_suffix`, `_one_way`, `_data`, `_codabar_texts`, `_supp_prefix_misread`, `_itf_suffix_misread` |
| C111 | proved | Illegible modules, and readers that correct wrong ones | `_nearest`, `_illegible`, `_corrected`, `_code93_character`, `_needed_tight` |
| C112 | proved | Damaged images, read by the majority of the pixels | `_modules`, `_data` |
| C113 | proved | A missing digit of an item number can be restored | `_ean13`, `_ean8`, `_upca`, `_two_missing`, `_code39`, `_code93`, `_code11` |
