{"id": "C01", "title": "EAN-13 accepts exactly the well-formed numbers, with a fixed error precedence", "statement": "EAN13::new(s) returns Err(Length) unless the UTF-8 length of s is 12 or 13; otherwise Err(Character) unless every character is an ASCII digit; otherwise Err(Checksum) when s has 13 digits and the thirteenth is not the GS1 check digit of the first twelve; otherwise Ok. It never panics.", "quantifier": "every string shorter than 4 GiB (all Unicode strings), both overflow-check build profiles", "why_tests_cant": "the input space is all strings; tests sample four of them", "anchors": ["src/sym/ean13.rs: EAN13::new, valid_len, valid_chars", "src/sym.rs: Parse::parse", "src/sym/helpers.rs: modulo_10_checksum"]}
{"id": "C02", "title": "EAN-13 symbols are the GS1 symbols", "statement": "For every accepted input, encode() terminates without panic and returns exactly the 95 modules GS1 prescribes: guard 101, six left digits in number sets A/B chosen by the first digit, centre guard 01010, six right digits in set C (the last one being the check digit), guard 101.", "quantifier": "every accepted string, both build profiles", "why_tests_cant": "10^12 payloads; tests compare four", "anchors": ["src/sym/ean13.rs: EAN13::encode, ENCODINGS, PARITY, left_payload, right_payload"]}
{"id": "C03", "title": "A scanner reads back the EAN-13 digits", "statement": "An independent EAN-13 reader, working only on the widths of the printed bars and spaces, recovers from encode() exactly the twelve data digits followed by their GS1 check digit; hence different numbers give different symbols.", "quantifier": "every accepted string", "why_tests_cant": "round-trip over 10^12 payloads", "anchors": ["src/sym/ean13.rs: EAN13::encode"]}
{"id": "C04", "title": "EAN-13 with and without check digit agree; exactly one check digit is accepted", "statement": "For twelve digits d, exactly one of the ten strings d0..d9 is accepted, and the barcode it builds encodes to the same modules as the one built from d alone; the other nine give Err(Checksum).", "quantifier": "every 12-digit string", "why_tests_cant": "10^13 strings", "anchors": ["src/sym/ean13.rs: EAN13::new, checksum_digit"]}
{"id": "C05", "title": "EAN-13 rejects every single-digit typo", "statement": "If a 13-digit string is accepted, changing any one of its digits to any other digit gives Err(Checksum).", "quantifier": "every accepted 13-digit string, every position, every replacement digit", "why_tests_cant": "10^12 x 13 x 9 cases", "anchors": ["src/sym/ean13.rs: EAN13::new", "src/sym/helpers.rs: modulo_10_checksum"]}
{"id": "C06", "title": "EAN-13 adjacent transpositions are rejected unless the two digits differ by five", "statement": "If a 13-digit string is accepted, exchanging two unequal neighbouring digits gives Err(Checksum) exactly when the two digits do not differ by 5; when they do differ by 5 the swapped string is accepted.", "quantifier": "every accepted 13-digit string, every adjacent pair", "why_tests_cant": "10^12 x 12 cases", "anchors": ["src/sym/ean13.rs: EAN13::new"]}
{"id": "C07", "title": "Fixed-length symbologies enforce their length on every string", "statement": "EAN13::new, UPCA::new and EAN8::new reject with Err(Length) every string whose length is not one of their two legal lengths.", "quantifier": "every string, including strings of 4 GiB and more", "why_tests_cant": "no test allocates 4 GiB; the length is cast to u32 before it is compared", "anchors": ["src/sym.rs: Parse::parse (data.len() as u32)", "src/sym/ean13.rs: EAN13::new", "src/sym/ean8.rs: EAN8::new", "src/sym/upca.rs: UPCA::new"]}
{"id": "C08", "title": "EAN-8 accepts exactly the well-formed numbers, with a fixed error precedence", "statement": "EAN8::new(s): Err(Length) unless the UTF-8 length is 7 or 8; else Err(Character) unless all ASCII digits; else Err(Checksum) when the eighth digit is not the GS1 check digit; else Ok. Never panics.", "quantifier": "every string shorter than 4 GiB, both profiles", "why_tests_cant": "all strings", "anchors": ["src/sym/ean8.rs: EAN8::new", "src/sym.rs: Parse::parse"]}
{"id": "C09", "title": "EAN-8 symbols are the GS1 symbols and scan back", "statement": "For every accepted input encode() returns exactly the 67 GS1 modules (guard, four set-A digits, centre guard, four set-C digits, guard) and an independent width reader recovers the seven digits and their check digit.", "quantifier": "every accepted string, both profiles", "why_tests_cant": "10^7 payloads", "anchors": ["src/sym/ean8.rs: EAN8::encode"]}
{"id": "C10", "title": "EAN-8 check digit: unique, catches every single-digit typo, and transpositions not differing by five", "statement": "For seven digits exactly one eighth digit is accepted and it encodes to the same symbol as the bare seven digits; any single-digit change to an accepted 8-digit string gives Err(Checksum); swapping unequal neighbours gives Err(Checksum) exactly when they do not differ by 5.", "quantifier": "every accepted 8-digit string, every position and digit", "why_tests_cant": "combinatorial", "anchors": ["src/sym/ean8.rs: EAN8::new, checksum_digit"]}
{"id": "C11", "title": "UPC-A accepts exactly the well-formed numbers, with a fixed error precedence", "statement": "UPCA::new(s): Err(Length) unless the UTF-8 length is 11 or 12; else Err(Character) unless all ASCII digits; else Err(Checksum) when the twelfth digit is not the GS1 check digit; else Ok. Never panics.", "quantifier": "every string shorter than 4 GiB, both profiles", "why_tests_cant": "all strings", "anchors": ["src/sym/upca.rs: UPCA::new", "src/sym.rs: Parse::parse"]}
{"id": "C12", "title": "UPC-A symbols are the GS1 symbols and scan back", "statement": "For every accepted input encode() returns exactly the 95 GS1 modules (six left digits all in set A, six right digits in set C) and an independent width reader recovers the eleven digits and their check digit.", "quantifier": "every accepted string, both profiles", "why_tests_cant": "10^11 payloads", "anchors": ["src/sym/upca.rs: UPCA::encode"]}
{"id": "C13", "title": "A UPC-A number is the EAN-13 number with a leading zero", "statement": "For every string s, UPCA::new(s) and EAN13::new(\"0\"+s) return the same Ok/Err verdict and the same error, and when accepted both encode to identical modules.", "quantifier": "every string shorter than 4 GiB minus one byte, both profiles", "why_tests_cant": "relates two encoders on every input", "anchors": ["src/sym/upca.rs: UPCA::new, encode", "src/sym/ean13.rs: EAN13::new, encode"]}
{"id": "C14", "title": "UPC-A check digit: unique, catches every single-digit typo, and transpositions not differing by five", "statement": "For eleven digits exactly one twelfth digit is accepted and it encodes to the same symbol as the bare eleven digits; any single-digit change to an accepted 12-digit string gives Err(Checksum); swapping unequal neighbours gives Err(Checksum) exactly when they do not differ by 5.", "quantifier": "every accepted 12-digit string, every position and digit", "why_tests_cant": "combinatorial", "anchors": ["src/sym/upca.rs: UPCA::new"]}
{"id": "C15", "title": "EAN supplemental accepts exactly two- and five-digit strings", "statement": "EANSUPP::new(s) returns Ok exactly when s is two or five ASCII digits; a two-digit string gives the EAN-2 variant and a five-digit string the EAN-5 variant; otherwise Err(Length) when the byte length (modulo 2^32, which only matters from 4 GiB on) is outside 2..=5, else Err(Character) for a non-digit, else Err(Length) for all-digit strings of another length. Never panics.", "quantifier": "every string, of any size, both profiles", "why_tests_cant": "all strings", "anchors": ["src/sym/ean_supp.rs: EANSUPP::new"]}
{"id": "C16", "title": "EAN-2 and EAN-5 symbols are the GS1 add-on symbols and scan back", "statement": "For every accepted input encode() returns exactly the GS1 add-on modules (guard 1011, digits separated by 01, parity given by value mod 4 for EAN-2 and by the 3/9-weighted sum mod 10 for EAN-5); 20 modules for EAN-2, 47 for EAN-5; an independent width reader that verifies the parity recovers the digits.", "quantifier": "every accepted string, both profiles", "why_tests_cant": "all payloads", "anchors": ["src/sym/ean_supp.rs: EANSUPP::encode, parity, checksum_digit, payload"]}
{"id": "C17", "title": "Hand-built EAN supplementals: exactly which ones panic", "statement": "The EAN2/EAN5 variants are public, so callers can build them from any byte vector. encode() on a hand-built EAN2 of two digits or EAN5 of five digits behaves as for new; on an EAN2 with fewer than two bytes it panics. Whatever a hand-built add-on prints, a reader refuses it or reads its first five digits.", "quantifier": "every byte vector", "why_tests_cant": "public constructors bypass validation", "anchors": ["src/sym/ean_supp.rs: EANSUPP, encode, parity"]}
{"id": "C18", "title": "Code 39 accepts exactly its 43-character alphabet, 1 to 256 characters", "statement": "Code39::new(s) and Code39::with_checksum(s): Err(Length) unless the UTF-8 length is between 1 and 256 inclusive; else Err(Character) unless every character is one of 0-9 A-Z - . space $ / + %; else Ok. Never panics.", "quantifier": "every string shorter than 4 GiB", "why_tests_cant": "all strings", "anchors": ["src/sym/code39.rs: Code39::new, with_checksum", "src/sym.rs: Parse::parse"]}
{"id": "C19", "title": "Code 39 symbols conform to the Code 39 element table", "statement": "For every accepted input encode() returns exactly: start character *, then the data characters, then the modulo-43 check character iff the checksum flag is set, then stop character *, each as nine elements (three of them double width) separated by one narrow space. Length 13*(n+2)-1 modules, or 13*(n+3)-1 with checksum. Never panics.", "quantifier": "every accepted string, both flag values, both profiles; strings shorter than 2^48 bytes (larger ones do not fit in a 64-bit address space)", "why_tests_cant": "43^256 payloads", "anchors": ["src/sym/code39.rs: encode, payload, push_encoding, CHARS, GUARD"]}
{"id": "C20", "title": "A scanner reads back Code 39 data", "statement": "An independent Code 39 width reader recovers the data, or the data followed by the standard modulo-43 check character when the checksum flag is set.", "quantifier": "every accepted string, both flags; strings shorter than 2^48 bytes (larger ones do not fit in a 64-bit address space)", "why_tests_cant": "unbounded payloads", "anchors": ["src/sym/code39.rs: encode, checksum_char"]}
{"id": "C21", "title": "The Code 39 check character catches every single-character misread and identifies data uniquely", "statement": "For a checksummed Code 39 symbol, replacing any one data character, or the check character, by a different alphabet character yields a sequence whose modulo-43 check fails.", "quantifier": "every accepted string, every position, every replacement; strings shorter than 2^48 bytes (larger ones do not fit in a 64-bit address space)", "why_tests_cant": "combinatorial", "anchors": ["src/sym/code39.rs: checksum_char"]}
{"id": "C22", "title": "Code 93 accepts exactly its 47-character alphabet, 1 to 256 characters", "statement": "Code93::new(s): Err(Length) unless the UTF-8 length is between 1 and 256 inclusive; else Err(Character) unless every character is in the 47-character table; else Ok. Never panics.", "quantifier": "every string shorter than 4 GiB", "why_tests_cant": "all strings", "anchors": ["src/sym/code93.rs: Code93::new"]}
{"id": "C23", "title": "Code 93 symbols conform to the Code 93 element table with correct C and K check characters", "statement": "For every accepted input encode() returns exactly: start *, data, C (weights 1..20 cycling from the right, mod 47), K (weights 1..15 cycling from the right over data and C, mod 47), stop *, termination bar. Length 9*(n+4)+1 modules. Never panics.", "quantifier": "every accepted string, both profiles; strings shorter than 2^48 bytes (larger ones do not fit in a 64-bit address space)", "why_tests_cant": "weights wrap at 15 and 20; tests cover one long string", "anchors": ["src/sym/code93.rs: encode, checksum_char, c_checksum_char, k_checksum_char"]}
{"id": "C24", "title": "A scanner reads back Code 93 data", "statement": "An independent Code 93 width reader that verifies C and K recovers exactly the data.", "quantifier": "every accepted string; strings shorter than 2^48 bytes (larger ones do not fit in a 64-bit address space)", "why_tests_cant": "unbounded payloads", "anchors": ["src/sym/code93.rs: encode"]}
{"id": "C25", "title": "Code 93 check characters catch every single-character misread", "statement": "Replacing any single data character of an encoded Code 93 message by a different character, keeping C and K, makes the reader's C check fail.", "quantifier": "every accepted string, position, replacement; strings shorter than 2^48 bytes (larger ones do not fit in a 64-bit address space)", "why_tests_cant": "combinatorial", "anchors": ["src/sym/code93.rs: checksum_char"]}
{"id": "C26", "title": "Code 11 accepts exactly digits and dash, 1 to 256 characters", "statement": "Code11::new(s): Err(Length) unless the UTF-8 length is between 1 and 256 inclusive; else Err(Character) unless every character is a digit or '-'; else Ok. Never panics.", "quantifier": "every string shorter than 4 GiB", "why_tests_cant": "all strings", "anchors": ["src/sym/code11.rs: Code11::new"]}
{"id": "C27", "title": "Code 11 symbols conform to the Code 11 element table with correct C and K check characters", "statement": "For every accepted input encode() returns exactly: start, data, C (weights 1..10 from the right, mod 11), K iff more than ten data characters (weights 1..9 from the right over data and C, mod 11), stop, with one narrow space between characters. Never panics.", "quantifier": "every accepted string, both profiles; strings shorter than 2^48 bytes (larger ones do not fit in a 64-bit address space)", "why_tests_cant": "weights wrap; K appears only above ten characters", "anchors": ["src/sym/code11.rs: encode, payload, checksum_char"]}
{"id": "C28", "title": "A scanner reads back Code 11 data", "statement": "An independent Code 11 width reader that strips and verifies C (and K for long data) recovers exactly the data.", "quantifier": "every accepted string; strings shorter than 2^48 bytes (larger ones do not fit in a 64-bit address space)", "why_tests_cant": "unbounded payloads, variable-width characters", "anchors": ["src/sym/code11.rs: encode"]}
{"id": "C29", "title": "Codabar accepts exactly its 20-character alphabet, 1 to 256 characters", "statement": "Codabar::new(s): Err(Length) unless the UTF-8 length is between 1 and 256 inclusive; else Err(Character) unless every character is one of 0-9 - $ : / . + A-D; else Ok. Never panics.", "quantifier": "every string shorter than 4 GiB", "why_tests_cant": "all strings", "anchors": ["src/sym/codabar.rs: Codabar::new, Unit::from_char"]}
{"id": "C30", "title": "Codabar symbols conform to the Codabar element table", "statement": "For every accepted input encode() is the standard (AIM/NW-7) Codabar rendering of the data: seven elements per character, one narrow space between characters; so that a standard reader returns the data.", "quantifier": "every accepted string", "why_tests_cant": "table correctness over all characters; existing tests bake in the library's own values", "anchors": ["src/sym/codabar.rs: Unit::lookup, encode"]}
{"id": "C31", "title": "Codabar symbols determine their data", "statement": "Two accepted inputs with the same encode() output are equal, although characters have different widths; encode() never panics.", "quantifier": "every pair of accepted strings", "why_tests_cant": "unique decodability of a variable-width code", "anchors": ["src/sym/codabar.rs: encode"]}
{"id": "C32", "title": "Codabar symbols are framed by start/stop characters", "statement": "Every accepted Codabar input begins and ends with one of A, B, C, D and has none of them inside, as the module documentation requires.", "quantifier": "every accepted string", "why_tests_cant": "requires all inputs", "anchors": ["src/sym/codabar.rs: Codabar::new (module docs lines 7-8)"]}
{"id": "C33", "title": "ITF accepts exactly digit strings of 1 to 256 digits and appends the right check digit to odd-length data", "statement": "TF::interleaved(s): Err(Length) unless the UTF-8 length is 1..256; else Err(Character) unless all digits; else Ok; an odd-length input gets the GS1 modulo-10 check digit appended (so the encoded digits, check digit included, have weighted sum 0 mod 10), an even-length input is encoded unchanged. Never panics.", "quantifier": "every string shorter than 4 GiB, both profiles", "why_tests_cant": "the check digit is computed in u8 arithmetic; only long heavy inputs overflow", "anchors": ["src/sym/tf.rs: TF::interleaved", "src/sym/helpers.rs: modulo_10_checksum"]}
{"id": "C34", "title": "ITF symbols conform to Interleaved 2 of 5 and scan back", "statement": "For every ITF barcode built from digits, encode() is start 1010, then each digit pair as five bars (first digit) interleaved with five spaces (second digit), two of five wide, then stop; an independent width reader recovers the digits. Never panics on a value built by TF::interleaved.", "quantifier": "every accepted string", "why_tests_cant": "unbounded payloads", "anchors": ["src/sym/tf.rs: encode, itf_payload, interleave"]}
{"id": "C35", "title": "STF accepts exactly digit strings of 1 to 256 digits, conforms to Standard 2 of 5 and scans back", "statement": "TF::standard(s) accepts/rejects like ITF; encode() is start, five bars per digit (two wide) each followed by a narrow space, stop; 14n+16 modules; an independent reader recovers the digits. Never panics.", "quantifier": "every accepted string", "why_tests_cant": "unbounded payloads", "anchors": ["src/sym/tf.rs: TF::standard, stf_payload, char_encoding"]}
{"id": "C36", "title": "2-of-5 symbols use one wide-to-narrow ratio", "statement": "Within one 2-of-5 symbol (guards included) every element is either narrow (1 module) or of one single wide width.", "quantifier": "every accepted ITF/STF input", "why_tests_cant": "whole-symbol property", "anchors": ["src/sym/tf.rs: ITF_STOP, STF_START, STF_STOP, interleave, char_encoding"]}
{"id": "C37", "title": "Hand-built 2-of-5 values: exactly which ones panic", "statement": "TF::Standard and TF::Interleaved are public variants. encode() on a hand-built value panics exactly when some byte is 10 or more or (interleaved) the number of bytes is odd; otherwise it returns the same symbol as the validated constructor would.", "quantifier": "every byte vector", "why_tests_cant": "public constructors bypass validation", "anchors": ["src/sym/tf.rs: TF, itf_payload, char_widths"]}
{"id": "C38", "title": "Code 128 accepts exactly the documented input language", "statement": "Code128::new(s) is Err(Length) iff s has fewer than two bytes; otherwise it is Ok iff s is a sequence of segments, each a code-set character followed by characters legal in that set (A: ASCII 0-95, FNC1-4, SHIFT; B: ASCII 32-126, DEL written as U+00F7, FNC1-4, SHIFT; C: digits, an even number of them, and FNC1), consecutive segments using different sets; otherwise Err(Character). Never panics.", "quantifier": "every string", "why_tests_cant": "a stateful tokenizer over all strings", "anchors": ["src/sym/code128.rs: Code128::new, Code128::parse, CharacterSet::lookup"]}
{"id": "C39", "title": "Code 128 symbols conform to the Code 128 element table with the right check symbol", "statement": "For every accepted input of at most 6489 symbol characters encode() is start, data symbols, check symbol (start + sum of i*value_i mod 103), stop pattern 2331112; length 11*(k+2)+2 modules for k symbol characters. Never panics.", "quantifier": "every accepted string up to the stated size, both profiles", "why_tests_cant": "weights grow with position", "anchors": ["src/sym/code128.rs: encode, checksum_value, CHARS, STOP, TERM"]}
{"id": "C40", "title": "A scanner reads back Code 128 data", "statement": "An independent Code 128 reader (code sets, SHIFT, FNC1-4, digit pairs, check symbol) reading the widths of encode() outputs exactly the characters the caller wrote, in order.", "quantifier": "every accepted string", "why_tests_cant": "state machine on both sides; unbounded payloads", "anchors": ["src/sym/code128.rs: parse, encode"]}
{"id": "C41", "title": "Code 128 encode never panics", "statement": "encode() on any accepted Code128 value returns; the checksum is computed in i32.", "quantifier": "every accepted string of any length, both profiles", "why_tests_cant": "needs data longer than 6489 symbols; no length limit is enforced", "anchors": ["src/sym/code128.rs: checksum_value, checksum_encoding"]}
{"id": "C42", "title": "Code 128 symbols determine their data", "statement": "Two accepted inputs with the same encode() output are the same string.", "quantifier": "every pair of accepted strings", "why_tests_cant": "injectivity", "anchors": ["src/sym/code128.rs: parse, encode"]}
{"id": "C43", "title": "Every encoder emits only 0 and 1, and starts with a bar", "statement": "Every element of every encode() result is 0 or 1; the result is non-empty and its first element is 1; except for standard 2-of-5 its last element is also 1.", "quantifier": "every accepted input of every symbology", "why_tests_cant": "quantifies over all encoders and inputs", "anchors": ["src/sym/*.rs: encode"]}
{"id": "C44", "title": "Debug and release builds agree and no encoder panics on validated data", "statement": "For every accepted input of EAN-13, EAN-8, UPC-A, EAN supplemental, Code 39, Code 93, Code 11, Codabar and standard 2-of-5, new and encode return the same value with and without overflow checks, and never panic.", "quantifier": "every accepted input, both profiles", "why_tests_cant": "overflow depends on data", "anchors": ["src/sym/*.rs", "src/sym/helpers.rs: modulo_10_checksum"]}
{"id": "C45", "title": "A symbol read right-to-left is never taken for another message", "statement": "For EAN-13, EAN-8, UPC-A, Code 39, Code 93, Code 11, Code 128, ITF, STF and the EAN add-ons the reader rejects the reversed modules of every encode() output; for Codabar this holds when the data is framed by A-D.", "quantifier": "every accepted input", "why_tests_cant": "all symbols, both directions", "anchors": ["src/sym/*.rs: encode, guard constants"]}
{"id": "C46", "title": "ASCII output is exactly the barcode, row by row", "statement": "ASCII{height,xdim}.generate(b) on a 0/1 barcode returns Ok of height lines separated by single newlines, each being every module repeated xdim times ('#' for 1, space for 0); no trailing newline; empty when height is 0.", "quantifier": "every 0/1 vector, height, xdim", "why_tests_cant": "all dimensions", "anchors": ["src/generators/ascii.rs: generate, generate_row"]}
{"id": "C47", "title": "ASCII generation panics exactly on bytes other than 0 and 1", "statement": "ASCII.generate(b) panics if and only if some element of b is 2 or more (for every height and xdim, including 0).", "quantifier": "every byte vector, height, xdim", "why_tests_cant": "all byte vectors", "anchors": ["src/generators/ascii.rs: generate_row (CHARS[d as usize])"]}
{"id": "C48", "title": "JSON output is well-formed and parses back", "statement": "JSON{height,xdim}.generate(b) is a well-formed JSON object whose height, xdim and encoding members are exactly the generator's height and xdim and the list of b's elements with every nonzero element written as 1; never fails or panics; also for the empty barcode.", "quantifier": "every byte vector, every height and xdim", "why_tests_cant": "all inputs", "anchors": ["src/generators/json.rs: generate"]}
{"id": "C49", "title": "SVG output is well-formed and parses back to the intended rectangles", "statement": "When len*xdim fits in 32 bits, SVG.generate(b) is a well-formed svg element with viewBox 0 0 len*xdim height, a background rectangle covering it, and one foreground rectangle at x=i*xdim of width xdim for each i with b[i]=1, in order; the xmlns attribute appears exactly when set.", "quantifier": "every byte vector, height, xdim, colours, and every xmlns without quote or markup characters", "why_tests_cant": "all inputs", "anchors": ["src/generators/svg.rs: generate, rect"]}
{"id": "C50", "title": "SVG paints exactly the bars", "statement": "Painting the rectangles of the generated SVG in order with opaque colours, the colour at abscissa x is the foreground if b[x/xdim]=1 and the background otherwise, for every x inside the view box; nothing is painted outside it.", "quantifier": "every barcode, xdim, x", "why_tests_cant": "all inputs", "anchors": ["src/generators/svg.rs: generate, rect"]}
{"id": "C51", "title": "SVG dimensions never overflow", "statement": "SVG.generate returns the true width for every barcode and xdim.", "quantifier": "every byte vector, xdim, both profiles", "why_tests_cant": "u32 multiplication", "anchors": ["src/generators/svg.rs: generate (width, offset)"]}
{"id": "C52", "title": "SVG colours are rendered faithfully", "statement": "For every colour the fill is the six-digit lowercase hex of its red, green and blue, decoding back to them; fill-opacity is omitted exactly when alpha/255 rounds to 1.00, otherwise it is alpha/255 rounded to two decimals.", "quantifier": "all 2^32 colours", "why_tests_cant": "2^32 colours", "anchors": ["src/generators/svg.rs: Color::to_opacity, ToHex, rect"]}
{"id": "C53", "title": "Image pixels are exactly the barcode", "statement": "With rotation Zero and sizes that fit, the image has width len*xdim and the given height, and the pixel at (x,y) is the foreground if b[x/xdim] is nonzero and the background otherwise, for every pixel.", "quantifier": "every byte vector, xdim, height, colours, pixel", "why_tests_cant": "all inputs", "anchors": ["src/generators/image.rs: place_pixels, generate_buffer"]}
{"id": "C54", "title": "Image rotations move pixels exactly", "statement": "Rotations Ninety and TwoSeventy swap width and height, OneEighty keeps them; the pixel of the unrotated image at (x,y) appears at (h-1-y,x), (w-1-x,h-1-y), (y,w-1-x) respectively; rotating does not lose or duplicate pixels.", "quantifier": "every image and pixel", "why_tests_cant": "all inputs", "anchors": ["src/generators/image.rs: place_pixels (match rotation)"]}
{"id": "C55", "title": "Image dimensions never overflow", "statement": "place_pixels computes the true width for every barcode and xdim.", "quantifier": "every byte vector, xdim, both profiles", "why_tests_cant": "u32 multiplication", "anchors": ["src/generators/image.rs: place_pixels (width)"]}
{"id": "C56", "title": "Image::generate and generate_buffer draw the same picture", "statement": "generate on GIF/PNG/WEBP hands the codec exactly the picture generate_buffer returns, tagged with the matching format, returns its bytes, and maps every codec error to Err(Generate); on the ImageBuffer variant generate always returns Err(Generate), even for barcodes too large to draw, while generate_buffer works on all four variants.", "quantifier": "every variant, barcode, codec behaviour", "why_tests_cant": "the codec is external", "anchors": ["src/generators/image.rs: generate, generate_buffer"]}
{"id": "C57", "title": "All generators draw the same bars for encoder output; they disagree on other bytes", "statement": "For every 0/1 barcode ASCII, JSON, SVG and image output show a bar at exactly the same modules.", "quantifier": "every 0/1 vector; all dimensions", "why_tests_cant": "relates four generators", "anchors": ["src/generators/*.rs: generate"]}
{"id": "C58", "title": "End to end: what any generator draws for any symbology scans back to the data", "statement": "For each symbology, reading the modules out of the ASCII text, JSON text, SVG rectangles or image pixels and passing them to that symbology's independent reader returns the same result as reading encode() directly, hence the caller's data.", "quantifier": "every accepted input, every xdim >= 1 and height >= 1 that fits", "why_tests_cant": "composition over all inputs", "anchors": ["src/sym/*.rs", "src/generators/*.rs"]}
{"id": "C59", "title": "Symbol widths are determined by data length", "statement": "The number of modules returned by encode(): EAN-13 and UPC-A 95, EAN-8 67, EAN-2 20, EAN-5 47, Code 39 13n+25 (13n+38 with checksum), Code 93 9n+37, Code 128 11k+24 for k symbol characters, ITF 9m+8 for m encoded digits, STF 14n+16; Code 11 8k+15 for k characters counting check characters, less one for each 0, 9 and dash; Codabar 10n-1, plus one for each of : / . A B C D and plus three for each plus sign.", "quantifier": "every accepted input", "why_tests_cant": "all lengths", "anchors": ["src/sym/*.rs: encode"]}
{"id": "C60", "title": "Printed elements stay within each symbology's width range", "statement": "No bar or space of an encoded symbol is wider than 4 modules (EAN/UPC, Code 93, Code 128), 3 modules (2-of-5) or 2 modules (Code 39, Code 11, Codabar).", "quantifier": "every accepted input", "why_tests_cant": "boundary effects between characters", "anchors": ["src/sym/*.rs: encode"]}
{"id": "C61", "title": "Code 93 readers refuse every single misread character and every exchange of neighbours", "statement": "For every encoded Code 93 message, replacing any one printed character (data, C or K) by a different character, or exchanging two different adjacent characters (C and K included), gives a message that the C/K verification rejects.", "quantifier": "every accepted string (below 2^48 bytes), every position, every replacement, both profiles", "why_tests_cant": "needs the weights to be units modulo 47 at every cyclic position; tests check a handful of fixed messages", "anchors": ["src/sym/code93.rs: checksum_char, c_checksum_char, k_checksum_char, payload"]}
{"id": "C62", "title": "Code 11 readers refuse every single misread character and every exchange of neighbours", "statement": "For every encoded Code 11 message (one or two check characters), replacing any one printed character by a different one, or exchanging two different adjacent characters, gives a message that verification rejects.", "quantifier": "every accepted string (below 2^48 bytes), every position, every replacement, both profiles", "why_tests_cant": "as C61, modulo 11, with the change of scheme at more than ten characters", "anchors": ["src/sym/code11.rs: checksum_char, c_checksum_char, k_checksum_char, payload"]}
{"id": "C63", "title": "The Code 39 check character is blind to the order of the data", "statement": "Any rearrangement of accepted Code 39 data has the same modulo-43 check character, so a checksummed symbol with data characters exchanged still verifies.", "quantifier": "every accepted string and every permutation", "why_tests_cant": "a limitation users rely on knowing; quantifies over all permutations", "anchors": ["src/sym/code39.rs: checksum_char"]}
{"id": "C64", "title": "Code 39, Code 93 and Code 11 symbols determine their data", "statement": "Two accepted inputs of the same symbology (and, for Code 39, the same checksum flag) with the same encode() output are equal.", "quantifier": "every pair of accepted strings (below 2^48 bytes), both profiles", "why_tests_cant": "a statement about all pairs of inputs", "anchors": ["src/sym/code39.rs: encode", "src/sym/code93.rs: encode", "src/sym/code11.rs: encode"]}
{"id": "C65", "title": "Symbols of one symbology are never taken for symbols of another", "statement": "The printed symbol of an accepted input of one symbology is rejected by the readers of all other symbologies, except that UPC-A symbols are the EAN-13 symbols with a leading zero and that Code 39 with and without check character share a reader; Codabar symbols are those with start and stop characters.", "quantifier": "every accepted string below 2^48 bytes, every pair of symbologies, both profiles", "why_tests_cant": "a statement about every symbol and eleven foreign readers; tests never decode", "anchors": ["src/sym/*.rs: encode"]}
{"id": "C66", "title": "Generators draw what was set last, and the documented defaults otherwise", "statement": "ASCII::new, JSON::new, SVG::new and the four Image constructors draw with the documented defaults (height 10 where not given, one unit per module, opaque black on opaque white, upright, no xmlns, the format of the constructor); after any chain of SVG setter calls each field has the value of the last call that sets it.", "quantifier": "every barcode, height, codec and chain of setter calls", "why_tests_cant": "setter chains of any length and order", "anchors": ["src/generators/svg.rs: new, xmlns, xdim, foreground, background", "src/generators/image.rs: image_defaults", "src/generators/ascii.rs: new", "src/generators/json.rs: new"]}
{"id": "C67", "title": "The SVG document carries the xmlns value that was set, and nothing else", "statement": "For every xmlns string the generated document is well-formed and its svg element has exactly that xmlns value and no attributes besides version, xmlns and viewBox.", "quantifier": "every xmlns string, colours, sizes, barcode", "why_tests_cant": "only one benign URI is tested; the claim is about all strings (it is false for strings that need escaping)", "anchors": ["src/generators/svg.rs: generate"]}
{"id": "C68", "title": "Symbols determine their data, for all symbologies but Code 128", "statement": "Two accepted strings of the same symbology with the same symbol, possibly from differently compiled programs, carry the same data: they are equal, up to a check digit that may be left out (the last digit of EAN-13, EAN-8 and UPC-A; the digit ITF appends to data of odd length). Strings of equal length are equal. Leaving out the check digit never changes the symbol. A caller may also write the Code 39 check character themselves: an unchecked symbol of the data with its check character appended is the checked symbol of the data.", "quantifier": "every symbology except Code 128 (C42), every two strings, both build profiles", "why_tests_cant": "pairs of strings over the whole input space", "anchors": ["src/sym/ean13.rs", "src/sym/ean8.rs", "src/sym/upca.rs", "src/sym/ean_supp.rs", "src/sym/codabar.rs", "src/sym/code39.rs", "src/sym/code93.rs", "src/sym/code11.rs", "src/sym/tf.rs"]}
{"id": "C69", "title": "Pictures turned upside down are not misread", "statement": "A picture read by someone who takes it to be turned by half a turn more or less than it is shows the modules in reverse order, and the reader of the symbology refuses them.", "quantifier": "every symbology with a direction, every string, colours, sizes, rotation and line", "why_tests_cant": "all data and sizes; combines encoder, rotation and reader", "anchors": ["src/generators/image.rs: rotate, place_pixels", "src/sym/*.rs: encode"]}
{"id": "C70", "title": "A symbol with a single wrong module is never misread", "statement": "If any one module of a readable symbol is printed wrong the reader of the symbology refuses the symbol, or, for 2 of 5 only, still reads the same digits. Two-digit add-ons are excluded: 01 with one wrong module reads as 04.", "quantifier": "every symbology, every string, every position and every wrong value", "why_tests_cant": "all strings times all positions; depends on bar parity of whole tables and on the check characters of Code 93 and Code 11", "anchors": ["src/sym/*.rs: encode, tables and check characters"]}
{"id": "C71", "title": "The Code 128 check character catches misread and exchanged characters", "statement": "In every readable Code 128 symbol, replacing any one symbol character (start, data, check) by another, or exchanging two different neighbours, makes the reader refuse. The only exceptions are the data characters at places 103, 206, ..., whose weight is zero modulo 103, and the exchange of the last data character with a check character standing at such a place; both exceptions are real.", "quantifier": "every accepted string with a readable symbol, every place, every other character, both build profiles", "why_tests_cant": "all strings times all places and characters; the blind places only appear in symbols of more than a hundred characters", "anchors": ["src/sym/code128.rs: checksum_encoding, payload, encode, CODE128_CHARS"]}
{"id": "C72", "title": "A symbol with one wrong character is never misread", "statement": "Every symbol of a symbology with a check character can be read, and replacing the elements of any one of its characters (digits, data, check, start, stop) by as many elements of arbitrary widths makes a reader that verifies the check character refuse. This covers digits printed in the other parity, which would change the implied first digit of EAN-13 or the parity code of EAN-5.", "quantifier": "EAN-13, EAN-8, UPC-A, EAN-5, Code 39 with check character, Code 93, Code 11, Code 128 (readable symbols, places with a weight); every string, every character, every replacement", "why_tests_cant": "all strings, all places and infinitely many replacements; depends on whole tables", "anchors": ["src/sym/*.rs: encode, tables and check characters"]}
{"id": "C73", "title": "ITF check digits and EAN-2 parities detect misread digits as far as they can", "statement": "Data of odd length is printed in ITF with a check digit that turns invalid when any one digit is read as another, and when two neighbours are exchanged unless they differ by five, as long as the byte sum does not overflow. Two-digit add-ons printed with the parities of one number are read as another number exactly when both are equal modulo 4.", "quantifier": "every accepted string, every position, every other digit, both build profiles", "why_tests_cant": "all strings and positions", "anchors": ["src/sym/tf.rs: interleaved, checksum_digit", "src/sym/ean_supp.rs: encode, EAN2_PARITY"]}
{"id": "C74", "title": "A scan line that misses one end of a symbol is never misread, 2 of 5 and add-ons excepted", "statement": "Cut the printed modules of any symbol anywhere on one side so that at least one dark module is lost: the reader of the symbology refuses what is left (a Codabar reader asks for start and stop characters). Exceptions, which do occur: 2 of 5 symbols may be read as strictly fewer digits, namely the ones nearest the side that is left (an even number missing when interleaved), and a five-digit add-on cut on the right as its first two digits. Cut on both sides even Code 39 can be misread.", "quantifier": "every symbology, accepted string below 2^48 bytes, every cut position, both sides, both build profiles", "why_tests_cant": "all strings times all cut positions; relies on no start pattern occurring inside any symbol", "anchors": ["src/sym/*.rs: encode", "src/sym/tf.rs: START/STOP guards", "src/sym/ean_supp.rs: LEFT_GUARD"]}
{"id": "C75", "title": "A bar or space printed too wide, too narrow or not at all is never misread", "statement": "Print any number of equal modules too many or too few at one place of any symbol, so that one bar or space is lost, added, widened or narrowed by any amount: the reader of the symbology refuses what is left (a Codabar reader asks for start and stop characters). Readers of 2 of 5 refuse or still read exactly the caller's digits.", "quantifier": "every symbology, accepted string below 2^48 bytes (Codabar framed and without +, Code 128 up to 6489 characters), every place, every pair of different widths, both build profiles", "why_tests_cant": "all strings times all places times all widths; relies on widths of every character adding up to a constant or on no two patterns being one stretch apart", "anchors": ["src/sym/*.rs: encode and pattern tables"]}
{"id": "C76", "title": "The error text a caller is shown names the fault of the data", "statement": "Data made of the documented characters is never refused as invalid; its length is objected to exactly when it is not a documented length, its check digit exactly when one is given and wrong. Data with a foreign character is refused as invalid or as of wrong length (in bytes), as invalid when ASCII and of right length. Code 128 objects to the length only of the empty string and of one ASCII character. No constructor reports a generation failure; that text is shown by the image generator only, when the variant has no file format or the codec fails. The four texts differ.", "quantifier": "every symbology, every string below 4 GiB, both build profiles", "why_tests_cant": "all strings", "anchors": ["src/error.rs: Display", "src/sym/mod.rs: Parse::parse", "src/sym/*.rs: new"]}
{"id": "C77", "title": "Symbols can be read without knowing the module width, along any line, whichever way the picture is turned", "statement": "A reader that takes the narrowest element for the module reads from any enlargement of a symbol exactly what is read from its modules. It does so along every line that crosses the bars of a generated picture (straight or not), of an SVG drawing, and along every line of the ASCII text. Whoever looks at any one row and any one column of the picture in both directions, without being told its rotation or module width, reads exactly what the symbol says.", "quantifier": "every symbology, every accepted string below 2^48 bytes, every enlargement, every module width, height, pair of distinct colours, rotation and line, both build profiles; the rotation-free reading for all but Codabar data without start and stop characters", "why_tests_cant": "all data, sizes, rotations and lines across the picture", "anchors": ["src/generators/image.rs: place_pixels, generate_buffer", "src/generators/svg.rs: generate", "src/generators/ascii.rs: generate", "src/sym/*.rs: encode"]}
{"id": "C78", "title": "Symbols printed next to each other are read separately", "statement": "Any number of symbols on one line, of any symbologies, each followed by at least five light modules (for example an EAN-13 number and its add-on): a reader that parts them at the spaces wider than four modules reads from each exactly what is read from it alone.", "quantifier": "every non-empty list of symbologies and accepted strings below 2^48 bytes, every gap of five modules or more, both build profiles", "why_tests_cant": "all data and all combinations", "anchors": ["src/sym/ean_supp.rs: encode", "src/sym/ean13.rs: encode", "src/sym/*.rs: encode"]}
{"id": "C79", "title": "Sizes of outputs", "statement": "The text drawing has height lines of (modules * xdim) bytes with one newline between lines; the JSON text has 32 bytes plus the decimal digits of height and xdim plus two bytes per module (33 plus the digits when there is none); the SVG drawing has at most 103 bytes per dark module plus 173 plus the bytes of the namespace; the picture buffer has exactly modules * xdim * height pixels however it is turned. A caller can size buffers from the symbol and the parameters alone.", "quantifier": "every list of modules (for text: zeros and ones), every height and xdim, every colour, namespace and rotation (for pictures: every size that fits), both build profiles", "why_tests_cant": "unbounded sizes and data", "anchors": ["src/generators/ascii.rs: generate", "src/generators/json.rs: generate", "src/generators/svg.rs: generate", "src/generators/image.rs: generate_buffer"]}
{"id": "C80", "title": "Documented densities", "statement": "Code 93 accepts every string Code 39 accepts, prints it in fewer modules exactly from four characters on, and always in fewer modules than Code 39 with its check character. Interleaved 2 of 5 always takes fewer modules than Standard 2 of 5 for the same digits. In Code 128, code set C prints an even number of digits in exactly half the data modules of code sets A and B.", "quantifier": "every string accepted by both symbologies below 2^48 bytes (Code 128: every even number of digits up to 6488), both build profiles", "why_tests_cant": "all data; the module comments of code93.rs, tf.rs and code128.rs state the comparisons without bounds", "anchors": ["src/sym/code93.rs: module comment", "src/sym/tf.rs: module comment", "src/sym/code128.rs: module comment"]}
{"id": "C81", "title": "Bookland and JAN values carry their number systems", "statement": "Every accepted Bookland value is an EAN-13 number of number system 978 and every accepted JAN value one of number system 49, as the comments say; every ten-digit book number (ISO 2108, check digit modulo 11, possibly X) has an accepted Bookland value whose symbol reads as its thirteen-digit number, and different book numbers have different symbols.", "quantifier": "every string, every valid ten-digit book number, both build profiles", "why_tests_cant": "all strings and all book numbers", "anchors": ["src/sym/ean13.rs: Bookland, JAN"]}
{"id": "C82", "title": "Printed characters have the structure of their standards", "statement": "Every printed symbol is built by the rules the standards give beside their tables: 2-of-5 digits have two wide elements of five whose weights 1, 2, 4, 7, 0 add up to the digit modulo 11; Code 39 characters three wide of nine, bars by the same weights and the wide space by the row of the character; Code 11 one or two wide of five; Codabar characters one wide bar and one wide space, three wide bars, or one wide bar and two wide spaces by kind; Code 93 characters nine modules; Code 128 characters eleven modules with an even number of dark ones; retail digits seven modules with the prescribed parities (three or no even ones on the left of EAN-13, two of five in EAN-5).", "quantifier": "every symbology, every accepted string below 2^48 bytes, both build profiles", "why_tests_cant": "all data; checks the tables of the code and of the specification against rules that use no table", "anchors": ["src/sym/*.rs: encoding tables, encode"]}
{"id": "C83", "title": "How many wrong modules it takes to be misread", "statement": "A picture that differs from a symbol in some modules, but in fewer than a number depending on the symbology, is refused by a reader that verifies check characters (2 of 5 readers may still read the caller's digits). The number is 4 for EAN-8, UPC-A, Code 39 with check character and Code 128 up to 103 characters; 3 for Code 93 up to 14 characters; 2 for EAN-13, five-digit add-ons, Code 39, Code 11, Codabar, ITF, STF and longer Code 93 and Code 128 data; 1 for two-digit add-ons. For every symbology there are two data whose symbols differ in just that many modules.", "quantifier": "every accepted string whose symbol can be read, every set of wrong modules, every replacement value, both build profiles", "why_tests_cant": "all data and all combinations of wrong modules", "anchors": ["src/sym/*.rs: encode", "src/sym/ean13.rs: ENCODINGS, PARITY", "src/sym/code93.rs: CHARS, checksum_char"]}
{"id": "C84", "title": "One item number, one check digit, whichever symbology carries it", "statement": "EAN-8, UPC-A, EAN-13 and 14-digit ITF carry the same kind of number (GTIN). Every string of 7, 11, 12 or 13 digits respectively is accepted in both builds, and printed with the one digit that makes the GS1 weighted sum a multiple of ten. Two strings that are the same number up to leading zeros are read back, from whichever two of the four symbologies, as the same 14-digit number. Written with its check digit (8, 12, 13 digits), the same number is accepted by all of EAN-8, UPC-A and EAN-13 that can hold it, or refused by all with Error::Checksum; ITF takes 14 digits as they are.", "quantifier": "every digit string of the stated lengths, every pair of the four symbologies, both build profiles", "why_tests_cant": "10^13 numbers times pairs of symbologies", "anchors": ["src/sym/helpers.rs: modulo_10_checksum", "src/sym/ean13.rs: checksum_digit", "src/sym/ean8.rs: checksum_digit", "src/sym/upca.rs: checksum_digit", "src/sym/tf.rs: interleaved"]}
{"id": "C85", "title": "Which pairs of wrong digits an EAN or UPC check digit catches", "statement": "When two digits of an accepted full EAN-13, EAN-8 or UPC-A number are replaced by any digits, the constructor answers Error::Checksum exactly when the weighted sum of the two digits changes modulo ten (weights 1 and 3 by the position from the right), and accepts otherwise. So after any first wrong digit exactly one value of a second digit hides it; exchanges across one digit (or three, five, ...) are never noticed; a doubled digit misread as another doubled digit is noticed unless they differ by five.", "quantifier": "every accepted full number, every two positions, every two replacement digits, both build profiles", "why_tests_cant": "all numbers, positions and replacements", "anchors": ["src/sym/helpers.rs: modulo_10_checksum", "src/sym/ean13.rs: new", "src/sym/ean8.rs: new", "src/sym/upca.rs: new"]}
{"id": "C86", "title": "How many wrong characters it takes to be misread", "statement": "In a symbol with check characters (EAN-13, EAN-8, UPC-A, five-digit add-on, Code 39 with check character, Code 93, Code 11, Code 128), when some characters (digit, data, check, start or stop) are replaced by as many elements of arbitrary widths, but fewer than a number depending on the symbology, a reader that verifies the check characters accepts nothing but the undamaged symbol. The number is 3 for Code 93 up to 14 characters, and 2 otherwise. For every one of these symbologies there are two data whose symbols differ in just that many characters.", "quantifier": "every accepted string (Code 128: whose symbol can be read, and at the places that weigh something), every choice of characters, every replacement, both build profiles", "why_tests_cant": "all data and all combinations of damage", "anchors": ["src/sym/code93.rs: checksum_char", "src/sym/code11.rs: checksum_char", "src/sym/code39.rs: checksum_char", "src/sym/code128.rs: checksum_encoding", "src/sym/*.rs: encode"]}
{"id": "C87", "title": "Targets with a narrower usize", "statement": "Which target the library is compiled for does not matter: with a usize of 16 bits or more, in either build profile, every constructor and encoder gives the result of a 64-bit target, except Code 93 with 16 bits. There the result is the same exactly as long as the two weighted sums of the check characters are below 65536, which holds for up to 137 characters; otherwise a debug build panics and a release build returns a symbol of the usual length that no reader accepts, for example for 138 characters of value 46. Text output does not depend on the width; a picture comes out unchanged exactly if its bytes fit a signed number of that width.", "quantifier": "every width of usize from 16 bits on (pictures: up to 64), every string shorter than 4 GiB, every generator configuration, both build profiles", "why_tests_cant": "tests run on one target only, and a failure needs long data", "anchors": ["src/sym/code93.rs: checksum_char", "src/sym/code39.rs: checksum_char", "src/sym/code11.rs: checksum_char", "src/sym/codabar.rs: encode", "src/generators/ascii.rs: generate", "src/generators/image.rs: place_pixels"]}
{"id": "C88", "title": "Symbols printed with edges out of place", "statement": "Printed at any resolution, with every edge of every bar anywhere less than half a module from its place, a symbol is read as if undamaged by a reader that knows the grid; with every edge less than a quarter of a module out of place, by a reader that knows only the width of a module; with all bars grown or shrunk by the same amount (spreading ink), less than a module, by a reader that knows neither the width of a module nor the growth. None of these limits can be raised: at exactly half, a quarter, or a whole module, one picture comes from two different data.", "quantifier": "all twelve constructors, every accepted string, every resolution, every displacement of the edges, both build profiles", "why_tests_cant": "all data and all combinations of displaced edges", "anchors": ["src/sym/*.rs: encode"]}
{"id": "C89", "title": "Every symbol a reader accepts can be printed", "statement": "If a standard reader of one of the symbologies other than Code 128 accepts a sequence of element widths, then there is a string of less than 4 GiB from which the library prints that symbol exactly when the reading is within the library's limits: 1 to 256 data characters, no + in a Codabar symbol, a correct check character where Code 39 is printed with one, and not the twelve-character Code 11 symbols that the standard has no use for. In that case the text of the reading itself (with B and C exchanged in Codabar, without the check character in Code 39) is such a string, and it is the only symbol with this reading; wide elements of 2-of-5 symbols may be two or three modules wide. Every Code 128 symbol of at most 6489 characters before its check character is printed from some string.", "quantifier": "all twelve constructors, every sequence of element widths, both build profiles", "why_tests_cant": "it is about all symbols rather than all inputs: the tests only start from inputs", "anchors": ["src/sym/*.rs: new, encode"]}
{"id": "C90", "title": "Full-ASCII mode of Code 39 and Code 93", "statement": "Every ASCII text, written with the shift characters of full-ASCII mode ($ % / + in Code 39, the characters that the library writes ( ) [ ] in Code 93), is accepted if the spelling has at most 256 characters, so always if the text has at most 128, and a reader in full-ASCII mode reads the text back from the symbol. What such a reader makes of any accepted string is exactly what the shift tables say, and it is the string itself exactly if the string has no shift character: data with ( ) [ ] in Code 93, or $ % / + in Code 39, are read as another, shorter text or refused.", "quantifier": "Code 39 with and without check character and Code 93, every ASCII text, every accepted string, both build profiles", "why_tests_cant": "all texts, and the effect of the shift characters only shows with a reader in full-ASCII mode", "anchors": ["src/sym/code93.rs:17-65: CODE93_CHARS", "src/sym/code39.rs:7", "src/sym/code39.rs: CODE39_CHARS"]}
{"id": "C91", "title": "Quiet zones", "statement": "Encoded symbols have no light modules before the first bar and none after the last (one for Standard 2 of 5), and no generator adds any: a reader that asks for the quiet zones of the standard reads nothing from an encoded symbol. If the caller puts light modules before and after the symbol, then whichever generator draws it, in any size, colours and rotation and along any line, such a reader reads what is in the symbol exactly if the margins are at least as wide as the standard asks; eleven modules on each side are enough for every symbology.", "quantifier": "all twelve constructors, all four generators, every accepted string, every pair of margins, every generator setting within the limits of C51 and C55, both build profiles", "why_tests_cant": "all symbols, margins and settings; the tests compare outputs without asking whether a reader would accept them", "anchors": ["src/generators/ascii.rs: generate", "src/generators/json.rs: generate", "src/generators/svg.rs: generate", "src/generators/image.rs: generate_buffer", "src/sym/*.rs: encode"]}
{"id": "C92", "title": "A reader that tries every symbology in both directions", "statement": "Whatever any of the twelve readers finds in a printed symbol, from left to right or from right to left, it finds from left to right only, it is a reader of the symbology of the symbol (or of its twin: UPC-A and EAN-13, Code 39 with and without check character), and it reports the same data, with the leading zero that makes a UPC-A number an EAN-13 number. Codabar symbols are those with start and stop characters, on either side.", "quantifier": "all twelve constructors, every accepted string, all twelve readers, both directions, both build profiles", "why_tests_cant": "all symbols of every symbology against all readers in both directions", "anchors": ["src/sym/*.rs: encode"]}
{"id": "C93", "title": "Readers that ask for quiet zones never read a part of a symbol", "statement": "On a line with any number of printed symbols of any symbologies, each followed by at least five light modules, a reader of any symbology that asks for the quiet zones of its standard accepts a part of the line, in either direction, only if the part holds exactly one whole symbol with light modules around it; it then reads the data of that symbol, from left to right. Every symbol with wide enough margins is found in some part. Readers that do not ask for quiet zones do read parts: the right end of a Code 39 symbol can be read as an Interleaved 2 of 5 number.", "quantifier": "all lines of symbols of all twelve constructors and every accepted string (Codabar with start and stop characters), all contiguous parts of the line, all twelve readers, both directions, both build profiles", "why_tests_cant": "all parts of all lines of symbols against all readers", "anchors": ["src/sym/*.rs: encode"]}
{"id": "C94", "title": "Texts and GS1 element strings in Code 128", "statement": "Every text of Latin-1 characters, control characters and DEL included, can be written in the caller's notation (code set A for control characters, B for the others, FNC4 for the upper half) so that it is accepted and a reader that follows the extended mode of ISO/IEC 15417 transmits exactly the text; texts of up to 2163 characters always fit. Nothing but Latin-1 characters is ever transmitted. Fields written after FNC1 and parted by FNC1, in code set A, B or (even numbers of digits) C, are transmitted as a GS1-128 element string.", "quantifier": "all non-empty texts of characters below 256 whose spelling has at most 6489 characters; all lists of fields; all module lists for the negative part; both build profiles", "why_tests_cant": "unbounded texts over 256 characters", "anchors": ["src/sym/code128.rs: Code128::new, encode"]}
{"id": "C95", "title": "What Debug texts say", "statement": "The text of format!(\"{:?}\", X::new(data)) is well-formed for every symbology and input and can be read back: a refused input shows the error, an accepted one shows exactly the data taken over from the input (retail numbers without their check digit, Interleaved 2 of 5 with the digit it adds, Codabar by character names, Code 128 by symbol values with the code set in force). It panics only where the constructor does. Inputs with equal Debug texts have equal outcomes. Every setting of a generator (heights, x dimensions, colours, rotation, namespace, format) can be read off its Debug text. The texts stay on one line: those of symbols are visible ASCII and spaces whatever the input contains, and those of generators contain no control character and no character without a glyph, whatever the namespace contains.", "quantifier": "all symbologies, all strings, both build profiles; all generator values, whichever characters core takes for printable", "why_tests_cant": "all inputs and all settings", "anchors": ["src/sym/*.rs: derive(Debug)", "src/generators/*.rs: derive(Debug)", "src/error.rs: derive(Debug)"]}
{"id": "C96", "title": "Item numbers with a digit left out or added, or given to the wrong symbology", "statement": "A complete EAN-13, EAN-8, UPC-A or ITF-14 number with any one digit left out is always accepted (as a number without check digit), and the symbol carries a different valid number unless all digits after the missing one equal it. A digit added anywhere to a number without check digit is accepted by EAN-13, EAN-8 and UPC-A for exactly one of the ten digits, and refused with Checksum for the others. A complete UPC-A number given to EAN-13, or a complete EAN-13 number given to Interleaved 2 of 5, is accepted with a second check digit and never carries the intended number, zeros excepted; all other complete numbers given to another retail symbology are refused with Length.", "quantifier": "all numbers, all places, all digits, all pairs of symbologies, both build profiles", "why_tests_cant": "10^13 numbers times places", "anchors": ["src/sym/ean13.rs: EAN13::new", "src/sym/ean8.rs: EAN8::new", "src/sym/upca.rs: UPCA::new", "src/sym/tf.rs: TF::interleaved"]}
{"id": "C97", "title": "Printed characters missing from a symbol, or printed twice", "statement": "In symbols without check characters (Code 39, Codabar between start and stop, 2 of 5) any run of characters may be missing or come twice: the reader reports the data without them, or with them twice. EAN-13, EAN-8, UPC-A and add-ons are not read when up to 17 elements in a row are missing or come twice. A verifying Code 39 reader overlooks a missing or doubled data character exactly if it is a zero; a Code 93 reader (up to 14, resp. 13, characters) exactly if it is a zero and the values before it add up to a multiple of 47, and these lengths cannot be raised; a Code 11 reader (one check character) exactly if the values before it plus its weighted value add up to a multiple of 11; Code 128's check is passed exactly if the character's value times its place plus the values behind it is a multiple of 103. The same is settled exactly for runs of any length in data of any length: a verifying Code 39 reader overlooks a run exactly if its values add up to a multiple of 43, a Code 93 or Code 128 reader exactly if the check values stay what they were, a Code 11 reader likewise, except that it mistakes check characters for data (or data for check characters) when the number of characters crosses ten.", "quantifier": "all accepted strings, all places, both build profiles", "why_tests_cant": "all data times all places", "anchors": ["src/sym/code39.rs: Code39::encode", "src/sym/code93.rs: Code93::encode", "src/sym/code11.rs: Code11::encode", "src/sym/code128.rs: Code128::encode", "src/sym/codabar.rs: Codabar::encode", "src/sym/tf.rs: TF::encode", "src/sym/ean13.rs: EAN13::encode"]}
{"id": "C98", "title": "Parts of a symbol are not symbols", "statement": "No proper part of a printed EAN-13, EAN-8, UPC-A, two-digit add-on, Code 93 or Code 128 symbol - cut at any module on either side or on both, losing at least one dark module - is read by the symbology's own reader, although no quiet zone is asked for; nor is one of a Codabar symbol with start and stop characters when the reader asks for these. Code 39, Code 11, 2 of 5 symbols and five-digit add-ons do have parts that are read, even with valid check characters.", "quantifier": "all accepted strings, all pairs of cutting places, both build profiles", "why_tests_cant": "all data times all pairs of places; a misreading would need particular neighbouring characters", "anchors": ["src/sym/code128.rs: Code128::encode", "src/sym/code93.rs: Code93::encode", "src/sym/codabar.rs: Codabar::encode", "src/sym/ean13.rs: EAN13::encode", "src/sym/ean8.rs: EAN8::encode", "src/sym/ean_supp.rs: EANSUPP::encode"]}
{"id": "C99", "title": "Parts of a symbol read backwards", "statement": "No run of neighbouring modules of a printed EAN-13, EAN-8, UPC-A, two-digit add-on, Code 93 or Code 128 symbol - the whole symbol or any part of it - is read by the symbology's own reader when it is passed over from right to left, although no quiet zone is asked for; nor is one of a Codabar symbol with start and stop characters when the reader asks for these. Code 39, Code 11, 2 of 5 symbols and five-digit add-ons do have parts that are read backwards, even with valid check characters.", "quantifier": "all accepted strings, all pairs of cutting places, both build profiles", "why_tests_cant": "all data times all pairs of places; a misreading would need particular neighbouring characters", "anchors": ["src/sym/code128.rs: Code128::encode", "src/sym/code93.rs: Code93::encode", "src/sym/codabar.rs: Codabar::encode", "src/sym/ean13.rs: EAN13::encode", "src/sym/ean8.rs: EAN8::encode", "src/sym/ean_supp.rs: EANSUPP::encode"]}
{"id": "C100", "title": "Pretty-printed Debug texts", "statement": "The text of format!(\"{:#?}\", X::new(data)) is laid out as Rust lays out values (one value to a line, four spaces per level, a comma behind each, closing signs on lines of their own) for every symbology and input, and can be read back: it says the same as the {:?} text, so a refused input shows the error and an accepted one exactly the data taken over from the input. It panics only where the constructor does. Inputs with equal texts have equal outcomes. Every setting of a generator can be read off its pretty-printed text. Apart from the line breaks of the layout the texts contain nothing but visible characters and spaces.", "quantifier": "all symbologies, all strings, both build profiles; all generator values, whichever characters core takes for printable", "why_tests_cant": "all inputs and all settings", "anchors": ["src/sym/*.rs: derive(Debug)", "src/generators/*.rs: derive(Debug)", "src/error.rs: derive(Debug)"]}
{"id": "C101", "title": "Ink blots and scratches", "statement": "Let all modules of one stretch of the paper, of any length and anywhere over a printed symbol and its quiet zones, come out dark: the reader of the symbology refuses the symbol or reads exactly what was encoded, and the latter only if the blot changed nothing or the symbology is a 2 of 5 one. The same holds for a stretch that comes out light with something dark left on either side; a scratch that takes an end of the symbol with it leaves at most what a cut leaves (the first two digits of a five-digit add-on, fewer 2 of 5 digits, an unframed Codabar text). Two-digit add-ons and Code 128 symbols of more than 103 characters can be misread (with witnesses), but a two-digit add-on never in both digits, and a Code 128 symbol only in one symbol character whose weight is a multiple of 103.", "quantifier": "all symbologies, all accepted strings below 2^48 bytes (Codabar without plus; Code 128 up to 6489 characters), both build profiles, all margins, all stretches", "why_tests_cant": "all symbols and all blots of any length at any place", "anchors": ["src/sym/*.rs: encode"]}
{"id": "C102", "title": "Where each character is printed", "statement": "In every symbol the library produces, each digit, character or Code 128 value shown (check characters included) is drawn with the standard's pattern from a known module on: 7(i-1)+3 and 7(i-7)+50 for the digits of EAN-13 after the first, likewise for EAN-8 and UPC-A, 9i+4 in add-ons, 13i+13 in Code 39, 9i+9 in Code 93, 11i in Code 128, 18 modules per pair from 4 on in Interleaved 2 of 5, 14i+8 in Standard 2 of 5, and the sum of the widths before it in Code 11 and Codabar. What is printed before that module is decided by the symbology and what is shown before; only add-ons, whose digits choose their sets together, are an exception.", "quantifier": "every symbology, build profile and accepted string below 2^48 bytes, every position; for the beginnings every two such strings", "why_tests_cant": "the encoders append to one list in loops of any length; a character drawn one module off, twice or in another order shows only for some strings and lengths, and the claim relates any two strings with a common beginning", "anchors": ["src/sym/ean13.rs", "src/sym/ean8.rs", "src/sym/upca.rs", "src/sym/ean_supp.rs", "src/sym/code39.rs", "src/sym/code93.rs", "src/sym/code11.rs", "src/sym/codabar.rs", "src/sym/code128.rs", "src/sym/tf.rs"]}
{"id": "C103", "title": "Enlarged pictures, and pictures put together", "statement": "Multiplying height and x dimension of a generator by k enlarges its picture exactly k times: every character and line of ASCII output comes k times, every pixel of an image becomes a square of k by k pixels whichever way the picture is turned, and the SVG drawing is the same with all lengths multiplied by k. Drawing one byte sequence behind another gives the two pictures put together: side by side for ASCII, SVG and unrotated images, and from top to bottom, right to left or bottom to top for images turned by 90, 180 or 270 degrees.", "quantifier": "all byte sequences the generator draws, all heights, x dimensions, colours, rotations and factors for which the enlarged (joined) picture fits, both build profiles", "why_tests_cant": "all pictures times all factors", "anchors": ["src/generators/ascii.rs: ASCII::generate", "src/generators/image.rs: Image::place_pixels", "src/generators/svg.rs: SVG::generate"]}
{"id": "C104", "title": "Scan lines that cross from one symbol into another", "statement": "A scan line that leaves one symbol at a character boundary and enters another symbol of the same symbology at a character boundary (labels side by side or above each other) is read as follows. Code 39 without check character, Codabar (between start and stop; its B, C and + as in C30), interleaved 2 of 5 (between pairs) and standard 2 of 5 always report the beginning of the one text and the end of the other. Code 39 with check character, Code 93, Code 11, Code 128, EAN-8 and UPC-A report that text exactly if the second symbol's check characters fit it, for which exact conditions on the exchanged characters are given. EAN-13, EAN-8 and UPC-A are never read unless the line crosses at the same module of both; for EAN-13 the mixture of number sets must also stand for a first digit, which may be neither number's, and add-ons are read exactly if the mixture of number sets is the one the digits ask for.", "quantifier": "all pairs of accepted strings (below 2^48 bytes where stated; Code 128: whose symbols are readable), all pairs of places, both build profiles", "why_tests_cant": "all pairs of texts times all pairs of places", "anchors": ["src/sym/code39.rs: encode", "src/sym/codabar.rs: encode", "src/sym/tf.rs: encode", "src/sym/code93.rs: encode", "src/sym/code11.rs: encode", "src/sym/code128.rs: encode", "src/sym/ean13.rs: encode", "src/sym/ean8.rs: encode", "src/sym/ean_supp.rs: encode"]}
{"id": "C105", "title": "No part of a symbol reads as long as the whole", "statement": "Whatever modules are cut off a printed symbol on either side or on both, as long as a dark module is lost: if the reader of the symbology reads what is left at all, it reports fewer characters (digits, tokens) than it reports for the whole symbol. So a reader that expects a fixed number of characters reads the whole symbol or nothing, for interleaved 2 of 5 and every other symbology.", "quantifier": "all symbologies, all accepted strings (below 2^48 bytes) whose symbol is readable, all parts, both build profiles", "why_tests_cant": "all symbols times all pairs of cuts", "anchors": ["src/sym/tf.rs: encode", "src/sym/code39.rs: encode", "src/sym/code11.rs: encode", "src/sym/codabar.rs: encode", "src/sym/ean_supp.rs: encode"]}
{"id": "C106", "title": "Symbols next to each other are never taken for one symbol", "statement": "When two symbols of one symbology are printed on one line with too little space between them (any number of light modules, or none), the reader of the symbology does not accept the whole line as one symbol, for every symbology but Codabar. Two Codabar symbols exactly one module apart are read as one, namely as both texts one after the other, and at any other distance they are not.", "quantifier": "all symbologies, all pairs of accepted strings (below 2^48 bytes; Codabar of any size), all distances, both build profiles on either side", "why_tests_cant": "all pairs of symbols times all distances", "anchors": ["src/sym/code39.rs: encode", "src/sym/code93.rs: encode", "src/sym/code11.rs: encode", "src/sym/code128.rs: encode", "src/sym/codabar.rs: encode", "src/sym/tf.rs: encode", "src/sym/ean13.rs: encode", "src/sym/ean8.rs: encode", "src/sym/ean_supp.rs: encode"]}
{"id": "C107", "title": "Ink added, or lost, all over a symbol", "statement": "If any number of light modules of a printed 2 of 5 symbol come out dark (and no dark one light), the symbol is not read, or it is read with the digits that were printed; if any number of dark modules other than the first and the last come out light, the damaged symbol is not read at all. A framed Codabar symbol damaged in either way is not read as a framed text. In Code 39 added ink can change the reading only where the symbol carries one of $ / + %, and lost ink only into one of these. Consequently two 2 of 5 symbols of one width and different content printed over each other are never read. None of the other symbologies has this protection: for each a printed symbol exists that turns into another printed symbol by ink alone.", "quantifier": "all strings the constructors accept, both profiles, all module strings that differ from the symbol in one direction, in any number of places", "why_tests_cant": "The number of damaged pictures is exponential in the width of the symbol, and the width is unbounded.", "anchors": ["src/sym/tf.rs", "src/sym/code39.rs", "src/sym/codabar.rs"]}
{"id": "C108", "title": "Other marks on the line of a symbol", "statement": "Whatever dark marks are printed behind or in front of a symbol, at any distance or touching it - other symbols, borders, parts of symbols - the line is never read as something else by the reader of the symbology, with two exceptions: a 2 of 5 symbol may gain digits in front of or behind its own, and a two-digit add-on may be taken for a five-digit one. EAN, UPC, Code 39, Code 93, Code 11 and Code 128 lines are not read at all, five-digit add-ons neither, and Codabar lines are not read as a text with start and stop characters. For EAN, UPC, Code 93 and Code 128 the same holds with marks on both sides at once; in Code 39 and Code 11 printed symbols exist that contain a whole other symbol.", "quantifier": "all strings the constructors accept, both profiles, all module strings with at least one dark module printed next to the symbol", "why_tests_cant": "The marks next to the symbol are arbitrary and of unbounded length.", "anchors": ["src/sym/ean13.rs", "src/sym/ean8.rs", "src/sym/ean_supp.rs", "src/sym/code39.rs", "src/sym/code93.rs", "src/sym/code11.rs", "src/sym/codabar.rs", "src/sym/code128.rs", "src/sym/tf.rs"]}
{"id": "C109", "title": "Pictures in negative", "statement": "A line of modules that the reader of a symbology reads is not read by it when dark and light are exchanged, on light paper or on dark paper of any width on either side (Codabar: read with start and stop characters); so a symbol whose foreground and background colours have been exchanged is never taken for another one, and a reader that tries both polarities finds at most one reading. SVG drawings and images show exactly the negative of the bars to a reader that takes the background for dark. Read backwards, the negative is refused as well if the paper is dark on both sides or on neither, and in Code 39, Code 93, Code 128, framed Codabar and 2 of 5 on any paper; with dark paper on one side only there are retail, add-on and Code 11 symbols that are read as other data.", "quantifier": "all strings the constructors accept, all readable lines, all widths of dark paper, both profiles, all generator settings", "why_tests_cant": "The lines are arbitrary and of unbounded length, and so is the paper.", "anchors": ["src/generators/svg.rs", "src/generators/image.rs", "src/sym/ean13.rs", "src/sym/ean8.rs", "src/sym/ean_supp.rs", "src/sym/code39.rs", "src/sym/code93.rs", "src/sym/code11.rs", "src/sym/codabar.rs", "src/sym/code128.rs", "src/sym/tf.rs"]}
{"id": "C110", "title": "Symbols printed one behind the other, touching", "statement": "Within a symbology no symbol begins with another one, except five-digit add-ons with two-digit ones, and none ends with another one, except Interleaved 2 of 5 symbols (Codabar: symbols with start and stop characters and without plus; Code 128: up to 6489 characters). For every symbology and without these restrictions, a list of symbols printed one behind the other without any space between them can be taken apart in exactly one way. Two lists of data that are printed as the same line mean the same, one by one; in Codabar the texts are the same, whatever they are.", "quantifier": "all lists of strings the constructors accept, of any length, both profiles", "why_tests_cant": "Lists of symbols of unbounded number and length are compared with all other lists.", "anchors": ["src/sym/ean13.rs", "src/sym/ean8.rs", "src/sym/ean_supp.rs", "src/sym/code39.rs", "src/sym/code93.rs", "src/sym/code11.rs", "src/sym/codabar.rs", "src/sym/code128.rs", "src/sym/tf.rs"]}
{"id": "C111", "title": "Illegible modules, and readers that correct wrong ones", "statement": "If of a printed symbol some modules are illegible and some are seen wrong, and the number of illegible ones plus twice the number of wrong ones is less than the number of C83 (4 for UPC-A, EAN-8, Code 39 with check character and Code 128 of up to 103 characters, 3 for Code 93 of up to 14 characters, 2 for the others, 1 for two-digit add-ons), then no other readable line of the same length fits what is seen as well as the printed one (2 of 5: unless it carries the same digits). So a reader that fills in the illegible modules in every possible way finds the caller's data and nothing else, and in the symbologies with 3 or 4 a reader that tries to invert each single module finds the caller's data and nothing else in spite of a wrong module. In Code 93 of up to 14 characters, a whole wrong character can be corrected in this way. The number of illegible modules cannot be raised: in every symbology there are two symbols that cannot be told apart with just one more.", "quantifier": "all strings the constructors accept, both profiles, all places of illegible and wrong modules", "why_tests_cant": "All ways of damaging and of completing symbols of unbounded length are compared.", "anchors": ["src/sym/ean13.rs", "src/sym/ean8.rs", "src/sym/upca.rs", "src/sym/ean_supp.rs", "src/sym/code39.rs", "src/sym/code93.rs", "src/sym/code11.rs", "src/sym/codabar.rs", "src/sym/code128.rs", "src/sym/tf.rs"]}
{"id": "C112", "title": "Damaged images, read by the majority of the pixels", "statement": "Let any pixels of a generated image be replaced by any colours, and let a reader take each module for dark if more than half of its pixels have the foreground colour. Every module of which fewer than half of the pixels were changed is taken right, for every height, module width, pair of different colours and rotation. So the reader reads the caller's data if no module is spoilt, never reads anything else while fewer modules are spoilt than C83 says, and with one spoilt module the correcting reader of C111 still reads the data in the symbologies where it can correct.", "quantifier": "all strings the constructors accept, both profiles, all image settings that fit, all replacements of pixels", "why_tests_cant": "All ways of changing pixels of pictures of unbounded size are covered.", "anchors": ["src/generators/image.rs", "src/sym/ean13.rs", "src/sym/ean8.rs", "src/sym/upca.rs", "src/sym/ean_supp.rs", "src/sym/code39.rs", "src/sym/code93.rs", "src/sym/code11.rs", "src/sym/codabar.rs", "src/sym/code128.rs", "src/sym/tf.rs"]}
{"id": "C113", "title": "A missing digit of an item number can be restored", "statement": "Of an EAN-13, EAN-8 or UPC-A number with its check digit, let any one digit at a known place be unknown. Exactly one digit is accepted in its place by the constructor; every other digit is refused with the checksum error. With two unknown digits of an EAN-13 number, every value of the first leaves exactly one for the second. Of a Code 39 symbol with check character, let all printed characters but one of the text be known. Exactly one character of the set in its place gives a text that is printed with the known check character. Of a Code 93 or Code 11 symbol, one character of the text and the second check character may be unknown: exactly one character of the set gives a text that is printed with the known first check character.", "quantifier": "all numbers and texts, all places, both profiles", "why_tests_cant": "10^12 numbers times 13 places.", "anchors": ["src/sym/ean13.rs", "src/sym/ean8.rs", "src/sym/upca.rs", "src/sym/helpers.rs", "src/sym/code39.rs", "src/sym/code93.rs", "src/sym/code11.rs"]}
