{
 "claims": [
  {
   "property": "C01",
   "status": "proved",
   "theorems": [
    "C01_ean13_new"
   ],
   "note": "Complete decision table of EAN13::new for every string below 4 GiB, both profiles."
  },
  {
   "property": "C02",
   "status": "proved",
   "theorems": [
    "C02_ean13_encode"
   ],
   "note": "Every accepted string, of any size."
  },
  {
   "property": "C03",
   "status": "proved",
   "theorems": [
    "C03_ean13_round_trip",
    "C03_ean13_injective"
   ],
   "note": ""
  },
  {
   "property": "C04",
   "status": "proved",
   "theorems": [
    "C04_ean13_check_digit"
   ],
   "note": ""
  },
  {
   "property": "C05",
   "status": "proved",
   "theorems": [
    "C05_ean13_typo"
   ],
   "note": ""
  },
  {
   "property": "C06",
   "status": "proved",
   "theorems": [
    "C06_ean13_swap"
   ],
   "note": ""
  },
  {
   "property": "C07",
   "status": "partial",
   "theorems": [
    "C07_length_check_refuted",
    "C07_huge_ean13_partial",
    "C07_huge_ean8_partial",
    "C07_huge_upca_partial"
   ],
   "note": "The full statement is false of the code: C07_length_check_refuted gives accepted strings of 2^32+12, 2^32+7, 2^32+11 characters. The decision tables for strings of 4 GiB and more are proved exactly (_partial); below 4 GiB the length check is exact (C01, C08, C11)."
  },
  {
   "property": "C08",
   "status": "proved",
   "theorems": [
    "C08_ean8_new"
   ],
   "note": ""
  },
  {
   "property": "C09",
   "status": "proved",
   "theorems": [
    "C09_ean8_encode",
    "C09_ean8_round_trip"
   ],
   "note": ""
  },
  {
   "property": "C10",
   "status": "proved",
   "theorems": [
    "C10_ean8_check_digit",
    "C10_ean8_typo",
    "C10_ean8_swap"
   ],
   "note": ""
  },
  {
   "property": "C11",
   "status": "proved",
   "theorems": [
    "C11_upca_new"
   ],
   "note": ""
  },
  {
   "property": "C12",
   "status": "proved",
   "theorems": [
    "C12_upca_encode",
    "C12_upca_round_trip"
   ],
   "note": ""
  },
  {
   "property": "C13",
   "status": "proved",
   "theorems": [
    "C13_upca_is_ean13"
   ],
   "note": ""
  },
  {
   "property": "C14",
   "status": "proved",
   "theorems": [
    "C14_upca_check_digit",
    "C14_upca_typo",
    "C14_upca_swap"
   ],
   "note": ""
  },
  {
   "property": "C15",
   "status": "proved",
   "theorems": [
    "C15_eansupp_new"
   ],
   "note": "Strings of any size."
  },
  {
   "property": "C16",
   "status": "proved",
   "theorems": [
    "C16_eansupp_encode"
   ],
   "note": ""
  },
  {
   "property": "C17",
   "status": "proved",
   "theorems": [
    "C17_ean2_hand_built",
    "C17_ean5_hand_built",
    "C17_ean2_returns",
    "C17_ean5_returns_debug",
    "C17_ean5_returns_release",
    "C17_ean2_printed",
    "C17_ean5_printed",
    "C17_hand_built_read"
   ],
   "note": "Also the exact set of vectors on which encode returns, per profile."
  },
  {
   "property": "C18",
   "status": "proved",
   "theorems": [
    "C18_code39_new",
    "C18_code39_with_checksum"
   ],
   "note": "Strings of any size; the length compared is the byte length modulo 2^32."
  },
  {
   "property": "C19",
   "status": "proved",
   "theorems": [
    "C19_code39_encode"
   ],
   "note": "Accepted strings shorter than 2^48 bytes, both profiles."
  },
  {
   "property": "C20",
   "status": "proved",
   "theorems": [
    "C20_code39_round_trip"
   ],
   "note": "Accepted strings shorter than 2^48 bytes, both profiles."
  },
  {
   "property": "C21",
   "status": "proved",
   "theorems": [
    "C21_code39_misread"
   ],
   "note": "Accepted strings shorter than 2^48 bytes, both profiles."
  },
  {
   "property": "C22",
   "status": "proved",
   "theorems": [
    "C22_code93_new"
   ],
   "note": "Strings of any size; the length compared is the byte length modulo 2^32."
  },
  {
   "property": "C23",
   "status": "proved",
   "theorems": [
    "C23_code93_encode"
   ],
   "note": "Accepted strings shorter than 2^48 bytes, both profiles."
  },
  {
   "property": "C24",
   "status": "proved",
   "theorems": [
    "C24_code93_round_trip"
   ],
   "note": "Accepted strings shorter than 2^48 bytes, both profiles."
  },
  {
   "property": "C25",
   "status": "proved",
   "theorems": [
    "C25_code93_misread"
   ],
   "note": "Accepted strings shorter than 2^48 bytes, both profiles. Also shows that the K check fails."
  },
  {
   "property": "C26",
   "status": "proved",
   "theorems": [
    "C26_code11_new"
   ],
   "note": "Strings of any size; the length compared is the byte length modulo 2^32."
  },
  {
   "property": "C27",
   "status": "proved",
   "theorems": [
    "C27_code11_encode"
   ],
   "note": "Accepted strings shorter than 2^48 bytes, both profiles."
  },
  {
   "property": "C28",
   "status": "proved",
   "theorems": [
    "C28_code11_round_trip"
   ],
   "note": "Accepted strings shorter than 2^48 bytes, both profiles."
  },
  {
   "property": "C29",
   "status": "proved",
   "theorems": [
    "C29_codabar_new"
   ],
   "note": "Strings of any size; the length compared is the byte length modulo 2^32."
  },
  {
   "property": "C30",
   "status": "partial",
   "theorems": [
    "C30_codabar_conformance_refuted",
    "C30_codabar_read_partial",
    "C30_codabar_conformance_partial"
   ],
   "note": "False of the code: C30_codabar_conformance_refuted ('A1B' reads as 'A1C', 'A+A' is unreadable). Proved instead: exactly what a standard reader returns for every accepted string, and conformance for strings without '+', 'B' and 'C'."
  },
  {
   "property": "C31",
   "status": "proved",
   "theorems": [
    "C31_codabar_injective",
    "C31_codabar_returns",
    "C31_codabar_any_value"
   ],
   "note": "Also for values built by hand."
  },
  {
   "property": "C32",
   "status": "partial",
   "theorems": [
    "C32_codabar_framing_refuted",
    "C32_codabar_framing_partial"
   ],
   "note": "False of the code: C32_codabar_framing_refuted (every string without start/stop characters is accepted; '0' printed backwards is '3'). Proved: C32_codabar_framing_partial, what is read is framed exactly when the caller's string was, so a reader that checks the frame refuses everything the constructor should have refused."
  },
  {
   "property": "C33",
   "status": "partial",
   "theorems": [
    "C33_itf_check_digit_refuted",
    "C33_itf_new_partial",
    "C33_itf_short_partial",
    "C33_itf_release_partial"
   ],
   "note": "False of the code: C33_itf_check_digit_refuted (15 nines: panic in debug, wrong check digit in release). The _partial theorems give the exact behaviour for every string and profile, the claim for up to 13 digits, and when the release check digit is right."
  },
  {
   "property": "C34",
   "status": "proved",
   "theorems": [
    "C34_itf_encode",
    "C34_itf_encode_value"
   ],
   "note": "Both for accepted strings and for every even digit vector built by hand."
  },
  {
   "property": "C35",
   "status": "proved",
   "theorems": [
    "C35_stf_new",
    "C35_stf_encode"
   ],
   "note": ""
  },
  {
   "property": "C36",
   "status": "partial",
   "theorems": [
    "C36_one_ratio_refuted",
    "C36_data_ratio_partial"
   ],
   "note": "False of the code for every accepted input: C36_one_ratio_refuted. The data alone uses one ratio (_partial)."
  },
  {
   "property": "C37",
   "status": "proved",
   "theorems": [
    "C37_standard",
    "C37_interleaved",
    "C37_same_as_constructor"
   ],
   "note": ""
  },
  {
   "property": "C38",
   "status": "proved",
   "theorems": [
    "C38_code128_new",
    "C38_code128_segments_unique"
   ],
   "note": "Every string of any size; the segmentation is also shown to be unique."
  },
  {
   "property": "C39",
   "status": "proved",
   "theorems": [
    "C39_code128_conformance"
   ],
   "note": "Messages of up to 6489 symbol characters (the largest safe size, see C41), both profiles."
  },
  {
   "property": "C40",
   "status": "partial",
   "theorems": [
    "C40_code128_round_trip_refuted",
    "C40_code128_round_trip_partial",
    "C40_code128_round_trip_no_shift_partial",
    "C40_code128_heard_partial",
    "C40_code128_shift_partial",
    "C40_code128_two_faults"
   ],
   "note": "False of the code: C40_code128_round_trip_refuted (the character after SHIFT is encoded in the wrong set; FNC1 inside a digit pair moves in front of it). Proved: C40_code128_heard_partial, the exact reading of every accepted message of up to 6489 values; C40_code128_shift_partial, the exact condition (SHIFTs before common characters, FNC1s between pairs) under which it is the message; C40_code128_two_faults shows why unclosed SHIFTs are left out of the condition."
  },
  {
   "property": "C41",
   "status": "partial",
   "theorems": [
    "C41_code128_encode_refuted",
    "C41_code128_encode_exact_partial",
    "C41_code128_encode_safe_partial"
   ],
   "note": "False of the code: C41_code128_encode_refuted (start plus 6489 FNC1 overflows i32: panic in debug and in release). The exact outcome for every accepted message of any size and both profiles is proved, and that 6489 symbol characters are always safe."
  },
  {
   "property": "C42",
   "status": "partial",
   "theorems": [
    "C42_code128_injective_refuted",
    "C42_code128_injective_partial",
    "C42_code128_injective_aligned_partial"
   ],
   "note": "False of the code: C42_code128_injective_refuted. Proved: two messages print the same symbol exactly when they are equal after moving every FNC1 out of the digit pair it interrupts."
  },
  {
   "property": "C43",
   "status": "proved",
   "theorems": [
    "C43_encode_modules"
   ],
   "note": "All twelve constructors, strings below 2^48 bytes."
  },
  {
   "property": "C44",
   "status": "proved",
   "theorems": [
    "C44_profile_independent",
    "C44_constructors"
   ],
   "note": "Strings below 2^48 bytes; constructors without size bound."
  },
  {
   "property": "C45",
   "status": "proved",
   "theorems": [
    "C45_reversed_rejected"
   ],
   "note": ""
  },
  {
   "property": "C46",
   "status": "proved",
   "theorems": [
    "C46_ascii_lines",
    "C46_ascii_text"
   ],
   "note": ""
  },
  {
   "property": "C47",
   "status": "proved",
   "theorems": [
    "C47_ascii_panics_iff"
   ],
   "note": ""
  },
  {
   "property": "C48",
   "status": "proved",
   "theorems": [
    "C48_json_object"
   ],
   "note": ""
  },
  {
   "property": "C49",
   "status": "proved",
   "theorems": [
    "C49_svg_document",
    "C49_bar_positions"
   ],
   "note": "Output read by an independent XML and SVG reader. xmlns values with control characters, U+FFFE or U+FFFF, which XML forbids, are excluded besides quotes and markup."
  },
  {
   "property": "C50",
   "status": "proved",
   "theorems": [
    "C50_svg_painting"
   ],
   "note": ""
  },
  {
   "property": "C51",
   "status": "partial",
   "theorems": [
    "C51_svg_width_refuted",
    "C51_svg_checked_partial",
    "C51_svg_unchecked_partial",
    "C51_svg_exact_partial"
   ],
   "note": "False of the code: the width is a 32-bit product (C51_svg_width_refuted). Proved: checked builds panic, unchecked builds draw modulo 2^32, and the width is true whenever it fits (C49). C51_svg_exact_partial says exactly when a checked build returns, and that it then agrees with an unchecked one."
  },
  {
   "property": "C52",
   "status": "proved",
   "theorems": [
    "C52_svg_colours",
    "C52_rounding_unique"
   ],
   "note": "All colours; 256 alpha values evaluated with binary64 division."
  },
  {
   "property": "C53",
   "status": "proved",
   "theorems": [
    "C53_image_pixels"
   ],
   "note": "Pictures below 2^63 bytes and widths below 2^32."
  },
  {
   "property": "C54",
   "status": "proved",
   "theorems": [
    "C54_rotate_90",
    "C54_rotate_180",
    "C54_rotate_270",
    "C54_generate_rotated"
   ],
   "note": ""
  },
  {
   "property": "C55",
   "status": "partial",
   "theorems": [
    "C55_image_width_refuted",
    "C55_image_width_partial",
    "C55_image_overflow_partial",
    "C55_image_returns_partial"
   ],
   "note": "False of the code: the width is a 32-bit product (C55_image_width_refuted). Proved: a width that fits is true; otherwise checked builds panic and unchecked builds panic unless the height is 0. C55_image_returns_partial says exactly when a picture is drawn."
  },
  {
   "property": "C56",
   "status": "proved",
   "theorems": [
    "C56_generate_codec",
    "C56_generate_panics",
    "C56_generate_buffer_variant",
    "C56_buffer_any_variant",
    "C56_buffer_no_error"
   ],
   "note": "The codec is a universally quantified function argument."
  },
  {
   "property": "C57",
   "status": "proved",
   "theorems": [
    "C57_same_bars",
    "C57_other_bytes"
   ],
   "note": "Also proved: how they disagree on bytes other than 0 and 1."
  },
  {
   "property": "C58",
   "status": "partial",
   "theorems": [
    "C58_exact_partial",
    "C58_profiles_partial",
    "C58_end_to_end_ascii",
    "C58_end_to_end_json",
    "C58_end_to_end_svg",
    "C58_end_to_end_image",
    "C58_end_to_end_file",
    "C58_caller_data_partial",
    "C58_caller_data_refuted"
   ],
   "note": "Proved for every symbology and generator: reading the output gives exactly what reading encode() gives, and C58_exact_partial says exactly what that is for every accepted string (Code 128 below 2^31 characters), with the faults of C30, C33, C40 and C41 made explicit. That it is always the caller's data is false (C58_caller_data_refuted: Codabar B reads as C)."
  },
  {
   "property": "C59",
   "status": "proved",
   "theorems": [
    "C59_lengths",
    "C59_code11_width",
    "C59_codabar_width"
   ],
   "note": ""
  },
  {
   "property": "C60",
   "status": "proved",
   "theorems": [
    "C60_element_widths"
   ],
   "note": ""
  },
  {
   "property": "C61",
   "status": "proved",
   "theorems": [
    "C61_code93_detection"
   ],
   "note": "Accepted strings shorter than 2^48 bytes, both profiles."
  },
  {
   "property": "C62",
   "status": "proved",
   "theorems": [
    "C62_code11_detection"
   ],
   "note": "Accepted strings shorter than 2^48 bytes, both profiles."
  },
  {
   "property": "C63",
   "status": "proved",
   "theorems": [
    "C63_code39_order"
   ],
   "note": ""
  },
  {
   "property": "C64",
   "status": "proved",
   "theorems": [
    "C64_code39_injective",
    "C64_code93_injective",
    "C64_code11_injective"
   ],
   "note": "Accepted strings shorter than 2^48 bytes, both profiles. The example records that the two flag settings of Code 39 can print the same symbol."
  },
  {
   "property": "C65",
   "status": "proved",
   "theorems": [
    "C65_symbols_apart",
    "C65_upca_ean13",
    "C65_unframed_codabar_alike"
   ],
   "note": "Accepted strings shorter than 2^48 bytes, both profiles; C65_unframed_codabar_alike shows that the restriction to framed Codabar is needed (Code 11 02555 and Codabar $4./:1 print the same bars)."
  },
  {
   "property": "C66",
   "status": "proved",
   "theorems": [
    "C66_ascii_defaults",
    "C66_json_defaults",
    "C66_image_defaults",
    "C66_image_formats",
    "C66_svg_builder"
   ],
   "note": "Colours are bytes and an xmlns needs no escaping; pictures below 2^63 bytes."
  },
  {
   "property": "C67",
   "status": "partial",
   "theorems": [
    "C67_xmlns_refuted",
    "C67_xmlns_injection",
    "C67_xmlns_partial"
   ],
   "note": "False of the code: the value is copied unescaped (C67_xmlns_refuted, and C67_xmlns_injection for every attribute name and value). The value is shown exactly when it needs no escaping (_partial)."
  },
  {
   "property": "C68",
   "status": "proved",
   "theorems": [
    "C68_same_symbol_same_data",
    "C68_same_length",
    "C68_retail_check_optional",
    "C68_itf_check_optional",
    "C68_code39_check_explicit"
   ],
   "note": "Code 128 is the subject of C42."
  },
  {
   "property": "C69",
   "status": "proved",
   "theorems": [
    "C69_upside_down"
   ],
   "note": ""
  },
  {
   "property": "C70",
   "status": "proved",
   "theorems": [
    "C70_one_wrong_module",
    "C70_data",
    "C70_ean2_misread"
   ],
   "note": "Two-digit add-ons are excluded in the statement; C70_ean2_misread shows the exclusion is needed."
  },
  {
   "property": "C71",
   "status": "proved",
   "theorems": [
    "C71_code128_misread",
    "C71_readable",
    "C71_blind_places",
    "C71_blind_exchange"
   ],
   "note": "Misread or exchanged symbol characters; both exceptions shown to be real."
  },
  {
   "property": "C72",
   "status": "proved",
   "theorems": [
    "C72_one_wrong_character",
    "C72_data"
   ],
   "note": "Whole characters replaced by arbitrary widths, stated on the printed symbol and the independent reader."
  },
  {
   "property": "C73",
   "status": "proved",
   "theorems": [
    "C73_itf_check_digit",
    "C73_ean2_parities"
   ],
   "note": "ITF under the no-overflow condition (C33 is refuted without it); EAN-2 exactly modulo 4."
  },
  {
   "property": "C74",
   "status": "proved",
   "theorems": [
    "C74_cut_right",
    "C74_cut_left",
    "C74_fixed_length",
    "C74_data",
    "C74_two_of_five_cut",
    "C74_both_ends_misread"
   ],
   "note": "C74_cut_right and C74_cut_left: what a one-sided cut may be read as (lost_right/lost_left in S_Cut.v are False except for 2 of 5 and add-ons); C74_fixed_length: never the same number of digits; C74_two_of_five_cut shows that the exceptions occur, C74_both_ends_misread that two-sided cuts are outside the claim. C74_data states the same in terms of the data, without asking that the whole symbol is readable."
  },
  {
   "property": "C75",
   "status": "proved",
   "theorems": [
    "C75_stretched",
    "C75_stretched_refused",
    "C75_codabar_unframed_misread"
   ],
   "note": "C75_stretched (all symbologies; 2 of 5 may still read the caller's digits) and C75_stretched_refused; C75_codabar_unframed_misread shows that a Codabar reader that does not ask for start and stop characters can be misled."
  },
  {
   "property": "C76",
   "status": "proved",
   "theorems": [
    "C76_error_text",
    "C76_code128_error_text",
    "C76_generator_text",
    "C76_generators_never_fail",
    "C76_texts_differ"
   ],
   "note": "C76_error_text for the eleven constructors that use Parse (alphabets and lengths as documented, S_Errors.v), C76_code128_error_text for Code 128, C76_texts_differ. EAN-2/5 strings of 3 or 4 digits are of wrong length; foreign characters of several bytes can show up as a wrong length (C76_case)."
  },
  {
   "property": "C77",
   "status": "proved",
   "theorems": [
    "C77_width_unknown",
    "C77_data",
    "C77_any_line",
    "C77_turned_any_way"
   ],
   "note": "The reader finds the module width from the narrowest element; every symbol of every symbology has one of width 1. Lines along the bars read as nothing, so the reader that tries one row and one column is never misled. C77_data: what is read is the data."
  },
  {
   "property": "C78",
   "status": "proved",
   "theorems": [
    "C78_side_by_side"
   ],
   "note": "The library prints no quiet zones itself; five light modules between symbols are enough, none are not (C78_case)."
  },
  {
   "property": "C79",
   "status": "proved",
   "theorems": [
    "C79_ascii_size",
    "C79_json_size",
    "C79_empty_size",
    "C79_svg_size",
    "C79_image_size"
   ],
   "note": "Exact for text, JSON and pictures, an upper bound for SVG (missed only by leading offsets, C79_case). The ASCII theorem needs bytes 0 or 1 and height at least 1."
  },
  {
   "property": "C80",
   "status": "proved",
   "theorems": [
    "C80_code93_wider",
    "C80_code93_denser",
    "C80_code93_denser_checked",
    "C80_itf_denser",
    "C80_code128_double"
   ],
   "note": "The comment of code93.rs (denser than Code 39) holds exactly from four characters on; C80_case shows equality at three."
  },
  {
   "property": "C81",
   "status": "partial",
   "theorems": [
    "C81_number_system_refuted",
    "C81_number_system_partial",
    "C81_book_partial",
    "C81_books_apart_partial"
   ],
   "note": "False of the code: Bookland and JAN are aliases that check no number system (C81_number_system_refuted). Proved: the number system printed is the caller's (_partial), every ten-digit book number gets the symbol of its thirteen-digit number, and no two share one."
  },
  {
   "property": "C82",
   "status": "partial",
   "theorems": [
    "C82_structure_partial",
    "C82_plus_refuted",
    "C82_plus_exact_partial",
    "C82_two_of_five_unique"
   ],
   "note": "False of the code for the plus sign of Codabar only (C82_plus_refuted). Proved for every accepted string of every symbology without it; an accepted Codabar string is printed by the rules if and only if it has no plus sign (C82_plus_exact_partial)."
  },
  {
   "property": "C83",
   "status": "proved",
   "theorems": [
    "C83_wrong_modules",
    "C83_data",
    "C83_needed_tight",
    "C83_every_symbology"
   ],
   "note": "Lower bounds and witnesses that they cannot be raised. Readers verify check characters; the check character of Code 39 is optional, hence the hypothesis verified."
  },
  {
   "property": "C84",
   "status": "proved",
   "theorems": [
    "C84_carrier",
    "C84_one_number",
    "C84_same_acceptance",
    "C84_itf_trusts"
   ],
   "note": "readings in 14 digits; ITF limited to the 13 digits of a GTIN-14, where its byte arithmetic is exact (C33)"
  },
  {
   "property": "C85",
   "status": "proved",
   "theorems": [
    "C85_two_wrong_digits",
    "C85_one_in_ten",
    "C85_jump_exchange",
    "C85_twins"
   ],
   "note": "exact condition for every pair of positions"
  },
  {
   "property": "C86",
   "status": "proved",
   "theorems": [
    "C86_wrong_characters",
    "C86_data",
    "C86_needed_tight",
    "C86_every_symbology"
   ],
   "note": "Code 93: the two weighted sums are independent on any two places up to 16 printed characters; the others from C72"
  },
  {
   "property": "C87",
   "status": "proved",
   "theorems": [
    "C87_every_width",
    "C87_17_bits",
    "C87_code93_16_bits",
    "C87_code93_137",
    "C87_code93_138",
    "C87_text",
    "C87_picture",
    "C87_64_bits"
   ],
   "note": "Code 93 on 16-bit targets is part of the statement (C87_code93_16_bits, C87_code93_138). The functions with the width as an argument are in M_Target.v; at 64 bits they are the functions of the model (C87_64_bits)."
  },
  {
   "property": "C88",
   "status": "proved",
   "theorems": [
    "C88_unmoved",
    "C88_half_module",
    "C88_quarter_module",
    "C88_spread",
    "C88_data",
    "C88_tight"
   ],
   "note": "Resolution and offset are arbitrary; the three readers are in S_Tolerance.v. C88_unmoved ties the edges to the library's modules; C88_tight gives the witnesses at the limits. C88_data: what is read is the data."
  },
  {
   "property": "C89",
   "status": "proved",
   "theorems": [
    "C89_printed_again",
    "C89_exactly_these",
    "C89_one_symbol",
    "C89_code128",
    "C89_code128_two_symbols",
    "C89_plus_unprintable"
   ],
   "note": "The converse of the conformance properties: C89_exactly_these has both directions, C89_one_symbol the uniqueness, C89_code128 the twelfth constructor, whose readings have several symbols (C89_code128_two_symbols). C89_plus_unprintable is the limit of C30 seen from the other side."
  },
  {
   "property": "C90",
   "status": "proved",
   "theorems": [
    "C90_every_ascii_text",
    "C90_128_characters",
    "C90_exactly",
    "C90_as_written",
    "C90_brackets_are_shifts"
   ],
   "note": "Shift tables and spelling written from the standards (S_FullAscii.v). The library offers no full-ASCII mode: the caller writes the shift characters. Data with ( ) [ ] in Code 93 is never read back as given by such a reader (C90_as_written)."
  },
  {
   "property": "C91",
   "status": "proved",
   "theorems": [
    "C91_margins",
    "C91_none_by_default",
    "C91_eleven",
    "C91_data"
   ],
   "note": "Quiet zone widths written from the standards (S_Quiet.v). C91_margins covers the drawing without margins as a = b = 0: no symbology is readable then for a reader that insists on quiet zones. C91_data: what is read is the data."
  },
  {
   "property": "C92",
   "status": "proved",
   "theorems": [
    "C92_nothing_backwards",
    "C92_one_finding",
    "C92_data_found"
   ],
   "note": "Extends C45 (own reader backwards) and C65 (other readers forwards) to other readers backwards; unframed Codabar excluded as there, with the witnesses of C45 and C65. C92_data_found: the data is found."
  },
  {
   "property": "C93",
   "status": "proved",
   "theorems": [
    "C93_only_whole_symbols",
    "C93_every_symbol_found",
    "C93_data_found",
    "C93_parts_without_zones"
   ],
   "note": "Symbols are told apart from the page by five light modules in a row, which no symbol and no reading contains; then C92. C93_parts_without_zones shows that quiet zones are needed. C93_data_found: what is found is the data."
  },
  {
   "property": "C94",
   "status": "proved",
   "theorems": [
    "C94_every_latin1_text",
    "C94_2163_characters",
    "C94_nothing_but_latin1",
    "C94_gs1_128"
   ],
   "note": "The spelling, the extended mode and the transmission of GS1-128 are written from the standards in S_Latin.v. SHIFT is not used by the spelling: the code encodes the character after it wrongly (C40)."
  },
  {
   "property": "C95",
   "status": "proved",
   "theorems": [
    "C95_new_shown",
    "C95_same_text_same_outcome",
    "C95_one_line",
    "C95_generators_one_line",
    "C95_ascii",
    "C95_json",
    "C95_svg",
    "C95_image"
   ],
   "note": "The notation is read by an independent reader in S_Debug.v. Which characters beyond ASCII core escapes is an argument of the model (class unicode): the theorems hold for every such choice."
  },
  {
   "property": "C96",
   "status": "proved",
   "theorems": [
    "C96_digit_missing",
    "C96_digit_added",
    "C96_second_check_digit",
    "C96_wrong_symbology"
   ],
   "note": "Follows from optional check digits: the constructors decide by length alone whether one was given."
  },
  {
   "property": "C97",
   "status": "proved",
   "theorems": [
    "C97_unchecked",
    "C97_unchecked_data",
    "C97_retail",
    "C97_code39_check",
    "C97_code93",
    "C97_code93_tight",
    "C97_code11",
    "C97_code128",
    "C97_code128_readable",
    "C97_code39_runs",
    "C97_code93_runs",
    "C97_code11_runs",
    "C97_code128_runs"
   ],
   "note": "Characters as in C86. The _runs theorems are exact for runs of any length in data of any length; the theorems for single characters put the condition in terms of the values for short data, and C97_code93_tight shows that these lengths cannot be raised."
  },
  {
   "property": "C98",
   "status": "proved",
   "theorems": [
    "C98_no_part_read",
    "C98_parts_misread"
   ],
   "note": "C98_no_part_read; whole_only in S_Part.v names the symbols by their data, and the whole symbol need not be readable. C98_parts_misread gives parts of the other symbols that are read, so the restriction is needed; which parts of those can be read in general is left open (C74 settles cuts on one side)."
  },
  {
   "property": "C99",
   "status": "proved",
   "theorems": [
    "C99_no_part_backwards",
    "C99_parts_misread"
   ],
   "note": "C99_no_part_backwards, for the symbols that whole_only in S_Part.v names by their data; the whole symbol (C45) is included. C99_parts_misread gives parts of the other symbols that are read backwards, so the restriction is needed."
  },
  {
   "property": "C100",
   "status": "proved",
   "theorems": [
    "C100_new_shown",
    "C100_same_as_plain",
    "C100_same_text_same_outcome",
    "C100_only_line_breaks",
    "C100_svg_only_line_breaks",
    "C100_ascii",
    "C100_json",
    "C100_svg",
    "C100_image"
   ],
   "note": "The reader of S_Pretty.v insists on the layout. Which characters beyond ASCII core escapes is an argument of the model, as in C95."
  },
  {
   "property": "C101",
   "status": "proved",
   "theorems": [
    "C101_dark",
    "C101_light_inside",
    "C101_light",
    "C101_code128_any_length",
    "C101_ean2",
    "C101_ean2_misread",
    "C101_code128_misread"
   ],
   "note": "One stretch, of any length. C101_ean2_misread and C101_code128_misread show that both exclusions are needed and that 103 characters is the largest safe Code 128 size; C101_ean2 and C101_code128_any_length bound the damage there."
  },
  {
   "property": "C102",
   "status": "proved",
   "theorems": [
    "C102_places",
    "C102_beginnings",
    "C102_addon_beginnings"
   ],
   "note": "C102_places gives offset and picture of every character shown, for all symbologies; C102_beginnings says that equal beginnings are printed equally (not add-ons: C102_addon_beginnings)."
  },
  {
   "property": "C103",
   "status": "proved",
   "theorems": [
    "C103_ascii_enlarged",
    "C103_image_enlarged",
    "C103_svg_enlarged",
    "C103_ascii_joined",
    "C103_image_joined",
    "C103_svg_joined"
   ],
   "note": "SVG: namespaces that need no escaping (C67), as in C49."
  },
  {
   "property": "C104",
   "status": "proved",
   "theorems": [
    "C104_unchecked",
    "C104_code39_check",
    "C104_code93",
    "C104_code11",
    "C104_code128",
    "C104_retail_uneven",
    "C104_retail",
    "C104_ean13",
    "C104_addon"
   ],
   "note": "Crossings at character boundaries (interleaved 2 of 5: between pairs; Codabar and add-ons: before a character); retail symbols also at any other pair of different modules (C104_retail_uneven)."
  },
  {
   "property": "C105",
   "status": "proved",
   "theorems": [
    "C105_parts_shorter"
   ],
   "note": "Holds for every symbology; C98 says for which of them no part is read at all."
  },
  {
   "property": "C106",
   "status": "proved",
   "theorems": [
    "C106_never_one",
    "C106_codabar"
   ],
   "note": "Every symbology; Code 128 also for symbols that cannot be read on their own. Codabar exactly: read as one symbol at a distance of one module and at no other."
  },
  {
   "property": "C107",
   "status": "proved",
   "theorems": [
    "C107_added",
    "C107_lost",
    "C107_codabar",
    "C107_code39_added",
    "C107_code39_lost",
    "C107_overprinted",
    "C107_codabar_overprinted",
    "C107_others_misread"
   ],
   "note": "2 of 5 and framed Codabar in full; Code 39 with its exact exceptions; witnesses for every other symbology in C107_others_misread."
  },
  {
   "property": "C108",
   "status": "proved",
   "theorems": [
    "C108_after",
    "C108_before",
    "C108_refused",
    "C108_five_digits",
    "C108_codabar",
    "C108_both_sides",
    "C108_both_sides_misread",
    "C108_gained"
   ],
   "note": "Marks behind, in front and (EAN, UPC, Code 93, Code 128) on both sides; the exceptions are exact and witnessed (C108_gained, C108_both_sides_misread)."
  },
  {
   "property": "C109",
   "status": "proved",
   "theorems": [
    "C109_negative",
    "C109_printed",
    "C109_one_polarity",
    "C109_backwards",
    "C109_backwards_printed",
    "C109_one_side_misread",
    "C109_light_bars"
   ],
   "note": "Forwards for every symbology and paper; backwards with the exact conditions; witnesses for the exceptions in C109_one_side_misread."
  },
  {
   "property": "C110",
   "status": "proved",
   "theorems": [
    "C110_no_prefix",
    "C110_no_suffix",
    "C110_one_way",
    "C110_data",
    "C110_codabar_texts",
    "C110_supp_prefix_misread",
    "C110_itf_suffix_misread"
   ],
   "note": "C110_one_way holds for every symbology and every accepted text; the two exceptions to prefix and suffix freedom are witnessed (C110_supp_prefix_misread, C110_itf_suffix_misread)."
  },
  {
   "property": "C111",
   "status": "proved",
   "theorems": [
    "C111_nearest",
    "C111_illegible",
    "C111_corrected",
    "C111_code93_character",
    "C111_needed_tight"
   ],
   "note": "Codabar texts with the misprinted plus and Code 128 texts of more than 6489 characters have no reading to begin with (C30, C41); tight for every symbology (C111_needed_tight)."
  },
  {
   "property": "C112",
   "status": "proved",
   "theorems": [
    "C112_modules",
    "C112_data"
   ],
   "note": "Images that fit (C55), of any rotation; heights of 0 leave no pixel to vote, so every module counts as spoilt."
  },
  {
   "property": "C113",
   "status": "proved",
   "theorems": [
    "C113_ean13",
    "C113_ean8",
    "C113_upca",
    "C113_two_missing",
    "C113_code39",
    "C113_code93",
    "C113_code11"
   ],
   "note": "Existence and uniqueness, for the three constructors that take a check digit, for Code 39 with check character, Code 93 and Code 11."
  }
 ]
}