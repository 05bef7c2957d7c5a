(** * The repository's own unit-test vectors, replayed on the model

    Generated from the #[test] functions of src/sym and src/generators (the
    image tests only compare the length of compressed files and are not
    replayed), and the examples of README.md.  These are tests of the model, not
    proofs of properties. *)
From Verif Require Import Rust M_Error M_Ean13 M_Ean8 M_Upca M_EanSupp M_Code39 M_Code93
  M_Code11 M_Codabar M_Tf M_Code128 M_Ascii M_Json M_Svg.

Definition lift {A} (f : str -> result A) (s : str) : M (result A) := Ret (f s).

Definition encoded {A} (enc : A -> M (list N)) (m : M (result A)) (expect : str) : bool :=
  match m with
  | Ret (Ok b) => match enc b with
                  | Ret l => str_eqb (map (fun d => d + 48) l) expect
                  | _ => false
                  end
  | _ => false
  end.
Definition fails_with {A} (m : M (result A)) (e : error) : bool :=
  match m, e with
  | Ret (Err ECharacter), ECharacter | Ret (Err ELength), ELength
  | Ret (Err EGenerate), EGenerate | Ret (Err EChecksum), EChecksum => true
  | _, _ => false
  end.
Definition is_ok {A} (m : M (result A)) : bool :=
  match m with Ret (Ok _) => true | _ => false end.
Definition run_gen {A} (enc : A -> M (list N)) (m : M (result A))
  (g : list N -> M (result str)) : option str :=
  match m with
  | Ret (Ok b) => match enc b with
                  | Ret l => match g l with Ret (Ok s) => Some s | _ => None end
                  | _ => None
                  end
  | _ => None
  end.
Definition gen {A} (enc : A -> M (list N)) (m : M (result A))
  (g : list N -> M (result str)) (expect : str) : bool :=
  match run_gen enc m g with Some s => str_eqb s expect | None => false end.
Definition genlen {A} (enc : A -> M (list N)) (m : M (result A))
  (g : list N -> M (result str)) (n : N) : bool :=
  match run_gen enc m g with Some s => str_len s =? n | None => false end.
(** n copies of a line, separated by newlines *)
Definition lines (n : nat) (l : str) : str := removelast (concat (repeat (l ++ [10]) n)).
(** Apostrophes stand for double quotes in the expected JSON below. *)
Definition quote (s : str) : str := map (fun c => if c =? 39 then 34 else c) s.

(** ** Tests of src/sym/ean13.rs *)
Example t_ean13_new_ean13_1 : is_ok (ean13_new Debug (lit "123456123456")) = true.
Proof. vm_compute. reflexivity. Qed.

Example t_ean13_new_bookland_1 : is_ok (ean13_new Debug (lit "978456123456")) = true.
Proof. vm_compute. reflexivity. Qed.

Example t_ean13_invalid_data_ean13_1 : fails_with (ean13_new Debug (lit "1234er123412")) ECharacter = true.
Proof. vm_compute. reflexivity. Qed.

Example t_ean13_invalid_len_ean13_1 : fails_with (ean13_new Debug (lit "1111112222222333333")) ELength = true.
Proof. vm_compute. reflexivity. Qed.

Example t_ean13_invalid_checksum_ean13_1 : fails_with (ean13_new Debug (lit "8801051294881")) EChecksum = true.
Proof. vm_compute. reflexivity. Qed.

Example t_ean13_ean13_encode_as_bookland_1 : encoded (ean13_encode Debug) (ean13_new Debug (lit "978345612345")) (lit "10101110110001001010000101000110111001010111101010110011011011001000010101110010011101001110101") = true.
Proof. vm_compute. reflexivity. Qed.

Example t_ean13_ean13_encode_as_bookland_2 : encoded (ean13_encode Debug) (ean13_new Debug (lit "978118999561")) (lit "10101110110001001011001100110010001001000101101010111010011101001001110101000011001101001110101") = true.
Proof. vm_compute. reflexivity. Qed.

Example t_ean13_ean13_encode_1 : encoded (ean13_encode Debug) (ean13_new Debug (lit "750103131130")) (lit "10101100010100111001100101001110111101011001101010100001011001101100110100001011100101110100101") = true.
Proof. vm_compute. reflexivity. Qed.

Example t_ean13_ean13_encode_2 : encoded (ean13_encode Debug) (ean13_new Debug (lit "983465123499")) (lit "10101101110100001001110101011110111001001100101010110110010000101011100111010011101001000010101") = true.
Proof. vm_compute. reflexivity. Qed.

(** ** Tests of src/sym/ean8.rs *)
Example t_ean8_new_ean8_1 : is_ok (ean8_new Debug (lit "1234567")) = true.
Proof. vm_compute. reflexivity. Qed.

Example t_ean8_invalid_data_ean8_1 : fails_with (ean8_new Debug (lit "1234er1")) ECharacter = true.
Proof. vm_compute. reflexivity. Qed.

Example t_ean8_invalid_len_ean8_1 : fails_with (ean8_new Debug (lit "1111112222222333333")) ELength = true.
Proof. vm_compute. reflexivity. Qed.

Example t_ean8_invalid_checksum_ean8_1 : fails_with (ean8_new Debug (lit "88023020")) EChecksum = true.
Proof. vm_compute. reflexivity. Qed.

Example t_ean8_ean8_encode_1 : encoded (ean8_encode Debug) (ean8_new Debug (lit "5512345")) (lit "1010110001011000100110010010011010101000010101110010011101000100101") = true.
Proof. vm_compute. reflexivity. Qed.

Example t_ean8_ean8_encode_2 : encoded (ean8_encode Debug) (ean8_new Debug (lit "9834651")) (lit "1010001011011011101111010100011010101010000100111011001101010000101") = true.
Proof. vm_compute. reflexivity. Qed.

(** ** Tests of src/sym/upca.rs *)
Example t_upca_new_upca_1 : is_ok (upca_new Debug (lit "72527273070")) = true.
Proof. vm_compute. reflexivity. Qed.

Example t_upca_invalid_data_upca_1 : fails_with (upca_new Debug (lit "012345612a45")) ECharacter = true.
Proof. vm_compute. reflexivity. Qed.

Example t_upca_invalid_len_upca_1 : fails_with (upca_new Debug (lit "1234561234589")) ELength = true.
Proof. vm_compute. reflexivity. Qed.

Example t_upca_invalid_checksum_upca_1 : fails_with (upca_new Debug (lit "725272730705")) EChecksum = true.
Proof. vm_compute. reflexivity. Qed.

Example t_upca_valid_checksum_upca_1 : is_ok (upca_new Debug (lit "725272730706")) = true.
Proof. vm_compute. reflexivity. Qed.

Example t_upca_upce_encode_1 : encoded (upca_encode Debug) (upca_new Debug (lit "72527273070")) (lit "10101110110010011011000100100110111011001001101010100010010000101110010100010011100101010000101") = true.
Proof. vm_compute. reflexivity. Qed.

Example t_upca_upce_encode_2 : encoded (upca_encode Debug) (upca_new Debug (lit "738312014094")) (lit "10101110110111101011011101111010011001001001101010111001011001101011100111001011101001011100101") = true.
Proof. vm_compute. reflexivity. Qed.

Example t_upca_upce_encode_3 : encoded (upca_encode Debug) (upca_new Debug (lit "095421076611")) (lit "10100011010001011011000101000110010011001100101010111001010001001010000101000011001101100110101") = true.
Proof. vm_compute. reflexivity. Qed.

(** ** Tests of src/sym/ean_supp.rs *)
Example t_ean_supp_new_ean2_1 : is_ok (eansupp_new (lit "12")) = true.
Proof. vm_compute. reflexivity. Qed.

Example t_ean_supp_new_ean5_1 : is_ok (eansupp_new (lit "12345")) = true.
Proof. vm_compute. reflexivity. Qed.

Example t_ean_supp_invalid_data_ean2_1 : fails_with (eansupp_new (lit "AT")) ECharacter = true.
Proof. vm_compute. reflexivity. Qed.

Example t_ean_supp_invalid_len_ean2_1 : fails_with (eansupp_new (lit "123")) ELength = true.
Proof. vm_compute. reflexivity. Qed.

Example t_ean_supp_ean2_encode_1 : encoded (eansupp_encode Debug) (eansupp_new (lit "34")) (lit "10110100001010100011") = true.
Proof. vm_compute. reflexivity. Qed.

Example t_ean_supp_ean5_encode_1 : encoded (eansupp_encode Debug) (eansupp_new (lit "51234")) (lit "10110110001010011001010011011010111101010011101") = true.
Proof. vm_compute. reflexivity. Qed.

(** ** Tests of src/sym/code39.rs *)
Example t_code39_new_code39_1 : is_ok (lift code39_new (lit "12345")) = true.
Proof. vm_compute. reflexivity. Qed.

Example t_code39_invalid_data_code39_1 : fails_with (lift code39_new (lit "1212s")) ECharacter = true.
Proof. vm_compute. reflexivity. Qed.

Example t_code39_invalid_len_code39_1 : fails_with (lift code39_new (lit "")) ELength = true.
Proof. vm_compute. reflexivity. Qed.

Example t_code39_code39_encode_1 : encoded (code39_encode Debug) (lift code39_new (lit "1234")) (lit "10010110110101101001010110101100101011011011001010101010011010110100101101101") = true.
Proof. vm_compute. reflexivity. Qed.

Example t_code39_code39_encode_2 : encoded (code39_encode Debug) (lift code39_new (lit "983RD512")) (lit "100101101101010110010110101101001011010110110010101011010101100101010110010110110100110101011010010101101011001010110100101101101") = true.
Proof. vm_compute. reflexivity. Qed.

Example t_code39_code39_encode_3 : encoded (code39_encode Debug) (lift code39_new (lit "TEST8052")) (lit "100101101101010101101100101101011001010101101011001010101101100101101001011010101001101101011010011010101011001010110100101101101") = true.
Proof. vm_compute. reflexivity. Qed.

Example t_code39_code39_encode_with_checksum_1 : encoded (code39_encode Debug) (lift code39_with_checksum (lit "1234")) (lit "100101101101011010010101101011001010110110110010101010100110101101101010010110100101101101") = true.
Proof. vm_compute. reflexivity. Qed.

Example t_code39_code39_encode_with_checksum_2 : encoded (code39_encode Debug) (lift code39_with_checksum (lit "983RD512")) (lit "1001011011010101100101101011010010110101101100101010110101011001010101100101101101001101010110100101011010110010101101011011010010100101101101") = true.
Proof. vm_compute. reflexivity. Qed.

(** ** Tests of src/sym/code93.rs *)
Example t_code93_invalid_length_code93_1 : fails_with (lift code93_new (lit "")) ELength = true.
Proof. vm_compute. reflexivity. Qed.

Example t_code93_invalid_data_code93_1 : fails_with (lift code93_new (lit "lowerCASE")) ECharacter = true.
Proof. vm_compute. reflexivity. Qed.

Example t_code93_code93_encode_1 : encoded (code93_encode Debug) (lift code93_new (lit "TEST93")) (lit "1010111101101001101100100101101011001101001101000010101010000101011101101001000101010111101") = true.
Proof. vm_compute. reflexivity. Qed.

Example t_code93_code93_encode_2 : encoded (code93_encode Debug) (lift code93_new (lit "FLAM")) (lit "1010111101100010101010110001101010001010011001001011001010011001010111101") = true.
Proof. vm_compute. reflexivity. Qed.

Example t_code93_code93_encode_3 : encoded (code93_encode Debug) (lift code93_new (lit "99")) (lit "1010111101000010101000010101101100101000101101010111101") = true.
Proof. vm_compute. reflexivity. Qed.

Example t_code93_code93_encode_4 : encoded (code93_encode Debug) (lift code93_new (lit "1111111111111111111111")) (lit "1010111101010010001010010001010010001010010001010010001010010001010010001010010001010010001010010001010010001010010001010010001010010001010010001010010001010010001010010001010010001010010001010010001010010001000101101110010101010111101") = true.
Proof. vm_compute. reflexivity. Qed.

(** ** Tests of src/sym/code11.rs *)
Example t_code11_invalid_length_code11_1 : fails_with (lift code11_new (lit "")) ELength = true.
Proof. vm_compute. reflexivity. Qed.

Example t_code11_invalid_data_code11_1 : fails_with (lift code11_new (lit "NOTDIGITS")) ECharacter = true.
Proof. vm_compute. reflexivity. Qed.

Example t_code11_code11_encode_less_than_10_chars_1 : encoded (code11_encode Debug) (lift code11_new (lit "123-45")) (lit "1011001011010110100101101100101010110101011011011011010110110101011001") = true.
Proof. vm_compute. reflexivity. Qed.

Example t_code11_code11_encode_less_than_10_chars_2 : encoded (code11_encode Debug) (lift code11_new (lit "666")) (lit "10110010100110101001101010011010110010101011001") = true.
Proof. vm_compute. reflexivity. Qed.

Example t_code11_code11_encode_less_than_10_chars_3 : encoded (code11_encode Debug) (lift code11_new (lit "12-9")) (lit "10110010110101101001011010110101101010100110101011001") = true.
Proof. vm_compute. reflexivity. Qed.

Example t_code11_code11_encode_more_than_10_chars_1 : encoded (code11_encode Debug) (lift code11_new (lit "1234-5678-4321")) (lit "101100101101011010010110110010101011011010110101101101010011010101001101101001010110101011011011001010100101101101011011011010100110101011001") = true.
Proof. vm_compute. reflexivity. Qed.

(** ** Tests of src/sym/codabar.rs *)
Example t_codabar_invalid_length_codabar_1 : fails_with (codabar_new (lit "")) ELength = true.
Proof. vm_compute. reflexivity. Qed.

Example t_codabar_invalid_data_codabar_1 : fails_with (codabar_new (lit "A12345G")) ECharacter = true.
Proof. vm_compute. reflexivity. Qed.

Example t_codabar_codabar_encode_1 : encoded (codabar_encode Debug) (codabar_new (lit "A1234B")) (lit "1011001001010101100101010010110110010101010110100101010010011") = true.
Proof. vm_compute. reflexivity. Qed.

Example t_codabar_codabar_encode_2 : encoded (codabar_encode Debug) (codabar_new (lit "A40156B")) (lit "10110010010101101001010101001101010110010110101001010010101101010010011") = true.
Proof. vm_compute. reflexivity. Qed.

(** ** Tests of src/sym/tf.rs *)
Example t_tf_new_itf_1 : is_ok (tf_interleaved Debug (lit "12345679")) = true.
Proof. vm_compute. reflexivity. Qed.

Example t_tf_new_stf_1 : is_ok (tf_standard (lit "12345")) = true.
Proof. vm_compute. reflexivity. Qed.

Example t_tf_invalid_data_itf_1 : fails_with (tf_interleaved Debug (lit "1234er123412")) ECharacter = true.
Proof. vm_compute. reflexivity. Qed.

Example t_tf_invalid_data_stf_1 : fails_with (tf_standard (lit "WORDUP")) ECharacter = true.
Proof. vm_compute. reflexivity. Qed.

Example t_tf_itf_encode_1 : encoded (tf_encode) (tf_interleaved Debug (lit "1234567")) (lit "10101110100010101110001110111010001010001110100011100010101010100011100011101101") = true.
Proof. vm_compute. reflexivity. Qed.

Example t_tf_stf_encode_1 : encoded (tf_encode) (tf_standard (lit "1234567")) (lit "110110101110101010111010111010101110111011101010101010111010111011101011101010101110111010101010101110111011010110") = true.
Proof. vm_compute. reflexivity. Qed.

(** ** Tests of src/sym/code128.rs *)
Example t_code128_new_code128_1 : is_ok (lift code128_new ([192; 32; 33; 33; 32; 262; 48; 50; 48; 49])) = true.
Proof. vm_compute. reflexivity. Qed.

Example t_code128_new_code128_2 : is_ok (lift code128_new ([192; 33; 33; 32; 32; 34; 32])) = true.
Proof. vm_compute. reflexivity. Qed.

Example t_code128_invalid_length_code128_1 : fails_with (lift code128_new (lit "")) ELength = true.
Proof. vm_compute. reflexivity. Qed.

Example t_code128_invalid_data_code128_1 : fails_with (lift code128_new ([192; 9786; 32])) ECharacter = true.
Proof. vm_compute. reflexivity. Qed.

Example t_code128_invalid_data_code128_2 : fails_with (lift code128_new ([192; 72; 69; 76; 76; 79; 262; 49; 50; 51; 53; 50])) ECharacter = true.
Proof. vm_compute. reflexivity. Qed.

Example t_code128_invalid_data_code128_3 : fails_with (lift code128_new (lit "HELLO")) ECharacter = true.
Proof. vm_compute. reflexivity. Qed.

Example t_code128_code128_encode_1 : encoded (code128_encode Debug) (lift code128_new ([192; 72; 69; 76; 76; 79])) (lit "110100001001100010100010001101000100011011101000110111010001110110110100010001100011101011") = true.
Proof. vm_compute. reflexivity. Qed.

Example t_code128_code128_encode_2 : encoded (code128_encode Debug) (lift code128_new ([192; 88; 89; 262; 50; 49; 57; 57])) (lit "110100001001110001011011101101000101110111101101110010010111011110100111011001100011101011") = true.
Proof. vm_compute. reflexivity. Qed.

Example t_code128_code128_encode_3 : encoded (code128_encode Debug) (lift code128_new ([385; 120; 121; 90; 192; 49; 57; 57; 33; 42; 49])) (lit "1101001000011110010010110110111101110110001011101011110100111001101110010110011100101100110011011001100100010010011100110100101111001100011101011") = true.
Proof. vm_compute. reflexivity. Qed.

Example t_code128_code128_encode_special_chars_1 : encoded (code128_encode Debug) (lift code128_new ([192; 66; 6])) (lit "110100001001000101100010110000100100110100001100011101011") = true.
Proof. vm_compute. reflexivity. Qed.

Example t_code128_code128_encode_fnc_chars_1 : encoded (code128_encode Debug) (lift code128_new ([262; 377; 52; 50; 49; 56; 52; 48; 50; 48; 53; 48; 192; 48])) (lit "110100111001111010111010110111000110011100101100010100011001001110110001011101110101111010011101100101011110001100011101011") = true.
Proof. vm_compute. reflexivity. Qed.

Example t_code128_code128_encode_longhand_1 : encoded (code128_encode Debug) (lift code128_new ([192; 72; 69; 76; 76; 79])) (lit "110100001001100010100010001101000100011011101000110111010001110110110100010001100011101011") = true.
Proof. vm_compute. reflexivity. Qed.

Example t_code128_code128_encode_longhand_2 : encoded (code128_encode Debug) (lift code128_new ([192; 88; 89; 262; 50; 49; 57; 57])) (lit "110100001001110001011011101101000101110111101101110010010111011110100111011001100011101011") = true.
Proof. vm_compute. reflexivity. Qed.

Example t_code128_code128_encode_longhand_3 : encoded (code128_encode Debug) (lift code128_new ([385; 120; 121; 90; 192; 49; 57; 57; 33; 42; 49])) (lit "1101001000011110010010110110111101110110001011101011110100111001101110010110011100101100110011011001100100010010011100110100101111001100011101011") = true.
Proof. vm_compute. reflexivity. Qed.

(** ** Tests of src/generators/ascii.rs *)
Example t_ascii_ean_13_as_ascii : gen (ean13_encode Debug) (ean13_new Debug (lit "750103131130")) (fun b => ascii_generate Debug (mkASCII 10 1) b) (lines 10%nat (lit "# # ##   # #  ###  ##  # #  ### #### # ##  ## # # #    # ##  ## ##  ## #    # ###  # ### #  # #")) = true.
Proof. vm_compute. reflexivity. Qed.

Example t_ascii_ean_13_as_ascii_small_height_double_width : gen (ean13_encode Debug) (ean13_new Debug (lit "750103131130")) (fun b => ascii_generate Debug (mkASCII 6 2) b) (lines 6%nat (lit "##  ##  ####      ##  ##    ######    ####    ##  ##    ######  ########  ##  ####    ####  ##  ##  ##        ##  ####    ####  ####    ####  ##        ##  ######    ##  ######  ##    ##  ##")) = true.
Proof. vm_compute. reflexivity. Qed.

Example t_ascii_ean_8_as_ascii : gen (ean8_encode Debug) (ean8_new Debug (lit "1234567")) (fun b => ascii_generate Debug (mkASCII 10 1) b) (lines 10%nat (lit "# #  ##  #  #  ## #### # #   ## # # #  ### # #    #   #  ###  # # #")) = true.
Proof. vm_compute. reflexivity. Qed.

Example t_ascii_ean_8_as_ascii_small_height_double_width : gen (ean8_encode Debug) (ean8_new Debug (lit "1234567")) (fun b => ascii_generate Debug (mkASCII 5 2) b) (lines 5%nat (lit "##  ##    ####    ##    ##    ####  ########  ##  ##      ####  ##  ##  ##    ######  ##  ##        ##      ##    ######    ##  ##  ##")) = true.
Proof. vm_compute. reflexivity. Qed.

Example t_ascii_code_39_as_ascii : gen (code39_encode Debug) (lift code39_new (lit "TEST8052")) (fun b => ascii_generate Debug (mkASCII 10 1) b) (lines 10%nat (lit "#  # ## ## # # # ## ##  # ## # ##  # # # ## # ##  # # # ## ##  # ## #  # ## # # #  ## ## # ## #  ## # # # ##  # # ## #  # ## ## #")) = true.
Proof. vm_compute. reflexivity. Qed.

Example t_ascii_code_39_as_ascii_small_height_double_weight : gen (code39_encode Debug) (lift code39_new (lit "1234")) (fun b => ascii_generate Debug (mkASCII 7 2) b) (lines 7%nat (lit "##    ##  ####  ####  ##  ####  ##    ##  ##  ####  ##  ####    ##  ##  ####  ####  ####    ##  ##  ##  ##  ##    ####  ##  ####  ##    ##  ####  ####  ##")) = true.
Proof. vm_compute. reflexivity. Qed.

Example t_ascii_codabar_as_ascii : gen (codabar_encode Debug) (codabar_new (lit "A98B")) (fun b => ascii_generate Debug (mkASCII 10 1) b) (lines 10%nat (lit "# ##  #  # ## #  # # #  ## # # # #  #  ##")) = true.
Proof. vm_compute. reflexivity. Qed.

Example t_ascii_codabar_as_ascii_small_height_double_weight : gen (codabar_encode Debug) (codabar_new (lit "A40156B")) (fun b => ascii_generate Debug (mkASCII 7 2) b) (lines 7%nat (lit "##  ####    ##    ##  ##  ####  ##    ##  ##  ##  ##    ####  ##  ##  ####    ##  ####  ##  ##    ##  ##    ##  ##  ####  ##  ##    ##    ####")) = true.
Proof. vm_compute. reflexivity. Qed.

Example t_ascii_code_128_as_ascii : gen (code128_encode Debug) (lift code128_new ([192; 72; 69; 76; 76; 79])) (fun b => ascii_generate Debug (mkASCII 10 1) b) (lines 10%nat (lit "## #    #  ##   # #   #   ## #   #   ## ### #   ## ### #   ### ## ## #   #   ##   ### # ##")) = true.
Proof. vm_compute. reflexivity. Qed.

Example t_ascii_code_128_as_ascii_small_height_double_weight : gen (code128_encode Debug) (lift code128_new ([192; 72; 69; 76; 76; 79])) (fun b => ascii_generate Debug (mkASCII 7 2) b) (lines 7%nat (lit "####  ##        ##    ####      ##  ##      ##      ####  ##      ##      ####  ######  ##      ####  ######  ##      ######  ####  ####  ##      ##      ####      ######  ##  ####")) = true.
Proof. vm_compute. reflexivity. Qed.

Example t_ascii_ean2_as_ascii : gen (eansupp_encode Debug) (eansupp_new (lit "34")) (fun b => ascii_generate Debug (mkASCII 10 1) b) (lines 10%nat (lit "# ## #    # # #   ##")) = true.
Proof. vm_compute. reflexivity. Qed.

Example t_ascii_ean5_as_ascii : gen (eansupp_encode Debug) (eansupp_new (lit "50799")) (fun b => ascii_generate Debug (mkASCII 10 1) b) (lines 10%nat (lit "# ## ##   # # #  ### #  #   # #   # ## #   # ##")) = true.
Proof. vm_compute. reflexivity. Qed.

Example t_ascii_itf_as_ascii : gen (tf_encode) (tf_interleaved Debug (lit "12345")) (fun b => ascii_generate Debug (mkASCII 10 1) b) (lines 10%nat (lit "# # ### #   # # ###   ### ### #   # #   ### # ### #   #   ## #")) = true.
Proof. vm_compute. reflexivity. Qed.

Example t_ascii_code_93_as_ascii : gen (code93_encode Debug) (lift code93_new (lit "TEST93")) (fun b => ascii_generate Debug (mkASCII 10 1) b) (lines 10%nat (lit "# # #### ## #  ## ##  #  # ## # ##  ## #  ## #    # # # #    # # ### ## #  #   # # # #### #")) = true.
Proof. vm_compute. reflexivity. Qed.

Example t_ascii_code_93_as_ascii_small_height_double_weight : gen (code93_encode Debug) (lift code93_new (lit "TEST93")) (fun b => ascii_generate Debug (mkASCII 7 2) b) (lines 7%nat (lit "##  ##  ########  ####  ##    ####  ####    ##    ##  ####  ##  ####    ####  ##    ####  ##        ##  ##  ##  ##        ##  ##  ######  ####  ##    ##      ##  ##  ##  ########  ##")) = true.
Proof. vm_compute. reflexivity. Qed.

Example t_ascii_code_11_as_ascii : gen (code11_encode Debug) (lift code11_new (lit "12-9")) (fun b => ascii_generate Debug (mkASCII 10 1) b) (lines 10%nat (lit "# ##  # ## # ## #  # ## # ## # ## # # #  ## # # ##  #")) = true.
Proof. vm_compute. reflexivity. Qed.

(** ** Tests of src/generators/json.rs *)
Example t_json_ean_13_as_json : gen (ean13_encode Debug) (ean13_new Debug (lit "750103131130")) (fun b => Ret (json_generate (mkJSON 10 1) b)) (quote (lit "{'height':10,'xdim':1,'encoding':[1,0,1,0,1,1,0,0,0,1,0,1,0,0,1,1,1,0,0,1,1,0,0,1,0,1,0,0,1,1,1,0,1,1,1,1,0,1,0,1,1,0,0,1,1,0,1,0,1,0,1,0,0,0,0,1,0,1,1,0,0,1,1,0,1,1,0,0,1,1,0,1,0,0,0,0,1,0,1,1,1,0,0,1,0,1,1,1,0,1,0,0,1,0,1]}")) = true.
Proof. vm_compute. reflexivity. Qed.

Example t_json_ean_13_as_json_small_height_double_width : gen (ean13_encode Debug) (ean13_new Debug (lit "750103131130")) (fun b => Ret (json_generate (mkJSON 6 2) b)) (quote (lit "{'height':6,'xdim':2,'encoding':[1,0,1,0,1,1,0,0,0,1,0,1,0,0,1,1,1,0,0,1,1,0,0,1,0,1,0,0,1,1,1,0,1,1,1,1,0,1,0,1,1,0,0,1,1,0,1,0,1,0,1,0,0,0,0,1,0,1,1,0,0,1,1,0,1,1,0,0,1,1,0,1,0,0,0,0,1,0,1,1,1,0,0,1,0,1,1,1,0,1,0,0,1,0,1]}")) = true.
Proof. vm_compute. reflexivity. Qed.

Example t_json_ean_8_as_json : gen (ean8_encode Debug) (ean8_new Debug (lit "1234567")) (fun b => Ret (json_generate (mkJSON 10 1) b)) (quote (lit "{'height':10,'xdim':1,'encoding':[1,0,1,0,0,1,1,0,0,1,0,0,1,0,0,1,1,0,1,1,1,1,0,1,0,1,0,0,0,1,1,0,1,0,1,0,1,0,0,1,1,1,0,1,0,1,0,0,0,0,1,0,0,0,1,0,0,1,1,1,0,0,1,0,1,0,1]}")) = true.
Proof. vm_compute. reflexivity. Qed.

Example t_json_ean_8_as_json_small_height_double_width : gen (ean8_encode Debug) (ean8_new Debug (lit "1234567")) (fun b => Ret (json_generate (mkJSON 5 2) b)) (quote (lit "{'height':5,'xdim':2,'encoding':[1,0,1,0,0,1,1,0,0,1,0,0,1,0,0,1,1,0,1,1,1,1,0,1,0,1,0,0,0,1,1,0,1,0,1,0,1,0,0,1,1,1,0,1,0,1,0,0,0,0,1,0,0,0,1,0,0,1,1,1,0,0,1,0,1,0,1]}")) = true.
Proof. vm_compute. reflexivity. Qed.

Example t_json_code_93_as_json : gen (code93_encode Debug) (lift code93_new (lit "MONKEYMAGIC")) (fun b => Ret (json_generate (mkJSON 10 1) b)) (quote (lit "{'height':10,'xdim':1,'encoding':[1,0,1,0,1,1,1,1,0,1,0,1,0,0,1,1,0,0,1,0,0,1,0,1,1,0,0,1,0,1,0,0,0,1,1,0,1,0,0,0,1,1,0,1,0,1,1,0,0,1,0,0,1,0,1,0,0,1,1,0,1,1,0,1,0,1,0,0,1,1,0,0,1,1,0,1,0,1,0,0,0,1,0,1,1,0,1,0,0,0,1,0,1,1,0,0,0,1,0,1,1,0,1,0,0,0,1,0,1,0,0,1,1,0,1,1,0,1,0,1,0,0,1,0,0,0,1,0,1,0,1,1,1,1,0,1]}")) = true.
Proof. vm_compute. reflexivity. Qed.

Example t_json_code_93_as_json_small_height_double_weight : gen (code93_encode Debug) (lift code93_new (lit "1234")) (fun b => Ret (json_generate (mkJSON 7 2) b)) (quote (lit "{'height':7,'xdim':2,'encoding':[1,0,1,0,1,1,1,1,0,1,0,1,0,0,1,0,0,0,1,0,1,0,0,0,1,0,0,1,0,1,0,0,0,0,1,0,1,0,0,1,0,1,0,0,0,1,0,0,0,1,1,0,1,0,1,0,1,0,0,0,0,1,0,1,0,1,0,1,1,1,1,0,1]}")) = true.
Proof. vm_compute. reflexivity. Qed.

Example t_json_code_39_as_json : gen (code39_encode Debug) (lift code39_new (lit "TEST8052")) (fun b => Ret (json_generate (mkJSON 10 1) b)) (quote (lit "{'height':10,'xdim':1,'encoding':[1,0,0,1,0,1,1,0,1,1,0,1,0,1,0,1,0,1,1,0,1,1,0,0,1,0,1,1,0,1,0,1,1,0,0,1,0,1,0,1,0,1,1,0,1,0,1,1,0,0,1,0,1,0,1,0,1,1,0,1,1,0,0,1,0,1,1,0,1,0,0,1,0,1,1,0,1,0,1,0,1,0,0,1,1,0,1,1,0,1,0,1,1,0,1,0,0,1,1,0,1,0,1,0,1,0,1,1,0,0,1,0,1,0,1,1,0,1,0,0,1,0,1,1,0,1,1,0,1]}")) = true.
Proof. vm_compute. reflexivity. Qed.

Example t_json_code_39_as_json_small_height_double_weight : gen (code39_encode Debug) (lift code39_new (lit "1234")) (fun b => Ret (json_generate (mkJSON 7 2) b)) (quote (lit "{'height':7,'xdim':2,'encoding':[1,0,0,1,0,1,1,0,1,1,0,1,0,1,1,0,1,0,0,1,0,1,0,1,1,0,1,0,1,1,0,0,1,0,1,0,1,1,0,1,1,0,1,1,0,0,1,0,1,0,1,0,1,0,1,0,0,1,1,0,1,0,1,1,0,1,0,0,1,0,1,1,0,1,1,0,1]}")) = true.
Proof. vm_compute. reflexivity. Qed.

Example t_json_codabar_as_json : gen (codabar_encode Debug) (codabar_new (lit "A98B")) (fun b => Ret (json_generate (mkJSON 10 1) b)) (quote (lit "{'height':10,'xdim':1,'encoding':[1,0,1,1,0,0,1,0,0,1,0,1,1,0,1,0,0,1,0,1,0,1,0,0,1,1,0,1,0,1,0,1,0,1,0,0,1,0,0,1,1]}")) = true.
Proof. vm_compute. reflexivity. Qed.

Example t_json_codabar_as_json_small_height_double_weight : gen (codabar_encode Debug) (codabar_new (lit "A40156B")) (fun b => Ret (json_generate (mkJSON 7 2) b)) (quote (lit "{'height':7,'xdim':2,'encoding':[1,0,1,1,0,0,1,0,0,1,0,1,0,1,1,0,1,0,0,1,0,1,0,1,0,1,0,0,1,1,0,1,0,1,0,1,1,0,0,1,0,1,1,0,1,0,1,0,0,1,0,1,0,0,1,0,1,0,1,1,0,1,0,1,0,0,1,0,0,1,1]}")) = true.
Proof. vm_compute. reflexivity. Qed.

Example t_json_code_128_as_json : gen (code128_encode Debug) (lift code128_new ([192; 72; 69; 76; 76; 79])) (fun b => Ret (json_generate (mkJSON 10 1) b)) (quote (lit "{'height':10,'xdim':1,'encoding':[1,1,0,1,0,0,0,0,1,0,0,1,1,0,0,0,1,0,1,0,0,0,1,0,0,0,1,1,0,1,0,0,0,1,0,0,0,1,1,0,1,1,1,0,1,0,0,0,1,1,0,1,1,1,0,1,0,0,0,1,1,1,0,1,1,0,1,1,0,1,0,0,0,1,0,0,0,1,1,0,0,0,1,1,1,0,1,0,1,1]}")) = true.
Proof. vm_compute. reflexivity. Qed.

Example t_json_code_128_as_json_small_height_double_weight : gen (code128_encode Debug) (lift code128_new ([192; 72; 69; 76; 76; 79])) (fun b => Ret (json_generate (mkJSON 7 2) b)) (quote (lit "{'height':7,'xdim':2,'encoding':[1,1,0,1,0,0,0,0,1,0,0,1,1,0,0,0,1,0,1,0,0,0,1,0,0,0,1,1,0,1,0,0,0,1,0,0,0,1,1,0,1,1,1,0,1,0,0,0,1,1,0,1,1,1,0,1,0,0,0,1,1,1,0,1,1,0,1,1,0,1,0,0,0,1,0,0,0,1,1,0,0,0,1,1,1,0,1,0,1,1]}")) = true.
Proof. vm_compute. reflexivity. Qed.

Example t_json_ean2_as_json : gen (eansupp_encode Debug) (eansupp_new (lit "34")) (fun b => Ret (json_generate (mkJSON 10 1) b)) (quote (lit "{'height':10,'xdim':1,'encoding':[1,0,1,1,0,1,0,0,0,0,1,0,1,0,1,0,0,0,1,1]}")) = true.
Proof. vm_compute. reflexivity. Qed.

Example t_json_ean5_as_json : gen (eansupp_encode Debug) (eansupp_new (lit "50799")) (fun b => Ret (json_generate (mkJSON 10 1) b)) (quote (lit "{'height':10,'xdim':1,'encoding':[1,0,1,1,0,1,1,0,0,0,1,0,1,0,1,0,0,1,1,1,0,1,0,0,1,0,0,0,1,0,1,0,0,0,1,0,1,1,0,1,0,0,0,1,0,1,1]}")) = true.
Proof. vm_compute. reflexivity. Qed.

Example t_json_itf_as_json : gen (tf_encode) (tf_interleaved Debug (lit "12345")) (fun b => Ret (json_generate (mkJSON 10 1) b)) (quote (lit "{'height':10,'xdim':1,'encoding':[1,0,1,0,1,1,1,0,1,0,0,0,1,0,1,0,1,1,1,0,0,0,1,1,1,0,1,1,1,0,1,0,0,0,1,0,1,0,0,0,1,1,1,0,1,0,1,1,1,0,1,0,0,0,1,0,0,0,1,1,0,1]}")) = true.
Proof. vm_compute. reflexivity. Qed.

Example t_json_code11_as_json : gen (code11_encode Debug) (lift code11_new (lit "111-999-8")) (fun b => Ret (json_generate (mkJSON 10 1) b)) (quote (lit "{'height':10,'xdim':1,'encoding':[1,0,1,1,0,0,1,0,1,1,0,1,0,1,1,0,1,1,0,1,0,1,1,0,1,1,0,1,0,1,1,0,1,0,1,1,0,1,0,1,1,0,1,0,1,0,1,1,0,1,0,1,0,1,1,0,1,0,1,0,1,0,1,1,0,1,0,1,1,0,1,0,0,1,0,1,0,1,0,1,1,0,1,0,1,1,0,0,1]}")) = true.
Proof. vm_compute. reflexivity. Qed.

(** ** Tests of src/generators/svg.rs *)
Example t_svg_ean_13_as_svg : genlen (ean13_encode Debug) (ean13_new Debug (lit "750103131130")) (svg_generate Debug (svg_new 80)) 2890 = true.
Proof. vm_compute. reflexivity. Qed.

Example t_svg_colored_ean_13_as_svg : genlen (ean13_encode Debug) (ean13_new Debug (lit "750103131130")) (svg_generate Debug (mkSVG 80 1 (mkColor 0 0 255 255) (mkColor 255 0 0 255) None)) 2890 = true.
Proof. vm_compute. reflexivity. Qed.

Example t_svg_colored_semi_transparent_ean_13_as_svg : genlen (ean13_encode Debug) (ean13_new Debug (lit "750103131130")) (svg_generate Debug (mkSVG 70 1 (mkColor 0 0 255 128) (mkColor 255 0 0 128) None)) 3940 = true.
Proof. vm_compute. reflexivity. Qed.

Example t_svg_ean_8_as_svg : genlen (ean8_encode Debug) (ean8_new Debug (lit "9998823")) (svg_generate Debug (svg_set_xmlns (svg_new 80) (lit "http://www.w3.org/2000/svg"))) 1956 = true.
Proof. vm_compute. reflexivity. Qed.

Example t_svg_code39_as_svg : genlen (code39_encode Debug) (lift code39_new (lit "IGOT99PROBLEMS")) (svg_generate Debug (svg_set_xmlns (svg_new 80) (lit "http://www.w3.org/2000/svg"))) 6574 = true.
Proof. vm_compute. reflexivity. Qed.

Example t_svg_code93_as_svg : genlen (code93_encode Debug) (lift code93_new (lit "IGOT99PROBLEMS")) (svg_generate Debug (svg_set_xmlns (svg_new 80) (lit "http://www.w3.org/2000/svg"))) 4493 = true.
Proof. vm_compute. reflexivity. Qed.

Example t_svg_codabar_as_svg : genlen (codabar_encode Debug) (codabar_new (lit "A12----34A")) (svg_generate Debug (svg_set_xmlns (svg_new 80) (lit "http://www.w3.org/2000/svg"))) 2985 = true.
Proof. vm_compute. reflexivity. Qed.

Example t_svg_code128_as_svg : genlen (code128_encode Debug) (lift code128_new ([192; 72; 73; 262; 51; 52; 53; 54; 55; 56])) (svg_generate Debug (svg_set_xmlns (svg_new 80) (lit "http://www.w3.org/2000/svg"))) 2758 = true.
Proof. vm_compute. reflexivity. Qed.

Example t_svg_ean_2_as_svg : genlen (eansupp_encode Debug) (eansupp_new (lit "78")) (svg_generate Debug (svg_set_xmlns (svg_new 80) (lit "http://www.w3.org/2000/svg"))) 760 = true.
Proof. vm_compute. reflexivity. Qed.

Example t_svg_itf_as_svg : genlen (tf_encode) (tf_interleaved Debug (lit "1234123488993344556677118")) (svg_generate Debug (mkSVG 80 1 color_white color_black None)) 7123 = true.
Proof. vm_compute. reflexivity. Qed.

Example t_svg_code11_as_svg : genlen (code11_encode Debug) (lift code11_new (lit "9988-45643201")) (svg_generate Debug (mkSVG 80 1 color_white color_black None)) 4219 = true.
Proof. vm_compute. reflexivity. Qed.

(** ** Examples of README.md.  The picture is a row of the pixels of media/code39_1istheloneliestnumber.png, which has 60 equal rows. *)
Example t_readme_picture : encoded (code39_encode Debug) (lift code39_new (lit "1ISTHELONELIESTNUMBER")) (lit "1001011011010110100101011010110100110101011010110010101011011001011010100110101101011001010101101010011011010110100101010110100110110101100101010110101001101011010011010110101100101010110101100101010110110010101011010011011001010101101101101010010101101001011011010110010101101010110010100101101101") = true.
Proof. vm_compute. reflexivity. Qed.
Example t_readme_ascii : gen (ean13_encode Debug) (ean13_new Debug (lit "750103131130")) (ascii_generate Debug ascii_new)
  (let l := lit "# # ##   # #  ###  ##  # #  ### #### # ##  ## # # #    # ##  ## ##  ## #    # ###  # ### #  # #" in l ++ [10] ++ l ++ [10] ++ l ++ [10] ++ l ++ [10] ++ l ++ [10] ++ l ++ [10] ++ l ++ [10] ++ l ++ [10] ++ l ++ [10] ++ l) = true.
Proof. vm_compute. reflexivity. Qed.
(** The README lays its JSON example out in lines; the generator does not. *)
Example t_readme_json : gen (codabar_encode Debug) (codabar_new (lit "A98B")) (fun b => Ret (json_generate (mkJSON 10 1) b))
  (quote (lit "{'height':10,'xdim':1,'encoding':[1,0,1,1,0,0,1,0,0,1,0,1,1,0,1,0,0,1,0,1,0,1,0,0,1,1,0,1,0,1,0,1,0,1,0,0,1,0,0,1,1]}")) = true.
Proof. vm_compute. reflexivity. Qed.
