(** * Properties C18-C28, C61-C64: Code 39, Code 93, Code 11 *)
From Coq Require Import Permutation.
From Verif Require Import Rust M_Error M_Code39 M_Code93 M_Code11 S_Barcode S_Text S_Linear
  P_Code39 P_Code93 P_Code11.

(** ** C18: decision table of Code39::new and Code39::with_checksum, for strings of any size.
    The length compared is the byte length modulo 2^32 (below 4 GiB: the byte length). *)
Theorem C18_code39_new : forall s,
  let n := str_len s mod 2 ^ 32 in
  let r := code39_new s in
  (r = Err ELength <-> ~ (1 <= n <= 256)) /\
  (r = Err ECharacter <-> 1 <= n <= 256 /\ ~ Forall (fun c => In c c39_chars) s) /\
  r <> Err EChecksum /\
  (forall b, r = Ok b <-> 1 <= n <= 256 /\ Forall (fun c => In c c39_chars) s /\ b = mkCode39 s false).
Proof. exact (code39_init_spec false). Qed.
Print Assumptions C18_code39_new.
Theorem C18_code39_with_checksum : forall s,
  let n := str_len s mod 2 ^ 32 in
  let r := code39_with_checksum s in
  (r = Err ELength <-> ~ (1 <= n <= 256)) /\
  (r = Err ECharacter <-> 1 <= n <= 256 /\ ~ Forall (fun c => In c c39_chars) s) /\
  r <> Err EChecksum /\
  (forall b, r = Ok b <-> 1 <= n <= 256 /\ Forall (fun c => In c c39_chars) s /\ b = mkCode39 s true).
Proof. exact (code39_init_spec true). Qed.
Print Assumptions C18_code39_with_checksum.
Example C18_case : code39_new (lit "1AB-. $/+%") = Ok (mkCode39 (lit "1AB-. $/+%") false)
  /\ code39_with_checksum (lit "A") = Ok (mkCode39 (lit "A") true)
  /\ code39_new (lit "1212s") = Err ECharacter /\ code39_new (lit "*") = Err ECharacter
  /\ code39_new [] = Err ELength
  /\ code39_new (repeat 65 256) = Ok (mkCode39 (repeat 65 256) false)
  /\ code39_new (repeat 65 257) = Err ELength
  /\ str_len (lit "1AB-. $/+%") mod 2 ^ 32 = 10.
Proof. repeat split; vm_compute; reflexivity. Qed.

(** ** C19: conformance, for both constructors and both settings of the public flag *)
Theorem C19_code39_encode : forall p s b flag, str_len s < 2 ^ 48 ->
  code39_new s = Ok b \/ code39_with_checksum s = Ok b ->
  exists m, code39_encode p (mkCode39 (c39_data b) flag) = Ret m /\
    m = render (c39_symbol (if flag then s ++ [c39_check s] else s)) /\
    length m = (if flag then 13 * (length s + 3) - 1 else 13 * (length s + 2) - 1)%nat.
Proof. exact code39_accepted. Qed.
Print Assumptions C19_code39_encode.
Example C19_case : c39_check (lit "1234") = ch "A" /\ c39_check (lit "CODE39") = ch "W"
  /\ code39_encode Debug (mkCode39 (lit "1") false) = Ret (modules "10010110110101101001010110100101101101")
  /\ render (c39_symbol (lit "1")) = modules "10010110110101101001010110100101101101".
Proof. repeat split; vm_compute; reflexivity. Qed.

(** ** C20: round trip *)
Theorem C20_code39_round_trip : forall p s b flag, str_len s < 2 ^ 48 ->
  code39_new s = Ok b \/ code39_with_checksum s = Ok b ->
  exists m, code39_encode p (mkCode39 (c39_data b) flag) = Ret m /\
    obind (scan m) read_c39 = Some (if flag then s ++ [c39_check s] else s).
Proof. exact code39_scan_back. Qed.
Print Assumptions C20_code39_round_trip.
Example C20_case :
  obind (scan (modules "10010110110101101001010110100101101101")) read_c39 = Some (lit "1").
Proof. vm_compute. reflexivity. Qed.

(** ** C21: the check character catches every single misread *)
Theorem C21_code39_misread : forall p s b, str_len s < 2 ^ 48 -> code39_with_checksum s = Ok b ->
  exists m r, code39_encode p b = Ret m /\ obind (scan m) read_c39 = Some r /\
    c39_valid r /\
    forall u c v c', r = u ++ c :: v -> In c' c39_chars -> c' <> c -> ~ c39_valid (u ++ c' :: v).
Proof. exact code39_typo. Qed.
Print Assumptions C21_code39_misread.
Example C21_case : lit "AB" ++ [c39_check (lit "AB")] = lit "ABL"
  /\ c39_check (lit "A8") <> ch "L" /\ code39_with_checksum (lit "AB") = Ok (mkCode39 (lit "AB") true).
Proof. repeat split; vm_compute; congruence || reflexivity. Qed.

(** ** C22: decision table of Code93::new *)
Theorem C22_code93_new : forall s,
  let n := str_len s mod 2 ^ 32 in
  let r := code93_new s in
  (r = Err ELength <-> ~ (1 <= n <= 256)) /\
  (r = Err ECharacter <-> 1 <= n <= 256 /\ ~ Forall (fun c => In c c93_chars) s) /\
  r <> Err EChecksum /\
  (forall b, r = Ok b <-> 1 <= n <= 256 /\ Forall (fun c => In c c93_chars) s /\ b = mkCode93 s).
Proof. exact code93_new_spec. Qed.
Print Assumptions C22_code93_new.
Example C22_case : code93_new (lit "HELLO (B]") = Ok (mkCode93 (lit "HELLO (B]"))
  /\ code93_new (lit "hello") = Err ECharacter /\ code93_new [] = Err ELength
  /\ code93_new (repeat 93 256) = Ok (mkCode93 (repeat 93 256))
  /\ code93_new (repeat 93 257) = Err ELength.
Proof. repeat split; vm_compute; reflexivity. Qed.

(** ** C23: conformance *)
Theorem C23_code93_encode : forall p s b, str_len s < 2 ^ 48 -> code93_new s = Ok b ->
  exists m, code93_encode p b = Ret m /\
    m = render (c93_symbol (s ++ [c93_C s; c93_K s])) /\
    length m = (9 * (length s + 4) + 1)%nat.
Proof. exact code93_accepted. Qed.
Print Assumptions C23_code93_encode.
Example C23_case : c93_C (lit "TEST93") = ch "+" /\ c93_K (lit "TEST93") = ch "6"
  /\ code93_encode Debug (mkCode93 (lit "A")) =
     Ret (render (c93_symbol (lit "AAU")))
  /\ render (c93_symbol (lit "AAU")) =
     modules "1010111101101010001101010001100101101010111101".
Proof. repeat split; vm_compute; reflexivity. Qed.

(** ** C24: round trip *)
Theorem C24_code93_round_trip : forall p s b, str_len s < 2 ^ 48 -> code93_new s = Ok b ->
  exists m, code93_encode p b = Ret m /\ obind (scan m) read_c93 = Some s.
Proof. exact code93_scan_back. Qed.
Print Assumptions C24_code93_round_trip.
Example C24_case : read_c93 (c93_symbol (lit "TEST93+6")) = Some (lit "TEST93")
  /\ read_c93 (c93_symbol (lit "TEST93+7")) = None
  /\ code93_new (lit "TEST93") = Ok (mkCode93 (lit "TEST93")).
Proof. repeat split; vm_compute; reflexivity. Qed.

(** ** C25: a data character replaced, C and K kept: the C check fails, and so does the K check *)
Theorem C25_code93_misread : forall p s b u c v c', str_len s < 2 ^ 48 -> code93_new s = Ok b ->
  s = u ++ c :: v -> In c' c93_chars -> c' <> c ->
  exists m kept, code93_encode p b = Ret m /\
    obind (scan m) read_c93_raw = Some (s ++ kept) /\ length kept = 2%nat /\
    verify_last c93_chars 47 20 ((u ++ c' :: v) ++ firstn 1 kept) = None /\
    verify_last c93_chars 47 15 ((u ++ c' :: v) ++ kept) = None.
Proof. exact code93_typo. Qed.
Print Assumptions C25_code93_misread.
Example C25_case : verify_last c93_chars 47 20 (lit "TEST93+") = Some (lit "TEST93")
  /\ verify_last c93_chars 47 20 (lit "TESS93+") = None
  /\ In (ch "S") c93_chars.
Proof. repeat split; try (vm_compute; reflexivity). apply P_Parse.existsb_eqb_In. reflexivity. Qed.

(** ** C26: decision table of Code11::new *)
Theorem C26_code11_new : forall s,
  let n := str_len s mod 2 ^ 32 in
  let r := code11_new s in
  (r = Err ELength <-> ~ (1 <= n <= 256)) /\
  (r = Err ECharacter <-> 1 <= n <= 256 /\ ~ Forall (fun c => In c c11_chars) s) /\
  r <> Err EChecksum /\
  (forall b, r = Ok b <-> 1 <= n <= 256 /\ Forall (fun c => In c c11_chars) s /\ b = mkCode11 s).
Proof. exact code11_new_spec. Qed.
Print Assumptions C26_code11_new.
Example C26_case : code11_new (lit "123-45") = Ok (mkCode11 (lit "123-45"))
  /\ code11_new (lit "1A") = Err ECharacter /\ code11_new [] = Err ELength
  /\ code11_new (repeat 45 256) = Ok (mkCode11 (repeat 45 256))
  /\ code11_new (repeat 45 257) = Err ELength.
Proof. repeat split; vm_compute; reflexivity. Qed.

(** ** C27: conformance *)
Theorem C27_code11_encode : forall p s b, str_len s < 2 ^ 48 -> code11_new s = Ok b ->
  code11_encode p b = Ret (render (c11_symbol
    (s ++ [c11_C s] ++ (if Nat.ltb 10 (length s) then [c11_K s] else [])))).
Proof. exact code11_accepted. Qed.
Print Assumptions C27_code11_encode.
Example C27_case : c11_C (lit "123-45") = ch "5"
  /\ c11_C (lit "12345678901") = ch "4" /\ c11_K (lit "12345678901") = ch "-"
  /\ code11_encode Debug (mkCode11 (lit "123-45")) =
     Ret (modules "1011001011010110100101101100101010110101011011011011010110110101011001").
Proof. repeat split; vm_compute; reflexivity. Qed.

(** ** C28: round trip *)
Theorem C28_code11_round_trip : forall p s b, str_len s < 2 ^ 48 -> code11_new s = Ok b ->
  exists m, code11_encode p b = Ret m /\ obind (scan m) read_c11 = Some s.
Proof. exact code11_scan_back. Qed.
Print Assumptions C28_code11_round_trip.
Example C28_case :
  obind (scan (modules "1011001011010110100101101100101010110101011011011011010110110101011001")) read_c11
  = Some (lit "123-45").
Proof. vm_compute. reflexivity. Qed.

(** ** C61: Code 93 readers refuse every single misread and every exchange of neighbours,
    check characters included *)
Theorem C61_code93_detection : forall p s b, str_len s < 2 ^ 48 -> code93_new s = Ok b ->
  exists m r, code93_encode p b = Ret m /\ obind (scan m) read_c93_raw = Some r /\
    c93_verify r = Some s /\
    (forall u c v c', r = u ++ c :: v -> In c' c93_chars -> c' <> c ->
       c93_verify (u ++ c' :: v) = None) /\
    (forall u c d v, r = u ++ c :: d :: v -> c <> d -> c93_verify (u ++ d :: c :: v) = None).
Proof. exact code93_misread. Qed.
Print Assumptions C61_code93_detection.
Example C61_case : c93_verify (lit "TEST93+6") = Some (lit "TEST93")
  /\ c93_verify (lit "TEST39+6") = None /\ c93_verify (lit "TEST936+") = None
  /\ c93_verify (lit "TEST93-6") = None.
Proof. repeat split; vm_compute; reflexivity. Qed.

(** ** C62: the same for Code 11 *)
Theorem C62_code11_detection : forall p s b, str_len s < 2 ^ 48 -> code11_new s = Ok b ->
  exists m r, code11_encode p b = Ret m /\ obind (scan m) read_c11_raw = Some r /\
    c11_verify r = Some s /\
    (forall u c v c', r = u ++ c :: v -> In c' c11_chars -> c' <> c ->
       c11_verify (u ++ c' :: v) = None) /\
    (forall u c d v, r = u ++ c :: d :: v -> c <> d -> c11_verify (u ++ d :: c :: v) = None).
Proof. exact code11_misread. Qed.
Print Assumptions C62_code11_detection.
Example C62_case : c11_verify (lit "123-455") = Some (lit "123-45")
  /\ c11_verify (lit "12-3455") = None /\ c11_verify (lit "123-456") = None
  /\ c11_verify (lit "123456789014-") = Some (lit "12345678901")
  /\ c11_verify (lit "123456789104-") = None.
Proof. repeat split; vm_compute; reflexivity. Qed.

(** ** C63: the Code 39 check character is blind to the order of the data *)
Theorem C63_code39_order : forall p s s' b, str_len s < 2 ^ 48 -> Permutation s s' -> code39_with_checksum s = Ok b ->
  exists b' m m' c, code39_with_checksum s' = Ok b' /\
    code39_encode p b = Ret m /\ obind (scan m) read_c39 = Some (s ++ [c]) /\
    code39_encode p b' = Ret m' /\ obind (scan m') read_c39 = Some (s' ++ [c]) /\
    c39_valid (s ++ [c]) /\ c39_valid (s' ++ [c]).
Proof. exact code39_order_printed. Qed.
Print Assumptions C63_code39_order.
Example C63_case : Permutation (lit "AB") (lit "BA") /\ c39_check (lit "AB") = ch "L" /\ c39_check (lit "BA") = ch "L"
  /\ code39_with_checksum (lit "AB") = Ok (mkCode39 (lit "AB") true).
Proof. split; [apply perm_swap|]. repeat split; vm_compute; reflexivity. Qed.

(** ** C64: symbols determine their data *)
Theorem C64_code39_injective : forall p s1 s2 b1 b2 (flag : bool) m,
  str_len s1 < 2 ^ 48 -> str_len s2 < 2 ^ 48 ->
  (if flag then code39_with_checksum s1 else code39_new s1) = Ok b1 ->
  (if flag then code39_with_checksum s2 else code39_new s2) = Ok b2 ->
  code39_encode p b1 = Ret m -> code39_encode p b2 = Ret m -> s1 = s2.
Proof. intros p s1 s2 b1 b2 []; apply code39_injective. Qed.
Print Assumptions C64_code39_injective.
Theorem C64_code93_injective : forall p s1 s2 b1 b2 m,
  str_len s1 < 2 ^ 48 -> str_len s2 < 2 ^ 48 ->
  code93_new s1 = Ok b1 -> code93_new s2 = Ok b2 ->
  code93_encode p b1 = Ret m -> code93_encode p b2 = Ret m -> s1 = s2.
Proof. exact code93_injective. Qed.
Print Assumptions C64_code93_injective.
Theorem C64_code11_injective : forall p s1 s2 b1 b2 m,
  str_len s1 < 2 ^ 48 -> str_len s2 < 2 ^ 48 ->
  code11_new s1 = Ok b1 -> code11_new s2 = Ok b2 ->
  code11_encode p b1 = Ret m -> code11_encode p b2 = Ret m -> s1 = s2.
Proof. exact code11_injective. Qed.
Print Assumptions C64_code11_injective.
(** The two settings of the flag can collide: a plain value can spell out its check character. *)
Example C64_case :
  code39_encode Debug (mkCode39 (lit "ABL") false) = code39_encode Debug (mkCode39 (lit "AB") true)
  /\ code39_encode Debug (mkCode39 (lit "AB") false) <> code39_encode Debug (mkCode39 (lit "BA") false).
Proof. split; vm_compute; congruence || reflexivity. Qed.
