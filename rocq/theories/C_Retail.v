(** * Properties C01-C14: EAN-13, EAN-8, UPC-A *)
From Verif Require Import Rust M_Error M_Ean13 M_Ean8 M_Upca S_Barcode S_Ean S_Text
  P_Retail P_Retail2 P_Retail3.

(** ** C01: the decision table of EAN13::new *)
Theorem C01_ean13_new : forall p s, str_len s < 2 ^ 32 ->
  exists r, ean13_new p s = Ret r /\
    (r = Err ELength <-> str_len s <> 12 /\ str_len s <> 13) /\
    (r = Err ECharacter <-> (str_len s = 12 \/ str_len s = 13) /\ ~ Forall digit_char s) /\
    (r = Err EChecksum <->
       length s = 13%nat /\ Forall digit_char s /\ ~ gs1_valid (digits_of s)) /\
    (forall b, r = Ok b <->
       Forall digit_char s /\ b = mkEAN13 (firstn 12 (digits_of s)) /\
       (length s = 12%nat \/ (length s = 13%nat /\ gs1_valid (digits_of s)))).
Proof. exact (retail_new_spec mkEAN13 12 ltac:(lia)). Qed.
Print Assumptions C01_ean13_new.
Example C01_case : ean13_new Debug (lit "7501031311309") = Ret (Ok (mkEAN13 [7;5;0;1;0;3;1;3;1;1;3;0]))
  /\ ean13_new Debug (lit "7501031311308") = Ret (Err EChecksum)
  /\ ean13_new Debug (lit "75010313113O") = Ret (Err ECharacter)
  /\ ean13_new Debug (lit "x") = Ret (Err ELength)
  /\ gs1_valid [7;5;0;1;0;3;1;3;1;1;3;0;9].
Proof. repeat split. Qed.

(** ** C02: EAN-13 symbols are the GS1 symbols *)
Theorem C02_ean13_encode : forall p p' s b, ean13_new p s = Ret (Ok b) ->
  let ds := firstn 12 (digits_of s) in
  ean13_encode p' b = Ret (render (ean13_symbol (ds ++ [gs1_check ds]))) /\
  length (render (ean13_symbol (ds ++ [gs1_check ds]))) = 95%nat.
Proof. exact ean13_conform. Qed.
Print Assumptions C02_ean13_encode.
Example C02_case : exists b, ean13_new Release (lit "750103131130") = Ret (Ok b) /\
  ean13_encode Release b = Ret (modules
    "10101100010100111001100101001110111101011001101010100001011001101100110100001011100101110100101").
Proof. eexists. split; vm_compute; reflexivity. Qed.

(** ** C03: a scanner reads back the EAN-13 digits *)
Theorem C03_ean13_round_trip : forall p p' s b, ean13_new p s = Ret (Ok b) ->
  exists m c, ean13_encode p' b = Ret m /\
    obind (scan m) read_ean13 = Some (firstn 12 (digits_of s) ++ [c]) /\
    is_digit c /\ gs1_valid (firstn 12 (digits_of s) ++ [c]).
Proof. exact ean13_round_trip. Qed.
Print Assumptions C03_ean13_round_trip.
Theorem C03_ean13_injective : forall p s s' b b' m,
  ean13_new p s = Ret (Ok b) -> ean13_new p s' = Ret (Ok b') ->
  ean13_encode p b = Ret m -> ean13_encode p b' = Ret m ->
  firstn 12 s = firstn 12 s'.
Proof. exact ean13_injective. Qed.
Print Assumptions C03_ean13_injective.
Example C03_case : exists b m, ean13_new Debug (lit "593456789012") = Ret (Ok b) /\
  ean13_encode Debug b = Ret m /\ obind (scan m) read_ean13 = Some [5;9;3;4;5;6;7;8;9;0;1;2;3].
Proof. do 2 eexists. repeat split; vm_compute; reflexivity. Qed.

(** ** C04: exactly one check digit is accepted, and it does not change the barcode *)
Theorem C04_ean13_check_digit : forall p s, length s = 12%nat -> Forall digit_char s ->
  exists b c, ean13_new p s = Ret (Ok b) /\ digit_char c /\ ean13_new p (s ++ [c]) = Ret (Ok b) /\
    forall c', digit_char c' -> c' <> c -> ean13_new p (s ++ [c']) = Ret (Err EChecksum).
Proof. exact (retail_unique_check mkEAN13 12 ltac:(lia)). Qed.
Print Assumptions C04_ean13_check_digit.
Example C04_case : exists b, ean13_new Debug (lit "750103131130") = Ret (Ok b)
  /\ ean13_new Debug (lit "7501031311309") = Ret (Ok b)
  /\ Forall (fun c => ean13_new Debug (lit "750103131130" ++ [c]) = Ret (Err EChecksum))
       (lit "012345678").
Proof. eexists. split; [reflexivity|]. split; [reflexivity|]. repeat constructor. Qed.

(** ** C05: every single-digit typo is caught *)
Theorem C05_ean13_typo : forall p u c v c' b,
  length (u ++ c :: v) = 13%nat -> ean13_new p (u ++ c :: v) = Ret (Ok b) ->
  digit_char c' -> c' <> c -> ean13_new p (u ++ c' :: v) = Ret (Err EChecksum).
Proof. exact (retail_typo mkEAN13 12 ltac:(lia)). Qed.
Print Assumptions C05_ean13_typo.
Example C05_case : ean13_new Debug (lit "7501031" ++ 51 :: lit "11309") = Ret (Ok (mkEAN13 [7;5;0;1;0;3;1;3;1;1;3;0]))
  /\ ean13_new Debug (lit "7501031" ++ 52 :: lit "11309") = Ret (Err EChecksum).
Proof. split; reflexivity. Qed.

(** ** C06: adjacent transpositions *)
Theorem C06_ean13_swap : forall p u c c' v b,
  length (u ++ c :: c' :: v) = 13%nat -> ean13_new p (u ++ c :: c' :: v) = Ret (Ok b) -> c <> c' ->
  (differ_by_5 c c' -> exists b', ean13_new p (u ++ c' :: c :: v) = Ret (Ok b')) /\
  (~ differ_by_5 c c' -> ean13_new p (u ++ c' :: c :: v) = Ret (Err EChecksum)).
Proof. exact (retail_swap mkEAN13 12 ltac:(lia)). Qed.
Print Assumptions C06_ean13_swap.
(** 7501031311309: the digits 7,5 are two apart; in 1600000000009 the digits 1,6 are five apart. *)
Example C06_case : (exists b, ean13_new Debug (lit "7501031311309") = Ret (Ok b))
  /\ ean13_new Debug (lit "5701031311309") = Ret (Err EChecksum)
  /\ (exists b, ean13_new Debug (lit "1600000000001") = Ret (Ok b))
  /\ (exists b, ean13_new Debug (lit "6100000000001") = Ret (Ok b)).
Proof. repeat split; try (eexists; reflexivity). Qed.

(** ** C07: the length check on strings of any size.  False: a string of 2^32 + 12
    (EAN-13), 2^32 + 7 (EAN-8) or 2^32 + 11 (UPC-A) zeros is accepted. *)
Theorem C07_length_check_refuted : forall p,
  (exists s, str_len s = 2 ^ 32 + 12 /\ exists b, ean13_new p s = Ret (Ok b)) /\
  (exists s, str_len s = 2 ^ 32 + 7 /\ exists b, ean8_new p s = Ret (Ok b)) /\
  (exists s, str_len s = 2 ^ 32 + 11 /\ exists b, upca_new p s = Ret (Ok b)).
Proof. exact length_check_refuted. Qed.
Print Assumptions C07_length_check_refuted.
(** What the constructors do with strings of 4 GiB and more (below 4 GiB: C01, C08, C11, where
    the length check is exact).  The length is compared modulo 2^32 and no checksum is verified. *)
Theorem C07_huge_ean13_partial : forall p s, 2 ^ 32 <= str_len s ->
  exists r, ean13_new p s = Ret r /\
    (r = Err ELength <-> str_len s mod 2 ^ 32 <> 12 /\ str_len s mod 2 ^ 32 <> 13) /\
    (r = Err ECharacter <->
      (str_len s mod 2 ^ 32 = 12 \/ str_len s mod 2 ^ 32 = 13) /\ ~ Forall digit_char s) /\
    (forall b, r = Ok b <->
      (str_len s mod 2 ^ 32 = 12 \/ str_len s mod 2 ^ 32 = 13) /\
      Forall digit_char s /\ b = mkEAN13 (firstn 12 (digits_of s))).
Proof. exact (retail_new_huge mkEAN13 12 ltac:(lia)). Qed.
Print Assumptions C07_huge_ean13_partial.
Theorem C07_huge_ean8_partial : forall p s, 2 ^ 32 <= str_len s ->
  exists r, ean8_new p s = Ret r /\
    (r = Err ELength <-> str_len s mod 2 ^ 32 <> 7 /\ str_len s mod 2 ^ 32 <> 8) /\
    (r = Err ECharacter <->
      (str_len s mod 2 ^ 32 = 7 \/ str_len s mod 2 ^ 32 = 8) /\ ~ Forall digit_char s) /\
    (forall b, r = Ok b <->
      (str_len s mod 2 ^ 32 = 7 \/ str_len s mod 2 ^ 32 = 8) /\
      Forall digit_char s /\ b = mkEAN8 (firstn 7 (digits_of s))).
Proof. exact (retail_new_huge mkEAN8 7 ltac:(lia)). Qed.
Print Assumptions C07_huge_ean8_partial.
Theorem C07_huge_upca_partial : forall p s, 2 ^ 32 <= str_len s ->
  exists r, upca_new p s = Ret r /\
    (r = Err ELength <-> str_len s mod 2 ^ 32 <> 11 /\ str_len s mod 2 ^ 32 <> 12) /\
    (r = Err ECharacter <->
      (str_len s mod 2 ^ 32 = 11 \/ str_len s mod 2 ^ 32 = 12) /\ ~ Forall digit_char s) /\
    (forall b, r = Ok b <->
      (str_len s mod 2 ^ 32 = 11 \/ str_len s mod 2 ^ 32 = 12) /\
      Forall digit_char s /\ b = mkUPCA (firstn 11 (digits_of s))).
Proof. exact (retail_new_huge mkUPCA 11 ltac:(lia)). Qed.
Print Assumptions C07_huge_upca_partial.
(** Such strings exist. *)
Example C07_case : exists s : str, 2 ^ 32 <= str_len s /\ str_len s mod 2 ^ 32 = 12.
Proof.
  destruct (length_check_refuted Debug) as [[s [E _]] _]. exists s. rewrite E.
  split; [discriminate | reflexivity].
Qed.

(** ** C08: the decision table of EAN8::new *)
Theorem C08_ean8_new : forall p s, str_len s < 2 ^ 32 ->
  exists r, ean8_new p s = Ret r /\
    (r = Err ELength <-> str_len s <> 7 /\ str_len s <> 8) /\
    (r = Err ECharacter <-> (str_len s = 7 \/ str_len s = 8) /\ ~ Forall digit_char s) /\
    (r = Err EChecksum <->
       length s = 8%nat /\ Forall digit_char s /\ ~ gs1_valid (digits_of s)) /\
    (forall b, r = Ok b <->
       Forall digit_char s /\ b = mkEAN8 (firstn 7 (digits_of s)) /\
       (length s = 7%nat \/ (length s = 8%nat /\ gs1_valid (digits_of s)))).
Proof. exact (retail_new_spec mkEAN8 7 ltac:(lia)). Qed.
Print Assumptions C08_ean8_new.
Example C08_case : ean8_new Debug (lit "5512345") = Ret (Ok (mkEAN8 [5;5;1;2;3;4;5]))
  /\ ean8_new Debug (lit "55123457") = Ret (Ok (mkEAN8 [5;5;1;2;3;4;5]))
  /\ ean8_new Debug (lit "55123458") = Ret (Err EChecksum)
  /\ ean8_new Debug (lit "551234x") = Ret (Err ECharacter)
  /\ ean8_new Debug (lit "551234") = Ret (Err ELength).
Proof. repeat split. Qed.

(** ** C09: EAN-8 symbols are the GS1 symbols and scan back *)
Theorem C09_ean8_encode : forall p p' s b, ean8_new p s = Ret (Ok b) ->
  let ds := firstn 7 (digits_of s) in
  ean8_encode p' b = Ret (render (ean8_symbol (ds ++ [gs1_check ds]))) /\
  length (render (ean8_symbol (ds ++ [gs1_check ds]))) = 67%nat.
Proof. exact ean8_conform. Qed.
Print Assumptions C09_ean8_encode.
Theorem C09_ean8_round_trip : forall p p' s b, ean8_new p s = Ret (Ok b) ->
  exists m c, ean8_encode p' b = Ret m /\
    obind (scan m) read_ean8 = Some (firstn 7 (digits_of s) ++ [c]) /\
    is_digit c /\ gs1_valid (firstn 7 (digits_of s) ++ [c]).
Proof. exact ean8_round_trip. Qed.
Print Assumptions C09_ean8_round_trip.
Example C09_case : exists b m, ean8_new Debug (lit "9834651") = Ret (Ok b) /\
  ean8_encode Debug b = Ret m /\
  m = modules "1010001011011011101111010100011010101010000100111011001101010000101" /\
  obind (scan m) read_ean8 = Some [9;8;3;4;6;5;1;6].
Proof. do 2 eexists. repeat split; vm_compute; reflexivity. Qed.

(** ** C10: the EAN-8 check digit *)
Theorem C10_ean8_check_digit : forall p s, length s = 7%nat -> Forall digit_char s ->
  exists b c, ean8_new p s = Ret (Ok b) /\ digit_char c /\ ean8_new p (s ++ [c]) = Ret (Ok b) /\
    forall c', digit_char c' -> c' <> c -> ean8_new p (s ++ [c']) = Ret (Err EChecksum).
Proof. exact (retail_unique_check mkEAN8 7 ltac:(lia)). Qed.
Print Assumptions C10_ean8_check_digit.
Theorem C10_ean8_typo : forall p u c v c' b,
  length (u ++ c :: v) = 8%nat -> ean8_new p (u ++ c :: v) = Ret (Ok b) ->
  digit_char c' -> c' <> c -> ean8_new p (u ++ c' :: v) = Ret (Err EChecksum).
Proof. exact (retail_typo mkEAN8 7 ltac:(lia)). Qed.
Print Assumptions C10_ean8_typo.
Theorem C10_ean8_swap : forall p u c c' v b,
  length (u ++ c :: c' :: v) = 8%nat -> ean8_new p (u ++ c :: c' :: v) = Ret (Ok b) -> c <> c' ->
  (differ_by_5 c c' -> exists b', ean8_new p (u ++ c' :: c :: v) = Ret (Ok b')) /\
  (~ differ_by_5 c c' -> ean8_new p (u ++ c' :: c :: v) = Ret (Err EChecksum)).
Proof. exact (retail_swap mkEAN8 7 ltac:(lia)). Qed.
Print Assumptions C10_ean8_swap.
Example C10_case : (exists b, ean8_new Debug (lit "55123457") = Ret (Ok b))
  /\ ean8_new Debug (lit "51523457") = Ret (Err EChecksum)
  /\ ean8_new Debug (lit "55123357") = Ret (Err EChecksum)
  /\ (exists b, ean8_new Debug (lit "05000005") = Ret (Ok b))
  /\ (exists b, ean8_new Debug (lit "50000005") = Ret (Ok b)).
Proof. repeat split; try (eexists; reflexivity). Qed.

(** ** C11: the decision table of UPCA::new *)
Theorem C11_upca_new : forall p s, str_len s < 2 ^ 32 ->
  exists r, upca_new p s = Ret r /\
    (r = Err ELength <-> str_len s <> 11 /\ str_len s <> 12) /\
    (r = Err ECharacter <-> (str_len s = 11 \/ str_len s = 12) /\ ~ Forall digit_char s) /\
    (r = Err EChecksum <->
       length s = 12%nat /\ Forall digit_char s /\ ~ gs1_valid (digits_of s)) /\
    (forall b, r = Ok b <->
       Forall digit_char s /\ b = mkUPCA (firstn 11 (digits_of s)) /\
       (length s = 11%nat \/ (length s = 12%nat /\ gs1_valid (digits_of s)))).
Proof. exact (retail_new_spec mkUPCA 11 ltac:(lia)). Qed.
Print Assumptions C11_upca_new.
Example C11_case : upca_new Debug (lit "725272730706") = Ret (Ok (mkUPCA [7;2;5;2;7;2;7;3;0;7;0]))
  /\ upca_new Debug (lit "725272730705") = Ret (Err EChecksum)
  /\ upca_new Debug (lit "012345612a45") = Ret (Err ECharacter)
  /\ upca_new Debug (lit "1234561234589") = Ret (Err ELength).
Proof. repeat split. Qed.

(** ** C12: UPC-A symbols are the GS1 symbols and scan back *)
Theorem C12_upca_encode : forall p p' s b, upca_new p s = Ret (Ok b) ->
  let ds := firstn 11 (digits_of s) in
  upca_encode p' b = Ret (render (upca_symbol (ds ++ [gs1_check ds]))) /\
  length (render (upca_symbol (ds ++ [gs1_check ds]))) = 95%nat.
Proof. exact upca_conform. Qed.
Print Assumptions C12_upca_encode.
Theorem C12_upca_round_trip : forall p p' s b, upca_new p s = Ret (Ok b) ->
  exists m c, upca_encode p' b = Ret m /\
    obind (scan m) read_upca = Some (firstn 11 (digits_of s) ++ [c]) /\
    is_digit c /\ gs1_valid (firstn 11 (digits_of s) ++ [c]).
Proof. exact upca_round_trip. Qed.
Print Assumptions C12_upca_round_trip.
Example C12_case : exists b m, upca_new Debug (lit "72527273070") = Ret (Ok b) /\
  upca_encode Debug b = Ret m /\
  m = modules "10101110110010011011000100100110111011001001101010100010010000101110010100010011100101010000101" /\
  obind (scan m) read_upca = Some [7;2;5;2;7;2;7;3;0;7;0;6].
Proof. do 2 eexists. repeat split; vm_compute; reflexivity. Qed.

(** ** C13: UPC-A is EAN-13 with a leading zero *)
Theorem C13_upca_is_ean13 : forall p s, str_len s + 1 < 2 ^ 32 ->
  (exists e, upca_new p s = Ret (Err e) /\ ean13_new p (48 :: s) = Ret (Err e)) \/
  (exists bu be m, upca_new p s = Ret (Ok bu) /\ ean13_new p (48 :: s) = Ret (Ok be) /\
     upca_encode p bu = Ret m /\ ean13_encode p be = Ret m).
Proof. exact upca_ean13. Qed.
Print Assumptions C13_upca_is_ean13.
Example C13_case : exists bu be m,
  upca_new Debug (lit "738312014094") = Ret (Ok bu) /\
  ean13_new Debug (lit "0738312014094") = Ret (Ok be) /\
  upca_encode Debug bu = Ret m /\ ean13_encode Debug be = Ret m.
Proof. do 3 eexists. repeat split; vm_compute; reflexivity. Qed.

(** ** C14: the UPC-A check digit *)
Theorem C14_upca_check_digit : forall p s, length s = 11%nat -> Forall digit_char s ->
  exists b c, upca_new p s = Ret (Ok b) /\ digit_char c /\ upca_new p (s ++ [c]) = Ret (Ok b) /\
    forall c', digit_char c' -> c' <> c -> upca_new p (s ++ [c']) = Ret (Err EChecksum).
Proof. exact (retail_unique_check mkUPCA 11 ltac:(lia)). Qed.
Print Assumptions C14_upca_check_digit.
Theorem C14_upca_typo : forall p u c v c' b,
  length (u ++ c :: v) = 12%nat -> upca_new p (u ++ c :: v) = Ret (Ok b) ->
  digit_char c' -> c' <> c -> upca_new p (u ++ c' :: v) = Ret (Err EChecksum).
Proof. exact (retail_typo mkUPCA 11 ltac:(lia)). Qed.
Print Assumptions C14_upca_typo.
Theorem C14_upca_swap : forall p u c c' v b,
  length (u ++ c :: c' :: v) = 12%nat -> upca_new p (u ++ c :: c' :: v) = Ret (Ok b) -> c <> c' ->
  (differ_by_5 c c' -> exists b', upca_new p (u ++ c' :: c :: v) = Ret (Ok b')) /\
  (~ differ_by_5 c c' -> upca_new p (u ++ c' :: c :: v) = Ret (Err EChecksum)).
Proof. exact (retail_swap mkUPCA 11 ltac:(lia)). Qed.
Print Assumptions C14_upca_swap.
Example C14_case : (exists b, upca_new Debug (lit "725272730706") = Ret (Ok b))
  /\ upca_new Debug (lit "725272730606") = Ret (Err EChecksum)
  /\ upca_new Debug (lit "725272703706") = Ret (Err EChecksum)
  /\ (exists b, upca_new Debug (lit "720572730708") = Ret (Ok b))
  /\ (exists b, upca_new Debug (lit "725072730708") = Ret (Ok b)).
Proof. repeat split; try (eexists; reflexivity). Qed.
