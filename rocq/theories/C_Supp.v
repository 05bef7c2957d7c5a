(** * Properties C15-C17: EAN-2 and EAN-5 add-ons *)
From Verif Require Import Rust M_Error M_EanSupp Symbology S_Barcode S_Ean S_Text S_All P_Supp P_Hand.

(** ** C15: the decision table of EANSUPP::new, for strings of any size.
    The length seen by the first check is the byte length modulo 2^32. *)
Theorem C15_eansupp_new : forall s,
  let n := str_len s mod 2 ^ 32 in
  exists r, eansupp_new s = Ret r /\
    (r = Err ELength <-> ~ (2 <= n <= 5) \/
       (Forall digit_char s /\ length s <> 2%nat /\ length s <> 5%nat)) /\
    (r = Err ECharacter <-> 2 <= n <= 5 /\ ~ Forall digit_char s) /\
    r <> Err EChecksum /\
    (forall b, r = Ok b <-> Forall digit_char s /\
       ((length s = 2%nat /\ b = EAN2 (digits_of s)) \/
        (length s = 5%nat /\ b = EAN5 (digits_of s)))).
Proof. exact eansupp_new_spec. Qed.
Print Assumptions C15_eansupp_new.
Example C15_case : eansupp_new (lit "34") = Ret (Ok (EAN2 [3;4]))
  /\ eansupp_new (lit "51234") = Ret (Ok (EAN5 [5;1;2;3;4]))
  /\ eansupp_new (lit "123") = Ret (Err ELength)
  /\ eansupp_new (lit "AT") = Ret (Err ECharacter)
  /\ eansupp_new (lit "123456") = Ret (Err ELength)
  /\ eansupp_new [] = Ret (Err ELength).
Proof. repeat split. Qed.

(** ** C16: accepted add-ons are the GS1 add-on symbols and scan back *)
Theorem C16_eansupp_encode : forall p s b, eansupp_new s = Ret (Ok b) ->
  exists m, eansupp_encode p b = Ret m /\
    ((length s = 2%nat /\ b = EAN2 (digits_of s) /\ m = render (ean2_symbol (digits_of s)) /\ length m = 20%nat /\
      obind (scan m) read_ean2 = Some (digits_of s)) \/
     (length s = 5%nat /\ b = EAN5 (digits_of s) /\ m = render (ean5_symbol (digits_of s)) /\ length m = 47%nat /\
      obind (scan m) read_ean5 = Some (digits_of s))).
Proof. exact eansupp_accepted. Qed.
Print Assumptions C16_eansupp_encode.
Example C16_case :
  eansupp_encode Debug (EAN2 [3;4]) = Ret (modules "10110100001010100011")
  /\ eansupp_encode Debug (EAN5 [5;1;2;3;4]) = Ret (modules "10110110001010011001010011011010111101010011101")
  /\ obind (scan (modules "10110110001010011001010011011010111101010011101")) read_ean5 = Some [5;1;2;3;4].
Proof. repeat split; vm_compute; reflexivity. Qed.

(** ** C17: hand-built values.  Exactly which ones are encoded and which panic. *)
Theorem C17_ean2_hand_built : forall p a b, is_digit a -> is_digit b ->
  eansupp_new (text_of [a; b]) = Ret (Ok (EAN2 [a; b])) /\
  eansupp_encode p (EAN2 [a; b]) = Ret (render (ean2_symbol [a; b])).
Proof. exact ean2_hand_built. Qed.
Print Assumptions C17_ean2_hand_built.
Theorem C17_ean5_hand_built : forall p ds, length ds = 5%nat -> Forall is_digit ds ->
  eansupp_new (text_of ds) = Ret (Ok (EAN5 ds)) /\
  eansupp_encode p (EAN5 ds) = Ret (render (ean5_symbol ds)).
Proof. exact ean5_hand_built. Qed.
Print Assumptions C17_ean5_hand_built.
Theorem C17_ean2_returns : forall p d,
  returns (eansupp_encode p (EAN2 d)) <-> (2 <= length d)%nat /\ Forall is_digit (firstn 5 d).
Proof. exact ean2_returns. Qed.
Print Assumptions C17_ean2_returns.
Theorem C17_ean5_returns_debug : forall d,
  returns (eansupp_encode Debug (EAN5 d)) <-> Forall is_digit (firstn 5 d) /\ alt_sum 3 9 d < 256.
Proof. exact ean5_returns_debug. Qed.
Print Assumptions C17_ean5_returns_debug.
Theorem C17_ean5_returns_release : forall d,
  returns (eansupp_encode Release (EAN5 d)) <-> Forall is_digit (firstn 5 d).
Proof. exact ean5_returns_release. Qed.
Print Assumptions C17_ean5_returns_release.
Example C17_case : panics (eansupp_encode Debug (EAN2 [7])) /\ panics (eansupp_encode Release (EAN5 [1;2;3;4;10]))
  /\ panics (eansupp_encode Debug (EAN5 [1;2;3;4;5;90]))
  /\ returns (eansupp_encode Release (EAN5 [1;2;3;4;5;90])).
Proof. repeat split; eexists; reflexivity. Qed.
(** What is printed when nothing panics: up to five digits; parities of an EAN-2 value by its first two digits, of an
    EAN-5 value by the weighted sum of all its bytes, which wraps at 256 in release builds. *)
Theorem C17_ean2_printed : forall p a b t, Forall is_digit (firstn 5 (a :: b :: t)) ->
  eansupp_encode p (EAN2 (a :: b :: t)) =
  Ret (render (addon_guard ++ draw_addon true (nth (N.to_nat ((10 * a + b) mod 4)) ean2_parities [] ++ [PA; PA; PA]) (a :: b :: t))).
Proof. exact ean2_prints. Qed.
Print Assumptions C17_ean2_printed.
Theorem C17_ean5_printed : forall p d, Forall is_digit (firstn 5 d) -> (p = Debug -> alt_sum 3 9 d < 256) ->
  eansupp_encode p (EAN5 d) =
  Ret (render (addon_guard ++ draw_addon true (nth (N.to_nat ((alt_sum 3 9 d mod 256) mod 10)) ean5_parities []) d)).
Proof. exact ean5_prints. Qed.
Print Assumptions C17_ean5_printed.
(** Such a symbol is refused or read as the (first five) digits, whatever was built. *)
Theorem C17_hand_built_read : forall p b m r, eansupp_encode p b = Ret m -> read_modules SSupp m = Some r ->
  r = Digits (firstn 5 (match b with EAN2 d => d | EAN5 d => d end)).
Proof. exact hand_built_read. Qed.
Print Assumptions C17_hand_built_read.
Example C17_printed_case : forall p,
  eansupp_encode p (EAN2 [3; 4; 7]) = Ret (modules "10110100001010100011010111011") /\
  read_modules SSupp (modules "10110100001010100011010111011") = None /\
  eansupp_encode p (EAN5 []) = Ret (modules "1011") /\
  eansupp_encode Debug (EAN5 [1; 2; 3; 4; 5; 0; 200]) = Panic PanicOverflow /\
  (exists m, eansupp_encode p (EAN5 [1; 2; 3; 4; 5; 0; 10]) = Ret m /\ read_modules SSupp m = Some (Digits [1; 2; 3; 4; 5])).
Proof. intros []; repeat split; try (eexists; split); vm_compute; reflexivity. Qed.
