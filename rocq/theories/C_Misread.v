(** * Property C73: misread digits of Interleaved 2 of 5 and of two-digit add-ons *)
From Verif Require Import Rust M_Error Symbology M_Use S_Barcode S_Text S_Ean S_Linear S_Codabar S_Tf S_Code128 S_All
  P_Misread.

(** ** C73.  An odd number of digits is printed with a check digit (while the byte sum does not
    overflow, C33).  Reading any one digit as another leaves a number that is not valid, and
    exchanging two neighbours one that is valid only when they differ by five.  Readers of
    2 of 5 do not look at the check digit themselves. *)
Theorem C73_itf_check_digit : forall p s m, barcode SItf p s = Ret (Ok m) -> Nat.even (length s) = false ->
  alt_sum 3 1 (rev (digits_of s)) < 256 ->
  exists ds, m = render (itf_symbol 3 2 ds) /\ ds = digits_of s ++ [gs1_check (digits_of s)] /\ gs1_valid ds /\
    (forall x d d' y, ds = x ++ d :: y -> d' < 10 -> d' <> d ->
       read_modules SItf (render (itf_symbol 3 2 (x ++ d' :: y))) = Some (Digits (x ++ d' :: y)) /\ ~ gs1_valid (x ++ d' :: y)) /\
    (forall x d d' y, ds = x ++ d :: d' :: y -> d' <> d ->
       read_modules SItf (render (itf_symbol 3 2 (x ++ d' :: d :: y))) = Some (Digits (x ++ d' :: d :: y)) /\
       (gs1_valid (x ++ d' :: d :: y) <-> differ_by_5 d d')).
Proof. exact itf_misread. Qed.
Print Assumptions C73_itf_check_digit.

(** Two-digit add-ons: with the parities as printed, other digits are read exactly when they
    have the same value modulo 4. *)
Theorem C73_ean2_parities : forall p s m, length s = 2%nat -> barcode SSupp p s = Ret (Ok m) ->
  exists ps, m = render (addon_guard ++ draw_addon true ps (digits_of s)) /\ length ps = 2%nat /\
    forall a b, is_digit a -> is_digit b ->
    read_modules SSupp (render (addon_guard ++ draw_addon true ps [a; b])) =
      if ean2_variant [a; b] =? ean2_variant (digits_of s) then Some (Digits [a; b]) else None.
Proof. exact ean2_misread. Qed.
Print Assumptions C73_ean2_parities.

Example C73_case : barcode SItf Debug (lit "1234567") = Ret (Ok (render (itf_symbol 3 2 [1;2;3;4;5;6;7;0])))
  /\ alt_sum 3 1 (rev (digits_of (lit "1234567"))) = 60
  /\ gs1_valid [1;2;3;4;5;6;7;0] /\ gs1_validb [1;2;3;4;5;6;8;0] = false /\ gs1_validb [1;2;3;4;6;5;7;0] = false
  /\ map (fun b => read_modules SSupp (render (addon_guard ++ draw_addon true [PA; PA] [1; b]))) [0;1;2;3;4;5;6;7;8;9]
     = [None; None; Some (Digits [1;2]); None; None; None; Some (Digits [1;6]); None; None; None]
  /\ barcode SSupp Debug (lit "12") = Ret (Ok (render (addon_guard ++ draw_addon true [PA; PA] [1; 2]))).
Proof. repeat split; vm_compute; reflexivity. Qed.
