(** * C104: scan lines that cross from one symbol into another *)
From Verif Require Import Rust M_Error Symbology M_Use S_Barcode S_Ean S_Text S_Linear S_Codabar S_Tf S_Code128 S_All S_Skip S_Place S_Cross P_Cross3.

(** A scanner moved over labels printed side by side or on top of each other sees the beginning of one symbol and the end of another.
    In symbologies without check characters readers always report the beginning of the one text and the end of the other. *)
Theorem C104_unchecked : forall y p p' s s' m m', str_len s < 2 ^ 48 -> str_len s' < 2 ^ 48 ->
  barcode y p s = Ret (Ok m) -> barcode y p' s' = Ret (Ok m') -> y = SCode39 \/ y = SCodabar \/ y = SItf \/ y = SStf ->
  exists t t', shown y s t /\ shown y s' t' /\ forall i j, between y t i -> between y t' j ->
    read_modules y (crossing (place y t i) (place y t' j) m m') = report y (crossing i j t t').
Proof. exact plain_across. Qed.
Print Assumptions C104_unchecked.
(** Code 39 with its check character: unnoticed exactly if the values of the characters that are lost add up to the same as those of
    the characters read instead of them, modulo 43. *)
Theorem C104_code39_check : forall p p' s s' m m' i j, str_len s < 2 ^ 48 -> str_len s' < 2 ^ 48 ->
  barcode SCode39Checked p s = Ret (Ok m) -> barcode SCode39Checked p' s' = Ret (Ok m') -> (i <= length s)%nat -> (j <= length s')%nat ->
  exists t, read_modules SCode39Checked (crossing (13 * i + 13) (13 * j + 13) m m') = Some (Text t) /\ t = crossing i j s s' ++ [c39_check s'] /\
    (c39_valid t <-> total (map c39_value (firstn i s)) mod 43 = total (map c39_value (firstn j s')) mod 43).
Proof. exact code39_across. Qed.
Print Assumptions C104_code39_check.
(** Code 93: unnoticed exactly if both weighted sums are those of the second text. *)
Theorem C104_code93 : forall p p' s s' m m' i j, str_len s < 2 ^ 48 -> str_len s' < 2 ^ 48 ->
  barcode SCode93 p s = Ret (Ok m) -> barcode SCode93 p' s' = Ret (Ok m') -> (i <= length s)%nat -> (j <= length s')%nat ->
  let u := crossing i j s s' in let c := c93_C s' in
  read_modules SCode93 (crossing (9 * i + 9) (9 * j + 9) m m') =
    if (c93_sum 20 u =? c93_sum 20 s') && (c93_sum 15 (u ++ [c]) =? c93_sum 15 (s' ++ [c])) then Some (Text u) else None.
Proof. exact code93_across. Qed.
Print Assumptions C104_code93.
(** Code 11: as for runs of characters (C97), the length decides what the check characters are taken for. *)
Theorem C104_code11 : forall p p' s s' m m' i j, str_len s < 2 ^ 48 -> str_len s' < 2 ^ 48 ->
  barcode SCode11 p s = Ret (Ok m) -> barcode SCode11 p' s' = Ret (Ok m') -> (i <= length s)%nat -> (j <= length s')%nat ->
  let u := crossing i j s s' in let c := c11_C s' in let r := read_modules SCode11 (crossing (place SCode11 s i) (place SCode11 s' j) m m') in
  ((10 < length s')%nat -> (10 <= length u)%nat ->
     r = if (c11_sum 10 u =? c11_sum 10 s') && (c11_sum 9 (u ++ [c]) =? c11_sum 9 (s' ++ [c])) then Some (Text u) else None) /\
  ((10 < length s')%nat -> (length u < 10)%nat ->
     r = if c11_sum 10 (u ++ [c]) =? c11_sum 9 (s' ++ [c]) then Some (Text (u ++ [c])) else None) /\
  ((length s' <= 10)%nat -> (length u <= 10)%nat -> r = if c11_sum 10 u =? c11_sum 10 s' then Some (Text u) else None) /\
  ((length s' <= 10)%nat -> (10 < length u)%nat -> forall u' x, u = u' ++ [x] ->
     r = if (c11_sum 10 u' =? c11_value x) && (c11_sum 9 u =? c11_sum 10 s') then Some (Text u') else None).
Proof. exact code11_across. Qed.
Print Assumptions C104_code11.
(** Code 128: the check is passed exactly if the check value is that of the second symbol; the characters must then make sense. *)
Theorem C104_code128 : forall p p' s s' m m', barcode SCode128 p s = Ret (Ok m) -> barcode SCode128 p' s' = Ret (Ok m') ->
  read_modules SCode128 m <> None -> read_modules SCode128 m' <> None ->
  exists segs segs' st st' data data', message_ok segs /\ s = spell segs /\ message_values segs = st :: data /\
    message_ok segs' /\ s' = spell segs' /\ message_values segs' = st' :: data' /\
    forall i j, (i <= length data)%nat -> (j <= length data')%nat ->
      read_modules SCode128 (crossing (11 * i + 11) (11 * j + 11) m m') =
        if c128_check (st :: crossing i j data data') =? c128_check (st' :: data') then option_map Tokens (decode_start st (crossing i j data data')) else None.
Proof. exact code128_across. Qed.
Print Assumptions C104_code128.

(** Retail symbols are only read when the line crosses at the same module of both. *)
Theorem C104_retail_uneven : forall y p p' s s' m m' k k', str_len s < 2 ^ 48 -> str_len s' < 2 ^ 48 ->
  barcode y p s = Ret (Ok m) -> barcode y p' s' = Ret (Ok m') -> y = SEan13 \/ y = SEan8 \/ y = SUpca ->
  k <> k' -> (k <= length m)%nat -> (k' <= length m')%nat -> read_modules y (crossing k k' m m') = None.
Proof. exact retail_uneven. Qed.
Print Assumptions C104_retail_uneven.
(** EAN-8 and UPC-A: then unnoticed exactly if the weighted sums of the digits in front agree modulo 10. *)
Theorem C104_retail : forall y p p' s s' m m', barcode y p s = Ret (Ok m) -> barcode y p' s' = Ret (Ok m') -> y = SEan8 \/ y = SUpca ->
  exists t t', shown y s t /\ shown y s' t' /\ forall k, (k <= length t)%nat ->
    read_modules y (crossing (place y t k) (place y t' k) m m') =
      if alt_sum 3 1 (firstn k t) mod 10 =? alt_sum 3 1 (firstn k t') mod 10 then Some (Digits (crossing k k t t')) else None.
Proof. exact retail_across. Qed.
Print Assumptions C104_retail.
(** EAN-13: the number sets of the left half stand for the first digit, so that a first digit comes out that neither number has, or
    none; the line from one half into the other half, or between numbers with the same first digit, is as for EAN-8. *)
Theorem C104_ean13 : forall p p' s s' m m', barcode SEan13 p s = Ret (Ok m) -> barcode SEan13 p' s' = Ret (Ok m') ->
  exists t t', shown SEan13 s t /\ shown SEan13 s' t' /\
    let sets t := nth (N.to_nat (hd 0 t)) ean13_parities [] in
    forall k, (1 <= k <= 13)%nat -> let r := read_modules SEan13 (crossing (place SEan13 t k) (place SEan13 t' k) m m') in
      (forall l, r = Some (Digits l) <-> exists f, is_digit f /\ sets [f] = crossing (k - 1) (k - 1) (sets t) (sets t') /\
         l = f :: crossing (k - 1) (k - 1) (tl t) (tl t') /\ gs1_valid l) /\
      ((7 <= k)%nat \/ hd 0 t = hd 0 t' ->
         r = if alt_sum 1 3 (firstn k t) mod 10 =? alt_sum 1 3 (firstn k t') mod 10 then Some (Digits (crossing k k t t')) else None).
Proof. exact ean13_across. Qed.
Print Assumptions C104_ean13.
(** Add-ons, of which two-digit ones may follow five-digit ones and the other way round: read exactly if the number sets fit. *)
Theorem C104_addon : forall p p' s s' m m' i j r, barcode SSupp p s = Ret (Ok m) -> barcode SSupp p' s' = Ret (Ok m') ->
  (i < length s)%nat -> (j < length s')%nat ->
  let u := crossing i j (digits_of s) (digits_of s') in
  read_modules SSupp (crossing (9 * i + 4) (9 * j + 4) m m') = Some r <->
    crossing i j (addon_sets (digits_of s)) (addon_sets (digits_of s')) = addon_sets u /\ r = Digits u.
Proof. exact addon_across. Qed.
Print Assumptions C104_addon.

Definition modules_of (y : symbology) (s : str) : list N := match barcode y Debug s with Ret (Ok m) => m | _ => [] end.
(** Two labels of each kind *)
Example C104_case :
  read_modules SCode39 (crossing 26 39 (modules_of SCode39 (lit "ABC")) (modules_of SCode39 (lit "1234"))) = Some (Text (lit "A34"))
  /\ read_modules SCodabar (crossing (place SCodabar (lit "A12A") 2) (place SCodabar (lit "A345D") 3) (modules_of SCodabar (lit "A12A")) (modules_of SCodabar (lit "A345D"))) = Some (Text (lit "A15D"))
  /\ read_modules SItf (crossing 22 22 (modules_of SItf (lit "1234")) (modules_of SItf (lit "5678"))) = Some (Digits [1; 2; 7; 8])
  /\ read_modules SCode39Checked (crossing 39 39 (modules_of SCode39Checked (lit "AB1")) (modules_of SCode39Checked (lit "BA2"))) = Some (Text (lit "AB2" ++ [c39_check (lit "BA2")]))
  /\ c39_check (lit "AB2") = c39_check (lit "BA2")
  /\ read_modules SCode93 (crossing 18 18 (modules_of SCode93 (lit "AB")) (modules_of SCode93 (lit "CD"))) = None
  /\ read_modules SCode93 (crossing 18 9 (modules_of SCode93 (lit "0AB")) (modules_of SCode93 (lit "CD"))) = Some (Text (lit "0CD"))
  /\ read_modules SUpca (crossing 17 17 (modules_of SUpca (lit "12345678901")) (modules_of SUpca (lit "11300000000"))) = None
  /\ read_modules SUpca (crossing 24 24 (modules_of SUpca (lit "12345678901")) (modules_of SUpca (lit "32100000000"))) = Some (Digits [1; 2; 3; 0; 0; 0; 0; 0; 0; 0; 0; 6])
  /\ read_modules SEan13 (crossing 60 60 (modules_of SEan13 (lit "750103131130")) (modules_of SEan13 (lit "750103131130"))) = read_modules SEan13 (modules_of SEan13 (lit "750103131130"))
  /\ read_modules SEan13 (crossing 60 59 (modules_of SEan13 (lit "750103131130")) (modules_of SEan13 (lit "750103131130"))) = None
  /\ read_modules SEan13 (crossing 24 24 (modules_of SEan13 (lit "750103131130")) (modules_of SEan13 (lit "300112345678"))) = Some (Digits [8; 5; 0; 1; 1; 2; 3; 4; 5; 6; 7; 8; 8])
  /\ read_modules SSupp (crossing 13 13 (modules_of SSupp (lit "12345")) (modules_of SSupp (lit "34"))) = Some (Digits [1; 4])
  /\ read_modules SSupp (crossing 13 13 (modules_of SSupp (lit "10")) (modules_of SSupp (lit "22"))) = None.
Proof. vm_compute. repeat split; reflexivity. Qed.
