(** * Property C97: printed characters missing, or printed twice *)
From Verif Require Import Rust M_Error Symbology M_Use S_Barcode S_Text S_Ean S_Linear S_Codabar S_Tf S_Code128 S_All S_Skip
  P_All P_Skip P_Skip2 P_Readable.

(** ** C97.  Symbols without check characters (Codabar: between start and stop; interleaved 2 of 5: pairs of digits): whatever run of
    characters is missing or comes twice, the reader notices nothing and reports the data without them, or with them twice. *)
Theorem C97_unchecked : forall y p s m r, str_len s < 2 ^ 48 -> barcode y p s = Ret (Ok m) -> read_modules y m = Some r ->
  y = SCode39 \/ y = SCodabar \/ y = SItf \/ y = SStf ->
  exists ws, m = render ws ++ tail y /\ read_as y ws = Some r /\
    forall i j, (i <= characters y r)%nat -> (j <= characters y r)%nat ->
      read_as y (splice y i j ws) = Some (spliced y i j r).
Proof. exact plain_skip. Qed.
Print Assumptions C97_unchecked.
(** All of these symbols are readable, unless a plus is printed in Codabar, and read as the data. *)
Theorem C97_unchecked_data : forall y p s m, str_len s < 2 ^ 48 -> barcode y p s = Ret (Ok m) ->
  y = SCode39 \/ y = SCodabar /\ ~ In (ch "+") s \/ y = SItf \/ y = SStf ->
  exists ws r, m = render ws ++ tail y /\ meant y s (Some r) /\ read_as y ws = Some r /\
    forall i j, (i <= characters y r)%nat -> (j <= characters y r)%nat ->
      read_as y (splice y i j ws) = Some (spliced y i j r).
Proof.
  intros y p s m Hs H Hy. pose proof (barcode_meant y p s m Hs H) as MM.
  assert (HR : exists r, read_modules y m = Some r).
  { destruct Hy as [-> | [[-> Hp] | [-> | ->]]]; cbn [meant] in MM; [eauto| |destruct MM as (ds & _ & MM); eauto|eauto].
    destruct (existsb (fun c => c =? ch "+") s) eqn:E; [|eauto]. apply existsb_exists in E. destruct E as (c & Hc & E). apply N.eqb_eq in E. subst c. contradiction. }
  destruct HR as [r HR]. destruct (C97_unchecked y p s m r Hs H HR) as (ws & Em & RA & HI); [tauto|].
  exists ws, r. rewrite HR in MM. auto.
Qed.
Print Assumptions C97_unchecked_data.

(** EAN-13, EAN-8, UPC-A and add-ons: nothing is read when up to 17 elements in a row (a digit has four) are missing or come twice. *)
Theorem C97_retail : forall y p s m, str_len s < 2 ^ 48 -> barcode y p s = Ret (Ok m) ->
  y = SEan13 \/ y = SEan8 \/ y = SUpca \/ y = SSupp ->
  exists ws r, m = render ws /\ read_as y ws = Some r /\ forall k n, (1 <= n <= 17)%nat -> (k + n <= length ws)%nat ->
    read_as y (mend k (k + n) ws) = None /\ read_as y (mend (k + n) k ws) = None.
Proof. exact retail_skip. Qed.
Print Assumptions C97_retail.

(** Code 39 with its check character: a missing or doubled data character goes unnoticed exactly if it is a zero. *)
Theorem C97_code39_check : forall p s m, str_len s < 2 ^ 48 -> barcode SCode39Checked p s = Ret (Ok m) ->
  exists ws, m = render ws /\ read_as SCode39Checked ws = Some (Text (s ++ [c39_check s])) /\
    forall i c, nth_error s i = Some c ->
      exists t t', read_as SCode39Checked (splice SCode39Checked i (S i) ws) = Some (Text t) /\ (c39_valid t <-> c = ch "0") /\
        read_as SCode39Checked (splice SCode39Checked (S i) i ws) = Some (Text t') /\ (c39_valid t' <-> c = ch "0").
Proof. exact code39_skip. Qed.
Print Assumptions C97_code39_check.

(** Code 93, up to fourteen (thirteen) characters: unnoticed exactly if it is a zero and the values in front of it add up to a
    multiple of 47, as they do when nothing but zeros precedes. *)
Theorem C97_code93 : forall p s m, str_len s < 2 ^ 48 -> barcode SCode93 p s = Ret (Ok m) ->
  exists ws, m = render ws /\ read_as SCode93 ws = Some (Text s) /\
    forall i c, nth_error s i = Some c ->
      let blind := (c =? ch "0") && (total (map c93_value (firstn i s)) mod 47 =? 0) in
      ((length s <= 14)%nat -> read_as SCode93 (splice SCode93 i (S i) ws) = if blind then Some (Text (mend i (S i) s)) else None) /\
      ((length s <= 13)%nat -> read_as SCode93 (splice SCode93 (S i) i ws) = if blind then Some (Text (mend (S i) i s)) else None).
Proof. exact code93_skip. Qed.
Print Assumptions C97_code93.
(** Longer data: the F is missing, or comes twice, and is not missed. *)
Definition picture (y : symbology) (s : str) : list N := match barcode y Debug s with Ret (Ok m) => m | _ => [] end.
Definition elements (y : symbology) (s : str) : list nat := match scan (picture y s) with Some ws => ws | None => [] end.
Theorem C97_code93_tight : let s := lit "1$F000000000000" in let t := lit "1$F00000000000" in
  length s = 15%nat /\ barcode SCode93 Debug s = Ret (Ok (render (elements SCode93 s))) /\
  read_as SCode93 (splice SCode93 2 3 (elements SCode93 s)) = Some (Text (lit "1$000000000000")) /\
  length t = 14%nat /\ barcode SCode93 Debug t = Ret (Ok (render (elements SCode93 t))) /\
  read_as SCode93 (splice SCode93 3 2 (elements SCode93 t)) = Some (Text (lit "1$FF00000000000")).
Proof. vm_compute. repeat split; reflexivity. Qed.
Print Assumptions C97_code93_tight.

(** Code 11 with one check character: unnoticed exactly if the values in front and the value of the character times its place from
    the right (one more when it comes twice) add up to a multiple of 11. *)
Theorem C97_code11 : forall p s m, str_len s < 2 ^ 48 -> barcode SCode11 p s = Ret (Ok m) ->
  exists ws, m = render ws /\ read_as SCode11 ws = Some (Text s) /\
    forall i c, nth_error s i = Some c ->
      let w := N.of_nat (length s - i) in let front := total (map c11_value (firstn i s)) in
      ((length s <= 10)%nat -> read_as SCode11 (splice SCode11 i (S i) ws) =
         if (front + w * c11_value c) mod 11 =? 0 then Some (Text (mend i (S i) s)) else None) /\
      ((length s <= 9)%nat -> read_as SCode11 (splice SCode11 (S i) i ws) =
         if (front + (w + 1) * c11_value c) mod 11 =? 0 then Some (Text (mend (S i) i s)) else None).
Proof. exact code11_skip. Qed.
Print Assumptions C97_code11.

(** Code 128: the check is passed exactly if the value of the character times its place (one more when it comes twice) and the values
    behind it add up to a multiple of 103; the remaining characters must then make sense. *)
Theorem C97_code128 : forall p s m, barcode SCode128 p s = Ret (Ok m) -> read_modules SCode128 m <> None ->
  exists segs st data ws, message_ok segs /\ s = spell segs /\ message_values segs = st :: data /\ m = render ws /\
    forall i v, nth_error data i = Some v ->
      let after := total (skipn (S i) data) in
      read_as SCode128 (splice SCode128 i (S i) ws) =
        (if ((N.of_nat i + 1) * v + after) mod 103 =? 0 then option_map Tokens (decode_start st (mend i (S i) data)) else None) /\
      read_as SCode128 (splice SCode128 (S i) i ws) =
        (if ((N.of_nat i + 2) * v + after) mod 103 =? 0 then option_map Tokens (decode_start st (mend (S i) i data)) else None).
Proof. exact code128_skip. Qed.
Print Assumptions C97_code128.
Theorem C97_code128_readable : forall p s m, barcode SCode128 p s = Ret (Ok m) -> len s <= 6489 -> read_modules SCode128 m <> None.
Proof. exact readable_128. Qed.
Print Assumptions C97_code128_readable.

(** ** Runs of any length, in data of any length.  [t] is the data without the run, or with the run twice. *)
(** Code 39 with its check character: unnoticed exactly if the values of the run add up to a multiple of 43. *)
Theorem C97_code39_runs : forall p s m, str_len s < 2 ^ 48 -> barcode SCode39Checked p s = Ret (Ok m) ->
  exists ws, m = render ws /\ read_as SCode39Checked ws = Some (Text (s ++ [c39_check s])) /\
    forall i j, (i <= length s)%nat -> (j <= length s)%nat ->
      exists t, read_as SCode39Checked (splice SCode39Checked i j ws) = Some (Text t) /\
        (c39_valid t <-> total (map c39_value (firstn (Nat.max i j - Nat.min i j) (skipn (Nat.min i j) s))) mod 43 = 0).
Proof. exact code39_runs. Qed.
Print Assumptions C97_code39_runs.
(** Code 93: unnoticed exactly if both weighted sums stay what they were. *)
Theorem C97_code93_runs : forall p s m, str_len s < 2 ^ 48 -> barcode SCode93 p s = Ret (Ok m) ->
  exists ws, m = render ws /\ read_as SCode93 ws = Some (Text s) /\
    forall i j, (i <= length s)%nat -> (j <= length s)%nat ->
      let t := mend i j s in let c := c93_C s in
      read_as SCode93 (splice SCode93 i j ws) =
        if (c93_sum 20 t =? c93_sum 20 s) && (c93_sum 15 (t ++ [c]) =? c93_sum 15 (s ++ [c])) then Some (Text t) else None.
Proof. exact code93_runs. Qed.
Print Assumptions C97_code93_runs.
(** Code 11, whose reader tells by the length how many check characters there are: the same, as long as their number is right.
    When fewer than ten of more than ten characters are left, K is taken for C and C for data; when ten characters or less
    become more than ten, C is taken for K and the last data character for C. *)
Theorem C97_code11_runs : forall p s m, str_len s < 2 ^ 48 -> barcode SCode11 p s = Ret (Ok m) ->
  exists ws, m = render ws /\ read_as SCode11 ws = Some (Text s) /\
    forall i j, (i <= length s)%nat -> (j <= length s)%nat ->
      let t := mend i j s in let c := c11_C s in let r := read_as SCode11 (splice SCode11 i j ws) in
      ((10 < length s)%nat -> (10 <= length t)%nat ->
         r = if (c11_sum 10 t =? c11_sum 10 s) && (c11_sum 9 (t ++ [c]) =? c11_sum 9 (s ++ [c])) then Some (Text t) else None) /\
      ((10 < length s)%nat -> (length t < 10)%nat ->
         r = if c11_sum 10 (t ++ [c]) =? c11_sum 9 (s ++ [c]) then Some (Text (t ++ [c])) else None) /\
      ((length s <= 10)%nat -> (length t <= 10)%nat -> r = if c11_sum 10 t =? c11_sum 10 s then Some (Text t) else None) /\
      ((length s <= 10)%nat -> (10 < length t)%nat -> forall t' x, t = t' ++ [x] ->
         r = if (c11_sum 10 t' =? c11_value x) && (c11_sum 9 t =? c11_sum 10 s) then Some (Text t') else None).
Proof. exact code11_runs. Qed.
Print Assumptions C97_code11_runs.
(** Code 128: the check is passed exactly if the check value stays what it was; the remaining characters must then make sense. *)
Theorem C97_code128_runs : forall p s m, barcode SCode128 p s = Ret (Ok m) -> read_modules SCode128 m <> None ->
  exists segs st data ws, message_ok segs /\ s = spell segs /\ message_values segs = st :: data /\ m = render ws /\
    forall i j, (i <= length data)%nat -> (j <= length data)%nat ->
      read_as SCode128 (splice SCode128 i j ws) =
        if c128_check (st :: mend i j data) =? c128_check (st :: data) then option_map Tokens (decode_start st (mend i j data)) else None.
Proof. exact code128_runs. Qed.
Print Assumptions C97_code128_runs.

(** One of each: a digit missing, a pair twice, the zero in front of CODE, a zero behind A, a space at the end. *)
Example C97_case :
  read_as SStf (splice SStf 1 2 (elements SStf (lit "1234"))) = Some (Digits [1; 3; 4])
  /\ read_as SItf (splice SItf 1 0 (elements SItf (lit "1234"))) = Some (Digits [1; 2; 1; 2; 3; 4])
  /\ read_as SCodabar (splice SCodabar 0 2 (elements SCodabar (lit "A12345A"))) = Some (Text (lit "A345A"))
  /\ read_as SEan8 (mend 3 7 (elements SEan8 (lit "5512345"))) = None
  /\ read_as SCode93 (splice SCode93 0 1 (elements SCode93 (lit "0CODE"))) = Some (Text (lit "CODE"))
  /\ read_as SCode93 (splice SCode93 1 2 (elements SCode93 (lit "A0CODE"))) = None
  /\ read_as SCode11 (splice SCode11 0 1 (elements SCode11 (lit "123"))) = None
  /\ read_as SCode11 (splice SCode11 1 2 (elements SCode11 (lit "153"))) = Some (Text (lit "13"))
  /\ read_as SCode128 (splice SCode128 2 3 (elements SCode128 (set_char CB :: lit "AB "))) = Some (Tokens [TChar 65; TChar 66])
  /\ read_as SCode128 (splice SCode128 1 2 (elements SCode128 (set_char CB :: lit "AB "))) = None
  /\ read_as SCode128 (splice SCode128 3 2 (elements SCode128 (set_char CB :: lit "AB "))) = Some (Tokens [TChar 65; TChar 66; TChar 32; TChar 32]).
Proof. vm_compute. repeat split; reflexivity. Qed.
(** Runs: two characters that make up 43; a run of a longer Code 93 message; eleven Code 11 characters of which two are missing. *)
Example C97_case_runs :
  (exists t, read_as SCode39Checked (splice SCode39Checked 1 3 (elements SCode39Checked (lit "A1%B"))) = Some (Text t) /\ t = lit "AB" ++ [c39_check (lit "A1%B")]
     /\ c39_check (lit "A1%B") = c39_check (lit "AB"))
  /\ read_as SCode93 (splice SCode93 0 3 (elements SCode93 (lit "000CODE"))) = Some (Text (lit "CODE"))
  /\ read_as SCode93 (splice SCode93 2 4 (elements SCode93 (lit "CODE93CODE93CODE93"))) = None
  /\ read_as SCode11 (splice SCode11 0 1 (elements SCode11 (lit "012345678901"))) = Some (Text (lit "12345678901"))
  /\ read_as SCode11 (splice SCode11 3 5 (elements SCode11 (lit "00000000000"))) = Some (Text (lit "0000000000"))
  /\ read_as SCode11 (splice SCode11 3 2 (elements SCode11 (lit "0000000000"))) = Some (Text (lit "0000000000")).
Proof. vm_compute. repeat split; try reflexivity. eexists. repeat split; reflexivity. Qed.
