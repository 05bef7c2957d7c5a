(** * Specification: where each character is printed *)
From Verif Require Import Rust Symbology S_Barcode S_Ean S_Text S_Linear S_Codabar S_Tf S_Code128 S_All S_Size.

(** The picture [l] stands in [m] from module number [o] on (counted from zero). *)
Definition printed (m : list N) (o : nat) (l : list N) : Prop := exists a b, m = a ++ l ++ b /\ length a = o.

(** What a symbol shows: digits, characters or Code 128 values, check characters included *)
Definition shown (y : symbology) (s : str) (t : list N) : Prop :=
  match y with
  | SEan13 => exists c, t = firstn 12 (digits_of s) ++ [c] /\ c < 10 /\ gs1_valid t
  | SEan8 => exists c, t = firstn 7 (digits_of s) ++ [c] /\ c < 10 /\ gs1_valid t
  | SUpca => exists c, t = firstn 11 (digits_of s) ++ [c] /\ c < 10 /\ gs1_valid t
  | SSupp | SStf => t = digits_of s
  | SItf => itf_carries s t
  | SCode39 | SCodabar => t = s
  | SCode39Checked => t = s ++ [c39_check s]
  | SCode93 => t = s ++ [c93_C s; c93_K s]
  | SCode11 => t = s ++ [c11_C s] ++ (if Nat.ltb 10 (length s) then [c11_K s] else [])
  | SCode128 => exists segs c, message_ok segs /\ s = spell segs /\ t = message_values segs ++ [c] /\ c < 106 /\
      (len (message_values segs) <= 6489 -> c = c128_check (message_values segs))
  end.

(** Number of the first module of the [i]-th thing shown (counted from zero).  The digits of
    Interleaved 2 of 5 share the 18 modules of their pair; the first digit of EAN-13 has no
    place of its own. *)
Definition place (y : symbology) (t : list N) (i : nat) : nat :=
  match y with
  | SEan13 => if Nat.leb i 6 then 7 * i - 4 else 7 * i + 1
  | SUpca => if Nat.ltb i 6 then 7 * i + 3 else 7 * i + 8
  | SEan8 => if Nat.ltb i 4 then 7 * i + 3 else 7 * i + 8
  | SSupp => 9 * i + 4
  | SCode39 | SCode39Checked => 13 * i + 13
  | SCode93 => 9 * i + 9
  | SCode11 => 8 * i + 8 - among (lit "09-") (firstn i t)
  | SCodabar => 10 * i + among (lit ":/.ABCD") (firstn i t) + 3 * among (lit "+") (firstn i t)
  | SCode128 => 11 * i
  | SItf => 18 * Nat.div i 2 + 4
  | SStf => 14 * i + 8
  end.

(** Sets of the digits of an add-on *)
Definition addon_sets (t : list N) : list parity :=
  match t with
  | [_; _] => nth (N.to_nat (ean2_variant t)) ean2_parities []
  | _ => nth (N.to_nat (ean5_variant t)) ean5_parities []
  end.
(** The modules printed there.  Codabar exchanges B and C, and its plus sign has wide spaces
    (C30). *)
Definition drawing (y : symbology) (t : list N) (i : nat) (c : N) : list N :=
  match y with
  | SEan13 => if Nat.leb i 6 then render_from 0 (widths (set_table (nth (i - 1) (nth (N.to_nat (hd 0 t)) ean13_parities []) PA)) c)
              else render (widths setC_table c)
  | SUpca => if Nat.ltb i 6 then render_from 0 (widths setA_table c) else render (widths setC_table c)
  | SEan8 => if Nat.ltb i 4 then render_from 0 (widths setA_table c) else render (widths setC_table c)
  | SSupp => render_from 0 (widths (set_table (nth i (addon_sets t) PA)) c)
  | SCode39 | SCode39Checked => render (c39_pattern c)
  | SCode93 => render (c93_pattern c)
  | SCode11 => render (c11_pattern c)
  | SCodabar => render (if c =? ch "+" then [1; 1; 2; 2; 2; 2; 2]%nat else cod_pattern (exchange c))
  | SCode128 => render (c128_pattern c)
  | SItf => render (itf_pair 3 (if Nat.even i then (c, nth (i + 1) t 0) else (nth (i - 1) t 0, c)))
  | SStf => render (stf_bars (stretch 3 (tf_digit c)))
  end.
