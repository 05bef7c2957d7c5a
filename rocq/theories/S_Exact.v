(** * Specification: exactly what is read from the symbol of every accepted string *)
From Verif Require Import Rust Symbology S_Barcode S_Ean S_Text S_Linear S_Codabar S_Tf S_Code128 S_All S_Heard.

Definition full_number (n : nat) (ds : list N) : list N := firstn n ds ++ [gs1_check (firstn n ds)].
(** A check digit whose weighted sum is kept modulo 256 *)
Definition byte_check (ds : list N) : N := (10 - (alt_sum 3 1 (rev ds) mod 256) mod 10) mod 10.
(** How often a 32-bit signed sum wraps around *)
Definition wraps (sum : N) : N := (sum + 2 ^ 31) / 2 ^ 32.

(** The faults of the code show: ITF check digits are computed in a byte (C33), Codabar exchanges B and C and
    cannot print + (C30), Code 128 misplaces SHIFT and FNC1 (C40) and prints a wrong check character
    when its sum has wrapped around, save every 103rd time (C41). *)
Definition reads_back (y : symbology) (s : str) (r : option reading) : Prop :=
  let ds := digits_of s in
  match y with
  | SEan13 => r = Some (Digits (full_number 12 ds))
  | SEan8 => r = Some (Digits (full_number 7 ds))
  | SUpca => r = Some (Digits (full_number 11 ds))
  | SSupp | SStf => r = Some (Digits ds)
  | SItf => r = Some (Digits (if Nat.even (length s) then ds else ds ++ [byte_check ds]))
  | SCode39 | SCode93 | SCode11 => r = Some (Text s)
  | SCode39Checked => r = Some (Text (s ++ [c39_check s]))
  | SCodabar => r = if existsb (fun c => c =? ch "+") s then None else Some (Text (map exchange s))
  | SCode128 => exists segs, message_ok segs /\ s = spell segs /\
      r = if wraps (c128_sum (message_values segs)) mod 103 =? 0 then Some (Tokens (hear segs)) else None
  end.
