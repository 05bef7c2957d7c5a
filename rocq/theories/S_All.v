(** * Specification shared by all symbologies *)
From Verif Require Import Rust Symbology S_Barcode S_Ean S_Text S_Linear S_Codabar S_Tf S_Code128.

(** Light modules after the last bar: the standard 2-of-5 stop pattern is printed with one. *)
Definition tail (y : symbology) : list N := match y with SStf => [0] | _ => [] end.
(** Widest element *)
Definition max_width (y : symbology) : nat :=
  match y with
  | SEan13 | SEan8 | SUpca | SSupp | SCode93 | SCode128 => 4
  | SItf | SStf => 3
  | SCode39 | SCode39Checked | SCode11 | SCodabar => 2
  end.

(** What a reader of the symbology reports *)
Inductive reading : Type := Digits (l : list N) | Text (s : str) | Tokens (l : list token).
Definition read_as (y : symbology) (ws : list nat) : option reading :=
  match y with
  | SEan13 => option_map Digits (read_ean13 ws)
  | SEan8 => option_map Digits (read_ean8 ws)
  | SUpca => option_map Digits (read_upca ws)
  | SSupp => match read_ean2 ws with
             | Some l => Some (Digits l)
             | None => option_map Digits (read_ean5 ws)
             end
  | SCode39 | SCode39Checked => option_map Text (read_c39 ws)
  | SCode93 => option_map Text (read_c93 ws)
  | SCode11 => option_map Text (read_c11 ws)
  | SCodabar => option_map Text (read_cod ws)
  | SCode128 => option_map Tokens (read_c128 ws)
  | SItf => option_map Digits (read_itf ws)
  | SStf => option_map Digits (read_stf ws)
  end.
Definition read_modules (y : symbology) (m : list N) : option reading := obind (scan m) (read_as y).

(** Symbologies whose symbols show their direction; Codabar when framed *)
Definition directed (y : symbology) (s : str) : Prop :=
  match y with
  | SCodabar => cod_framed s
  | _ => True
  end.

(** Symbologies whose arithmetic never leaves its integer types (C33, C41 for the others) *)
Definition profile_free (y : symbology) : Prop :=
  match y with SItf | SCode128 => False | _ => True end.

(** Number of modules of the symbol of a string of n characters *)
Definition modules_spec (y : symbology) (s : str) (k : nat) : Prop :=
  let n := length s in
  match y with
  | SEan13 | SUpca => k = 95
  | SEan8 => k = 67
  | SSupp => (n = 2 /\ k = 20) \/ (n = 5 /\ k = 47)
  | SCode39 => k = 13 * n + 25
  | SCode39Checked => k = 13 * n + 38
  | SCode93 => k = 9 * n + 37
  | SCode11 => let c := n + (if Nat.ltb 10 n then 2 else 1) in 7 * c + 15 <= k <= 8 * c + 15
  | SCodabar => 10 * n <= k + 1 <= 13 * n
  | SCode128 => exists segs, message_ok segs /\ s = spell segs /\ k = 11 * length (message_values segs) + 24
  | SItf => k = 9 * (if Nat.even n then n else n + 1) + 8
  | SStf => k = 14 * n + 16
  end%nat.

(** Digits carried by an interleaved symbol: an odd number of digits is completed by a check digit, which is right for up to
    thirteen digits (C33). *)
Definition itf_carries (s : str) (ds : list N) : Prop :=
  if Nat.even (length s) then ds = digits_of s
  else exists c, is_digit c /\ ds = digits_of s ++ [c] /\ ((length s <= 13)%nat -> gs1_valid ds).
(** What reading a symbol must report about the string it was made from.  Codabar prints B
    for C and C for B and prints + unreadably (C30); Code 128 messages are covered when their
    SHIFTs precede characters common to code sets A and B, up to the move of FNC1 (C40). *)
Definition meant (y : symbology) (s : str) (r : option reading) : Prop :=
  match y with
  | SEan13 => exists c, (is_digit c /\ gs1_valid (firstn 12 (digits_of s) ++ [c])) /\ r = Some (Digits (firstn 12 (digits_of s) ++ [c]))
  | SEan8 => exists c, (is_digit c /\ gs1_valid (firstn 7 (digits_of s) ++ [c])) /\ r = Some (Digits (firstn 7 (digits_of s) ++ [c]))
  | SUpca => exists c, (is_digit c /\ gs1_valid (firstn 11 (digits_of s) ++ [c])) /\ r = Some (Digits (firstn 11 (digits_of s) ++ [c]))
  | SSupp | SStf => r = Some (Digits (digits_of s))
  | SCode39 | SCode93 | SCode11 => r = Some (Text s)
  | SCode39Checked => exists c, c39_valid (s ++ [c]) /\ r = Some (Text (s ++ [c]))
  | SCodabar => r = if existsb (fun c => c =? ch "+") s then None else Some (Text (map exchange s))
  | SCode128 => forall segs, message_ok segs -> s = spell segs -> len (message_values segs) <= 6489 ->
      shifts_ok segs -> r = Some (Tokens (meaning (settle segs)))
  | SItf => exists ds, itf_carries s ds /\ r = Some (Digits ds)
  end.

(** Symbologies whose readers are told apart by nothing but the digits or characters: UPC-A
    is EAN-13 with a leading zero, and a Code 39 reader may or may not ask for the check
    character. *)
Definition same_kind (y y' : symbology) : Prop :=
  match y, y' with
  | (SEan13 | SUpca), (SEan13 | SUpca) => True
  | (SCode39 | SCode39Checked), (SCode39 | SCode39Checked) => True
  | _, _ => y = y'
  end.
