(** * Specification: what each constructor asks of its data, and the texts of the errors *)
From Verif Require Import Rust Symbology S_Barcode S_Ean S_Text S_Linear.

(** The characters and numbers of characters of the library's documentation (README.md, module comments) *)
Definition alphabet (y : symbology) : list char :=
  match y with
  | SCode39 | SCode39Checked => lit "0123456789ABCDEFGHIJKLMNOPQRSTUVWXYZ-. $/+%"
  | SCode93 => lit "0123456789ABCDEFGHIJKLMNOPQRSTUVWXYZ-. $/+%()[]"
  | SCode11 => lit "0123456789-"
  | SCodabar => lit "0123456789-$:/.+ABCD"
  | _ => lit "0123456789"
  end.
Definition fits (y : symbology) (n : nat) : Prop :=
  match y with
  | SEan13 => n = 12 \/ n = 13
  | SEan8 => n = 7 \/ n = 8
  | SUpca => n = 11 \/ n = 12
  | SSupp => n = 2 \/ n = 5
  | _ => 1 <= n <= 256
  end%nat.
(** Retail symbols with their check digit *)
Definition with_check_digit (y : symbology) (n : nat) : Prop :=
  match y with
  | SEan13 => n = 13
  | SEan8 => n = 8
  | SUpca => n = 12
  | _ => False
  end%nat.
Definition says_characters : str := lit "Barcode data is invalid".
Definition says_length : str := lit "Barcode data length is invalid".
Definition says_checksum : str := lit "Invalid checksum".
Definition says_generate : str := lit "Could not generate barcode data".
