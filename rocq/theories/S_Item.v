(** * Specification: item numbers (GTINs) and their carriers

    GS1 General Specifications, section 7.9: item numbers of 8, 12, 13 and 14 digits are one kind of
    number, written in 14 digits by adding zeros in front.  Nothing here refers to the model. *)
From Verif Require Import Rust Symbology S_Ean S_Text.

(** Carriers of item numbers *)
Definition carrier (y : symbology) : Prop :=
  match y with SEan8 | SUpca | SEan13 | SItf => True | _ => False end.
(** Number of digits of the item numbers of a carrier, check digit included *)
Definition item_digits (y : symbology) : nat :=
  match y with SEan8 => 8 | SUpca => 12 | SEan13 => 13 | SItf => 14 | _ => 0 end.
(** A number in [n] digits *)
Definition in_digits (n : nat) (l : list N) : list N := repeat 0 (n - length l) ++ l.
(** The caller's digits as an item number without its check digit *)
Definition unchecked_item (y : symbology) (s : str) : Prop :=
  Forall digit_char s /\ S (length s) = item_digits y.
(** ... and with a check digit written by the caller *)
Definition full_item (y : symbology) (s : str) : Prop :=
  Forall digit_char s /\ length s = item_digits y.

(** Symbologies whose constructors verify a check digit written by the caller *)
Definition verifying (y : symbology) : Prop :=
  match y with SEan8 | SUpca | SEan13 => True | _ => False end.
(** Weight of the digit that has [k] digits to its right *)
Definition item_weight (k : nat) : N := if Nat.even k then 1 else 3.
