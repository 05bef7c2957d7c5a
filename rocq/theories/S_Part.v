(** * Specification: scan lines that miss both ends of the symbol *)
From Verif Require Import Rust Symbology S_Barcode S_Codabar S_All.

(** A proper part of a picture: some dark module is missing on one side or on both. *)
Definition proper_part (m l : list N) : Prop := exists u v, m = u ++ l ++ v /\ In 1 (u ++ v).

(** The symbols no proper part of which can be taken for a symbol: retail symbols, two-digit add-ons,
    Code 93, Code 128, and Codabar with start and stop characters *)
Definition whole_only (y : symbology) (s : str) : Prop :=
  match y with
  | SEan13 | SUpca | SEan8 | SCode93 | SCode128 => True
  | SSupp => length s = 2%nat
  | SCodabar => cod_framed s
  | SCode39 | SCode39Checked | SCode11 | SItf | SStf => False
  end.

(** How many characters, digits or tokens a reading has *)
Definition reported (r : reading) : nat :=
  match r with Digits l => length l | Text l => length l | Tokens l => length l end.
