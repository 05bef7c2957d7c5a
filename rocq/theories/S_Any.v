(** * Specification: a reader that tries every symbology in both directions *)
From Verif Require Import Rust Symbology S_Barcode S_Ean S_Text S_Linear S_Codabar S_Tf S_Code128 S_All.

(** The reader of [y] finds [r] in a line of modules, from left to right or from right to left.  A Codabar symbol
    has start and stop characters. *)
Definition found (y : symbology) (r : reading) (m : list N) : Prop :=
  (read_modules y m = Some r \/ read_modules y (rev m) = Some r) /\
  (y = SCodabar -> exists t, r = Text t /\ cod_framed t).
(** The same data: the same reading, or the EAN-13 number with a leading zero that is a UPC-A number *)
Definition same_item (r r' : reading) : Prop :=
  r = r' \/ exists ds, (r = Digits ds /\ r' = Digits (0 :: ds)) \/ (r = Digits (0 :: ds) /\ r' = Digits ds).
