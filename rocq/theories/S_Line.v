(** * Specification: parts of a line across a page of symbols *)
From Verif Require Import Rust Symbology S_Barcode S_Ean S_Linear S_All S_Row S_Quiet.

(** What a reader sees of a line *)
Definition part_of (l line : list N) : Prop := exists u v, line = u ++ l ++ v.
(** A page: a margin, then symbols, each followed by light modules *)
Definition page (a : nat) (items : list (list N * nat)) : list N := repeat 0 a ++ in_a_row items.
