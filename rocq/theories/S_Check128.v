(** * Specification: Code 128 symbols with misread symbol characters *)
From Verif Require Import Rust S_Barcode S_Linear S_Tf S_Code128.

(** The bars of any sequence of symbol characters (start, data, check), with the stop *)
Definition c128_bars (vs : list N) : list N := render (concat (map c128_pattern vs) ++ c128_stop).
(** Place [n] (the start is place 0) has a weight that is zero modulo 103. *)
Definition weightless (n : nat) : Prop := exists k, (1 <= k)%nat /\ n = (103 * k)%nat.
