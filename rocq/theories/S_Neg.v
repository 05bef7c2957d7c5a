(** * Specification: pictures in negative *)
From Verif Require Import Rust S_Barcode.

(** Dark and light exchanged *)
Definition negative (m : list N) : list N := map (fun x => 1 - x) m.
(** The negative of a symbol on dark paper that goes on for i modules to the left of it and for j to the right *)
Definition on_dark (i j : nat) (m : list N) : list N := repeat 1 i ++ negative m ++ repeat 1 j.
