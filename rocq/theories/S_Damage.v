(** * Specification: printing damage *)
From Verif Require Import Rust.

(** The same modules but for one *)
Definition one_wrong (m m' : list N) : Prop :=
  exists a x x' b, m = a ++ x :: b /\ m' = a ++ x' :: b /\ x <> x'.
