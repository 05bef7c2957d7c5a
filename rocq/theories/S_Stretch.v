(** * Specification: bars and spaces printed too wide or too narrow *)
From Verif Require Import Rust.

(** The same picture but for the number of equal modules at one place; that place is a bar,
    or lies between two bars.  The number may be 0 on either side, so a bar or space may be lost,
    and one may be printed where there was none. *)
Definition stretched (m m' : list N) : Prop := exists a x n n' b,
  m = a ++ repeat x n ++ b /\ m' = a ++ repeat x n' ++ b /\ n <> n' /\ (x = 1 \/ In 1 a /\ In 1 b).
