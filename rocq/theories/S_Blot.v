(** * Specification: ink blots and scratches *)
From Verif Require Import Rust.

(** The picture with blank paper on either side *)
Definition on_paper (m p : list N) : Prop := exists i j, p = repeat 0 i ++ m ++ repeat 0 j.
(** All modules of one stretch, of any length, come out dark or light. *)
Definition blotted (x : N) (p p' : list N) : Prop := exists a b c, p = a ++ b ++ c /\ p' = a ++ repeat x (length b) ++ c.
