(** * Specification: which of several settings counts *)
From Verif Require Import Rust.

(** The last setting among [calls] that concerns one field, or [d] when there is none *)
Fixpoint last_set {C A} (f : C -> option A) (d : A) (calls : list C) : A :=
  match calls with
  | [] => d
  | c :: tl => last_set f (match f c with Some v => v | None => d end) tl
  end.
