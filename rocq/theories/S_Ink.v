(** * Specification: ink added or lost all over a symbol *)
From Verif Require Import Rust.

(** Any light modules have come out dark, and no dark one light. *)
Definition inked (m z : list N) : Prop := Forall2 (fun a b => a = b \/ (a = 0 /\ b = 1)) m z.
(** Any dark modules have come out light, and no light one dark; the first and the last dark module are still there. *)
Definition faded (m z : list N) : Prop :=
  inked z m /\ exists u v n, m = 1 :: u ++ 1 :: repeat 0 n /\ z = 1 :: v ++ 1 :: repeat 0 n.
(** One symbol printed over another of the same width *)
Fixpoint over (m m' : list N) : list N :=
  match m, m' with
  | a :: m, b :: m' => (if (a =? 1) || (b =? 1) then 1 else 0) :: over m m'
  | _, _ => []
  end.
(** The four characters of Code 39 with three wide spaces and no wide bar *)
Definition light_chars : list char := lit "$/+%".
