(** * Specification: sizes of outputs *)
From Verif Require Import Rust.

(** [k] is the number of decimal digits of [n] *)
Definition written_with (n : N) (k : N) : Prop := 1 <= k /\ n < 10 ^ k /\ (k = 1 \/ 10 ^ (k - 1) <= n).
(** Number of bars *)
Definition dark (b : list N) : N := len (filter (fun x => x =? 1) b).
Definition bytes_of (o : option str) : N := match o with Some u => str_len u | None => 0 end.

(** How many characters of [s] are among [l] *)
Definition among (l s : str) : nat := length (filter (fun c => existsb (N.eqb c) l) s).
