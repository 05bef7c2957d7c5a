(** * Specification: readers that take each module of a picture from the majority of its pixels *)
From Verif Require Import Rust M_Image S_Image.
Local Open Scope nat_scope.

(** The pixels of module [k] of a picture [h] pixels high, [xdim] pixels per module *)
Definition area (xdim h : N) (k : nat) : list (N * N) :=
  list_prod (map (fun i => (N.of_nat k * xdim + N.of_nat i)%N) (seq 0 (N.to_nat xdim))) (map N.of_nat (seq 0 (N.to_nat h))).
(** The module is dark if more than half of its pixels have the colour of bars *)
Definition vote {A} (eqb : A -> A -> bool) (fg : A) (xdim h : N) (f : N -> N -> A) (k : nat) : N :=
  if length (area xdim h k) <? 2 * length (filter (fun c => eqb (f (fst c) (snd c)) fg) (area xdim h k)) then 1%N else 0%N.
Definition voted {A} (eqb : A -> A -> bool) (fg : A) (xdim h : N) (f : N -> N -> A) (n : nat) : list N := map (vote eqb fg xdim h f) (seq 0 n).
(** How many modules have at least half of their pixels changed? *)
Definition changed {A} (eqb : A -> A -> bool) (xdim h : N) (f f' : N -> N -> A) (k : nat) : nat := length (filter (fun c => negb (eqb (f' (fst c) (snd c)) (f (fst c) (snd c)))) (area xdim h k)).
Definition spoilt {A} (eqb : A -> A -> bool) (xdim h : N) (f f' : N -> N -> A) (n : nat) : nat := length (filter (fun k => length (area xdim h k) <=? 2 * changed eqb xdim h f f' k) (seq 0 n)).
(** The colour of each pixel of a stored picture; outside of it, [d] *)
Definition colours {A} (d : A) (w : N) (px : list A) (x y : N) : A := match pixel w px x y with Some c => c | None => d end.
(** A turned picture looked at from the side that makes it upright again, [w] wide and [h] high *)
Definition upright {A} (r : rotation) (w h : N) (f : N -> N -> A) (x y : N) : A :=
  match r with
  | RZero => f x y
  | RNinety => f (h - 1 - y)%N x
  | ROneEighty => f (w - 1 - x)%N (h - 1 - y)%N
  | RTwoSeventy => f y (w - 1 - x)%N
  end.
