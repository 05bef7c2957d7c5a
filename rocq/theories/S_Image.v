(** * Specification: pictures stored row by row *)
From Verif Require Import Rust.

(** The pixel in column [x] of row [y] of a picture [w] wide *)
Definition pixel {A} (w : N) (px : list A) (x y : N) : option A := nth_error px (N.to_nat (y * w + x)).
(** [px] is the [w] by [h] picture whose pixel (x, y) is [f x y] *)
Definition picture {A} (w h : N) (f : N -> N -> A) (px : list A) : Prop :=
  len px = w * h /\ forall x y, x < w -> y < h -> pixel w px x y = Some (f x y).
(** The picture of a barcode *)
Definition bars {A} (xdim : N) (fg bg : A) (b : list N) (x y : N) : A :=
  if nth (N.to_nat (x / xdim)) b 0 =? 0 then bg else fg.
