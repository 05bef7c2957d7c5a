(** * Model of src/sym/helpers.rs *)
From Verif Require Import Rust.

(** src/sym/helpers.rs:12-14, join_slices *)
Definition join_slices (slices : list (list N)) : list N := concat slices.

(** src/sym/helpers.rs:17-22, join_iters *)
Definition join_iters (iters : list (list N)) : list N := concat iters.

(** src/sym/helpers.rs:29-34, the summing loop of modulo_10_checksum.
    State: (odds, evens), both u8. *)
Definition mod10_step (p : profile) (st : N * N) (x : N * N) : M (N * N) :=
  let '(odds, evens) := st in
  let '(i, d) := x in
  if i mod 2 =? 1
  then odds' <- add_u 8 p odds d ;; Ret (odds', evens)
  else evens' <- add_u 8 p evens d ;; Ret (odds, evens').

(** src/sym/helpers.rs:25-48, modulo_10_checksum *)
Definition modulo_10_checksum (p : profile) (data : list N) (even_start : bool) : M N :=
  st <- foldM (mod10_step p) (enumerate data) (0, 0) ;;
  let '(odds, evens) := st in
  st' <- (if even_start
          then odds' <- mul_u 8 p odds 3 ;; Ret (odds', evens)
          else evens' <- mul_u 8 p evens 3 ;; Ret (odds, evens')) ;;
  let '(odds, evens) := st' in
  sum <- add_u 8 p odds evens ;;
  r <- rem_u sum 10 ;;
  n <- sub_u 8 p 10 r ;;
  Ret (if n =? 10 then 0 else n).

(** c.to_digit(10).expect("Unknown character") as u8, used by every digit
    symbology: ean13.rs:102-105, ean8.rs:22-25, upca.rs:78-81,
    ean_supp.rs:56-59, tf.rs:47-50 and 67-70. *)
Definition to_digit_u8 (c : char) : M N :=
  d <- unwrap (to_digit10 c) ;; Ret (cast_u 8 d).
Definition to_digits (d : str) : M (list N) := mapM to_digit_u8 d.
