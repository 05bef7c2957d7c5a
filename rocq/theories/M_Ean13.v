(** * Model of src/sym/ean13.rs *)
From Verif Require Import Rust M_Error M_Parse M_Helpers M_Tables.

(** src/sym/ean13.rs:87, struct EAN13(Vec<u8>), private field.
    Bookland and JAN (lines 91, 95) are aliases. *)
Inductive EAN13 : Type := mkEAN13 (d0 : list N).
Definition ean13_0 (b : EAN13) : list N := let 'mkEAN13 d := b in d.

(** ean13.rs:118-120, checksum_digit *)
Definition ean13_checksum_digit (p : profile) (b : EAN13) : M N :=
  modulo_10_checksum p (ean13_0 b) true.

(** ean13.rs:100-115, EAN13::new (with parse from 188-198) *)
Definition ean13_new (p : profile) (data : str) : M (result EAN13) :=
  match parse digit_chars 12 13 data with
  | Err e => Ret (Err e)
  | Ok d =>
      digits <- to_digits d ;;
      first <- slice digits 0 12 ;;
      let ean13 := mkEAN13 first in
      if len digits =? 13 then
        cs <- ean13_checksum_digit p ean13 ;;
        last <- index digits 12 ;;
        if cs =? last then Ret (Ok ean13) else Ret (Err EChecksum)
      else Ret (Ok ean13)
  end.

(** ean13.rs:134-136 (also ean8.rs:60-62, ean_supp.rs:75-77), char_encoding *)
Definition ean_char_encoding (side d : N) : M (list N) :=
  t <- index ean_ENCODINGS side ;; index t d.

(** ean13.rs:122-124, number_system_digit *)
Definition ean13_number_system_digit (b : EAN13) : M N := index (ean13_0 b) 1.

(** ean13.rs:126-128, number_system_encoding *)
Definition ean13_number_system_encoding (b : EAN13) : M (list N) :=
  d <- ean13_number_system_digit b ;; ean_char_encoding 0 d.

(** ean13.rs:130-132, checksum_encoding *)
Definition ean13_checksum_encoding (p : profile) (b : EAN13) : M (list N) :=
  d <- ean13_checksum_digit p b ;; ean_char_encoding 2 d.

(** ean13.rs:138-144, left_digits and right_digits *)
Definition ean13_left_digits (b : EAN13) : M (list N) := slice (ean13_0 b) 2 7.
Definition ean13_right_digits (b : EAN13) : M (list N) := slice_from (ean13_0 b) 7.

(** ean13.rs:146-148, parity_mapping *)
Definition ean13_parity_mapping (b : EAN13) : M (list N) :=
  d <- index (ean13_0 b) 0 ;; index ean13_PARITY d.

(** ean13.rs:150-159, left_payload *)
Definition ean13_left_payload (b : EAN13) : M (list N) :=
  ds <- ean13_left_digits b ;;
  ps <- ean13_parity_mapping b ;;
  slices <- mapM (fun x => let '(d, s) := x in ean_char_encoding s d) (combine ds ps) ;;
  Ret (join_iters slices).

(** ean13.rs:161-169, right_payload *)
Definition ean13_right_payload (b : EAN13) : M (list N) :=
  ds <- ean13_right_digits b ;;
  slices <- mapM (fun d => ean_char_encoding 2 d) ds ;;
  Ret (join_iters slices).

(** ean13.rs:173-185, encode *)
Definition ean13_encode (p : profile) (b : EAN13) : M (list N) :=
  ns <- ean13_number_system_encoding b ;;
  lp <- ean13_left_payload b ;;
  rp <- ean13_right_payload b ;;
  cs <- ean13_checksum_encoding p b ;;
  Ret (join_slices [ean_LEFT_GUARD; ns; lp; ean_MIDDLE_GUARD; rp; cs; ean_RIGHT_GUARD]).
