(** * Model of src/sym/ean8.rs *)
From Verif Require Import Rust M_Error M_Parse M_Helpers M_Tables M_Ean13.

(** src/sym/ean8.rs:15, struct EAN8(Vec<u8>), private field *)
Inductive EAN8 : Type := mkEAN8 (d0 : list N).
Definition ean8_0 (b : EAN8) : list N := let 'mkEAN8 d := b in d.

(** ean8.rs:38-40, checksum_digit *)
Definition ean8_checksum_digit (p : profile) (b : EAN8) : M N :=
  modulo_10_checksum p (ean8_0 b) false.

(** ean8.rs:20-35, EAN8::new (with parse from 109-119) *)
Definition ean8_new (p : profile) (data : str) : M (result EAN8) :=
  match parse digit_chars 7 8 data with
  | Err e => Ret (Err e)
  | Ok d =>
      digits <- to_digits d ;;
      first <- slice digits 0 7 ;;
      let ean8 := mkEAN8 first in
      if len digits =? 8 then
        cs <- ean8_checksum_digit p ean8 ;;
        last <- index digits 7 ;;
        if cs =? last then Ret (Ok ean8) else Ret (Err EChecksum)
      else Ret (Ok ean8)
  end.

(** ean8.rs:42-44, number_system_digits *)
Definition ean8_number_system_digits (b : EAN8) : M (list N) := slice (ean8_0 b) 0 2.

(** ean8.rs:46-54, number_system_encoding *)
Definition ean8_number_system_encoding (b : EAN8) : M (list N) :=
  ds <- ean8_number_system_digits b ;;
  foldM (fun ns d => e <- ean_char_encoding 0 d ;; Ret (ns ++ e)) ds [].

(** ean8.rs:56-58, checksum_encoding *)
Definition ean8_checksum_encoding (p : profile) (b : EAN8) : M (list N) :=
  d <- ean8_checksum_digit p b ;; ean_char_encoding 2 d.

(** ean8.rs:64-70, left_digits and right_digits *)
Definition ean8_left_digits (b : EAN8) : M (list N) := slice (ean8_0 b) 2 4.
Definition ean8_right_digits (b : EAN8) : M (list N) := slice_from (ean8_0 b) 4.

(** ean8.rs:72-80, left_payload *)
Definition ean8_left_payload (b : EAN8) : M (list N) :=
  ds <- ean8_left_digits b ;;
  slices <- mapM (fun d => ean_char_encoding 0 d) ds ;;
  Ret (join_iters slices).

(** ean8.rs:82-90, right_payload *)
Definition ean8_right_payload (b : EAN8) : M (list N) :=
  ds <- ean8_right_digits b ;;
  slices <- mapM (fun d => ean_char_encoding 2 d) ds ;;
  Ret (join_iters slices).

(** ean8.rs:94-106, encode *)
Definition ean8_encode (p : profile) (b : EAN8) : M (list N) :=
  ns <- ean8_number_system_encoding b ;;
  lp <- ean8_left_payload b ;;
  rp <- ean8_right_payload b ;;
  cs <- ean8_checksum_encoding p b ;;
  Ret (join_slices [ean_LEFT_GUARD; ns; lp; ean_MIDDLE_GUARD; rp; cs; ean_RIGHT_GUARD]).
