(** * Model of src/sym/upca.rs *)
From Verif Require Import Rust M_Error M_Parse M_Helpers M_Tables.

(** src/sym/upca.rs:71, struct UPCA(Vec<u8>), private field *)
Inductive UPCA : Type := mkUPCA (d0 : list N).
Definition upca_0 (b : UPCA) : list N := let 'mkUPCA d := b in d.

(** upca.rs:94-96, checksum_digit *)
Definition upca_checksum_digit (p : profile) (b : UPCA) : M N :=
  modulo_10_checksum p (upca_0 b) false.

(** upca.rs:76-91, UPCA::new (with parse from 150-160) *)
Definition upca_new (p : profile) (data : str) : M (result UPCA) :=
  match parse digit_chars 11 12 data with
  | Err e => Ret (Err e)
  | Ok d =>
      digits <- to_digits d ;;
      first <- slice digits 0 11 ;;
      let upca := mkUPCA first in
      if len digits =? 12 then
        cs <- upca_checksum_digit p upca ;;
        last <- index digits 11 ;;
        if cs =? last then Ret (Ok upca) else Ret (Err EChecksum)
      else Ret (Ok upca)
  end.

(** upca.rs:102-104, char_encoding *)
Definition upca_char_encoding (side d : N) : M (list N) :=
  t <- index upca_ENCODINGS side ;; index t d.

(** upca.rs:98-100, checksum_encoding *)
Definition upca_checksum_encoding (p : profile) (b : UPCA) : M (list N) :=
  d <- upca_checksum_digit p b ;; upca_char_encoding 1 d.

(** upca.rs:106-112, left_digits and right_digits *)
Definition upca_left_digits (b : UPCA) : M (list N) := slice (upca_0 b) 0 6.
Definition upca_right_digits (b : UPCA) : M (list N) := slice_from (upca_0 b) 6.

(** upca.rs:114-122, left_payload *)
Definition upca_left_payload (b : UPCA) : M (list N) :=
  ds <- upca_left_digits b ;;
  slices <- mapM (fun d => upca_char_encoding 0 d) ds ;;
  Ret (join_iters slices).

(** upca.rs:124-132, right_payload *)
Definition upca_right_payload (b : UPCA) : M (list N) :=
  ds <- upca_right_digits b ;;
  slices <- mapM (fun d => upca_char_encoding 1 d) ds ;;
  Ret (join_iters slices).

(** upca.rs:136-147, encode *)
Definition upca_encode (p : profile) (b : UPCA) : M (list N) :=
  lp <- upca_left_payload b ;;
  rp <- upca_right_payload b ;;
  cs <- upca_checksum_encoding p b ;;
  Ret (join_slices [upca_LEFT_GUARD; lp; upca_MIDDLE_GUARD; rp; cs; upca_RIGHT_GUARD]).
