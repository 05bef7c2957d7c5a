(** * Model of src/sym/ean_supp.rs *)
From Verif Require Import Rust M_Error M_Parse M_Helpers M_Tables M_Ean13.

(** src/sym/ean_supp.rs:42-47, enum EANSUPP.  The variants and their payload
    vectors are public, so any byte vector can be wrapped by a caller. *)
Inductive EANSUPP : Type :=
| EAN2 (d : list N)
| EAN5 (d : list N).

(** ean_supp.rs:54-67, EANSUPP::new (with parse from 140-150) *)
Definition eansupp_new (data : str) : M (result EANSUPP) :=
  match parse digit_chars 2 5 data with
  | Err e => Ret (Err e)
  | Ok d =>
      digits <- to_digits d ;;
      if len digits =? 2 then Ret (Ok (EAN2 digits))
      else if len digits =? 5 then Ret (Ok (EAN5 digits))
      else Ret (Err ELength)
  end.

(** ean_supp.rs:69-73, raw_data *)
Definition eansupp_raw_data (b : EANSUPP) : list N :=
  match b with EAN2 d => d | EAN5 d => d end.

(** ean_supp.rs:86-91, the summing loop of checksum_digit; state (odds, evens) *)
Definition eansupp_checksum_step (p : profile) (st : N * N) (x : N * N) : M (N * N) :=
  let '(odds, evens) := st in
  let '(i, d) := x in
  if i mod 2 =? 1
  then evens' <- add_u 8 p evens d ;; Ret (odds, evens')
  else odds' <- add_u 8 p odds d ;; Ret (odds', evens).

(** ean_supp.rs:81-97, checksum_digit *)
Definition eansupp_checksum_digit (p : profile) (b : EANSUPP) : M N :=
  st <- foldM (eansupp_checksum_step p) (enumerate (eansupp_raw_data b)) (0, 0) ;;
  let '(odds, evens) := st in
  o3 <- mul_u 8 p odds 3 ;;
  e9 <- mul_u 8 p evens 9 ;;
  s <- add_u 8 p o3 e9 ;;
  n <- rem_u s 10 ;;
  Ret (if n =? 10 then 0 else n).

(** ean_supp.rs:99-110, parity *)
Definition eansupp_parity (p : profile) (b : EANSUPP) : M (list N) :=
  match b with
  | EAN2 d =>
      d0 <- index d 0 ;;
      t <- mul_u 8 p d0 10 ;;
      d1 <- index d 1 ;;
      s <- add_u 8 p t d1 ;;
      modulo <- rem_u s 4 ;;
      index supp_EAN2_PARITY modulo
  | EAN5 _ =>
      check <- eansupp_checksum_digit p b ;;
      index supp_EAN5_PARITY check
  end.

(** ean_supp.rs:121-128, the joining loop of payload *)
Definition eansupp_payload_step (acc : list N) (x : N * list N) : list N :=
  let '(i, d) := x in
  (if 0 <? i then acc ++ [0] ++ [1] else acc) ++ d.

(** ean_supp.rs:112-131, payload *)
Definition eansupp_payload (p : profile) (b : EANSUPP) : M (list N) :=
  par <- eansupp_parity p b ;;
  slices <- mapM (fun x => let '(d, s) := x in ean_char_encoding s d)
                 (combine (eansupp_raw_data b) par) ;;
  Ret (fold_left eansupp_payload_step (enumerate slices) []).

(** ean_supp.rs:135-137, encode *)
Definition eansupp_encode (p : profile) (b : EANSUPP) : M (list N) :=
  pl <- eansupp_payload p b ;;
  Ret (join_slices [supp_LEFT_GUARD; pl]).
