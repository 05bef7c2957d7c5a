(** * Model of src/sym/tf.rs *)
From Verif Require Import Rust M_Error M_Parse M_Helpers M_Tables.

(** src/sym/tf.rs:32-37, enum TF.  Variants and payloads are public. *)
Inductive TF : Type :=
| Standard (d : list N)
| Interleaved (d : list N).

(** tf.rs:45-60, TF::interleaved (with parse from 149-160) *)
Definition tf_interleaved (p : profile) (data : str) : M (result TF) :=
  match parse digit_chars 1 256 data with
  | Err e => Ret (Err e)
  | Ok d =>
      digits <- to_digits d ;;
      if len digits mod 2 =? 1 then
        check_digit <- modulo_10_checksum p digits false ;;
        Ret (Ok (Interleaved (digits ++ [check_digit])))
      else Ret (Ok (Interleaved digits))
  end.

(** tf.rs:65-73, TF::standard *)
Definition tf_standard (data : str) : M (result TF) :=
  match parse digit_chars 1 256 data with
  | Err e => Ret (Err e)
  | Ok d => digits <- to_digits d ;; Ret (Ok (Standard digits))
  end.

(** tf.rs:75-79, raw_data *)
Definition tf_raw_data (b : TF) : list N :=
  match b with Standard d => d | Interleaved d => d end.

(** tf.rs:88-91, one element of interleave: 'W' is three modules *)
Definition tf_element (c : char) (i : N) : list N :=
  if c =? ch "W" then [i; i; i] else [i].

(** tf.rs:81-96, interleave *)
Definition tf_interleave (bars spaces : N) : M (list N) :=
  bwidths <- index tf_WIDTHS bars ;;
  swidths <- index tf_WIDTHS spaces ;;
  Ret (fold_left (fun encoding x =>
                    let '(b, s) := x in
                    fold_left (fun encoding y => let '(c, i) := y in encoding ++ tf_element c i)
                              [(b, 1); (s, 0)] encoding)
                 (combine bwidths swidths) []).

(** tf.rs:111-113, char_widths *)
Definition tf_char_widths (d : N) : M str := index tf_WIDTHS d.

(** tf.rs:98-109, char_encoding *)
Definition tf_char_encoding (d : N) : M (list N) :=
  ws <- tf_char_widths d ;;
  Ret (join_iters (map (fun c => if c =? ch "W" then [1; 1; 1; 0] else [1; 0]) ws)).

(** tf.rs:115-123, stf_payload *)
Definition tf_stf_payload (b : TF) : M (list N) :=
  foldM (fun enc d => e <- tf_char_encoding d ;; Ret (enc ++ e)) (tf_raw_data b) [].

(** slice::chunks(2) *)
Fixpoint chunks2 {A} (l : list A) : list (list A) :=
  match l with
  | [] => []
  | [x] => [[x]]
  | x :: y :: tl => [x; y] :: chunks2 tl
  end.

(** tf.rs:125-133, itf_payload *)
Definition tf_itf_payload (b : TF) : M (list N) :=
  weaves <- mapM (fun c => c0 <- index c 0 ;; c1 <- index c 1 ;; tf_interleave c0 c1)
                 (chunks2 (tf_raw_data b)) ;;
  Ret (join_iters weaves).

(** tf.rs:137-146, encode *)
Definition tf_encode (b : TF) : M (list N) :=
  match b with
  | Standard _ =>
      pl <- tf_stf_payload b ;; Ret (join_slices [tf_STF_START; pl; tf_STF_STOP])
  | Interleaved _ =>
      pl <- tf_itf_payload b ;; Ret (join_slices [tf_ITF_START; pl; tf_ITF_STOP])
  end.
