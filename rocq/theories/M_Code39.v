(** * Model of src/sym/code39.rs *)
From Verif Require Import Rust M_Error M_Parse M_Helpers M_Tables.

(** src/sym/code39.rs:66-70, struct Code39; [checksum] is a public field,
    [data] is private. *)
Record Code39 : Type := mkCode39 { c39_data : list char; c39_checksum : bool }.

(** code39.rs:150-153, valid_chars *)
Definition code39_valid_chars : list char := map fst code39_CHARS.

(** code39.rs:73-78, init (with parse, lines 145-148) *)
Definition code39_init (data : str) (checksum : bool) : result Code39 :=
  result_map (fun d => mkCode39 d checksum) (parse code39_valid_chars 1 256 data).

(** code39.rs:82-84, new *)
Definition code39_new (data : str) : result Code39 := code39_init data false.
(** code39.rs:88-90, with_checksum *)
Definition code39_with_checksum (data : str) : result Code39 := code39_init data true.

(** code39.rs:94, closure get_char_pos *)
Definition code39_char_pos (c : char) : M N :=
  unwrap (position (fun t => fst t =? c) code39_CHARS).

(** code39.rs:93-99, checksum_char.  The lazy map/sum is one fold. *)
Definition code39_checksum_char (p : profile) (b : Code39) : M (option char) :=
  sum <- foldM (fun acc c => i <- code39_char_pos c ;; add_u usize_bits p acc i)
               (c39_data b) 0 ;;
  idx <- rem_u sum (len code39_CHARS) ;;
  Ret (option_map fst (nth_error code39_CHARS (N.to_nat idx))).

(** code39.rs:108-113, char_encoding *)
Definition code39_char_encoding (c : char) : M (list N) :=
  match find (fun t => fst t =? c) code39_CHARS with
  | Some (_, enc) => Ret enc
  | None => Panic PanicExplicit
  end.

(** code39.rs:101-106, checksum_encoding *)
Definition code39_checksum_encoding (p : profile) (b : Code39) : M (list N) :=
  oc <- code39_checksum_char p b ;;
  match oc with
  | Some c => code39_char_encoding c
  | None => Panic PanicExplicit
  end.

(** code39.rs:117-120, push_encoding *)
Definition code39_push_encoding (into from : list N) : list N := into ++ from ++ [0].

(** code39.rs:122-134, payload *)
Definition code39_payload (p : profile) (b : Code39) : M (list N) :=
  enc <- foldM (fun enc c => e <- code39_char_encoding c ;; Ret (code39_push_encoding enc e))
               (c39_data b) [0] ;;
  if c39_checksum b
  then e <- code39_checksum_encoding p b ;; Ret (code39_push_encoding enc e)
  else Ret enc.

(** code39.rs:138-142, encode *)
Definition code39_encode (p : profile) (b : Code39) : M (list N) :=
  pl <- code39_payload p b ;;
  Ret (join_slices [code39_GUARD; pl; code39_GUARD]).
