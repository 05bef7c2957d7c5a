(** * Model of src/sym/code93.rs *)
From Verif Require Import Rust M_Error M_Parse M_Helpers M_Tables.

(** src/sym/code93.rs:74, struct Code93(Vec<char>), private field *)
Inductive Code93 : Type := mkCode93 (d0 : list char).
Definition c93_0 (b : Code93) : list char := let 'mkCode93 d := b in d.

(** code93.rs:158-161, valid_chars *)
Definition code93_valid_chars : list char := map fst code93_CHARS.

(** code93.rs:79-81, new (with parse, lines 150-155) *)
Definition code93_new (data : str) : result Code93 :=
  result_map mkCode93 (parse code93_valid_chars 1 256 data).

(** code93.rs:83-88, char_encoding *)
Definition code93_char_encoding (c : char) : M (list N) :=
  match find (fun t => fst t =? c) code93_CHARS with
  | Some (_, enc) => Ret enc
  | None => Panic PanicExplicit
  end.

(** code93.rs:92, closure get_char_pos *)
Definition code93_char_pos (c : char) : M N :=
  unwrap (position (fun t => fst t =? c) code93_CHARS).

(** code93.rs:93-96, closure weight *)
Definition code93_weight (p : profile) (data_len threshold i : N) : M N :=
  k <- sub_u usize_bits p data_len i ;;
  r <- rem_u k threshold ;;
  Ret (if r =? 0 then threshold else r).

(** code93.rs:91-103, checksum_char.  The lazy map/enumerate/fold is one fold. *)
Definition code93_checksum_char (p : profile) (data : list char) (threshold : N)
  : M (option char) :=
  idx <- foldM (fun acc x =>
                  let '(i, c) := x in
                  pos <- code93_char_pos c ;;
                  w <- code93_weight p (len data) threshold i ;;
                  t <- mul_u usize_bits p w pos ;;
                  add_u usize_bits p acc t)
               (enumerate data) 0 ;;
  r <- rem_u idx (len code93_CHARS) ;;
  Ret (option_map fst (nth_error code93_CHARS (N.to_nat r))).

(** code93.rs:106-108, c_checksum_char *)
Definition code93_c_checksum_char (p : profile) (b : Code93) : M (option char) :=
  code93_checksum_char p (c93_0 b) 20.

(** code93.rs:111-116, k_checksum_char *)
Definition code93_k_checksum_char (p : profile) (b : Code93) (c : char) : M (option char) :=
  code93_checksum_char p (c93_0 b ++ [c]) 15.

(** code93.rs:118-120, push_encoding *)
Definition code93_push_encoding (into from : list N) : list N := into ++ from.

(** code93.rs:122-138, payload *)
Definition code93_payload (p : profile) (b : Code93) : M (list N) :=
  oc <- code93_c_checksum_char p b ;;
  c <- unwrap oc ;;
  ok <- code93_k_checksum_char p b c ;;
  k <- unwrap ok ;;
  enc <- foldM (fun enc ch => e <- code93_char_encoding ch ;; Ret (code93_push_encoding enc e))
               (c93_0 b) [] ;;
  ce <- code93_char_encoding c ;;
  ke <- code93_char_encoding k ;;
  Ret (code93_push_encoding (code93_push_encoding enc ce) ke).

(** code93.rs:142-147, encode *)
Definition code93_encode (p : profile) (b : Code93) : M (list N) :=
  pl <- code93_payload p b ;;
  Ret (join_slices [code93_GUARD; pl; code93_GUARD; code93_TERMINATOR]).
