(** * Model of src/sym/code11.rs *)
From Verif Require Import Rust M_Error M_Parse M_Helpers M_Tables.

(** src/sym/code11.rs:36, struct Code11(Vec<char>), private field.
    USD8 (line 39) is an alias. *)
Inductive Code11 : Type := mkCode11 (d0 : list char).
Definition c11_0 (b : Code11) : list char := let 'mkCode11 d := b in d.

(** code11.rs:132-135, valid_chars *)
Definition code11_valid_chars : list char := map fst code11_CHARS.

(** code11.rs:44-46, new (with parse, lines 124-129) *)
Definition code11_new (data : str) : result Code11 :=
  result_map mkCode11 (parse code11_valid_chars 1 256 data).

(** code11.rs:48-53, char_encoding *)
Definition code11_char_encoding (c : char) : M (list N) :=
  match find (fun t => fst t =? c) code11_CHARS with
  | Some (_, enc) => Ret enc
  | None => Panic PanicExplicit
  end.

(** code11.rs:57, closure get_char_pos *)
Definition code11_char_pos (c : char) : M N :=
  unwrap (position (fun t => fst t =? c) code11_CHARS).

(** code11.rs:58-61, closure weight *)
Definition code11_weight (threshold i : N) : M N :=
  r <- rem_u i threshold ;;
  Ret (if r =? 0 then threshold else r).

(** code11.rs:56-73, checksum_char: positions from the right, enumerated. *)
Definition code11_checksum_char (p : profile) (data : list char) (threshold : N)
  : M (option char) :=
  idx <- foldM (fun acc x =>
                  let '(i, c) := x in
                  pos <- code11_char_pos c ;;
                  i1 <- add_u usize_bits p i 1 ;;
                  w <- code11_weight threshold i1 ;;
                  t <- mul_u usize_bits p w pos ;;
                  add_u usize_bits p acc t)
               (enumerate (rev data)) 0 ;;
  r <- rem_u idx (len code11_CHARS) ;;
  Ret (option_map fst (nth_error code11_CHARS (N.to_nat r))).

(** code11.rs:76-78, c_checksum_char *)
Definition code11_c_checksum_char (p : profile) (b : Code11) : M (option char) :=
  code11_checksum_char p (c11_0 b) 10.

(** code11.rs:81-86, k_checksum_char *)
Definition code11_k_checksum_char (p : profile) (b : Code11) (c : char) : M (option char) :=
  code11_checksum_char p (c11_0 b ++ [c]) 9.

(** code11.rs:88-91, push_encoding *)
Definition code11_push_encoding (into from : list N) : list N :=
  into ++ from ++ code11_SEPARATOR.

(** code11.rs:93-113, payload *)
Definition code11_payload (p : profile) (b : Code11) : M (list N) :=
  oc <- code11_c_checksum_char p b ;;
  c <- unwrap oc ;;
  enc <- foldM (fun enc ch => e <- code11_char_encoding ch ;; Ret (code11_push_encoding enc e))
               (c11_0 b) [] ;;
  ce <- code11_char_encoding c ;;
  let enc := code11_push_encoding enc ce in
  if 10 <? len (c11_0 b) then
    ok <- code11_k_checksum_char p b c ;;
    k <- unwrap ok ;;
    ke <- code11_char_encoding k ;;
    Ret (code11_push_encoding enc ke)
  else Ret enc.

(** code11.rs:117-121, encode *)
Definition code11_encode (p : profile) (b : Code11) : M (list N) :=
  pl <- code11_payload p b ;;
  Ret (join_slices [code11_GUARD; code11_SEPARATOR; pl; code11_GUARD]).
