(** * Model of the Parse trait, src/sym.rs *)
From Verif Require Import Rust M_Error.

(** src/sym.rs:38-55, Parse::parse.  [valid_chars] and [lo..hi] are the
    implementor's valid_chars() and valid_len(); note that the upper bound of the
    range is accepted and that the byte length is truncated to u32. *)
Definition parse (valid_chars : list char) (lo hi : N) (data : str) : result str :=
  let data_len := cast_u 32 (str_len data) in
  if (data_len <? lo) || (hi <? data_len) then Err ELength
  else
    match find (fun c => negb (existsb (fun vc => vc =? c) valid_chars)) data with
    | Some _ => Err ECharacter
    | None => Ok data
    end.

(** valid_chars() of the digit symbologies: (0..10).map(from_digit.unwrap()).
    src/sym/ean13.rs:195-197, ean8.rs:116-118, upca.rs:157-159,
    ean_supp.rs:147-149, tf.rs:157-159.
    Simplification: evaluated once, the unwrap cannot fail for 0..10. *)
Definition digit_chars : list char :=
  [48; 49; 50; 51; 52; 53; 54; 55; 56; 57].
