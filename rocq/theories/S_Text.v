(** * Specification vocabulary: texts of digits *)
From Verif Require Import Rust.

(** ASCII digit *)
Definition digit_char (c : char) : Prop := 48 <= c <= 57.
(** A decimal digit value *)
Definition is_digit (d : N) : Prop := d < 10.
(** The text written with these digits, and the digits of a text *)
Definition text_of (ds : list N) : str := map (fun d => d + 48) ds.
Definition digits_of (s : str) : list N := map (fun c => c - 48) s.
(** Modules written as a text of 0s and 1s (used in the concrete cases) *)
Definition modules (s : String.string) : list N := digits_of (lit s).
Arguments modules s%string_scope.
