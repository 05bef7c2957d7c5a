(** * Model of src/error.rs *)
From Verif Require Import Rust.

(** src/error.rs:9-18, enum Error *)
Inductive error : Type := ECharacter | ELength | EGenerate | EChecksum.

(** src/error.rs:21, Result<T> *)
Inductive result (A : Type) : Type :=
| Ok (a : A)
| Err (e : error).
Arguments Ok {A} a.
Arguments Err {A} e.

(** Result::map *)
Definition result_map {A B} (f : A -> B) (r : result A) : result B :=
  match r with Ok a => Ok (f a) | Err e => Err e end.

(** src/error.rs:23-32, impl Display for Error *)
Definition error_display (e : error) : str :=
  match e with
  | ECharacter => lit "Barcode data is invalid"
  | ELength => lit "Barcode data length is invalid"
  | EGenerate => lit "Could not generate barcode data"
  | EChecksum => lit "Invalid checksum"
  end.
