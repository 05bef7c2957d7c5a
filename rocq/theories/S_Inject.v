(** * Specification: strings carrying the same data *)
From Verif Require Import Rust Symbology.

(** The same data: equal strings, up to an optional check digit. *)
Definition same_data (y : symbology) (s s' : str) : Prop :=
  match y with
  | SEan13 => firstn 12 s = firstn 12 s'
  | SEan8 => firstn 7 s = firstn 7 s'
  | SUpca => firstn 11 s = firstn 11 s'
  | SItf => s = s' \/ (exists c, s' = s ++ [c]) \/ (exists c, s = s' ++ [c])
  | _ => s = s'
  end.
