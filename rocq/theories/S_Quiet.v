(** * Specification: quiet zones

    The standards ask for an empty margin on both sides of a symbol, in modules; readers that keep to them report nothing
    without it. *)
From Verif Require Import Rust Symbology S_Barcode S_Ean S_Linear S_All.

Fixpoint light_before (l : list N) : nat :=
  match l with
  | 0%N :: tl => S (light_before tl)
  | _ => 0
  end.
Definition light_after (l : list N) : nat := light_before (rev l).
(** GS1 General Specifications, 5.2.3 and 5.2.4 (for add-ons: the gap to the main symbol and the zone after them); ten
    modules in the standards of the other symbologies *)
Definition quiet_zones (y : symbology) : nat * nat :=
  match y with
  | SEan13 => (11, 7)
  | SEan8 => (7, 7)
  | SUpca => (9, 9)
  | SSupp => (7, 5)
  | _ => (10, 10)
  end%nat.
Definition read_quiet (y : symbology) (l : list N) : option reading :=
  let zones := quiet_zones y in
  guard (Nat.leb (fst zones) (light_before l) && Nat.leb (snd zones) (light_after l)) (read_modules y l).
(** What a caller can do about it *)
Definition with_margins (a b : nat) (m : list N) : list N := repeat 0 a ++ m ++ repeat 0 b.
