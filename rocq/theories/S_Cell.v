(** * Specification: one printed character replaced by something else *)
From Verif Require Import Rust Symbology S_Barcode S_Ean S_Text S_Linear S_Codabar S_Tf S_Code128 S_All S_Check128.
Local Open Scope nat_scope.

(** Elements of one printed character, and where characters begin *)
Definition cell_size (y : symbology) : nat :=
  match y with
  | SCode39 | SCode39Checked => 9
  | SCode93 | SCode128 => 6
  | SCode11 => 5
  | SCodabar => 7
  | SItf => 10
  | SStf => 10
  | _ => 4
  end.
Definition cell_start (y : symbology) (n : nat) : Prop :=
  match y with
  | SEan13 | SUpca => exists i, i < 6 /\ (n = 3 + 4 * i \/ n = 32 + 4 * i)
  | SEan8 => exists i, i < 4 /\ (n = 3 + 4 * i \/ n = 24 + 4 * i)
  | SSupp => exists i, n = 3 + 6 * i
  | SCode39 | SCode39Checked => exists i, n = 10 * i
  | SCode93 | SCode11 => exists i, n = 6 * i
  | SCode128 => exists i, n = 6 * i /\ ~ weightless i
  | _ => False
  end.
(** The elements of one character are replaced by as many arbitrary widths. *)
Definition cell_changed (y : symbology) (ws ws' : list nat) : Prop :=
  exists u b b' v, ws = u ++ b ++ v /\ ws' = u ++ b' ++ v /\ b <> b' /\
    length b = cell_size y /\ length b' = cell_size y /\ cell_start y (length u).

(** Symbologies with a check character; two-digit add-ons do not count. *)
Definition checked (y : symbology) (s : str) : Prop :=
  match y with
  | SEan13 | SEan8 | SUpca | SCode39Checked | SCode93 | SCode11 | SCode128 => True
  | SSupp => length s = 5
  | _ => False
  end.
(** The check character of Code 39 is optional, so its reader reports it as data. *)
Definition verified (y : symbology) (r : reading) : Prop :=
  match y, r with
  | SCode39Checked, Text t => c39_valid t
  | _, _ => True
  end.
