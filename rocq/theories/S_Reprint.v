(** * Specification: printing again what was read *)
From Verif Require Import Rust Symbology S_Barcode S_Ean S_Text S_Linear S_Codabar S_Tf S_Code128 S_All.
Local Open Scope nat_scope.

(** Two pictures of one symbol: wide elements of the 2-of-5 symbologies may be two or three modules wide. *)
Definition alike (y : symbology) (ws ws' : list nat) : Prop :=
  match y with
  | SItf | SStf => squash ws = squash ws'
  | _ => ws = ws'
  end.
(** Ten data characters of Code 11 have one check character and eleven have two, so that no symbol has twelve
    characters and 83 elements; the reader would accept a second check character after ten. *)
Definition standard (y : symbology) (ws : list nat) : Prop :=
  match y with
  | SCode11 => length ws <> 83
  | _ => True
  end.
(** What a caller writes to have a reading printed; B and C are exchanged in Codabar (C30). *)
Definition source (y : symbology) (r : reading) : str :=
  match y, r with
  | SCode39Checked, Text t => removelast t
  | SCodabar, Text t => map exchange t
  | _, Text t => t
  | _, Digits ds => text_of ds
  | _, Tokens _ => []
  end.
(** Readings within the limits of the library: data of 1 to 256 characters, and no + in Codabar (C30) *)
Definition printable (y : symbology) (r : reading) : Prop :=
  match y, r with
  | SCode39Checked, Text t => c39_valid t /\ 2 <= length t <= 257
  | SCodabar, Text t => 1 <= length t <= 256 /\ ~ In (ch "+") t
  | (SCode39 | SCode93 | SCode11), Text t => 1 <= length t <= 256
  | (SItf | SStf), Digits ds => 1 <= length ds <= 256
  | _, _ => True
  end.
