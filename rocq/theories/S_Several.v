(** * Specification: several printed characters replaced by something else *)
From Verif Require Import Rust Symbology S_Barcode S_Cell.
Local Open Scope nat_scope.

(** At most [k] characters are replaced, one after the other. *)
Fixpoint cells_changed (y : symbology) (k : nat) (ws ws' : list nat) : Prop :=
  match k with
  | O => ws' = ws
  | S k => cells_changed y k ws ws' \/ exists v, cell_changed y ws v /\ cells_changed y k v ws'
  end.
(** How many wrong characters it takes before a reader can be misled *)
Definition characters_needed (y : symbology) (s : str) : nat :=
  match y with
  | SCode93 => if length s <=? 14 then 3 else 2
  | _ => 2
  end.
