(** * Specification: symbols printed next to each other on one line *)
From Verif Require Import Rust Symbology S_Barcode S_Ean S_All.

(** Each symbol is followed by some light modules. *)
Definition in_a_row (items : list (list N * nat)) : list N := flat_map (fun x => fst x ++ repeat 0 (snd x)) items.

(** Elements wider than four modules part the symbols. *)
Fixpoint part (acc : list nat) (ws : list nat) : list (list nat) :=
  match ws with
  | [] => [acc]
  | w :: tl => if Nat.ltb 4 w then acc :: part [] tl else part (acc ++ [w]) tl
  end.
Definition read_row (ys : list symbology) (line : list N) : option (list (option reading)) :=
  let? ws := scan line in
  let parts := part [] ws in
  guard (Nat.eqb (length parts) (length ys)) (Some (map (fun x => read_as (fst x) (snd x)) (combine ys parts))).
