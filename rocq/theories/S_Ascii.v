(** * Specification: barcodes drawn with characters, and reading them *)
From Verif Require Import Rust S_Barcode S_Text S_Num.

Definition bar_char : char := ch "#".
Definition space_char : char := ch " ".
(** One line: every module repeated [xdim] times *)
Definition text_line (xdim : N) (b : list N) : str :=
  flat_map (fun d => repeat (if d =? 1 then bar_char else space_char) (N.to_nat xdim)) b.
(** Lines separated by newlines (10), none after the last *)
Fixpoint join_lines (ls : list str) : str :=
  match ls with
  | [] => []
  | [l] => l
  | l :: ls' => l ++ 10 :: join_lines ls'
  end.

(** Reading: all lines are the same; the line is cut into pieces of [xdim] equal characters *)
Definition read_module (block : str) : option N :=
  match block with
  | c :: tl =>
      if forallb (N.eqb c) tl then
        if c =? bar_char then Some 1 else if c =? space_char then Some 0 else None
      else None
  | [] => None
  end.
Definition read_ascii (xdim : N) (s : str) : option (list N) :=
  match split_on 10 s with
  | l :: ls => if forallb (str_eqb l) ls
               then let? bs := chop (N.to_nat xdim) l in read_all read_module bs
               else None
  | [] => None
  end.
