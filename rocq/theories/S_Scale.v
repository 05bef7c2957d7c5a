(** * Specification: pictures enlarged, and pictures put together *)
From Verif Require Import Rust S_Svg.

(** Every item [k] times *)
Definition enlarge {A} (k : N) (l : list A) : list A := flat_map (fun c => repeat c (N.to_nat k)) l.
(** A text, line by line: every character [k] times, every line [k] times *)
Definition enlarge_lines (k : N) (ls : list str) : list str := enlarge k (map (enlarge k) ls).
(** Texts with equally many lines, side by side *)
Fixpoint beside (l r : list str) : list str :=
  match l, r with
  | a :: l', b :: r' => (a ++ b) :: beside l' r'
  | _, _ => []
  end.
(** A drawing, all lengths multiplied by [k] *)
Definition enlarge_rectangle (k : N) (r : rectangle) : rectangle :=
  mkRectangle (k * r_x r) (k * r_y r) (k * r_w r) (k * r_h r) (r_paint r).
Definition enlarge_drawing (k : N) (d : drawing) : drawing :=
  let '(x, y, w, h) := d_box d in
  mkDrawing (k * x, k * y, k * w, k * h) (d_xmlns d) (map (enlarge_rectangle k) (d_rects d)).
