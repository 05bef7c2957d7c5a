(** * Specification: reading the modules off each kind of output

    The module width [xdim] and the two colours are known to whoever looks; everything else
    is found in the output. *)
From Verif Require Import Rust M_Image S_Barcode S_Text S_Num S_Ascii S_Json S_Svg S_Image.

(** A run of [xdim] samples of one module: all of the bar colour or all of the other one *)
Definition read_samples {A} (eqb : A -> A -> bool) (fg bg : A) (block : list A) : option N :=
  match block with
  | [] => None
  | _ => if forallb (eqb fg) block then Some 1 else if forallb (eqb bg) block then Some 0 else None
  end.
Definition read_line {A} (eqb : A -> A -> bool) (fg bg : A) (xdim : N) (line : list A) : option (list N) :=
  let? blocks := chop (N.to_nat xdim) line in read_all (read_samples eqb fg bg) blocks.

(** JSON: the numbers of the member named encoding *)
Definition json_bit (j : json) : option N :=
  match j with JNum 0 => Some 0 | JNum 1 => Some 1 | _ => None end.
Fixpoint member (k : str) (m : list (str * json)) : option json :=
  match m with
  | [] => None
  | (k', j) :: tl => if str_eqb k k' then Some j else member k tl
  end.
Definition json_modules (s : str) : option (list N) :=
  match read_json s with
  | Some (JObj m) =>
      match member (lit "encoding") m with
      | Some (JArr l) => read_all json_bit l
      | _ => None
      end
  | _ => None
  end.

(** SVG: the topmost colours along the line at height [y] of the view box *)
Definition rgb_eqb (a b : N * N * N) : bool :=
  let '(r, g, b0) := a in let '(r', g', b') := b in (r =? r') && (g =? g') && (b0 =? b').
Definition svg_modules (fg bg : N * N * N) (xdim y : N) (s : str) : option (list N) :=
  let? d := read_svg s in
  let '(x0, y0, w, h) := d_box d in
  let? line := read_all (fun x => option_map p_rgb (colour_at d (x0 + x) (y0 + y))) (range w) in
  read_line rgb_eqb fg bg xdim line.

(** Pictures: the line number [k] that crosses the bars from first to last: left to right, or
    for turned pictures top to bottom, right to left, bottom to top *)
Definition rgba_eqb (a b : rgba) : bool :=
  (px_r a =? px_r b) && (px_g a =? px_g b) && (px_b a =? px_b b) && (px_a a =? px_a b).
Definition image_line (r : rotation) (buf : buffer) (k : N) : option (list rgba) :=
  let w := buf_w buf in let h := buf_h buf in let px := buf_px buf in
  match r with
  | RZero => read_all (fun t => pixel w px t k) (range w)
  | RNinety => read_all (fun t => pixel w px k t) (range h)
  | ROneEighty => option_map (@rev rgba) (read_all (fun t => pixel w px t k) (range w))
  | RTwoSeventy => option_map (@rev rgba) (read_all (fun t => pixel w px k t) (range h))
  end.
Definition image_modules (r : rotation) (fg bg : rgba) (xdim k : N) (buf : buffer) : option (list N) :=
  let? line := image_line r buf k in read_line rgba_eqb fg bg xdim line.
