(** * Specification: readers that are not told the module width, nor which way the picture is turned *)
From Verif Require Import Rust Symbology M_Image S_Barcode S_Ean S_Text S_Num S_Ascii S_Svg S_Image S_All S_Gen.

(** A line of samples, [k] to the module *)
Definition enlarged (k : nat) (m : list N) : list N := flat_map (fun x => repeat x k) m.

(** The narrowest element is taken for the module *)
Fixpoint narrowest (ws : list nat) : nat :=
  match ws with
  | [] => 0
  | [w] => w
  | w :: tl => Nat.min w (narrowest tl)
  end.
Definition blind_read (y : symbology) (line : list N) : option reading :=
  let? ws := scan line in
  let u := narrowest ws in
  guard (forallb (fun w => Nat.eqb (Nat.modulo w u) 0) ws) (read_as y (map (fun w => Nat.div w u) ws)).
Definition either_way (y : symbology) (line : list N) : option reading :=
  match blind_read y line with Some r => Some r | None => blind_read y (rev line) end.

(** Pixels along a line across a picture that need not be straight: column [t] is looked at in row [f t],
    or row [t] in column [f t] *)
Definition rightwards (buf : buffer) (f : N -> N) : option (list rgba) :=
  read_all (fun t => pixel (buf_w buf) (buf_px buf) t (f t)) (range (buf_w buf)).
Definition downwards (buf : buffer) (f : N -> N) : option (list rgba) :=
  read_all (fun t => pixel (buf_w buf) (buf_px buf) (f t) t) (range (buf_h buf)).
(** Across the bars of a picture turned by [r], from first to last *)
Definition crossing (r : rotation) (buf : buffer) (f : N -> N) : option (list rgba) :=
  match r with
  | RZero => rightwards buf f
  | RNinety => downwards buf f
  | ROneEighty => option_map (@rev rgba) (rightwards buf f)
  | RTwoSeventy => option_map (@rev rgba) (downwards buf f)
  end.
Definition marks {A} (eqb : A -> A -> bool) (fg : A) (line : list A) : list N := map (fun c => if eqb fg c then 1 else 0) line.

(** The same in a drawing *)
Definition svg_rightwards (s : str) (f : N -> N) : option (list (N * N * N)) :=
  let? d := read_svg s in
  let '(x0, y0, w, h) := d_box d in
  read_all (fun x => option_map p_rgb (colour_at d (x0 + x) (y0 + f x))) (range w).

(** A reader that looks at one row, then at one column *)
Definition read_picture (y : symbology) (fg : rgba) (row column : N) (buf : buffer) : option reading :=
  let see line := obind line (fun l => either_way y (marks rgba_eqb fg l)) in
  match see (rightwards buf (fun _ => row)) with
  | Some r => Some r
  | None => see (downwards buf (fun _ => column))
  end.
