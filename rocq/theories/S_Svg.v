(** * Specification: a reader of XML elements, of the SVG shapes they describe, and painting *)
From Verif Require Import Rust S_Barcode S_Text S_Num.

(** ** XML.  Elements with attributes and nested elements; no text, comments, entities,
    processing instructions.  Attribute values are in double quotes and contain no quote, less
    than, ampersand or control character.  Attribute names of an element are distinct.
    Whatever this reader accepts is a well-formed XML element. *)
Inductive xml : Type := Elem (name : str) (attrs : list (str * str)) (children : list xml).

Definition letterb (c : char) : bool := ((65 <=? c) && (c <=? 90)) || ((97 <=? c) && (c <=? 122)).
Definition name_charb (c : char) : bool := letterb c || digitb c || (c =? 45).
Definition xml_name (s : str) : option (str * str) :=
  match s with
  | c :: _ => if letterb c then Some (span name_charb s) else None
  | [] => None
  end.
(** Characters allowed in attribute values: 34 quote, 38 ampersand, 60 less than; 0xFFFE and
    0xFFFF are not XML characters *)
Definition xml_plain (c : char) : bool :=
  (32 <=? c) && negb (c =? 34) && negb (c =? 38) && negb (c =? 60)
  && negb (c =? 0xFFFE) && negb (c =? 0xFFFF).
Fixpoint distinct (l : list str) : bool :=
  match l with
  | [] => true
  | x :: tl => negb (existsb (str_eqb x) tl) && distinct tl
  end.
(** Attributes, each preceded by white space; stops before a slash (47) or greater than (62) *)
Fixpoint xml_attrs (fuel : nat) (s : str) : option (list (str * str) * str) :=
  match fuel with
  | O => None
  | S f =>
      match skip_space s with
      | [] => None
      | c :: r =>
          if (c =? 47) || (c =? 62) then Some ([], c :: r)
          else if is_space (hd 0 s) then
            let? n := xml_name (c :: r) in
            let? v := eat [61; 34] (snd n) in
            let (val, rest) := span xml_plain v in
            let? rest := eat [34] rest in
            let? x := xml_attrs f rest in
            Some ((fst n, val) :: fst x, snd x)
          else None
      end
  end.
Fixpoint xml_element (fuel : nat) (s : str) : option (xml * str) :=
  match fuel with
  | O => None
  | S f =>
      let? r := eat [60] s in
      let? n := xml_name r in
      let? a := xml_attrs f (snd n) in
      if distinct (map fst (fst a)) then
        match snd a with
        | 47 :: 62 :: r => Some (Elem (fst n) (fst a) [], r)
        | 62 :: r =>
            let? x := xml_content f r in
            let? r := eat (fst n) (snd x) in
            let? r := eat [62] (skip_space r) in
            Some (Elem (fst n) (fst a) (fst x), r)
        | _ => None
        end
      else None
  end
(** Nested elements up to and including the beginning of a closing tag *)
with xml_content (fuel : nat) (s : str) : option (list xml * str) :=
  match fuel with
  | O => None
  | S f =>
      match eat [60; 47] (skip_space s) with
      | Some r => Some ([], r)
      | None =>
          let? e := xml_element f (skip_space s) in
          let? x := xml_content f (snd e) in
          Some (fst e :: fst x, snd x)
      end
  end.
Definition read_xml (s : str) : option xml :=
  let? x := xml_element (S (length s)) (skip_space s) in
  match skip_space (snd x) with [] => Some (fst x) | _ => None end.

(** ** SVG: a view box and rectangles (SVG 1.1, sections 7.7, 9.2 and 11.3) *)
(** Colour of a fill: red, green, blue; opacity in hundredths *)
Record paint : Type := mkPaint { p_rgb : N * N * N; p_opacity : N }.
Record rectangle : Type := mkRectangle { r_x : N; r_y : N; r_w : N; r_h : N; r_paint : paint }.
Record drawing : Type := mkDrawing {
  d_box : N * N * N * N;         (* min-x, min-y, width, height *)
  d_xmlns : option str;
  d_rects : list rectangle }.

Fixpoint get (k : str) (l : list (str * str)) : option str :=
  match l with
  | [] => None
  | (k', v) :: tl => if str_eqb k k' then Some v else get k tl
  end.
Definition subset (l known : list str) : bool := forallb (fun x => existsb (str_eqb x) known) l.
(** #rrggbb *)
Definition read_colour (s : str) : option (N * N * N) :=
  match s with
  | [35; a; b; c; d; e; f] =>
      let? r := read_hex2 a b in let? g := read_hex2 c d in let? b := read_hex2 e f in
      Some (r, g, b)
  | _ => None
  end.
(** d.dd, at most one, in hundredths *)
Definition read_opacity (s : str) : option N :=
  match s with
  | [a; 46; b; c] =>
      if digitb a && digitb b && digitb c then
        let h := decimal (digits_of [a; b; c]) in if h <=? 100 then Some h else None
      else None
  | _ => None
  end.
(** A rectangle has exactly the attributes below; a missing fill-opacity means opaque. *)
Definition read_rect (e : xml) : option rectangle :=
  match e with
  | Elem n a [] =>
      if str_eqb n (lit "rect")
         && subset (map fst a) [lit "x"; lit "y"; lit "width"; lit "height"; lit "fill"; lit "fill-opacity"]
      then
        let? x := obind (get (lit "x") a) read_dec in
        let? y := obind (get (lit "y") a) read_dec in
        let? w := obind (get (lit "width") a) read_dec in
        let? h := obind (get (lit "height") a) read_dec in
        let? c := obind (get (lit "fill") a) read_colour in
        let? o := match get (lit "fill-opacity") a with
                  | Some t => read_opacity t
                  | None => Some 100
                  end in
        Some (mkRectangle x y w h (mkPaint c o))
      else None
  | _ => None
  end.
Definition read_drawing (e : xml) : option drawing :=
  match e with
  | Elem n a children =>
      if str_eqb n (lit "svg") && subset (map fst a) [lit "version"; lit "xmlns"; lit "viewBox"]
         && match get (lit "version") a with Some v => str_eqb v (lit "1.1") | None => false end
      then
        let? vb := get (lit "viewBox") a in
        match read_all read_dec (split_on 32 vb) with
        | Some [x; y; w; h] =>
            let? rs := read_all read_rect children in
            Some (mkDrawing (x, y, w, h) (get (lit "xmlns") a) rs)
        | _ => None
        end
      else None
  end.
Definition read_svg (s : str) : option drawing := obind (read_xml s) read_drawing.

(** ** Painting.  Rectangles are painted in order; with opaque paints the last rectangle
    covering a point gives its colour.  The unit square at (x, y) is covered as a whole or
    not at all, since all coordinates are integers. *)
Definition covers (r : rectangle) (x y : N) : bool :=
  (r_x r <=? x) && (x <? r_x r + r_w r) && (r_y r <=? y) && (y <? r_y r + r_h r).
Definition colour_at (d : drawing) (x y : N) : option paint :=
  fold_left (fun c r => if covers r x y then Some (r_paint r) else c) (d_rects d) None.

(** ** The drawing of a barcode *)
Definition bar_positions (b : list N) : list N :=
  filter (fun i => match nth_error b (N.to_nat i) with Some 1 => true | _ => false end) (range (len b)).
Definition barcode_drawing (height xdim : N) (fg bg : paint) (ns : option str) (b : list N) : drawing :=
  mkDrawing (0, 0, len b * xdim, height) ns
    (mkRectangle 0 0 (len b * xdim) height bg
       :: map (fun i => mkRectangle (i * xdim) 0 xdim height fg) (bar_positions b)).

(** [h] hundredths is alpha/255 rounded to the nearest hundredth (there are no ties, since
    255 is odd) *)
Definition rounds_to (alpha h : N) : Prop :=
  2 * (100 * alpha) < 255 * (2 * h + 1) /\ 255 * (2 * h) < 2 * (100 * alpha) + 255.
(** A paint shows a colour given by red, green, blue and alpha bytes *)
Definition shows (r g b a : N) (pt : paint) : Prop := p_rgb pt = (r, g, b) /\ rounds_to a (p_opacity pt).
(** The drawing a program computing positions modulo 2^32 makes *)
Definition wrapped_drawing (height xdim : N) (fg bg : paint) (ns : option str) (b : list N) : drawing :=
  let w := len b * xdim mod 2 ^ 32 in
  mkDrawing (0, 0, w, height) ns
    (mkRectangle 0 0 w height bg
       :: map (fun i => mkRectangle (i * xdim mod 2 ^ 32) 0 xdim height fg) (bar_positions b)).
