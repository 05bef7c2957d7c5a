(** * Model of src/generators/svg.rs *)
From Coq Require Import SpecFloat.
From Verif Require Import Rust M_Error M_Json.

(** src/generators/svg.rs:55-58, struct Color; [rgba] is public, a [u8; 4] *)
Record color : Type := mkColor { red : N; green : N; blue : N; alpha : N }.

(** svg.rs:67-74, Color::black and Color::white *)
Definition color_black : color := mkColor 0 0 0 255.
Definition color_white : color := mkColor 255 255 255 255.

(** svg.rs:44-50, to_hex_digit *)
Definition to_hex_digit (p : profile) (n : N) : M char :=
  if n <? 10 then add_u 8 p n 48
  else if n <? 16 then add_u 8 p n 87
  else Ret (ch "0").

(** svg.rs:36-42, format_hex *)
Definition format_hex (p : profile) (n : N) : M str :=
  hi <- to_hex_digit p (n / 16) ;;
  lo <- to_hex_digit p (n mod 16) ;;
  Ret [hi; lo].

(** svg.rs:81-89, to_hex: rgba.iter().take(3) *)
Definition to_hex (p : profile) (c : color) : M str :=
  hs <- mapM (format_hex p) [red c; green c; blue c] ;;
  Ret (concat hs).

(** u8 as f64 (exact), f64 division: IEEE-754 binary64, Coq's SpecFloat *)
Definition f64_of_u8 (n : N) : spec_float :=
  match n with
  | 0 => S754_zero false
  | Npos m => binary_normalize 53 1024 (Zpos m) 0 false
  end.

(** Rust's {:.2} of a finite non-negative f64: its exact value m*2^e rounded to
    the nearest hundredth, ties to even, then printed with two decimals.
    Simplification: infinities and NaN print as the empty string; they cannot
    arise from a u8 divided by 255.0. *)
Definition round_hundredths (f : spec_float) : option N :=
  match f with
  | S754_zero _ => Some 0
  | S754_finite false m (Zneg e) =>
      let num := 100 * Npos m in
      let den := 2 ^ Npos e in
      let q := num / den in
      let r := num mod den in
      Some (match N.compare (2 * r) den with
            | Lt => q
            | Gt => q + 1
            | Eq => if N.even q then q else q + 1
            end)
  | S754_finite false m e => Some (100 * Npos m * 2 ^ Z.to_N e)
  | _ => None
  end.

Definition fmt_fixed2 (f : spec_float) : str :=
  match round_hundredths f with
  | Some h => fmt_dec (h / 100) ++ lit "." ++ [48 + h / 10 mod 10; 48 + h mod 10]
  | None => []
  end.

(** svg.rs:76-78, to_opacity *)
Definition to_opacity (c : color) : str :=
  fmt_fixed2 (SFdiv 53 1024 (f64_of_u8 (alpha c)) (f64_of_u8 255)).

(** svg.rs:93-105, struct SVG, public fields *)
Record SVG : Type := mkSVG {
  svg_height : N;
  svg_xdim : N;
  svg_foreground : color;
  svg_background : color;
  svg_xmlns : option str }.

(** svg.rs:109-121, SVG::new *)
Definition svg_new (height : N) : SVG := mkSVG height 1 color_black color_white None.
(** svg.rs:124-127, xmlns *)
Definition svg_set_xmlns (g : SVG) (uri : str) : SVG :=
  mkSVG (svg_height g) (svg_xdim g) (svg_foreground g) (svg_background g) (Some uri).
(** svg.rs:130-133, xdim *)
Definition svg_set_xdim (g : SVG) (x : N) : SVG :=
  mkSVG (svg_height g) x (svg_foreground g) (svg_background g) (svg_xmlns g).
(** svg.rs:136-139, foreground *)
Definition svg_set_foreground (g : SVG) (c : color) : SVG :=
  mkSVG (svg_height g) (svg_xdim g) c (svg_background g) (svg_xmlns g).
(** svg.rs:142-145, background *)
Definition svg_set_background (g : SVG) (c : color) : SVG :=
  mkSVG (svg_height g) (svg_xdim g) (svg_foreground g) c (svg_xmlns g).

(** A chain of setter calls, as in svg.rs:19-23: SVG::new(100).xdim(2)... *)
Inductive svg_call : Type :=
| CallXmlns (uri : str) | CallXdim (x : N) | CallForeground (c : color) | CallBackground (c : color).
Definition svg_apply (g : SVG) (c : svg_call) : SVG :=
  match c with
  | CallXmlns u => svg_set_xmlns g u
  | CallXdim x => svg_set_xdim g x
  | CallForeground c => svg_set_foreground g c
  | CallBackground c => svg_set_background g c
  end.
Definition svg_build (height : N) (calls : list svg_call) : SVG := fold_left svg_apply calls (svg_new height).

(** attr="value" *)
Definition attr (name : str) (value : str) : str := name ++ lit "=" ++ dq ++ value ++ dq.

(** svg.rs:153-156, the fill-opacity part of rect *)
Definition svg_opacity_attr (c : color) : str :=
  let o := to_opacity c in
  if str_eqb o (lit "1.00") || str_eqb o (lit "1") then []
  else lit " " ++ attr (lit "fill-opacity") o ++ lit " ".

(** svg.rs:147-166, rect *)
Definition svg_rect (p : profile) (g : SVG) (style offset width : N) : M str :=
  let fill := if style =? 1 then svg_foreground g else svg_background g in
  let opacity := svg_opacity_attr fill in
  hex <- to_hex p fill ;;
  Ret (lit "<rect " ++ attr (lit "x") (fmt_dec offset) ++ lit " "
         ++ attr (lit "y") (lit "0") ++ lit " "
         ++ attr (lit "width") (fmt_dec width) ++ lit " "
         ++ attr (lit "height") (fmt_dec (svg_height g)) ++ lit " "
         ++ attr (lit "fill") (lit "#" ++ hex) ++ opacity ++ lit "/>").

(** svg.rs:170-193, generate *)
Definition svg_generate (p : profile) (g : SVG) (barcode : list N) : M (result str) :=
  width <- mul_u 32 p (cast_u 32 (len barcode)) (svg_xdim g) ;;
  rects <- mapM (fun x => let '(i, n) := x in
                          off <- mul_u 32 p (cast_u 32 i) (svg_xdim g) ;;
                          svg_rect p g n off (svg_xdim g))
                (filter (fun x => snd x =? 1) (enumerate barcode)) ;;
  let xmlns := match svg_xmlns g with
               | Some u => attr (lit "xmlns") u ++ lit " "
               | None => []
               end in
  bg <- svg_rect p g 0 0 width ;;
  Ret (Ok (lit "<svg " ++ attr (lit "version") (lit "1.1") ++ lit " " ++ xmlns
             ++ attr (lit "viewBox") (lit "0 0 " ++ fmt_dec width ++ lit " "
                                        ++ fmt_dec (svg_height g))
             ++ lit ">" ++ bg ++ concat rects ++ lit "</svg>")).
