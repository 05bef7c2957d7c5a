(** * Properties C49-C52: the SVG generator *)
From Verif Require Import Rust M_Error M_Svg S_Barcode S_Text S_Num S_Svg P_Svg P_Svg2.

(** [good_svg g]: the colours of [g] consist of bytes, and an xmlns, when set, contains no
    quote, less than, ampersand, control character, U+FFFE or U+FFFF. *)
Example good_svg_meaning : forall g, good_svg g <->
  (red (svg_foreground g) < 256 /\ green (svg_foreground g) < 256 /\ blue (svg_foreground g) < 256 /\ alpha (svg_foreground g) < 256) /\
  (red (svg_background g) < 256 /\ green (svg_background g) < 256 /\ blue (svg_background g) < 256 /\ alpha (svg_background g) < 256) /\
  match svg_xmlns g with Some u => forallb xml_plain u = true | None => True end.
Proof. intros g. reflexivity. Qed.

(** ** C49.  [read_svg] reads the text as XML (so it is well-formed) and then as a drawing;
    [barcode_drawing] has the view box, the background rectangle and one foreground rectangle
    per bar. *)
Theorem C49_svg_document : forall p g b, good_svg g -> len b * svg_xdim g < 2 ^ 32 ->
  exists out fg bg, svg_generate p g b = Ret (Ok out) /\
    let f := svg_foreground g in let k := svg_background g in
    shows (red f) (green f) (blue f) (alpha f) fg /\ shows (red k) (green k) (blue k) (alpha k) bg /\
    read_svg out = Some (barcode_drawing (svg_height g) (svg_xdim g) fg bg (svg_xmlns g) b).
Proof.
  intros p g b HG H. destruct (svg_fits p g b HG H) as [out [E R]]. exists out, (paint_of (svg_foreground g)), (paint_of (svg_background g)).
  split; [assumption|]. cbv zeta. split; [apply paint_shows, HG|]. split; [apply paint_shows, HG | assumption].
Qed.
Print Assumptions C49_svg_document.
(** The positions of the bars, without [filter] *)
Theorem C49_bar_positions : forall b i, In i (bar_positions b) <-> nth_error b (N.to_nat i) = Some 1.
Proof. exact bar_positions_In. Qed.
Print Assumptions C49_bar_positions.
Definition case_svg : SVG := mkSVG 80 2 (mkColor 10 20 255 128) color_white (Some (lit "http://www.w3.org/2000/svg")).
Example C49_case : good_svg case_svg /\ len [1; 0; 0; 1] * svg_xdim case_svg < 2 ^ 32 /\
  exists out, svg_generate Debug case_svg [1; 0; 0; 1] = Ret (Ok out) /\
    read_svg out = Some (mkDrawing (0, 0, 8, 80) (Some (lit "http://www.w3.org/2000/svg"))
      [mkRectangle 0 0 8 80 (mkPaint (255, 255, 255) 100);
       mkRectangle 0 0 2 80 (mkPaint (10, 20, 255) 50);
       mkRectangle 6 0 2 80 (mkPaint (10, 20, 255) 50)]).
Proof.
  split; [|split; [reflexivity|]].
  - repeat split.
  - exists (match svg_generate Debug case_svg [1; 0; 0; 1] with Ret (Ok t) => t | _ => [] end).
    split; vm_compute; reflexivity.
Qed.
(** The reader is not vacuous: it rejects broken documents. *)
Example C49_reader_rejects :
  read_xml (lit "<svg><rect></svg>") = None /\ read_xml (lit "<svg></rect>") = None /\
  read_xml (lit "<svg>") = None /\ read_xml (lit "<svg a=1></svg>") = None /\
  read_xml (lit "<svg></svg>") = Some (Elem (lit "svg") [] []).
Proof. vm_compute. repeat split. Qed.

(** ** C50.  The colour of the unit square at (x, y) after painting *)
Theorem C50_svg_painting : forall p g b, good_svg g -> len b * svg_xdim g < 2 ^ 32 ->
  exists out d fg bg, svg_generate p g b = Ret (Ok out) /\ read_svg out = Some d /\
    let f := svg_foreground g in let k := svg_background g in
    shows (red f) (green f) (blue f) (alpha f) fg /\ shows (red k) (green k) (blue k) (alpha k) bg /\
    forall x y, colour_at d x y =
      if (x <? len b * svg_xdim g) && (y <? svg_height g)
      then Some (match nth_error b (N.to_nat (x / svg_xdim g)) with Some 1 => fg | _ => bg end)
      else None.
Proof.
  intros p g b HG H. destruct (svg_fits p g b HG H) as [out [E R]]. eexists out, _, (paint_of (svg_foreground g)), (paint_of (svg_background g)).
  split; [assumption|]. split; [exact R|]. cbv zeta. split; [apply paint_shows, HG|]. split; [apply paint_shows, HG|].
  intros x y. apply colour_at_spec.
Qed.
Print Assumptions C50_svg_painting.
Example C50_case :
  let d := barcode_drawing 80 2 (mkPaint (0, 0, 0) 100) (mkPaint (255, 255, 255) 100) None [1; 0; 0; 1] in
  map (fun x => colour_at d x 79) [0; 1; 2; 5; 6; 7; 8] =
  [Some (mkPaint (0, 0, 0) 100); Some (mkPaint (0, 0, 0) 100); Some (mkPaint (255, 255, 255) 100);
   Some (mkPaint (255, 255, 255) 100); Some (mkPaint (0, 0, 0) 100); Some (mkPaint (0, 0, 0) 100); None].
Proof. vm_compute. reflexivity. Qed.

(** ** C51.  False of the code: the width is computed in 32 bits.  Two bars 2^31 wide panic
    with overflow checks; without, the view box has width 0. *)
Theorem C51_svg_width_refuted :
  exists g b, good_svg g /\ svg_xdim g < 2 ^ 32 /\ b = [1; 1] /\ len b * svg_xdim g = 2 ^ 32 /\
    svg_generate Debug g b = Panic PanicOverflow /\
    exists out d, svg_generate Release g b = Ret (Ok out) /\ read_svg out = Some d /\ d_box d = (0, 0, 0, svg_height g).
Proof.
  exists (mkSVG 80 (2 ^ 31) color_black color_white None), [1; 1].
  assert (HG : good_svg (mkSVG 80 (2 ^ 31) color_black color_white None)) by repeat split.
  split; [assumption|]. split; [reflexivity|]. split; [reflexivity|]. split; [reflexivity|]. split; [reflexivity|].
  destruct (svg_release _ [1; 1] HG) as [out [E R]]. exists out. eexists. split; [exact E|]. split; [exact R|]. reflexivity.
Qed.
Print Assumptions C51_svg_width_refuted.
(** What holds: the width is true whenever it fits 32 bits (C49).  When it does not, the
    checked build panics (barcodes of fewer than 2^32 modules) and the unchecked build draws
    everything modulo 2^32.  Missing for C51: a true width in those cases. *)
Theorem C51_svg_checked_partial : forall g b, len b < 2 ^ 32 -> 2 ^ 32 <= len b * svg_xdim g ->
  svg_generate Debug g b = Panic PanicOverflow.
Proof. exact svg_debug_panics. Qed.
Print Assumptions C51_svg_checked_partial.
Theorem C51_svg_unchecked_partial : forall g b, good_svg g ->
  exists out fg bg, svg_generate Release g b = Ret (Ok out) /\
    let f := svg_foreground g in let k := svg_background g in
    shows (red f) (green f) (blue f) (alpha f) fg /\ shows (red k) (green k) (blue k) (alpha k) bg /\
    read_svg out = Some (wrapped_drawing (svg_height g) (svg_xdim g) fg bg (svg_xmlns g) b).
Proof.
  intros g b HG. destruct (svg_release g b HG) as [out [E R]]. exists out, (paint_of (svg_foreground g)), (paint_of (svg_background g)).
  split; [assumption|]. cbv zeta. split; [apply paint_shows, HG|]. split; [apply paint_shows, HG | assumption].
Qed.
Print Assumptions C51_svg_unchecked_partial.
(** Exactly which documents a checked build writes; they are those of the unchecked build. *)
Theorem C51_svg_exact_partial : forall g b,
  (red (svg_foreground g) < 256 /\ green (svg_foreground g) < 256 /\ blue (svg_foreground g) < 256 /\ alpha (svg_foreground g) < 256) ->
  (red (svg_background g) < 256 /\ green (svg_background g) < 256 /\ blue (svg_background g) < 256 /\ alpha (svg_background g) < 256) ->
  (returns (svg_generate Debug g b) <->
    len b mod 2 ^ 32 * svg_xdim g < 2 ^ 32 /\ forall i, nth_error b (N.to_nat i) = Some 1 -> i mod 2 ^ 32 * svg_xdim g < 2 ^ 32) /\
  (forall r, svg_generate Debug g b = Ret r -> svg_generate Release g b = Ret r).
Proof. exact svg_debug_exact. Qed.
Print Assumptions C51_svg_exact_partial.
Example C51_exact_case : ~ returns (svg_generate Debug (mkSVG 80 (2 ^ 31) color_black color_white None) [0; 0; 0]) /\
  returns (svg_generate Debug (mkSVG 80 (2 ^ 30) color_black color_white None) [1; 0; 1]).
Proof. split; [intros [r E]; discriminate | eexists; vm_compute; reflexivity]. Qed.
Example C51_case : d_box (wrapped_drawing 80 (2 ^ 31) (mkPaint (0, 0, 0) 100) (mkPaint (0, 0, 0) 100) None [1; 0; 1]) = (0, 0, 2 ^ 31, 80).
Proof. reflexivity. Qed.

(** ** C52.  [svg_rect] writes every rectangle, of the background (style 0) and of the bars
    (style 1).  [read_colour] accepts exactly # and six lowercase hexadecimal digits. *)
Theorem C52_svg_colours : forall p g style off w,
  let c := if style =? 1 then svg_foreground g else svg_background g in
  (red c < 256 /\ green c < 256 /\ blue c < 256 /\ alpha c < 256) ->
  exists t attrs fill, svg_rect p g style off w = Ret t /\
    read_xml t = Some (Elem (lit "rect") attrs []) /\
    get (lit "fill") attrs = Some fill /\ read_colour fill = Some (red c, green c, blue c) /\
    (rounds_to (alpha c) 100 -> get (lit "fill-opacity") attrs = None) /\
    (~ rounds_to (alpha c) 100 -> exists o h, get (lit "fill-opacity") attrs = Some o /\
       read_opacity o = Some h /\ rounds_to (alpha c) h).
Proof. exact svg_rect_fill. Qed.
Print Assumptions C52_svg_colours.
Theorem C52_rounding_unique : forall a h h', rounds_to a h -> rounds_to a h' -> h = h'.
Proof. exact rounds_to_unique. Qed.
Print Assumptions C52_rounding_unique.
(** Alpha 254 counts as opaque, 253 does not. *)
Example C52_case : rounds_to 254 100 /\ rounds_to 253 99 /\
  svg_rect Debug (mkSVG 5 1 (mkColor 1 171 0 253) color_white None) 1 3 4 =
    Ret (lit "<rect x=" ++ [34] ++ lit "3" ++ [34] ++ lit " y=" ++ [34] ++ lit "0" ++ [34] ++ lit " width=" ++ [34] ++ lit "4" ++ [34] ++
         lit " height=" ++ [34] ++ lit "5" ++ [34] ++ lit " fill=" ++ [34] ++ lit "#01ab00" ++ [34] ++
         lit " fill-opacity=" ++ [34] ++ lit "0.99" ++ [34] ++ lit " />").
Proof. split; [split; reflexivity|]. split; [split; reflexivity | vm_compute; reflexivity]. Qed.
