(** * Property C103: enlarged pictures, and pictures put together *)
From Verif Require Import Rust M_Error M_Ascii M_Svg M_Image S_Barcode S_Text S_Num S_Ascii S_Svg S_Image S_Scale
  P_Ascii P_Svg P_Svg2 P_Image P_Image2 P_Scale.

(** ** C103.  Multiplying height and x dimension by [k] enlarges the picture [k] times, for any bytes drawn. *)
(** Characters: every character and every line comes [k] times. *)
Theorem C103_ascii_enlarged : forall p height xdim k b out, 1 <= height -> 1 <= k ->
  ascii_generate p (mkASCII height xdim) b = Ret (Ok out) ->
  exists out', ascii_generate p (mkASCII (k * height) (k * xdim)) b = Ret (Ok out') /\
    split_on 10 out' = enlarge_lines k (split_on 10 out).
Proof. exact ascii_enlarged. Qed.
Print Assumptions C103_ascii_enlarged.
(** Pixels: each becomes a square of [k] by [k] pixels, whichever way the picture is turned. *)
Theorem C103_image_enlarged : forall p v height xdim turn fg bg k b, 1 <= k ->
  len b * (k * xdim) < 2 ^ 32 -> 4 * (len b * (k * xdim)) * (k * height) < 2 ^ 63 ->
  exists small big, image_generate_buffer p (mkImage v height xdim turn fg bg) b = Ret (Ok small) /\
    image_generate_buffer p (mkImage v (k * height) (k * xdim) turn fg bg) b = Ret (Ok big) /\
    buf_w big = k * buf_w small /\ buf_h big = k * buf_h small /\
    forall x y, x < buf_w big -> y < buf_h big ->
      pixel (buf_w big) (buf_px big) x y = pixel (buf_w small) (buf_px small) (x / k) (y / k).
Proof.
  intros p v h x t f g k b Hk H1 H2. exact (image_enlarged p (mkImage v h x t f g) b k Hk (conj H1 H2)).
Qed.
Print Assumptions C103_image_enlarged.
(** SVG: the same drawing with all lengths multiplied by [k]. *)
Theorem C103_svg_enlarged : forall p height xdim fg bg ns k b, good_svg (mkSVG height xdim fg bg ns) -> 1 <= k ->
  len b * (k * xdim) < 2 ^ 32 ->
  exists out out' d, svg_generate p (mkSVG height xdim fg bg ns) b = Ret (Ok out) /\
    svg_generate p (mkSVG (k * height) (k * xdim) fg bg ns) b = Ret (Ok out') /\
    read_svg out = Some d /\ read_svg out' = Some (enlarge_drawing k d).
Proof. exact svg_enlarged. Qed.
Print Assumptions C103_svg_enlarged.

(** Drawing two byte sequences one after the other puts their pictures together. *)
Theorem C103_ascii_joined : forall p height xdim a b out out', 1 <= height ->
  ascii_generate p (mkASCII height xdim) a = Ret (Ok out) -> ascii_generate p (mkASCII height xdim) b = Ret (Ok out') ->
  exists both, ascii_generate p (mkASCII height xdim) (a ++ b) = Ret (Ok both) /\
    split_on 10 both = beside (split_on 10 out) (split_on 10 out').
Proof. exact ascii_joined. Qed.
Print Assumptions C103_ascii_joined.
(** From left to right, from top to bottom, from right to left or from bottom to top, as the rotation says *)
Theorem C103_image_joined : forall p g a b, len (a ++ b) * img_xdim g < 2 ^ 32 ->
  4 * (len (a ++ b) * img_xdim g) * img_height g < 2 ^ 63 ->
  exists one two both, image_generate_buffer p g a = Ret (Ok one) /\ image_generate_buffer p g b = Ret (Ok two) /\
    image_generate_buffer p g (a ++ b) = Ret (Ok both) /\
    match img_rotation g with
    | RZero | ROneEighty =>
        let (l, r) := match img_rotation g with RZero => (one, two) | _ => (two, one) end in
        buf_w both = buf_w l + buf_w r /\ buf_h both = buf_h l /\ buf_h both = buf_h r /\
        forall x y, x < buf_w both -> y < buf_h both -> pixel (buf_w both) (buf_px both) x y =
          if x <? buf_w l then pixel (buf_w l) (buf_px l) x y else pixel (buf_w r) (buf_px r) (x - buf_w l) y
    | RNinety | RTwoSeventy =>
        let (t, u) := match img_rotation g with RNinety => (one, two) | _ => (two, one) end in
        buf_h both = buf_h t + buf_h u /\ buf_w both = buf_w t /\ buf_w both = buf_w u /\
        forall x y, x < buf_w both -> y < buf_h both -> pixel (buf_w both) (buf_px both) x y =
          if y <? buf_h t then pixel (buf_w t) (buf_px t) x y else pixel (buf_w u) (buf_px u) x (y - buf_h t)
    end.
Proof. intros p g a b H1 H2. exact (image_joined p g a b (conj H1 H2)). Qed.
Print Assumptions C103_image_joined.
Theorem C103_svg_joined : forall p g a b, good_svg g -> len (a ++ b) * svg_xdim g < 2 ^ 32 ->
  exists o1 o2 o3 d1 d2 d3, svg_generate p g a = Ret (Ok o1) /\ svg_generate p g b = Ret (Ok o2) /\ svg_generate p g (a ++ b) = Ret (Ok o3) /\
    read_svg o1 = Some d1 /\ read_svg o2 = Some d2 /\ read_svg o3 = Some d3 /\
    forall x y, colour_at d3 x y = if x <? len a * svg_xdim g then colour_at d1 x y else colour_at d2 (x - len a * svg_xdim g) y.
Proof. exact svg_joined. Qed.
Print Assumptions C103_svg_joined.

(** Twice as large; a bar put behind a space; a picture standing upright *)
Definition upright (k : N) (b : list N) : buffer :=
  match image_generate_buffer Debug (mkImage VPng k k RNinety rgba_black rgba_white) b with Ret (Ok t) => t | _ => mkBuffer 0 0 [] end.
Example C103_case :
  ascii_generate Debug (mkASCII 1 1) [1; 0] = Ret (Ok (lit "# ")) /\
  ascii_generate Debug (mkASCII 2 2) [1; 0] = Ret (Ok (lit "##  " ++ [10] ++ lit "##  ")) /\
  enlarge_lines 2 [lit "# "] = [lit "##  "; lit "##  "] /\
  buf_px (upright 1 [1; 0]) = [rgba_black; rgba_white] /\
  buf_px (upright 2 [1; 0]) = repeat rgba_black 4 ++ repeat rgba_white 4 /\
  good_svg (mkSVG 5 2 color_black color_white None) /\
  enlarge_drawing 3 (barcode_drawing 5 2 (mkPaint (0, 0, 0) 100) (mkPaint (255, 255, 255) 100) None [0; 1]) =
    barcode_drawing 15 6 (mkPaint (0, 0, 0) 100) (mkPaint (255, 255, 255) 100) None [0; 1].
Proof. repeat split; vm_compute; reflexivity. Qed.
