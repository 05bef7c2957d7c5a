(** * Properties C66 and C67: generator defaults, setters, and the xmlns setting *)
From Verif Require Import Rust M_Error M_Ascii M_Json M_Svg M_Image S_Barcode S_Text S_Num S_Ascii S_Json S_Svg S_Image S_Build
  P_Ascii P_Json P_Svg P_Svg2 P_Image P_Image2 P_Build.

(** ** C66.  What the constructors draw with nothing set *)
Theorem C66_ascii_defaults : forall p b, Forall (fun x => x = 0 \/ x = 1) b ->
  exists out, ascii_generate p ascii_new b = Ret (Ok out) /\ split_on 10 out = repeat (text_line 1 b) 10.
Proof.
  intros p b H. destruct (ascii_generate_spec p 10 1 b H) as [out [E [_ HL]]]. exists out. split; [exact E|].
  now apply HL.
Qed.
Print Assumptions C66_ascii_defaults.
Theorem C66_json_defaults : forall b, exists out, json_generate json_new b = Ok out /\
  read_json out = Some (JObj [(lit "height", JNum 10); (lit "xdim", JNum 1);
    (lit "encoding", JArr (map (fun v => JNum (if v =? 0 then 0 else 1)) b))]).
Proof. intros b. exists (json_text 10 1 b). split; [apply json_generate_text | apply json_text_read]. Qed.
Print Assumptions C66_json_defaults.
(** The four image constructors: upright, one pixel per module, black on white, opaque; and each
    asks the codec for its own format. *)
Theorem C66_image_defaults : forall p g h b, In g [image_gif h; image_png h; image_webp h; image_image_buffer h] ->
  len b < 2 ^ 32 -> 4 * len b * h < 2 ^ 63 ->
  exists buf, image_generate_buffer p g b = Ret (Ok buf) /\ buf_w buf = len b /\ buf_h buf = h /\
    len (buf_px buf) = buf_w buf * buf_h buf /\
    forall x y, x < len b -> y < h ->
      pixel (len b) (buf_px buf) x y =
      Some (if nth (N.to_nat x) b 0 =? 0 then mkRgba 255 255 255 255 else mkRgba 0 0 0 255).
Proof.
  intros p g h b HG Hb Hm.
  assert (G : exists v, g = mkImage v h 1 RZero rgba_black rgba_white).
  { cbn [In] in HG. destruct HG as [<-|[<-|[<-|[<-|[]]]]]; eexists; reflexivity. }
  destruct G as [v ->].
  assert (HF : fits (mkImage v h 1 RZero rgba_black rgba_white) b).
  { unfold fits. cbn [img_xdim img_height]. rewrite N.mul_1_r. split; assumption. }
  destruct (place_pixels_fits p _ b HF) as (buf & E & HS & HW & HP).
  cbn [turned_size turn img_rotation img_xdim img_height img_foreground img_background] in HS, HP.
  rewrite N.mul_1_r in HS, HP. injection HS as W H. exists buf. unfold image_generate_buffer. rewrite E.
  split; [reflexivity|]. split; [assumption|]. split; [assumption|]. split; [assumption|].
  intros x y Hx Hy. specialize (HP x y Hx Hy). unfold bars in HP. rewrite N.div_1_r in HP. cbn [fst snd] in HP. rewrite W in HP. exact HP.
Qed.
Print Assumptions C66_image_defaults.
Theorem C66_image_formats : forall p (write_to : codec) h b f g,
  In (g, f) [(image_gif h, FGif); (image_png h, FPng); (image_webp h, FWebP)] ->
  forall buf, image_generate_buffer p g b = Ret (Ok buf) ->
  image_generate p write_to g b = match write_to f buf with
                                  | Ret (Some bytes) => Ret (Ok bytes)
                                  | Ret None => Ret (Err EGenerate)
                                  | Panic r => Panic r
                                  end.
Proof.
  intros p wt h b f g HG buf E. unfold image_generate_buffer in E.
  destruct (place_pixels p g b) as [b0|r] eqn:EP; [|discriminate]. cbn [bind] in E. injection E as ->.
  cbn [In] in HG. destruct HG as [HG|[HG|[HG|[]]]]; injection HG as <- <-; unfold image_generate;
    cbn [img_variant image_gif image_png image_webp image_default]; rewrite EP; cbn [bind];
    destruct (wt _ buf) as [[bs|]|r]; reflexivity.
Qed.
Print Assumptions C66_image_formats.
(** Any chain of setter calls after SVG::new: for each field the last call counts, and without
    one the default: bars one unit wide, opaque black on opaque white, no xmlns. *)
Theorem C66_svg_builder : forall p h calls b,
  let xdim := last_set (fun c => match c with CallXdim x => Some x | _ => None end) 1 calls in
  let f := last_set (fun c => match c with CallForeground x => Some x | _ => None end) (mkColor 0 0 0 255) calls in
  let k := last_set (fun c => match c with CallBackground x => Some x | _ => None end) (mkColor 255 255 255 255) calls in
  let ns := last_set (fun c => match c with CallXmlns u => Some (Some u) | _ => None end) None calls in
  (red f < 256 /\ green f < 256 /\ blue f < 256 /\ alpha f < 256) ->
  (red k < 256 /\ green k < 256 /\ blue k < 256 /\ alpha k < 256) ->
  match ns with Some u => forallb xml_plain u = true | None => True end ->
  len b * xdim < 2 ^ 32 ->
  exists out fg bg, svg_generate p (svg_build h calls) b = Ret (Ok out) /\
    shows (red f) (green f) (blue f) (alpha f) fg /\ shows (red k) (green k) (blue k) (alpha k) bg /\
    read_svg out = Some (barcode_drawing h xdim fg bg ns b).
Proof.
  intros p h calls b xdim f k ns Hf Hk Hn HB.
  assert (E : svg_build h calls = mkSVG h xdim f k ns) by (unfold svg_build; rewrite svg_build_last; reflexivity).
  rewrite E. destruct (svg_fits p (mkSVG h xdim f k ns) b) as [out [EG ER]].
  - split; [exact Hf|]. split; [exact Hk | exact Hn].
  - exact HB.
  - exists out, (paint_of f), (paint_of k). split; [exact EG|]. split; [now apply paint_shows|].
    split; [now apply paint_shows | exact ER].
Qed.
Print Assumptions C66_svg_builder.
Example C66_case :
  svg_build 100 [CallXdim 2; CallBackground (mkColor 255 0 0 255); CallXdim 3; CallXmlns (lit "n")] =
    mkSVG 100 3 (mkColor 0 0 0 255) (mkColor 255 0 0 255) (Some (lit "n")) /\
  (exists out, svg_generate Debug (svg_build 100 [CallXdim 2; CallXdim 3]) [0; 1] = Ret (Ok out) /\
     read_svg out = Some (mkDrawing (0, 0, 6, 100) None
       [mkRectangle 0 0 6 100 (mkPaint (255, 255, 255) 100); mkRectangle 3 0 3 100 (mkPaint (0, 0, 0) 100)])) /\
  ascii_generate Debug ascii_new [1; 0] = Ret (Ok (join_lines (repeat (lit "# ") 10))) /\
  (exists buf, image_generate_buffer Debug (image_webp 2) [1; 0] = Ret (Ok buf) /\
     buf_px buf = [rgba_black; rgba_white; rgba_black; rgba_white]).
Proof.
  split; [reflexivity|]. split.
  { exists (match svg_generate Debug (svg_build 100 [CallXdim 2; CallXdim 3]) [0; 1] with Ret (Ok t) => t | _ => [] end).
    split; vm_compute; reflexivity. }
  split; [vm_compute; reflexivity|].
  exists (match image_generate_buffer Debug (image_webp 2) [1; 0] with Ret (Ok t) => t | _ => mkBuffer 0 0 [] end).
  split; vm_compute; reflexivity.
Qed.

(** ** C67.  False of the code: the xmlns value is copied into the document as it is.  A value
    with a quote in it ends the attribute and can add others, here a script handler. *)
Theorem C67_xmlns_refuted : exists g b, svg_xmlns g = Some (lit "x" ++ [34] ++ lit " onload=" ++ [34] ++ lit "run()") /\
  forall p, exists out attrs es, svg_generate p g b = Ret (Ok out) /\ read_xml out = Some (Elem (lit "svg") attrs es) /\
    get (lit "xmlns") attrs = Some (lit "x") /\ get (lit "onload") attrs = Some (lit "run()").
Proof.
  exists (mkSVG 80 1 color_black color_white (Some (lit "x" ++ [34] ++ lit " onload=" ++ [34] ++ lit "run()"))), [1; 0; 1].
  split; [reflexivity|]. intros p.
  destruct (svg_smuggle p (mkSVG 80 1 color_black color_white (Some (lit "x" ++ [34] ++ lit " onload=" ++ [34] ++ lit "run()"))) [1; 0; 1]
    (lit "x") (lit "onload") (lit "run()")) as (out & vb & es & E & R); try reflexivity; try (repeat split; reflexivity).
  - cbn [In]. intros [H|[H|[H|[]]]]; vm_compute in H; discriminate.
  - eexists out, _, es. split; [exact E|]. split; [exact R|]. split; reflexivity.
Qed.
Print Assumptions C67_xmlns_refuted.
(** In general any attribute can be added, but for the three that are already there.  [n] is an
    XML name, [a] and [v] are attribute values. *)
Theorem C67_xmlns_injection : forall p g b a n v,
  (red (svg_foreground g) < 256 /\ green (svg_foreground g) < 256 /\ blue (svg_foreground g) < 256 /\ alpha (svg_foreground g) < 256) ->
  (red (svg_background g) < 256 /\ green (svg_background g) < 256 /\ blue (svg_background g) < 256 /\ alpha (svg_background g) < 256) ->
  len b * svg_xdim g < 2 ^ 32 ->
  (exists c n', n = c :: n' /\ letterb c = true) -> forallb name_charb n = true ->
  forallb xml_plain a = true -> forallb xml_plain v = true ->
  ~ In n [lit "version"; lit "xmlns"; lit "viewBox"] ->
  svg_xmlns g = Some (a ++ [34; 32] ++ n ++ [61; 34] ++ v) ->
  exists out vb es, svg_generate p g b = Ret (Ok out) /\
    read_xml out = Some (Elem (lit "svg") [(lit "version", lit "1.1"); (lit "xmlns", a); (n, v); (lit "viewBox", vb)] es).
Proof.
  intros p g b a n v Hf Hk HB (c & n' & En & Hc) Hn Ha Hv HI HX. apply svg_smuggle; try assumption.
  split; [rewrite En; exact Hc | exact Hn].
Qed.
Print Assumptions C67_xmlns_injection.
(** What holds: the document shows exactly the xmlns that was set whenever that consists of
    characters that need no escaping, and only then.  Missing for C67: all other values. *)
Theorem C67_xmlns_partial : forall p g b,
  (red (svg_foreground g) < 256 /\ green (svg_foreground g) < 256 /\ blue (svg_foreground g) < 256 /\ alpha (svg_foreground g) < 256) ->
  (red (svg_background g) < 256 /\ green (svg_background g) < 256 /\ blue (svg_background g) < 256 /\ alpha (svg_background g) < 256) ->
  len b * svg_xdim g < 2 ^ 32 ->
  exists out, svg_generate p g b = Ret (Ok out) /\
    ((exists d, read_svg out = Some d /\ d_xmlns d = svg_xmlns g) <->
     match svg_xmlns g with Some u => forallb xml_plain u = true | None => True end).
Proof. intros p g b Hf Hk H. now apply svg_xmlns_iff. Qed.
Print Assumptions C67_xmlns_partial.
Example C67_case : forallb xml_plain (lit "http://www.w3.org/2000/svg") = true /\
  forallb xml_plain (lit "http://a/?x=1&y=2") = false /\
  exists out, svg_generate Debug (svg_build 5 [CallXmlns (lit "http://a/?x=1&y=2")]) [1] = Ret (Ok out) /\ read_xml out = None.
Proof.
  split; [reflexivity|]. split; [reflexivity|].
  exists (match svg_generate Debug (svg_build 5 [CallXmlns (lit "http://a/?x=1&y=2")]) [1] with Ret (Ok t) => t | _ => [] end).
  split; vm_compute; reflexivity.
Qed.
