(** * Properties C57 and C58: the four generators together *)
From Verif Require Import Rust M_Error M_Ascii M_Json M_Svg M_Image Symbology M_Use
  S_Barcode S_Text S_Num S_Ascii S_Json S_Svg S_Image S_Ean S_Linear S_Codabar S_Tf S_Code128 S_All S_Gen
  P_Ascii P_Json P_Svg P_Svg2 P_Image P_Image2 P_Gen P_All.

(** ** C57.  The modules found in the text, in the JSON, along every line of the drawing and
    along every line of the picture are those of the barcode. *)
Theorem C57_same_bars : forall p b, Forall (fun x => x = 0 \/ x = 1) b ->
  (forall height xdim, 1 <= height -> 1 <= xdim ->
     exists out, ascii_generate p (mkASCII height xdim) b = Ret (Ok out) /\ read_ascii xdim out = Some b) /\
  (forall g, exists out, json_generate g b = Ok out /\ json_modules out = Some b) /\
  (forall g y, good_svg g -> 1 <= svg_xdim g -> len b * svg_xdim g < 2 ^ 32 -> y < svg_height g ->
     let f := svg_foreground g in let k := svg_background g in
     let fg := (red f, green f, blue f) in let bg := (red k, green k, blue k) in
     fg <> bg ->
     exists out, svg_generate p g b = Ret (Ok out) /\ svg_modules fg bg (svg_xdim g) y out = Some b) /\
  (forall g k, 1 <= img_xdim g -> fits g b -> k < img_height g -> img_foreground g <> img_background g ->
     exists buf, image_generate_buffer p g b = Ret (Ok buf) /\
       image_modules (img_rotation g) (img_foreground g) (img_background g) (img_xdim g) k buf = Some b).
Proof.
  intros p b H. split; [|split; [|split]].
  - intros h x Hh Hx. now apply ascii_read.
  - intros [h x]. exists (json_text h x b). split; [apply json_generate_text | now apply json_modules_text].
  - intros g y HG Hx HF Hy f k fg bg HC. now apply svg_modules_drawing.
  - intros g k Hx HF Hk HC. now apply image_modules_picture.
Qed.
Print Assumptions C57_same_bars.
Example C57_case : Forall (fun x => x = 0 \/ x = 1) [1; 0; 1] /\
  (exists out, ascii_generate Debug (mkASCII 3 2) [1; 0; 1] = Ret (Ok out) /\ read_ascii 2 out = Some [1; 0; 1]) /\
  (exists out, json_generate (mkJSON 3 2) [1; 0; 1] = Ok out /\ json_modules out = Some [1; 0; 1]) /\
  (exists out, svg_generate Debug (mkSVG 3 2 color_black color_white None) [1; 0; 1] = Ret (Ok out) /\
     svg_modules (0, 0, 0) (255, 255, 255) 2 1 out = Some [1; 0; 1]) /\
  (exists buf, image_generate_buffer Debug (mkImage VPng 3 2 RTwoSeventy rgba_black rgba_white) [1; 0; 1] = Ret (Ok buf) /\
     image_modules RTwoSeventy rgba_black rgba_white 2 1 buf = Some [1; 0; 1]).
Proof.
  split; [repeat (constructor; [lia|]); constructor|].
  split; [|split; [|split]].
  - exists (match ascii_generate Debug (mkASCII 3 2) [1; 0; 1] with Ret (Ok t) => t | _ => [] end). vm_compute. split; reflexivity.
  - exists (match json_generate (mkJSON 3 2) [1; 0; 1] with Ok t => t | _ => [] end). vm_compute. split; reflexivity.
  - exists (match svg_generate Debug (mkSVG 3 2 color_black color_white None) [1; 0; 1] with Ret (Ok t) => t | _ => [] end). vm_compute. split; reflexivity.
  - exists (match image_generate_buffer Debug (mkImage VPng 3 2 RTwoSeventy rgba_black rgba_white) [1; 0; 1] with Ret (Ok t) => t | _ => mkBuffer 0 0 [] end). vm_compute. split; reflexivity.
Qed.
(** On any other byte they disagree: ASCII panics, JSON and the picture show a bar, SVG shows
    none. *)
Theorem C57_other_bytes : forall p b i d, nth_error b (N.to_nat i) = Some d -> 2 <= d ->
  (forall height xdim, panics (ascii_generate p (mkASCII height xdim) b)) /\
  (forall g, exists out h x l, json_generate g b = Ok out /\
     read_json out = Some (JObj [(lit "height", h); (lit "xdim", x); (lit "encoding", JArr l)]) /\
     nth_error l (N.to_nat i) = Some (JNum 1)) /\
  (forall g y, good_svg g -> 1 <= svg_xdim g -> len b * svg_xdim g < 2 ^ 32 -> y < svg_height g ->
     exists out dr bg, svg_generate p g b = Ret (Ok out) /\ read_svg out = Some dr /\
       let k := svg_background g in shows (red k) (green k) (blue k) (alpha k) bg /\
       colour_at dr (i * svg_xdim g) y = Some bg) /\
  (forall g y, img_rotation g = RZero -> 1 <= img_xdim g -> fits g b -> y < img_height g ->
     exists buf, image_generate_buffer p g b = Ret (Ok buf) /\
       pixel (buf_w buf) (buf_px buf) (i * img_xdim g) y = Some (img_foreground g)).
Proof.
  intros p b i d Hd H2.
  assert (Hi : i < len b). { unfold len. assert (N.to_nat i < length b)%nat by (apply nth_error_Some; congruence). lia. }
  split; [|split; [|split]].
  - intros h x. apply ascii_panics. apply Exists_exists. exists d. split; [now apply nth_error_In in Hd | assumption].
  - intros [h x]. exists (json_text h x b), (JNum h), (JNum x), (map (fun v => JNum (bit v)) b). split; [apply json_generate_text|].
    split; [apply json_text_read|]. rewrite (map_nth_error _ _ _ Hd). unfold bit. now replace (d =? 0) with false by (symmetry; apply N.eqb_neq; lia).
  - intros g y HG Hx HF Hy. destruct (svg_fits p g b HG HF) as [out [E R]]. eexists out, _, (paint_of (svg_background g)).
    split; [assumption|]. split; [exact R|]. cbv zeta. split; [apply paint_shows, HG|]. rewrite colour_at_spec.
    rewrite N.div_mul by lia. rewrite Hd. replace (i * svg_xdim g <? len b * svg_xdim g) with true by (symmetry; apply N.ltb_lt; nia).
    apply N.ltb_lt in Hy. rewrite Hy. cbn [andb]. f_equal. destruct d as [|[q|q|]]; try reflexivity. lia.
  - intros g y HR Hx HF Hy. destruct (place_pixels_fits p g b HF) as (buf & E & HS & HW & HP). exists buf.
    unfold image_generate_buffer. rewrite E. split; [reflexivity|]. rewrite HR in HP. cbn [turn fst snd] in HP.
    rewrite HP by (assumption || nia). unfold bars. rewrite N.div_mul by lia. rewrite (nth_error_nth _ _ 0 Hd).
    now replace (d =? 0) with false by (symmetry; apply N.eqb_neq; lia).
Qed.
Print Assumptions C57_other_bytes.
Example C57_other_case : nth_error [1; 0; 7] (N.to_nat 2) = Some 7 /\
  ascii_generate Debug (mkASCII 1 1) [1; 0; 7] = Panic PanicIndex /\
  (exists out, json_generate (mkJSON 1 1) [1; 0; 7] = Ok out /\ json_modules out = Some [1; 0; 1]) /\
  (exists out, svg_generate Debug (mkSVG 1 1 color_black color_white None) [1; 0; 7] = Ret (Ok out) /\
     svg_modules (0, 0, 0) (255, 255, 255) 1 0 out = Some [1; 0; 0]) /\
  (exists buf, image_generate_buffer Debug (mkImage VPng 1 1 RZero rgba_black rgba_white) [1; 0; 7] = Ret (Ok buf) /\
     image_modules RZero rgba_black rgba_white 1 0 buf = Some [1; 0; 1]).
Proof.
  split; [reflexivity|]. split; [reflexivity|]. split; [|split].
  - exists (match json_generate (mkJSON 1 1) [1; 0; 7] with Ok t => t | _ => [] end). vm_compute. split; reflexivity.
  - exists (match svg_generate Debug (mkSVG 1 1 color_black color_white None) [1; 0; 7] with Ret (Ok t) => t | _ => [] end). vm_compute. split; reflexivity.
  - exists (match image_generate_buffer Debug (mkImage VPng 1 1 RZero rgba_black rgba_white) [1; 0; 7] with Ret (Ok t) => t | _ => mkBuffer 0 0 [] end). vm_compute. split; reflexivity.
Qed.

(** ** C58.  [barcode y p s] constructs and encodes; [read_modules y] is the independent reader
    of symbology [y].  Reading any output gives what reading the encoded modules gives. *)
Theorem C58_end_to_end_ascii : forall y p s m height xdim, str_len s < 2 ^ 48 -> barcode y p s = Ret (Ok m) ->
  1 <= height -> 1 <= xdim ->
  exists out m', ascii_generate p (mkASCII height xdim) m = Ret (Ok out) /\ read_ascii xdim out = Some m' /\
    read_modules y m' = read_modules y m.
Proof.
  intros y p s m h x Hs E Hh Hx. destruct (barcode_modules y p s m Hs E) as [HM _].
  destruct (C57_same_bars p m HM) as [HA _]. destruct (HA h x Hh Hx) as [out [Eo R]]. exists out, m.
  split; [assumption|]. split; [assumption|]. reflexivity.
Qed.
Print Assumptions C58_end_to_end_ascii.
Theorem C58_end_to_end_json : forall y p s m g, str_len s < 2 ^ 48 -> barcode y p s = Ret (Ok m) ->
  exists out m', json_generate g m = Ok out /\ json_modules out = Some m' /\
    read_modules y m' = read_modules y m.
Proof.
  intros y p s m g Hs E. destruct (barcode_modules y p s m Hs E) as [HM _].
  destruct (C57_same_bars p m HM) as [_ [HA _]]. destruct (HA g) as [out [Eo R]]. exists out, m.
  split; [assumption|]. split; [assumption|]. reflexivity.
Qed.
Print Assumptions C58_end_to_end_json.
Theorem C58_end_to_end_svg : forall y p s m g line, str_len s < 2 ^ 48 -> barcode y p s = Ret (Ok m) ->
  good_svg g -> 1 <= svg_xdim g -> len m * svg_xdim g < 2 ^ 32 -> line < svg_height g ->
  let f := svg_foreground g in let k := svg_background g in
  let fg := (red f, green f, blue f) in let bg := (red k, green k, blue k) in
  fg <> bg ->
  exists out m', svg_generate p g m = Ret (Ok out) /\ svg_modules fg bg (svg_xdim g) line out = Some m' /\
    read_modules y m' = read_modules y m.
Proof.
  intros y p s m g line Hs E HG Hx HF Hl f k fg bg HC. destruct (barcode_modules y p s m Hs E) as [HM _].
  destruct (C57_same_bars p m HM) as [_ [_ [HA _]]]. destruct (HA g line HG Hx HF Hl HC) as [out [Eo R]]. exists out, m.
  split; [assumption|]. split; [assumption|]. reflexivity.
Qed.
Print Assumptions C58_end_to_end_svg.
Theorem C58_end_to_end_image : forall y p s m g line, str_len s < 2 ^ 48 -> barcode y p s = Ret (Ok m) ->
  1 <= img_xdim g -> fits g m -> line < img_height g -> img_foreground g <> img_background g ->
  exists buf m', image_generate_buffer p g m = Ret (Ok buf) /\
    image_modules (img_rotation g) (img_foreground g) (img_background g) (img_xdim g) line buf = Some m' /\
    read_modules y m' = read_modules y m.
Proof.
  intros y p s m g line Hs E Hx HF Hl HC. destruct (barcode_modules y p s m Hs E) as [HM _].
  destruct (C57_same_bars p m HM) as [_ [_ [_ HA]]]. destruct (HA g line Hx HF Hl HC) as [buf [Eo R]]. exists buf, m.
  split; [assumption|]. split; [assumption|]. reflexivity.
Qed.
Print Assumptions C58_end_to_end_image.
(** Image files, for every codec that loses nothing on this picture *)
Theorem C58_end_to_end_file : forall y p s m g line (write_to : codec) (decode : image_format -> list N -> option buffer),
  str_len s < 2 ^ 48 -> barcode y p s = Ret (Ok m) ->
  1 <= img_xdim g -> fits g m -> line < img_height g -> img_foreground g <> img_background g ->
  forall f, match img_variant g with VGif => f = FGif | VPng => f = FPng | VWebp => f = FWebP | VBuffer => False end ->
  (forall buf, image_generate_buffer p g m = Ret (Ok buf) ->
     exists bytes, write_to f buf = Ret (Some bytes) /\ decode f bytes = Some buf) ->
  exists bytes buf m', image_generate p write_to g m = Ret (Ok bytes) /\ decode f bytes = Some buf /\
    image_modules (img_rotation g) (img_foreground g) (img_background g) (img_xdim g) line buf = Some m' /\
    read_modules y m' = read_modules y m.
Proof.
  intros y p s m g line wt dec Hs E Hx HF Hl HC f Hf HD.
  destruct (C58_end_to_end_image y p s m g line Hs E Hx HF Hl HC) as (buf & m' & Eb & R & HMe).
  destruct (HD buf Eb) as [bytes [Ew Ed]]. exists bytes, buf, m'. split; [|now repeat split].
  unfold image_generate_buffer in Eb. unfold image_generate. destruct (place_pixels p g m) as [b0|r]; [|discriminate].
  cbn [bind] in Eb. injection Eb as ->. destruct (img_variant g); try contradiction; subst f; cbn [bind]; now rewrite Ew.
Qed.
Print Assumptions C58_end_to_end_file.
(** Hence the caller's data, with the exceptions of C30 and C40: [meant y s r] says that [r]
    reports the data of [s] (S_All.v), but not for Codabar data with B, C or a plus sign, nor
    for Code 128 messages whose SHIFT precedes a character of one code set only or with more
    than 6489 symbol characters. *)
Theorem C58_caller_data_partial : forall y p s m, str_len s < 2 ^ 48 -> barcode y p s = Ret (Ok m) ->
  meant y s (read_modules y m).
Proof. exact barcode_meant. Qed.
Print Assumptions C58_caller_data_partial.
(** The exceptions are real: a Codabar B is printed and read as C. *)
Theorem C58_caller_data_refuted : exists s m, barcode SCodabar Debug s = Ret (Ok m) /\
  read_modules SCodabar m = Some (Text (lit "C12C")) /\ s = lit "B12B".
Proof.
  exists (lit "B12B"), (match barcode SCodabar Debug (lit "B12B") with Ret (Ok m) => m | _ => [] end).
  split; [vm_compute; reflexivity|]. split; [vm_compute; reflexivity | reflexivity].
Qed.
Print Assumptions C58_caller_data_refuted.
Example C58_case : exists m out, str_len (lit "17") < 2 ^ 48 /\ barcode SItf Debug (lit "17") = Ret (Ok m) /\
  svg_generate Debug (mkSVG 40 3 color_black color_white None) m = Ret (Ok out) /\
  good_svg (mkSVG 40 3 color_black color_white None) /\
  obind (svg_modules (0, 0, 0) (255, 255, 255) 3 39 out) (read_modules SItf) = Some (Digits [1; 7]).
Proof.
  exists (modules "10101110101010001110001101").
  exists (match svg_generate Debug (mkSVG 40 3 color_black color_white None) (modules "10101110101010001110001101") with Ret (Ok t) => t | _ => [] end).
  split; [reflexivity|]. split; [vm_compute; reflexivity|]. split; [vm_compute; reflexivity|]. split; [repeat split|].
  vm_compute. reflexivity.
Qed.
