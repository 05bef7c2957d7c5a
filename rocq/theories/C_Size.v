(** * Property C79: sizes of outputs *)
From Verif Require Import Rust M_Error M_Ascii M_Json M_Svg M_Image S_Barcode S_Text S_Num S_Ascii S_Svg S_Image S_Size
  P_Rust P_Num P_Ascii P_Json P_Svg P_Svg2 P_Image P_Image2 P_Size.

(** ** C79.  Bytes of the texts, pixels of the pictures.  Exact for text, JSON and pictures; at most 103 bytes to the bar in drawings. *)
Theorem C79_ascii_size : forall p height xdim b, Forall (fun x => x = 0 \/ x = 1) b -> 1 <= height ->
  exists out, ascii_generate p (mkASCII height xdim) b = Ret (Ok out) /\ str_len out + 1 = height * (len b * xdim + 1).
Proof.
  intros p h x b HM Hh. eexists. split; [now apply ascii_generate_join|]. cbn [ascii_height ascii_xdim].
  destruct (N.to_nat h) as [|n] eqn:E; [lia|]. rewrite join_lines_size, text_line_size. nia.
Qed.
Print Assumptions C79_ascii_size.
Theorem C79_json_size : forall g b, b <> [] -> exists out h x, json_generate g b = Ok out /\
  written_with (json_height g) h /\ written_with (json_xdim g) x /\ str_len out = 32 + h + x + 2 * len b.
Proof.
  intros g b Hb. eexists. exists (str_len (fmt_dec (json_height g))), (str_len (fmt_dec (json_xdim g))). split; [reflexivity|].
  split; [apply fmt_dec_size|]. split; [apply fmt_dec_size|]. rewrite (json_size g b) by (assumption || reflexivity).
  assert (1 <= len b) by (destruct b; [congruence | rewrite len_cons; lia]). lia.
Qed.
Print Assumptions C79_json_size.
(** Without modules, and without lines *)
Theorem C79_empty_size : forall p g x b, Forall (fun v => v = 0 \/ v = 1) b ->
  ascii_generate p (mkASCII 0 x) b = Ret (Ok []) /\
  exists out h x, json_generate g [] = Ok out /\
    written_with (json_height g) h /\ written_with (json_xdim g) x /\ str_len out = 33 + h + x.
Proof.
  intros p g x b HM. split; [now rewrite ascii_generate_join|].
  eexists. exists (str_len (fmt_dec (json_height g))), (str_len (fmt_dec (json_xdim g))). split; [reflexivity|].
  split; [apply fmt_dec_size|]. split; [apply fmt_dec_size|]. rewrite !str_len_app.
  change (str_len (lit "{")) with 1. change (str_len dq) with 1. change (str_len (lit "height")) with 6. change (str_len (lit ":")) with 1.
  change (str_len (lit ",")) with 1. change (str_len (lit "xdim")) with 4. change (str_len (lit "encoding")) with 8.
  change (str_len (lit ":[")) with 2. change (str_len (lit "]}")) with 2. change (str_len (pop (json_bits []))) with 0. lia.
Qed.
Print Assumptions C79_empty_size.
Theorem C79_svg_size : forall p g b out, byte_color (svg_foreground g) -> byte_color (svg_background g) ->
  svg_height g < 2 ^ 32 -> svg_xdim g < 2 ^ 32 -> svg_generate p g b = Ret (Ok out) ->
  str_len out <= 103 * dark b + 173 + bytes_of (svg_xmlns g).
Proof. exact svg_size. Qed.
Print Assumptions C79_svg_size.
Theorem C79_image_size : forall p g b, fits g b -> exists buf, image_generate_buffer p g b = Ret (Ok buf) /\
  len (buf_px buf) = len b * img_xdim g * img_height g.
Proof.
  intros p g b HF. destruct (place_pixels_fits p g b HF) as (buf & E & HS & HW & _). exists buf. unfold image_generate_buffer.
  rewrite E. split; [reflexivity|]. unfold well_formed in HW. rewrite HW. unfold turned_size in HS. destruct (img_rotation g); injection HS as -> ->; lia.
Qed.
Print Assumptions C79_image_size.
(** The bound for drawings is met but for the offsets, here 0 twice: 18 digits less *)
Example C79_case : exists out,
  svg_generate Debug (mkSVG 4294967295 4294967295 (mkColor 1 2 3 4) (mkColor 5 6 7 8) (Some (lit "u"))) [1] = Ret (Ok out) /\
  str_len out = 103 * 1 + 173 + 1 - 18 /\ dark [1] = 1 /\ written_with 10 2 /\
  (exists t, json_generate json_new [1; 0; 1] = Ok t /\ str_len t = 32 + 2 + 1 + 2 * 3) /\
  (exists t, ascii_generate Debug (mkASCII 3 2) [1; 0; 1] = Ret (Ok t) /\ str_len t = 20).
Proof.
  eexists. split; [vm_compute; reflexivity|]. split; [vm_compute; reflexivity|]. split; [reflexivity|].
  split; [repeat split; [discriminate | right; discriminate]|]. split; eexists; (split; [vm_compute; reflexivity|]); vm_compute; reflexivity.
Qed.
