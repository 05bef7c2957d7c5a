(** * Property C77: symbols are read without knowing the module width, along any line, whichever way the picture is turned *)
From Verif Require Import Rust M_Error M_Ascii M_Svg M_Image Symbology M_Use S_Barcode S_Ean S_Text S_Linear S_Codabar S_Tf S_Code128 S_Num S_Ascii S_Svg S_Image S_All S_Gen S_Blind
  P_Ascii P_Svg P_Svg2 P_Image P_Image2 P_Gen P_All P_Blind P_Readable.

(** ** C77.  [k] samples to the module: the narrowest element tells [k]. *)
Theorem C77_width_unknown : forall y p s m k, str_len s < 2 ^ 48 -> barcode y p s = Ret (Ok m) -> (1 <= k)%nat ->
  blind_read y (enlarged k m) = read_modules y m.
Proof. intros y p s m k Hs H Hk. apply blind_both; [assumption | now apply (barcode_narrow y p s)]. Qed.
Print Assumptions C77_width_unknown.
(** What is read is the caller's data, unless a plus is printed in Codabar or a Code 128 symbol has more than 6489 characters. *)
Theorem C77_data : forall y p s m, str_len s < 2 ^ 48 -> barcode y p s = Ret (Ok m) ->
  (y = SCodabar -> ~ In (ch "+") s) -> (y = SCode128 -> len s <= 6489) ->
  exists r, meant y s (Some r) /\ forall k, (1 <= k)%nat -> blind_read y (enlarged k m) = Some r.
Proof.
  intros y p s m Hs H HC H8. destruct (readable_meant y p s m Hs H HC H8) as (r & R & HM). exists r. split; [assumption|].
  intros k Hk. now rewrite (C77_width_unknown y p s m k Hs H Hk).
Qed.
Print Assumptions C77_data.

(** The three drawing generators.  The line across the bars need not be straight: at [t] it is at height [f t].  Any
    line of the text will do. *)
Theorem C77_any_line : forall y p s m, str_len s < 2 ^ 48 -> barcode y p s = Ret (Ok m) ->
  (forall g f, 1 <= img_xdim g -> fits g m -> img_foreground g <> img_background g ->
     (forall t, t < len m * img_xdim g -> f t < img_height g) ->
     exists buf line, image_generate_buffer p g m = Ret (Ok buf) /\ crossing (img_rotation g) buf f = Some line /\
       blind_read y (marks rgba_eqb (img_foreground g) line) = read_modules y m) /\
  (forall g f, good_svg g -> 1 <= svg_xdim g -> len m * svg_xdim g < 2 ^ 32 ->
     let c := svg_foreground g in let d := svg_background g in
     (red c, green c, blue c) <> (red d, green d, blue d) ->
     (forall t, t < len m * svg_xdim g -> f t < svg_height g) ->
     exists out line, svg_generate p g m = Ret (Ok out) /\ svg_rightwards out f = Some line /\
       blind_read y (marks rgb_eqb (red c, green c, blue c) line) = read_modules y m) /\
  (forall height xdim, 1 <= height -> 1 <= xdim ->
     exists out, ascii_generate p (mkASCII height xdim) m = Ret (Ok out) /\ len (split_on 10 out) = height /\
       forall line, In line (split_on 10 out) -> blind_read y (marks N.eqb (ch "#") line) = read_modules y m).
Proof.
  intros y p s m Hs E. destruct (barcode_modules y p s m Hs E) as [HM _]. pose proof (barcode_narrow y p s m Hs E) as HN.
  split; [|split].
  - intros g f Hx HF HC Hf. destruct (image_across p g m f HM Hx HF HC) as (buf & EB & _ & HA & _).
    destruct (HA Hf) as (line & HL & HK). assert (HX : (1 <= N.to_nat (img_xdim g))%nat) by lia.
    destruct (blind_both y _ m HX HN) as [HB _].
    destruct (img_rotation g); cbn [across upturned] in HL, HK.
    + exists buf, line. cbn [crossing]. rewrite HK. now split.
    + exists buf, line. cbn [crossing]. rewrite HK. now split.
    + exists buf, (rev line). cbn [crossing]. rewrite HL. split; [assumption|]. split; [reflexivity|].
      unfold marks in *. now rewrite map_rev, HK, rev_involutive.
    + exists buf, (rev line). cbn [crossing]. rewrite HL. split; [assumption|]. split; [reflexivity|].
      unfold marks in *. now rewrite map_rev, HK, rev_involutive.
  - intros g f HG Hx HF c d HC Hf. destruct (svg_across p g m f HG HF Hx Hf HC HM) as (out & line & EO & HL & HK).
    exists out, line. split; [assumption|]. split; [assumption|]. unfold rgb in HK. fold c in HK. rewrite HK.
    apply blind_both; [lia | assumption].
  - intros h x Hh Hx. destruct (ascii_generate_spec p h x m HM) as (out & EO & _ & HS). exists out. split; [assumption|].
    rewrite HS by assumption. split; [unfold len; rewrite repeat_length; lia|].
    intros line HL. apply repeat_spec in HL. subst line. change (ch "#") with bar_char. rewrite text_line_marks by assumption.
    apply blind_both; [lia | assumption].
Qed.
Print Assumptions C77_any_line.

(** Whoever looks at one row and one column of the picture, each in both directions, reads the symbol
    whichever way the picture is turned.  [directed] is explained at C69. *)
Theorem C77_turned_any_way : forall y p s m g, str_len s < 2 ^ 48 -> directed y s -> barcode y p s = Ret (Ok m) ->
  1 <= img_xdim g -> fits g m -> img_foreground g <> img_background g ->
  exists buf, image_generate_buffer p g m = Ret (Ok buf) /\
    forall row column, row < buf_h buf -> column < buf_w buf ->
      read_picture y (img_foreground g) row column buf = read_modules y m.
Proof.
  intros y p s m g Hs HD E Hx HF HC. destruct (barcode_modules y p s m Hs E) as [HM _]. pose proof (barcode_narrow y p s m Hs E) as HN.
  pose proof (barcode_mirror y p s m Hs HD E) as HR. assert (HX : (1 <= N.to_nat (img_xdim g))%nat) by lia.
  destruct (blind_both y _ m HX HN) as [HB HB']. rewrite HR in HB'.
  destruct (image_across p g m (fun _ => 0) HM Hx HF HC) as (buf & EB & ES & _ & HA). exists buf. split; [assumption|].
  intros row column Hr Hc. unfold read_picture.
  set (l := if upturned (img_rotation g) then rev (enlarged (N.to_nat (img_xdim g)) m) else enlarged (N.to_nat (img_xdim g)) m).
  assert (HL : either_way y l = read_modules y m).
  { unfold either_way, l. destruct (upturned (img_rotation g)); [rewrite HB', rev_involutive, HB; reflexivity|].
    rewrite HB, HB'. now destruct (read_modules y m). }
  assert (HG : forall k, k < img_height g -> obind (across (img_rotation g) buf (fun _ => k)) (fun q => either_way y (marks rgba_eqb (img_foreground g) q)) = read_modules y m).
  { intros k Hk. destruct (image_across p g m (fun _ => k) HM Hx HF HC) as (buf' & EB' & _ & HA' & _). rewrite EB in EB'. injection EB' as <-.
    destruct (HA' (fun _ _ => Hk)) as (line & -> & HK). cbn [obind]. rewrite HK. exact HL. }
  assert (HF' : forall o v n, v = 0 \/ v = 1 -> option_map (marks rgba_eqb (img_foreground g)) o = Some (repeat v n) ->
    obind o (fun q => either_way y (marks rgba_eqb (img_foreground g) q)) = None).
  { intros o v n Hv HO. destruct o as [q|]; [|discriminate]. cbn [option_map obind] in *. injection HO as ->. now apply either_flat. }
  clear l HL. destruct (img_rotation g); cbn [turned_size across] in *; injection ES as W H; rewrite W in Hc; rewrite H in Hr.
  - rewrite HG by assumption. destruct (HA column Hc) as (v & n & Hv & HO). rewrite (HF' _ v n Hv HO). now destruct (read_modules y m).
  - destruct (HA row Hr) as (v & n & Hv & HO). rewrite (HF' _ v n Hv HO). now apply HG.
  - rewrite HG by assumption. destruct (HA column Hc) as (v & n & Hv & HO). rewrite (HF' _ v n Hv HO). now destruct (read_modules y m).
  - destruct (HA row Hr) as (v & n & Hv & HO). rewrite (HF' _ v n Hv HO). now apply HG.
Qed.
Print Assumptions C77_turned_any_way.

(** A zigzag line through a picture standing on its side, module width 2, and the reader that is told nothing *)
Example C77_case : exists m buf line, barcode SCode39 Debug (lit "7") = Ret (Ok m) /\
  image_generate_buffer Debug (mkImage VPng 2 2 RTwoSeventy rgba_black rgba_white) m = Ret (Ok buf) /\
  crossing RTwoSeventy buf (fun t => t mod 2) = Some line /\
  blind_read SCode39 (marks rgba_eqb rgba_black line) = Some (Text (lit "7")) /\
  read_picture SCode39 rgba_black 5 1 buf = Some (Text (lit "7")) /\
  blind_read SCode39 (enlarged 3 m) = Some (Text (lit "7")) /\
  blind_read SCode39 (1 :: 1 :: enlarged 3 m) = None.
Proof.
  set (m := match barcode SCode39 Debug (lit "7") with Ret (Ok m) => m | _ => [] end).
  set (buf := match image_generate_buffer Debug (mkImage VPng 2 2 RTwoSeventy rgba_black rgba_white) m with Ret (Ok t) => t | _ => mkBuffer 0 0 [] end).
  exists m, buf, (match crossing RTwoSeventy buf (fun t => t mod 2) with Some l => l | None => [] end).
  repeat (split; [vm_compute; reflexivity|]). vm_compute. reflexivity.
Qed.
