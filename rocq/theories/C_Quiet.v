(** * C91: quiet zones *)
From Verif Require Import Rust M_Error M_Ascii M_Json M_Svg M_Image Symbology M_Use
  S_Barcode S_Text S_Num S_Ascii S_Json S_Svg S_Image S_Ean S_Linear S_Codabar S_Tf S_Code128 S_All S_Gen S_Quiet
  P_Svg P_Svg2 P_Image P_Gen P_All P_Quiet P_Readable C_Gen.

(** A caller puts [a] and [b] light modules before and after the encoded symbol.  Whichever generator draws the result, in any
    size, colours and rotation and along any line, a reader that asks for quiet zones reads what is in the symbol
    if the margins are as wide as the standard asks, and nothing otherwise. *)
Theorem C91_margins : forall y p q s m a b, str_len s < 2 ^ 48 -> barcode y p s = Ret (Ok m) ->
  let line := with_margins a b m in
  let result := if (fst (quiet_zones y) <=? a)%nat && (snd (quiet_zones y) <=? b + length (tail y))%nat then read_modules y m else None in
  (forall height xdim, 1 <= height -> 1 <= xdim ->
     exists out l, ascii_generate q (mkASCII height xdim) line = Ret (Ok out) /\ read_ascii xdim out = Some l /\ read_quiet y l = result) /\
  (forall g, exists out l, json_generate g line = Ok out /\ json_modules out = Some l /\ read_quiet y l = result) /\
  (forall g h, good_svg g -> 1 <= svg_xdim g -> len line * svg_xdim g < 2 ^ 32 -> h < svg_height g ->
     let f := svg_foreground g in let k := svg_background g in
     let fg := (red f, green f, blue f) in let bg := (red k, green k, blue k) in
     fg <> bg ->
     exists out l, svg_generate q g line = Ret (Ok out) /\ svg_modules fg bg (svg_xdim g) h out = Some l /\ read_quiet y l = result) /\
  (forall g k, 1 <= img_xdim g -> fits g line -> k < img_height g -> img_foreground g <> img_background g ->
     exists buf l, image_generate_buffer q g line = Ret (Ok buf) /\
       image_modules (img_rotation g) (img_foreground g) (img_background g) (img_xdim g) k buf = Some l /\ read_quiet y l = result).
Proof.
  intros y p q s m a b Hs H line result. pose proof (barcode_shape y p s m Hs H) as HS.
  assert (R : read_quiet y line = result) by (apply read_quiet_margins; assumption).
  destruct (margins_shape y m a b HS) as (_ & _ & _ & HM). destruct (C57_same_bars q line HM) as (A & J & V & I).
  split; [|split; [|split]].
  - intros h x Hh Hx. destruct (A h x Hh Hx) as (out & E & L). exists out, line. auto.
  - intros g. destruct (J g) as (out & E & L). exists out, line. auto.
  - intros g h H1 H2 H3 H4 f k fg bg HC. destruct (V g h H1 H2 H3 H4 HC) as (out & E & L). exists out, line. auto.
  - intros g k H1 H2 H3 H4. destruct (I g k H1 H2 H3 H4) as (buf & E & L). exists buf, line. auto.
Qed.
Print Assumptions C91_margins.

(** The encoded symbol has no margins of its own: handed to a generator as it is, it is drawn without quiet zones,
    and such a reader reads nothing from it, whatever the symbology, the data and the generator. *)
Theorem C91_none_by_default : forall y p s m, str_len s < 2 ^ 48 -> barcode y p s = Ret (Ok m) ->
  light_before m = 0%nat /\ light_after m = length (tail y) /\ with_margins 0 0 m = m /\ read_quiet y m = None.
Proof.
  intros y p s m Hs H. pose proof (barcode_shape y p s m Hs H) as HS. assert (W : with_margins 0 0 m = m) by (unfold with_margins; cbn [repeat app]; apply app_nil_r).
  destruct (margins_shape y m 0 0 HS) as (E1 & E2 & _). rewrite W in E1, E2. cbn [Nat.add] in E2. repeat split; try assumption.
  rewrite <- W, (read_quiet_margins y m 0 0 HS). destruct y; reflexivity.
Qed.
Print Assumptions C91_none_by_default.

(** Eleven light modules on either side are enough for every symbology. *)
Theorem C91_eleven : forall y p s m a b, str_len s < 2 ^ 48 -> barcode y p s = Ret (Ok m) -> (11 <= a)%nat -> (11 <= b)%nat ->
  read_quiet y (with_margins a b m) = read_modules y m.
Proof.
  intros y p s m a b Hs H Ha Hb. rewrite read_quiet_margins by now apply (barcode_shape y p s). unfold enough.
  replace (Nat.leb (fst (quiet_zones y)) a) with true by (symmetry; apply Nat.leb_le; destruct y; cbn; lia).
  replace (Nat.leb (snd (quiet_zones y)) (b + length (tail y))) with true by (symmetry; apply Nat.leb_le; destruct y; cbn [quiet_zones snd]; lia).
  reflexivity.
Qed.
Print Assumptions C91_eleven.
(** What is read is the caller's data, unless a plus is printed in Codabar or a Code 128 symbol has more than 6489 characters. *)
Theorem C91_data : forall y p s m, str_len s < 2 ^ 48 -> barcode y p s = Ret (Ok m) ->
  (y = SCodabar -> ~ In (ch "+") s) -> (y = SCode128 -> len s <= 6489) ->
  exists r, meant y s (Some r) /\ read_modules y m = Some r /\
    forall a b, (11 <= a)%nat -> (11 <= b)%nat -> read_quiet y (with_margins a b m) = Some r.
Proof.
  intros y p s m Hs H HC H8. destruct (readable_meant y p s m Hs H HC H8) as (r & R & HM). exists r. split; [assumption|]. split; [assumption|].
  intros a b Ha Hb. now rewrite (C91_eleven y p s m a b Hs H Ha Hb).
Qed.
Print Assumptions C91_data.

Definition printed (y : symbology) (s : str) : list N := match barcode y Debug s with Ret (Ok m) => m | _ => [] end.
Example C91_case :
  barcode SEan8 Debug (lit "5512345") = Ret (Ok (printed SEan8 (lit "5512345"))) /\
  read_quiet SEan8 (printed SEan8 (lit "5512345")) = None /\
  read_quiet SEan8 (with_margins 7 6 (printed SEan8 (lit "5512345"))) = None /\
  read_quiet SEan8 (with_margins 7 7 (printed SEan8 (lit "5512345"))) = Some (Digits [5;5;1;2;3;4;5;7]) /\
  read_quiet SStf (with_margins 10 9 (printed SStf (lit "12"))) = Some (Digits [1;2]) /\
  (exists buf, image_generate_buffer Debug (mkImage VPng 2 1 RNinety rgba_black rgba_white) (with_margins 10 10 (printed SCode39 (lit "A"))) = Ret (Ok buf) /\
     obind (image_modules RNinety rgba_black rgba_white 1 1 buf) (read_quiet SCode39) = Some (Text (lit "A"))).
Proof.
  do 5 (split; [vm_compute; reflexivity|]).
  exists (match image_generate_buffer Debug (mkImage VPng 2 1 RNinety rgba_black rgba_white) (with_margins 10 10 (printed SCode39 (lit "A"))) with Ret (Ok t) => t | _ => mkBuffer 0 0 [] end).
  split; vm_compute; reflexivity.
Qed.
