(** * C112: damaged images, read by the majority of the pixels *)
From Verif Require Import Rust M_Error M_Svg M_Image Symbology M_Use S_Barcode S_Ean S_Text S_Linear S_Codabar S_Tf S_Code128 S_All S_Gen S_Image S_Cell S_Wrong S_Illegible S_Vote
  P_Damage P_Wrong P_Stretch P_Line P_Ink4 P_Readable P_Svg P_Svg2 P_Image P_Image2 P_Gen P_Illegible P_Vote C_Image C_Wrong C_Illegible.

(** Images of any rotation, looked at upright.  Any pixels [px'] in the place of those generated, each module taken from the majority of its pixels.  [spoilt] counts the modules of which half the
    pixels or more were changed, to whatever colours. *)
Theorem C112_modules : forall p g b, Forall (fun x => x = 0 \/ x = 1) b -> fits g b -> 1 <= img_xdim g -> img_foreground g <> img_background g ->
  exists buf, image_generate_buffer p g b = Ret (Ok buf) /\
    forall px', let f := upright (img_rotation g) (len b * img_xdim g) (img_height g) (colours (img_background g) (buf_w buf) (buf_px buf)) in let f' := upright (img_rotation g) (len b * img_xdim g) (img_height g) (colours (img_background g) (buf_w buf) px') in
      let line := voted rgba_eqb (img_foreground g) (img_xdim g) (img_height g) f' (length b) in
      length line = length b /\ Forall (fun x => x = 0 \/ x = 1) line /\
      (wrong_modules b line <= spoilt rgba_eqb (img_xdim g) (img_height g) f f' (length b))%nat.
Proof.
  intros p g b HB HF HX HN. destruct (place_pixels_fits p g b HF) as (buf & E & _ & _ & HP). exists buf. split; [unfold image_generate_buffer; now rewrite E|].
  intros px' f f' line. split; [apply voted_length|]. split; [apply voted_bits|].
  rewrite (spoilt_ext rgba_eqb (img_xdim g) (img_height g) f (bars (img_xdim g) (img_foreground g) (img_background g) b) f' (length b)).
  - apply voted_wrong; try assumption. exact rgba_eqb_true.
  - intros k c Hk Hc. destruct (area_module _ _ _ _ HX Hc) as (_ & HY & HXX). assert (HW : fst c < len b * img_xdim g) by (unfold len; nia). specialize (HP (fst c) (snd c) HW HY).
    unfold f, upright, colours. destruct (img_rotation g); cbn [turn fst snd] in HP; rewrite HP; reflexivity.
Qed.
Print Assumptions C112_modules.
(** So the data is read if no module is spoilt, nothing else is read while fewer than [needed] (C83) modules are, and a correcting reader (C111) reads the data with one spoilt module. *)
Theorem C112_data : forall y p s m p' g, str_len s < 2 ^ 48 -> barcode y p s = Ret (Ok m) ->
  (y = SCodabar -> ~ In (ch "+") s) -> (y = SCode128 -> len s <= 6489) ->
  fits g m -> 1 <= img_xdim g -> img_foreground g <> img_background g ->
  exists buf r, image_generate_buffer p' g m = Ret (Ok buf) /\ meant y s (Some r) /\ verified y r /\
    forall px', let f := upright (img_rotation g) (len m * img_xdim g) (img_height g) (colours (img_background g) (buf_w buf) (buf_px buf)) in let f' := upright (img_rotation g) (len m * img_xdim g) (img_height g) (colours (img_background g) (buf_w buf) px') in
      let line := voted rgba_eqb (img_foreground g) (img_xdim g) (img_height g) f' (length m) in
      let bad := spoilt rgba_eqb (img_xdim g) (img_height g) f f' (length m) in
      (bad = 0%nat -> read_modules y line = Some r) /\
      ((bad < needed y s)%nat -> forall r', read_modules y line = Some r' -> verified y r' -> r' = r) /\
      ((bad <= 1)%nat -> (2 < needed y s)%nat -> forall r', (In r' (readings y (repairs line)) /\ verified y r') <-> r' = r).
Proof.
  intros y p s m p' g Hs HB HC H8 HF HX HN.
  assert (BM : Forall (fun x => x = 0 \/ x = 1) m) by (destruct (printed_elements _ _ _ _ Hs HB) as (ws & S & _); exact (bits_of _ _ S)).
  destruct (C112_modules p' g m BM HF HX HN) as (buf & E & HL). destruct (C111_nearest y p s m Hs HB HC H8) as (r & R & HM & HV & _).
  destruct (C83_data y p s m Hs HB HC H8) as (r1 & R1 & _ & HW). exists buf, r. split; [exact E|]. split; [exact HM|]. split; [exact HV|].
  intros px' f f' line bad. destruct (HL px') as (L & BL & W). fold f f' line in L, BL, W. fold bad in W. split; [|split].
  - intros Z. assert (EQ : m = line); [|rewrite <- EQ; exact R]. apply wrong_none; [exact L | lia].
  - intros Z r' R' HV'. destruct (HW line r' L ltac:(lia) R' HV') as [EQ|[_ ->]]; [rewrite EQ in R'|]; congruence.
  - intros Z HN2. destruct (C111_corrected y p s m Hs HB HN2) as (r2 & HM2 & HV2 & HC2). pose proof (proj2 (HC2 line BL L ltac:(lia) r2) eq_refl) as HI2.
    assert (ER : r = r2).
    { specialize (HC2 m BM eq_refl). assert (W0 : wrong_modules m m = 0%nat) by (clear; induction m as [|a q IQ]; [reflexivity | rewrite wrong_cons, N.eqb_refl; exact IQ]).
      apply (HC2 ltac:(lia)). split; [|exact HV]. apply in_readings. exists m. split; [now left | exact R]. }
    subst r2. apply HC2; [exact BL | exact L | lia].
Qed.
Print Assumptions C112_data.

(** A picture of three rows with a scratch through the middle one, of another colour *)
Definition picture_of (y : symbology) (s : str) (g : Image) : list N * buffer :=
  match barcode y Debug s with
  | Ret (Ok m) => match image_generate_buffer Debug g m with Ret (Ok b) => (m, b) | _ => (m, mkBuffer 0 0 []) end
  | _ => ([], mkBuffer 0 0 []) end.
Example C112_case : let g := mkImage VPng 3 1 RZero rgba_black rgba_white in let '(m, b) := picture_of SSupp (lit "12") g in
  let px' := firstn 20 (buf_px b) ++ repeat (mkRgba 200 10 10 255) 20 ++ skipn 40 (buf_px b) in
  let f := colours rgba_white (buf_w b) (buf_px b) in let f' := colours rgba_white (buf_w b) px' in
  buf_w b = 20 /\ (length px' = length (buf_px b)) /\ spoilt rgba_eqb 1 3 f f' 20 = 0%nat /\ read_modules SSupp (voted rgba_eqb rgba_black 1 3 f' 20) = Some (Digits [1; 2]).
Proof. vm_compute. repeat split; reflexivity. Qed.
