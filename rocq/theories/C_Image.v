(** * Properties C53-C56: the image generator *)
From Coq Require Import Permutation.
From Verif Require Import Rust M_Error M_Image S_Image P_Rust P_Image P_Image2.

(** ** C53.  [fits g b]: the width fits 32 bits and the picture fits memory. *)
Example fits_meaning : forall g b, fits g b <->
  len b * img_xdim g < 2 ^ 32 /\ 4 * (len b * img_xdim g) * img_height g < 2 ^ 63.
Proof. intros. reflexivity. Qed.
Theorem C53_image_pixels : forall p g b, fits g b -> img_rotation g = RZero ->
  exists buf, image_generate_buffer p g b = Ret (Ok buf) /\
    buf_w buf = len b * img_xdim g /\ buf_h buf = img_height g /\
    len (buf_px buf) = buf_w buf * buf_h buf /\
    forall x y, x < buf_w buf -> y < buf_h buf ->
      pixel (buf_w buf) (buf_px buf) x y =
      Some (if nth (N.to_nat (x / img_xdim g)) b 0 =? 0 then img_background g else img_foreground g).
Proof.
  intros p g b HF HR. destruct (place_pixels_fits p g b HF) as (buf & E & HS & HW & HP). rewrite HR in HS, HP.
  cbn [turned_size turn fst snd] in HS, HP. injection HS as W H. exists buf. unfold image_generate_buffer. rewrite E.
  split; [reflexivity|]. split; [assumption|]. split; [assumption|]. split; [assumption|].
  rewrite W, H in *. exact HP.
Qed.
Print Assumptions C53_image_pixels.
Definition case_image (r : rotation) : Image := mkImage VPng 2 3 r (mkRgba 1 2 3 4) (mkRgba 5 6 7 8).
Example C53_case : fits (case_image RZero) [1; 0; 7] /\ img_rotation (case_image RZero) = RZero /\
  exists buf, image_generate_buffer Debug (case_image RZero) [1; 0; 7] = Ret (Ok buf) /\
    (buf_w buf, buf_h buf) = (9, 2) /\
    pixel 9 (buf_px buf) 2 1 = Some (mkRgba 1 2 3 4) /\ pixel 9 (buf_px buf) 3 1 = Some (mkRgba 5 6 7 8).
Proof.
  split; [split; reflexivity|]. split; [reflexivity|].
  exists (match image_generate_buffer Debug (case_image RZero) [1; 0; 7] with Ret (Ok t) => t | _ => mkBuffer 0 0 [] end).
  vm_compute. repeat split.
Qed.

(** ** C54 *)
Theorem C54_rotate_90 : forall b, len (buf_px b) = buf_w b * buf_h b -> 4 * buf_w b * buf_h b < 2 ^ 63 ->
  exists b', rotate90 b = Ret b' /\ buf_w b' = buf_h b /\ buf_h b' = buf_w b /\ len (buf_px b') = buf_w b' * buf_h b' /\
    (forall x y, x < buf_w b -> y < buf_h b ->
       pixel (buf_w b') (buf_px b') (buf_h b - 1 - y) x = pixel (buf_w b) (buf_px b) x y) /\
    Permutation (buf_px b') (buf_px b).
Proof. exact rotate90_spec. Qed.
Print Assumptions C54_rotate_90.
Theorem C54_rotate_180 : forall b, len (buf_px b) = buf_w b * buf_h b -> 4 * buf_w b * buf_h b < 2 ^ 63 ->
  exists b', rotate180 b = Ret b' /\ buf_w b' = buf_w b /\ buf_h b' = buf_h b /\ len (buf_px b') = buf_w b' * buf_h b' /\
    (forall x y, x < buf_w b -> y < buf_h b ->
       pixel (buf_w b') (buf_px b') (buf_w b - 1 - x) (buf_h b - 1 - y) = pixel (buf_w b) (buf_px b) x y) /\
    Permutation (buf_px b') (buf_px b).
Proof. exact rotate180_spec. Qed.
Print Assumptions C54_rotate_180.
Theorem C54_rotate_270 : forall b, len (buf_px b) = buf_w b * buf_h b -> 4 * buf_w b * buf_h b < 2 ^ 63 ->
  exists b', rotate270 b = Ret b' /\ buf_w b' = buf_h b /\ buf_h b' = buf_w b /\ len (buf_px b') = buf_w b' * buf_h b' /\
    (forall x y, x < buf_w b -> y < buf_h b ->
       pixel (buf_w b') (buf_px b') y (buf_w b - 1 - x) = pixel (buf_w b) (buf_px b) x y) /\
    Permutation (buf_px b') (buf_px b).
Proof. exact rotate270_spec. Qed.
Print Assumptions C54_rotate_270.
(** What [generate_buffer] returns for each rotation setting: with [w] and [h] the upright
    size, every upright pixel is found where the setting says. *)
Theorem C54_generate_rotated : forall p g b, fits g b ->
  exists buf, image_generate_buffer p g b = Ret (Ok buf) /\ len (buf_px buf) = buf_w buf * buf_h buf /\
    let w := len b * img_xdim g in let h := img_height g in
    (buf_w buf, buf_h buf) = match img_rotation g with RZero | ROneEighty => (w, h) | RNinety | RTwoSeventy => (h, w) end /\
    forall x y, x < w -> y < h ->
      let '(x', y') := match img_rotation g with
                       | RZero => (x, y)
                       | RNinety => (h - 1 - y, x)
                       | ROneEighty => (w - 1 - x, h - 1 - y)
                       | RTwoSeventy => (y, w - 1 - x)
                       end in
      pixel (buf_w buf) (buf_px buf) x' y' =
      Some (if nth (N.to_nat (x / img_xdim g)) b 0 =? 0 then img_background g else img_foreground g).
Proof.
  intros p g b HF. destruct (place_pixels_fits p g b HF) as (buf & E & HS & HW & HP). exists buf. unfold image_generate_buffer. rewrite E.
  split; [reflexivity|]. split; [assumption|]. cbv zeta. split; [exact HS|]. intros x y Hx Hy. specialize (HP x y Hx Hy).
  unfold turn in HP. destruct (img_rotation g); exact HP.
Qed.
Print Assumptions C54_generate_rotated.
Example C54_case : fits (case_image RNinety) [1; 0] /\
  exists buf, image_generate_buffer Release (case_image RNinety) [1; 0] = Ret (Ok buf) /\
    (buf_w buf, buf_h buf) = (2, 6) /\
    pixel 2 (buf_px buf) 1 2 = Some (mkRgba 1 2 3 4) /\ pixel 2 (buf_px buf) 1 3 = Some (mkRgba 5 6 7 8).
Proof.
  split; [split; reflexivity|].
  exists (match image_generate_buffer Release (case_image RNinety) [1; 0] with Ret (Ok t) => t | _ => mkBuffer 0 0 [] end).
  vm_compute. repeat split.
Qed.

(** ** C55.  False: the width is a 32-bit product.  Two modules of 2^31 pixels, height 0,
    give a picture of width 0 in an unchecked build; a checked build panics. *)
Theorem C55_image_width_refuted : exists g b,
  img_rotation g = RZero /\ len b * img_xdim g = 2 ^ 32 /\ img_xdim g < 2 ^ 32 /\
  image_generate_buffer Debug g b = Panic PanicOverflow /\
  exists buf, image_generate_buffer Release g b = Ret (Ok buf) /\ buf_w buf = 0.
Proof.
  exists (mkImage VPng 0 (2 ^ 31) RZero rgba_black rgba_white), [1; 1].
  split; [reflexivity|]. split; [reflexivity|]. split; [reflexivity|]. split.
  - unfold image_generate_buffer. rewrite place_pixels_debug; [reflexivity | reflexivity | discriminate].
  - destruct (place_pixels_release_flat (mkImage VPng 0 (2 ^ 31) RZero rgba_black rgba_white) [1; 1] eq_refl) as [buf [E HS]].
    exists buf. unfold image_generate_buffer. rewrite E. split; [reflexivity|]. injection HS as W _. exact W.
Qed.
Print Assumptions C55_image_width_refuted.
(** What does hold.  A width that fits is the true width (for every rotation, in both builds). *)
Theorem C55_image_width_partial : forall p g b, fits g b ->
  exists buf, image_generate_buffer p g b = Ret (Ok buf) /\
    match img_rotation g with RZero | ROneEighty => buf_w buf | RNinety | RTwoSeventy => buf_h buf end = len b * img_xdim g.
Proof.
  intros p g b HF. destruct (place_pixels_fits p g b HF) as (buf & E & HS & _). exists buf. unfold image_generate_buffer. rewrite E.
  split; [reflexivity|]. destruct (img_rotation g); cbn [turned_size] in HS; injection HS as W H; assumption.
Qed.
Print Assumptions C55_image_width_partial.
(** A width that does not fit panics in a checked build; in an unchecked build it panics unless
    the height is 0, when the picture is empty and its width is taken modulo 2^32.  So no
    non-empty picture is ever drawn with a wrong width. *)
Theorem C55_image_overflow_partial : forall g b, 2 ^ 32 <= len b * img_xdim g ->
  (len b < 2 ^ 32 -> image_generate_buffer Debug g b = Panic PanicOverflow) /\
  (1 <= img_height g -> panics (image_generate_buffer Release g b)) /\
  (img_height g = 0 -> exists buf, image_generate_buffer Release g b = Ret (Ok buf) /\
     (buf_w buf, buf_h buf) = match img_rotation g with
                              | RZero | ROneEighty => (len b * img_xdim g mod 2 ^ 32, 0)
                              | RNinety | RTwoSeventy => (0, len b * img_xdim g mod 2 ^ 32)
                              end).
Proof.
  intros g b H. unfold image_generate_buffer. split; [|split].
  - intros Hl. now rewrite place_pixels_debug.
  - intros Hh. destruct (place_pixels_release_panics g b H Hh) as [r E]. rewrite E. now exists r.
  - intros Hh. destruct (place_pixels_release_flat g b Hh) as [buf [E HS]]. exists buf. rewrite E. now split.
Qed.
Print Assumptions C55_image_overflow_partial.
(** Exactly which pictures are drawn: those whose width and byte count fit, and empty ones. *)
Theorem C55_image_returns_partial : forall p g b, returns (image_generate_buffer p g b) <->
  (len b * img_xdim g < 2 ^ 32 /\ 4 * (len b * img_xdim g) * img_height g < 2 ^ 63) \/
  (img_height g = 0 /\ (p = Debug -> len b mod 2 ^ 32 * img_xdim g < 2 ^ 32)).
Proof. exact image_returns. Qed.
Print Assumptions C55_image_returns_partial.
Example C55_case : exists g b, 2 ^ 32 <= len b * img_xdim g /\ len b < 2 ^ 32 /\ 1 <= img_height g /\
  panics (image_generate_buffer Release g b).
Proof.
  exists (mkImage VPng 80 (2 ^ 31) RNinety rgba_black rgba_white), [1; 0; 1].
  assert (H : 2 ^ 32 <= len [1; 0; 1] * 2 ^ 31) by (vm_compute; discriminate).
  split; [exact H|]. split; [reflexivity|]. split; [vm_compute; discriminate|].
  apply (C55_image_overflow_partial (mkImage VPng 80 (2 ^ 31) RNinety rgba_black rgba_white) [1; 0; 1] H).
  vm_compute. discriminate.
Qed.

Example C55_returns_case : panics (image_generate_buffer Debug (mkImage VPng (2 ^ 31) (2 ^ 30) RZero rgba_black rgba_white) [1; 0; 1]) /\
  returns (image_generate_buffer Debug (mkImage VPng 3 2 ROneEighty rgba_black rgba_white) [1; 0; 1]).
Proof.
  split.
  - destruct (image_generate_buffer Debug _ _) as [r|r] eqn:E; [|now exists r]. exfalso.
    assert (R : returns (image_generate_buffer Debug (mkImage VPng (2 ^ 31) (2 ^ 30) RZero rgba_black rgba_white) [1; 0; 1])) by (exists r; exact E).
    apply C55_image_returns_partial in R. destruct R as [[_ H]|[H _]]; [vm_compute in H; discriminate H | discriminate H].
  - apply C55_image_returns_partial. left. split; reflexivity.
Qed.

(** ** C56.  For every codec [write_to]. *)
Theorem C56_generate_codec : forall p (write_to : codec) g b buf, image_generate_buffer p g b = Ret (Ok buf) ->
  forall f, match img_variant g with VGif => f = FGif | VPng => f = FPng | VWebp => f = FWebP | VBuffer => False end ->
  image_generate p write_to g b = match write_to f buf with
                                  | Ret (Some bytes) => Ret (Ok bytes)
                                  | Ret None => Ret (Err EGenerate)
                                  | Panic r => Panic r
                                  end.
Proof.
  intros p wt g b buf E f Hf. unfold image_generate_buffer in E. unfold image_generate.
  destruct (place_pixels p g b) as [b0|r]; [|discriminate]. cbn [bind] in E. injection E as ->.
  destruct (img_variant g); try contradiction; subst f; cbn [bind]; destruct (wt _ buf) as [[bs|]|r]; reflexivity.
Qed.
Print Assumptions C56_generate_codec.
Theorem C56_generate_panics : forall p (write_to : codec) g b r, image_generate_buffer p g b = Panic r ->
  img_variant g <> VBuffer -> image_generate p write_to g b = Panic r.
Proof.
  intros p wt g b r E HV. unfold image_generate_buffer in E. unfold image_generate.
  destruct (place_pixels p g b) as [b0|r']; [discriminate|]. cbn [bind] in E. injection E as ->.
  destruct (img_variant g); try reflexivity. congruence.
Qed.
Print Assumptions C56_generate_panics.
(** The ImageBuffer variant: whatever the barcode, even one too large to draw *)
Theorem C56_generate_buffer_variant : forall p (write_to : codec) g b, img_variant g = VBuffer ->
  image_generate p write_to g b = Ret (Err EGenerate).
Proof. intros p wt g b E. unfold image_generate. now rewrite E. Qed.
Print Assumptions C56_generate_buffer_variant.
(** [generate_buffer] does not look at the variant and never returns an error *)
Theorem C56_buffer_any_variant : forall p v v' h x r f k b,
  image_generate_buffer p (mkImage v h x r f k) b = image_generate_buffer p (mkImage v' h x r f k) b.
Proof. reflexivity. Qed.
Print Assumptions C56_buffer_any_variant.
Theorem C56_buffer_no_error : forall p g b e, image_generate_buffer p g b <> Ret (Err e).
Proof. intros p g b e. unfold image_generate_buffer. destruct (place_pixels p g b); discriminate. Qed.
Print Assumptions C56_buffer_no_error.
Definition case_codec : codec := fun f buf => Ret (match f with FGif => None | _ => Some [buf_w buf; buf_h buf] end).
Example C56_case :
  image_generate Debug case_codec (case_image RNinety) [1; 0] = Ret (Ok [2; 6]) /\
  image_generate Debug case_codec (mkImage VGif 2 3 RZero rgba_black rgba_white) [1; 0] = Ret (Err EGenerate) /\
  image_generate Debug case_codec (mkImage VBuffer 2 3 RZero rgba_black rgba_white) [1; 0] = Ret (Err EGenerate).
Proof. vm_compute. repeat split. Qed.
