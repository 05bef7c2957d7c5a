(** * Proofs about the image generator: the whole picture, overflow, codecs *)
From Coq Require Import Permutation.
From Verif Require Import Rust M_Error M_Image S_Image P_Rust P_Image.

Definition well_formed (b : buffer) : Prop := len (buf_px b) = buf_w b * buf_h b.
Lemma well_formed_holds b : well_formed b ->
  holds b (buf_w b) (buf_h b) (fun x y => nth (N.to_nat (y * buf_w b + x)) (buf_px b) rgba_zero).
Proof.
  intros H. split; [reflexivity|]. split; [reflexivity|]. split; [exact H|]. intros x y Hx Hy. unfold pixel.
  apply nth_error_nth'. pose proof (cell_lt _ _ _ _ Hx Hy). unfold well_formed, len in H. lia.
Qed.
Lemma holds_pixel b w h f x y : holds b w h f -> x < w -> y < h -> pixel (buf_w b) (buf_px b) x y = Some (f x y).
Proof. intros (E & _ & _ & HP) Hx Hy. rewrite E. now apply HP. Qed.
Lemma rotate90_spec b : well_formed b -> 4 * buf_w b * buf_h b < 2 ^ 63 ->
  exists b', rotate90 b = Ret b' /\ buf_w b' = buf_h b /\ buf_h b' = buf_w b /\ well_formed b' /\
    (forall x y, x < buf_w b -> y < buf_h b ->
       pixel (buf_w b') (buf_px b') (buf_h b - 1 - y) x = pixel (buf_w b) (buf_px b) x y) /\
    Permutation (buf_px b') (buf_px b).
Proof.
  intros HW Hs. pose proof (well_formed_holds b HW) as HB. destruct (rotate90_holds b _ _ _ HB Hs) as [b' [E [HB' HP]]].
  exists b'. split; [assumption|]. split; [apply HB'|]. split; [apply HB'|].
  split; [unfold well_formed; destruct HB' as (-> & -> & HL & _); exact HL|]. split; [|assumption].
  intros x y Hx Hy. rewrite (holds_pixel _ _ _ _ (buf_h b - 1 - y) x HB') by lia. rewrite (holds_pixel _ _ _ _ x y HB) by assumption.
  now replace (buf_h b - 1 - (buf_h b - 1 - y)) with y by lia.
Qed.
Lemma rotate180_spec b : well_formed b -> 4 * buf_w b * buf_h b < 2 ^ 63 ->
  exists b', rotate180 b = Ret b' /\ buf_w b' = buf_w b /\ buf_h b' = buf_h b /\ well_formed b' /\
    (forall x y, x < buf_w b -> y < buf_h b ->
       pixel (buf_w b') (buf_px b') (buf_w b - 1 - x) (buf_h b - 1 - y) = pixel (buf_w b) (buf_px b) x y) /\
    Permutation (buf_px b') (buf_px b).
Proof.
  intros HW Hs. pose proof (well_formed_holds b HW) as HB. destruct (rotate180_holds b _ _ _ HB Hs) as [b' [E [HB' HP]]].
  exists b'. split; [assumption|]. split; [apply HB'|]. split; [apply HB'|].
  split; [unfold well_formed; destruct HB' as (-> & -> & HL & _); exact HL|]. split; [|assumption].
  intros x y Hx Hy. rewrite (holds_pixel _ _ _ _ (buf_w b - 1 - x) (buf_h b - 1 - y) HB') by lia. rewrite (holds_pixel _ _ _ _ x y HB) by assumption.
  replace (buf_h b - 1 - (buf_h b - 1 - y)) with y by lia. now replace (buf_w b - 1 - (buf_w b - 1 - x)) with x by lia.
Qed.
Lemma rotate270_spec b : well_formed b -> 4 * buf_w b * buf_h b < 2 ^ 63 ->
  exists b', rotate270 b = Ret b' /\ buf_w b' = buf_h b /\ buf_h b' = buf_w b /\ well_formed b' /\
    (forall x y, x < buf_w b -> y < buf_h b ->
       pixel (buf_w b') (buf_px b') y (buf_w b - 1 - x) = pixel (buf_w b) (buf_px b) x y) /\
    Permutation (buf_px b') (buf_px b).
Proof.
  intros HW Hs. pose proof (well_formed_holds b HW) as HB. destruct (rotate270_holds b _ _ _ HB Hs) as [b' [E [HB' HP]]].
  exists b'. split; [assumption|]. split; [apply HB'|]. split; [apply HB'|].
  split; [unfold well_formed; destruct HB' as (-> & -> & HL & _); exact HL|]. split; [|assumption].
  intros x y Hx Hy. rewrite (holds_pixel _ _ _ _ y (buf_w b - 1 - x) HB') by lia. rewrite (holds_pixel _ _ _ _ x y HB) by assumption.
  now replace (buf_w b - 1 - (buf_w b - 1 - x)) with x by lia.
Qed.

(** Where pixel (x, y) of the upright picture is found in the turned one *)
Definition turn (r : rotation) (w h x y : N) : N * N :=
  match r with
  | RZero => (x, y)
  | RNinety => (h - 1 - y, x)
  | ROneEighty => (w - 1 - x, h - 1 - y)
  | RTwoSeventy => (y, w - 1 - x)
  end.
Definition turned_size (r : rotation) (w h : N) : N * N :=
  match r with RZero | ROneEighty => (w, h) | RNinety | RTwoSeventy => (h, w) end.
Lemma place_pixels_fits p g b : fits g b ->
  let w := len b * img_xdim g in let h := img_height g in
  exists buf, place_pixels p g b = Ret buf /\ (buf_w buf, buf_h buf) = turned_size (img_rotation g) w h /\ well_formed buf /\
    forall x y, x < w -> y < h ->
      pixel (buf_w buf) (buf_px buf) (fst (turn (img_rotation g) w h x y)) (snd (turn (img_rotation g) w h x y)) =
      Some (bars (img_xdim g) (img_foreground g) (img_background g) b x y).
Proof.
  intros HF. cbv zeta. rewrite place_pixels_unrotated. destruct (place_pixels_zero p g b HF) as [buf [E HB]].
  rewrite E. cbn [bind]. assert (HW : well_formed buf) by (unfold well_formed; destruct HB as (-> & -> & HL & _); exact HL).
  assert (HS : 4 * buf_w buf * buf_h buf < 2 ^ 63) by (destruct HB as (-> & -> & _); apply HF).
  pose proof HB as (Ew & Eh & _).
  destruct (img_rotation g); cbn [rotate turn turned_size fst snd].
  - exists buf. split; [reflexivity|]. split; [now rewrite Ew, Eh|]. split; [assumption|]. intros x y Hx Hy. now apply (holds_pixel _ _ _ _ x y HB).
  - destruct (rotate90_spec buf HW HS) as (b' & E' & W & H & WF & HP & _). exists b'. split; [assumption|]. split; [now rewrite W, H, Ew, Eh|].
    split; [assumption|]. intros x y Hx Hy. rewrite Ew, Eh in HP. rewrite HP by assumption. rewrite <- Ew. now apply (holds_pixel _ _ _ _ x y HB).
  - destruct (rotate180_spec buf HW HS) as (b' & E' & W & H & WF & HP & _). exists b'. split; [assumption|]. split; [now rewrite W, H, Ew, Eh|].
    split; [assumption|]. intros x y Hx Hy. rewrite Ew, Eh in HP. rewrite HP by assumption. rewrite <- Ew. now apply (holds_pixel _ _ _ _ x y HB).
  - destruct (rotate270_spec buf HW HS) as (b' & E' & W & H & WF & HP & _). exists b'. split; [assumption|]. split; [now rewrite W, H, Ew, Eh|].
    split; [assumption|]. intros x y Hx Hy. rewrite Ew, Eh in HP. rewrite HP by assumption. rewrite <- Ew. now apply (holds_pixel _ _ _ _ x y HB).
Qed.

(** ** Overflow *)
Lemma place_pixels_debug g b : len b < 2 ^ 32 -> 2 ^ 32 <= len b * img_xdim g -> place_pixels Debug g b = Panic PanicOverflow.
Proof. intros Hl H. unfold place_pixels, mul_u at 1. rewrite cast_u_small by assumption. now rewrite fit_u_debug. Qed.
Lemma mul_cast_release32 n x : mul_u 32 Release (cast_u 32 n) x = Ret (n * x mod 2 ^ 32).
Proof. unfold mul_u, cast_u. rewrite fit_u_release. now rewrite N.mul_mod_idemp_l. Qed.
Lemma put_pixel_w b x y c b' : put_pixel b x y c = Ret b' -> buf_w b' = buf_w b.
Proof. unfold put_pixel. destruct ((x <? buf_w b) && (y <? buf_h b)); intros H; [|discriminate]. now injection H as <-. Qed.
Lemma draw_outside ws buf y c : In (buf_w buf, y, c) ws -> panics (draw ws buf).
Proof.
  intros Hin. apply (foldM_panic_inv (fun b => buf_w b = buf_w buf) put ws (buf_w buf, y, c) Hin).
  - intros acc [[x' y'] c'] acc' Ha E. cbn [put] in E. apply put_pixel_w in E. congruence.
  - intros acc Ha. exists PanicIndex. cbn [put]. unfold put_pixel. rewrite <- Ha, N.ltb_irrefl. reflexivity.
  - reflexivity.
Qed.
Lemma buffer_new_cases w h : (exists b, buffer_new w h = Ret b /\ buf_w b = w /\ buf_h b = h /\ len (buf_px b) = w * h) \/
  buffer_new w h = Panic PanicAlloc.
Proof.
  unfold buffer_new. destruct (4 * w * h <? 2 ^ 63); [left | now right]. eexists. split; [reflexivity|]. cbn [buf_w buf_h buf_px].
  split; [reflexivity|]. split; [reflexivity|]. unfold len. rewrite repeat_length. lia.
Qed.
Lemma place_pixels_release_panics g b : 2 ^ 32 <= len b * img_xdim g -> 1 <= img_height g -> panics (place_pixels Release g b).
Proof.
  intros H Hh. rewrite place_pixels_unrotated. unfold place_pixels. cbn [unrotated img_xdim img_height img_rotation].
  rewrite mul_cast_release32. cbn [bind]. set (w := len b * img_xdim g mod 2 ^ 32).
  assert (Hw : w < 2 ^ 32) by now apply N.mod_lt.
  destruct (buffer_new_cases w (img_height g)) as [[b0 [E0 [W0 _]]]|E0]; rewrite E0; cbn [bind]; [|now eexists].
  set (X := fun i q => (i * img_xdim g + q) mod 2 ^ 32).
  change (foldM _ (range (img_height g)) b0) with (foldM (fun buf y => place_row Release g b y buf) (range (img_height g)) b0).
  rewrite (place_all Release g b X).
  2:{ intros i q Hi Hq. rewrite mul_cast_release32. cbn [bind]. unfold add_u, X. rewrite fit_u_release. now rewrite N.add_mod_idemp_l. }
  assert (Hd : img_xdim g <> 0) by (intros E; rewrite E, N.mul_0_r in H; now apply N.le_0_r in H).
  pose proof (N.div_mod w (img_xdim g) Hd) as Ew. pose proof (N.mod_lt w (img_xdim g) Hd) as Hq.
  assert (Hi : w / img_xdim g < len b) by (apply N.div_lt_upper_bound; [assumption | rewrite N.mul_comm; lia]).
  destruct (nth_error b (N.to_nat (w / img_xdim g))) as [v|] eqn:Ev.
  2:{ apply nth_error_None in Ev. unfold len in Hi. lia. }
  assert (HP : panics (draw (all_writes g X b) b0)).
  { apply draw_outside with (y := 0) (c := if v =? 0 then img_background g else img_foreground g).
    apply all_writes_In. split; [lia|]. exists (w / img_xdim g), (w mod img_xdim g), v. split; [assumption|]. split; [assumption|].
    split; [|reflexivity]. rewrite W0. unfold X. rewrite N.mul_comm, <- Ew. symmetry. now apply N.mod_small. }
  destruct HP as [q HP]. rewrite HP. now eexists.
Qed.
Lemma place_pixels_release_flat g b : img_height g = 0 ->
  exists buf, place_pixels Release g b = Ret buf /\
    (buf_w buf, buf_h buf) = turned_size (img_rotation g) (len b * img_xdim g mod 2 ^ 32) 0.
Proof.
  intros Hh. rewrite place_pixels_unrotated. unfold place_pixels. cbn [unrotated img_xdim img_height img_rotation].
  rewrite mul_cast_release32, Hh. cbn [bind]. set (w := len b * img_xdim g mod 2 ^ 32).
  assert (Hs : 4 * w * 0 < 2 ^ 63) by (rewrite N.mul_0_r; reflexivity).
  destruct (buffer_new_holds w 0 Hs) as [b0 [E0 H0]]. rewrite E0. cbn [bind range N.to_nat seq map foldM].
  destruct (img_rotation g); cbn [rotate turned_size].
  - exists b0. split; [reflexivity|]. destruct H0 as (-> & -> & _). reflexivity.
  - destruct (rotate90_holds b0 w 0 _ H0 Hs) as [b' [E [(W & H & _) _]]]. exists b'. split; [assumption|]. now rewrite W, H.
  - destruct (rotate180_holds b0 w 0 _ H0 Hs) as [b' [E [(W & H & _) _]]]. exists b'. split; [assumption|]. now rewrite W, H.
  - destruct (rotate270_holds b0 w 0 _ H0 Hs) as [b' [E [(W & H & _) _]]]. exists b'. split; [assumption|]. now rewrite W, H.
Qed.

(** ** Exactly which pictures are drawn *)
Lemma foldM_keeps {A B} (P : B -> Prop) (f : B -> A -> M B) l : (forall acc y acc', P acc -> f acc y = Ret acc' -> P acc') ->
  forall acc acc', P acc -> foldM f l acc = Ret acc' -> P acc'.
Proof.
  intros HP. induction l as [|y l IH]; intros acc acc' Ha E; cbn [foldM] in E; [now injection E as <-|].
  destruct (f acc y) as [b|] eqn:Ef; [|discriminate]. cbn [bind] in E. exact (IH b acc' (HP acc y b Ha Ef) E).
Qed.
Lemma place_module_w p xdim y i c buf buf' : place_module p xdim y i c buf = Ret buf' -> buf_w buf' = buf_w buf.
Proof.
  intros E. refine (foldM_keeps (fun b => buf_w b = buf_w buf) _ _ _ _ _ eq_refl E). intros acc q acc' Ha E'.
  destruct (mul_u 32 p (cast_u 32 i) xdim); [|discriminate]. cbn [bind] in E'. destruct (add_u 32 p a q); [|discriminate]. cbn [bind] in E'.
  apply put_pixel_w in E'. congruence.
Qed.
Lemma place_row_w p g b y buf buf' : place_row p g b y buf = Ret buf' -> buf_w buf' = buf_w buf.
Proof.
  intros E. refine (foldM_keeps (fun b => buf_w b = buf_w buf) _ _ _ _ _ eq_refl E). intros acc [i v] acc' Ha E'.
  apply place_module_w in E'. congruence.
Qed.
Lemma place_pixels_debug_panics g b : 2 ^ 32 <= len b * img_xdim g -> 1 <= img_height g -> panics (place_pixels Debug g b).
Proof.
  intros H Hh. destruct (N.lt_ge_cases (len b) (2 ^ 32)) as [Hl|Hl]; [exists PanicOverflow; now apply place_pixels_debug|].
  unfold place_pixels, mul_u at 1. unfold cast_u at 1. set (i := len b mod 2 ^ 32).
  assert (Hi : i < 2 ^ 32) by now apply N.mod_lt.
  destruct (N.lt_ge_cases (i * img_xdim g) (2 ^ 32)) as [Hw|Hw]; [|rewrite fit_u_debug by assumption; now eexists].
  rewrite fit_u_ok by assumption. cbn [bind]. set (w := i * img_xdim g) in *.
  destruct (buffer_new_cases w (img_height g)) as [[b0 [E0 [W0 _]]]|E0]; rewrite E0; cbn [bind]; [|now eexists].
  assert (Hx : img_xdim g <> 0) by (intros E; rewrite E, N.mul_0_r in H; now apply N.le_0_r in H).
  assert (HP : panics (foldM (fun buf y => place_row Debug g b y buf) (range (img_height g)) b0)).
  { apply (foldM_panic_inv (fun a => buf_w a = w) _ _ 0); [apply In_range; lia | | | assumption].
    { intros acc y acc' Ha E. apply place_row_w in E. congruence. }
    intros a Ha. destruct (nth_error b (N.to_nat i)) as [v|] eqn:Ev.
    2:{ apply nth_error_None in Ev. unfold len in *. lia. }
    apply (foldM_panic_inv (fun a => buf_w a = w) _ _ (i, v)); [now apply enumerate_In | | | assumption].
    { intros acc [j u] acc' Ha' E. apply place_module_w in E. congruence. }
    intros a' Ha'. apply (foldM_panic_inv (fun a => buf_w a = w) _ _ 0); [apply In_range; lia | | | assumption].
    { intros acc q acc' Hb E. destruct (mul_u 32 Debug (cast_u 32 i) (img_xdim g)); [|discriminate]. cbn [bind] in E.
      destruct (add_u 32 Debug a0 q); [|discriminate]. cbn [bind] in E. apply put_pixel_w in E. congruence. }
    intros a'' Ha''. unfold mul_u. rewrite cast_u_small by assumption. rewrite fit_u_ok by assumption. cbn [bind]. unfold add_u.
    rewrite N.add_0_r, fit_u_ok by assumption. cbn [bind]. unfold put_pixel. fold w. rewrite Ha'', N.ltb_irrefl. now eexists. }
  destruct HP as [q HP]. rewrite HP. now eexists.
Qed.
Lemma place_pixels_flat p g b : img_height g = 0 -> (p = Debug -> len b mod 2 ^ 32 * img_xdim g < 2 ^ 32) ->
  returns (place_pixels p g b).
Proof.
  intros Hh Hp. rewrite place_pixels_unrotated. unfold place_pixels. cbn [unrotated img_xdim img_height img_rotation]. rewrite Hh.
  assert (HM : exists w, mul_u 32 p (cast_u 32 (len b)) (img_xdim g) = Ret w).
  { destruct p; [|rewrite mul_cast_release32; now eexists]. unfold mul_u, cast_u. rewrite fit_u_ok by now apply Hp. now eexists. }
  destruct HM as [w ->]. cbn [bind]. assert (Hs : 4 * w * 0 < 2 ^ 63) by (rewrite N.mul_0_r; reflexivity).
  destruct (buffer_new_holds w 0 Hs) as [b0 [E0 H0]]. rewrite E0. cbn [bind range N.to_nat seq map foldM].
  destruct (img_rotation g); cbn [rotate].
  - now exists b0.
  - destruct (rotate90_holds b0 w 0 _ H0 Hs) as [b' [E _]]. now exists b'.
  - destruct (rotate180_holds b0 w 0 _ H0 Hs) as [b' [E _]]. now exists b'.
  - destruct (rotate270_holds b0 w 0 _ H0 Hs) as [b' [E _]]. now exists b'.
Qed.
Lemma image_returns p g b : returns (image_generate_buffer p g b) <->
  fits g b \/ (img_height g = 0 /\ (p = Debug -> len b mod 2 ^ 32 * img_xdim g < 2 ^ 32)).
Proof.
  assert (HR : returns (image_generate_buffer p g b) <-> returns (place_pixels p g b)).
  { unfold image_generate_buffer. destruct (place_pixels p g b); cbn [bind]; split; intros [z E]; try discriminate; now eexists. }
  rewrite HR. clear HR. split.
  - intros [buf E]. destruct (N.lt_ge_cases (len b * img_xdim g) (2 ^ 32)) as [Hw|Hw].
    + left. split; [assumption|]. unfold place_pixels in E. rewrite mul_cast_fits32 in E by assumption. cbn [bind] in E.
      unfold buffer_new in E. destruct (4 * (len b * img_xdim g) * img_height g <? 2 ^ 63) eqn:E4; [now apply N.ltb_lt in E4 | discriminate].
    + right. destruct (N.eq_dec (img_height g) 0) as [Hh|Hh].
      * split; [assumption|]. intros ->. unfold place_pixels, mul_u at 1 in E. unfold cast_u at 1 in E.
        destruct (N.lt_ge_cases (len b mod 2 ^ 32 * img_xdim g) (2 ^ 32)) as [|G]; [assumption|]. rewrite fit_u_debug in E by assumption. discriminate.
      * exfalso. destruct p; [destruct (place_pixels_debug_panics g b Hw) as [r E']; [lia|] |
          destruct (place_pixels_release_panics g b Hw) as [r E']; [lia|]]; rewrite E' in E; discriminate.
  - intros [HF|[Hh Hp]]; [|now apply place_pixels_flat]. destruct (place_pixels_fits p g b HF) as [buf [E _]]. now exists buf.
Qed.
