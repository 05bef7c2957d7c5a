(** * Proofs: pictures enlarged, and pictures put together *)
From Verif Require Import Rust M_Error M_Ascii M_Svg M_Image S_Barcode S_Text S_Num S_Ascii S_Svg S_Image S_Scale
  P_Rust P_Num P_Ascii P_Svg P_Svg2 P_Image P_Image2.

(** ** ASCII *)
Lemma ascii_modules p g b out : ascii_generate p g b = Ret (Ok out) -> Forall module b.
Proof.
  intros H. destruct g as [h x]. destruct (Exists_dec (fun d => 2 <= d) b) as [HE|HE]; [intros d; destruct (2 <=? d) eqn:E; [left; now apply N.leb_le | right; intros L; apply N.leb_le in L; congruence] | |].
  - apply (ascii_panics p h x) in HE. rewrite H in HE. now destruct HE.
  - apply Forall_forall. intros d Hd. destruct (N.le_gt_cases 2 d) as [L|L].
    + exfalso. apply HE. apply Exists_exists. eauto.
    + unfold module. lia.
Qed.
Lemma repeat_mul {A} (c : A) k n : repeat c (N.to_nat (k * n)) = flat_map (fun c => repeat c (N.to_nat k)) (repeat c (N.to_nat n)).
Proof.
  rewrite N2Nat.inj_mul, Nat.mul_comm. induction (N.to_nat n) as [|m IH]; [reflexivity|]. cbn [repeat flat_map Nat.mul].
  now rewrite repeat_app, IH.
Qed.
Lemma flat_map_flat {A B C} (f : A -> list B) (g : B -> list C) l : flat_map g (flat_map f l) = flat_map (fun a => flat_map g (f a)) l.
Proof. induction l as [|a l IH]; [reflexivity|]. cbn [flat_map]. now rewrite flat_map_app, IH. Qed.
Lemma text_line_enlarged k x b : text_line (k * x) b = enlarge k (text_line x b).
Proof. unfold text_line, enlarge. rewrite flat_map_flat. apply flat_map_ext. intros d. apply repeat_mul. Qed.
Lemma map_repeat' {A B} (f : A -> B) x n : map f (repeat x n) = repeat (f x) n.
Proof. induction n as [|n IH]; [reflexivity|]. cbn. now rewrite IH. Qed.
Lemma ascii_enlarged p h x k b out : 1 <= h -> 1 <= k -> ascii_generate p (mkASCII h x) b = Ret (Ok out) ->
  exists out', ascii_generate p (mkASCII (k * h) (k * x)) b = Ret (Ok out') /\
    split_on 10 out' = enlarge_lines k (split_on 10 out).
Proof.
  intros Hh Hk H. pose proof (ascii_modules _ _ _ _ H) as HM.
  destruct (ascii_generate_spec p h x b HM) as (o & E & _ & L). rewrite H in E. injection E as <-. specialize (L Hh).
  destruct (ascii_generate_spec p (k * h) (k * x) b HM) as (o & E & _ & L'). exists o. split; [exact E|].
  rewrite L' by nia. rewrite L. unfold enlarge_lines. rewrite map_repeat', text_line_enlarged. apply repeat_mul.
Qed.
Lemma beside_repeat a b n : beside (repeat a n) (repeat b n) = repeat (a ++ b) n.
Proof. induction n as [|n IH]; [reflexivity|]. cbn. now rewrite IH. Qed.
Lemma ascii_joined p h x a b out out' : 1 <= h -> ascii_generate p (mkASCII h x) a = Ret (Ok out) ->
  ascii_generate p (mkASCII h x) b = Ret (Ok out') ->
  exists both, ascii_generate p (mkASCII h x) (a ++ b) = Ret (Ok both) /\ split_on 10 both = beside (split_on 10 out) (split_on 10 out').
Proof.
  intros Hh Ha Hb. pose proof (ascii_modules _ _ _ _ Ha) as MA. pose proof (ascii_modules _ _ _ _ Hb) as MB.
  destruct (ascii_generate_spec p h x a MA) as (o & E & _ & LA). rewrite Ha in E. injection E as <-.
  destruct (ascii_generate_spec p h x b MB) as (o & E & _ & LB). rewrite Hb in E. injection E as <-.
  assert (MM : Forall module (a ++ b)) by (apply Forall_app; now split).
  destruct (ascii_generate_spec p h x (a ++ b) MM) as (o & E & _ & L). exists o. split; [exact E|].
  rewrite LA, LB, L, beside_repeat by exact Hh. unfold text_line. now rewrite flat_map_app.
Qed.

(** ** Images *)
Definition colour (g : Image) (b : list N) (i : N) : rgba :=
  if nth (N.to_nat i) b 0 =? 0 then img_background g else img_foreground g.
(** The pixels before the module, along the line the symbol runs *)
Definition run (r : rotation) (w x y : N) : N :=
  match r with RZero => x | RNinety => y | ROneEighty => w - 1 - x | RTwoSeventy => w - 1 - y end.
Lemma image_pixels p g b : fits g b ->
  let w := len b * img_xdim g in let h := img_height g in
  exists buf, image_generate_buffer p g b = Ret (Ok buf) /\ (buf_w buf, buf_h buf) = turned_size (img_rotation g) w h /\
    forall x y, x < buf_w buf -> y < buf_h buf ->
      pixel (buf_w buf) (buf_px buf) x y = Some (colour g b (run (img_rotation g) w x y / img_xdim g)).
Proof.
  intros HF. cbv zeta. destruct (place_pixels_fits p g b HF) as (buf & E & HS & _ & HP). exists buf.
  unfold image_generate_buffer. rewrite E. split; [reflexivity|]. split; [exact HS|].
  set (w := len b * img_xdim g) in *. set (h := img_height g) in *. intros x y Hx Hy.
  destruct (img_rotation g); cbn [turned_size turn fst snd run] in *; injection HS as EW EH; rewrite ?EW, ?EH in *.
  - now rewrite HP.
  - specialize (HP y (h - 1 - x) ltac:(lia) ltac:(lia)). replace (h - 1 - (h - 1 - x)) with x in HP by lia. exact HP.
  - specialize (HP (w - 1 - x) (h - 1 - y) ltac:(lia) ltac:(lia)).
    replace (w - 1 - (w - 1 - x)) with x in HP by lia. replace (h - 1 - (h - 1 - y)) with y in HP by lia. exact HP.
  - specialize (HP (w - 1 - y) x ltac:(lia) ltac:(lia)). replace (w - 1 - (w - 1 - y)) with y in HP by lia. exact HP.
Qed.
Definition enlarged (k : N) (g : Image) : Image :=
  mkImage (img_variant g) (k * img_height g) (k * img_xdim g) (img_rotation g) (img_foreground g) (img_background g).
Lemma run_scaled k w x : 1 <= k -> x < k * w -> (k * w - 1 - x) / k = w - 1 - x / k.
Proof.
  intros Hk Hx. pose proof (N.div_mod x k ltac:(lia)) as D. pose proof (N.mod_lt x k ltac:(lia)) as L.
  assert (x / k < w) by (apply N.div_lt_upper_bound; lia).
  assert (E : w = x / k + 1 + (w - 1 - x / k)) by lia. set (e := w - 1 - x / k) in *. clearbody e. subst w.
  set (q := x / k) in *. set (r := x mod k) in *. clearbody q r. symmetry. apply (N.div_unique _ k _ (k - 1 - r)); [clear D Hx; lia|].
  rewrite !N.mul_add_distr_l, N.mul_1_r. lia.
Qed.
Lemma image_enlarged p g b k : 1 <= k -> fits (enlarged k g) b ->
  exists small big, image_generate_buffer p g b = Ret (Ok small) /\ image_generate_buffer p (enlarged k g) b = Ret (Ok big) /\
    buf_w big = k * buf_w small /\ buf_h big = k * buf_h small /\
    forall x y, x < buf_w big -> y < buf_h big ->
      pixel (buf_w big) (buf_px big) x y = pixel (buf_w small) (buf_px small) (x / k) (y / k).
Proof.
  intros Hk HF. assert (HF' : fits g b).
  { destruct HF as [A B]. cbn [enlarged img_xdim img_height] in A, B. split; [nia|].
    apply N.le_lt_trans with (4 * (len b * (k * img_xdim g)) * (k * img_height g)); [|exact B].
    apply N.mul_le_mono; nia. }
  destruct (image_pixels p g b HF') as (small & E & HS & HP). destruct (image_pixels p _ b HF) as (big & E' & HS' & HP').
  exists small, big. split; [exact E|]. split; [exact E'|]. cbn [enlarged img_xdim img_height img_rotation] in *.
  set (w := len b * img_xdim g) in *. replace (len b * (k * img_xdim g)) with (k * w) in * by (unfold w; lia).
  assert (W : buf_w big = k * buf_w small /\ buf_h big = k * buf_h small).
  { destruct (img_rotation g); cbn [turned_size] in HS, HS'; injection HS as -> ->; injection HS' as -> ->; auto. }
  destruct W as [W1 W2]. split; [exact W1|]. split; [exact W2|]. intros x y Hx Hy.
  rewrite HP' by assumption. rewrite W1 in Hx. rewrite W2 in Hy.
  rewrite HP by (apply N.div_lt_upper_bound; lia). f_equal. unfold colour. cbn [enlarged img_foreground img_background].
  assert (HX : img_xdim g <> 0).
  { intros Z. assert (Z' : w = 0) by (unfold w; rewrite Z; apply N.mul_0_r).
    destruct (img_rotation g); cbn [turned_size] in HS; injection HS as A B; rewrite ?A, ?B, Z' in *; lia. }
  rewrite <- N.div_div by lia. replace (run (img_rotation g) (k * w) x y / k) with (run (img_rotation g) w (x / k) (y / k)); [reflexivity|].
  destruct (img_rotation g); cbn [turned_size run] in *; injection HS as A B; rewrite ?A, ?B in *; try reflexivity;
    symmetry; now apply run_scaled.
Qed.

(** Which of two pictures put together a pixel belongs to *)
Lemma image_joined p g a b : fits g (a ++ b) ->
  exists one two both, image_generate_buffer p g a = Ret (Ok one) /\ image_generate_buffer p g b = Ret (Ok two) /\
    image_generate_buffer p g (a ++ b) = Ret (Ok both) /\
    match img_rotation g with
    | RZero | ROneEighty =>
        let (l, r) := match img_rotation g with RZero => (one, two) | _ => (two, one) end in
        buf_w both = buf_w l + buf_w r /\ buf_h both = buf_h l /\ buf_h both = buf_h r /\
        forall x y, x < buf_w both -> y < buf_h both -> pixel (buf_w both) (buf_px both) x y =
          if x <? buf_w l then pixel (buf_w l) (buf_px l) x y else pixel (buf_w r) (buf_px r) (x - buf_w l) y
    | RNinety | RTwoSeventy =>
        let (t, u) := match img_rotation g with RNinety => (one, two) | _ => (two, one) end in
        buf_h both = buf_h t + buf_h u /\ buf_w both = buf_w t /\ buf_w both = buf_w u /\
        forall x y, x < buf_w both -> y < buf_h both -> pixel (buf_w both) (buf_px both) x y =
          if y <? buf_h t then pixel (buf_w t) (buf_px t) x y else pixel (buf_w u) (buf_px u) x (y - buf_h t)
    end.
Proof.
  intros HF. pose proof HF as [F1 F2]. assert (EL : len (a ++ b) = len a + len b) by (unfold len; rewrite app_length; lia).
  rewrite EL in F1, F2. assert (FA : fits g a) by (split; nia). assert (FB : fits g b) by (split; nia).
  destruct (image_pixels p g a FA) as (one & E1 & S1 & P1). destruct (image_pixels p g b FB) as (two & E2 & S2 & P2).
  destruct (image_pixels p g (a ++ b) HF) as (both & E3 & S3 & P3). exists one, two, both.
  split; [exact E1|]. split; [exact E2|]. split; [exact E3|]. rewrite EL in S3, P3.
  assert (CA : forall i, i < len a -> colour g (a ++ b) i = colour g a i).
  { intros i Hi. unfold colour. rewrite app_nth1; [reflexivity|]. unfold len in Hi. lia. }
  assert (CB : forall i, colour g (a ++ b) (len a + i) = colour g b i).
  { intros i. unfold colour. rewrite app_nth2 by (unfold len; lia). replace (N.to_nat (len a + i) - length a)%nat with (N.to_nat i) by (unfold len; lia). reflexivity. }
  assert (HX : forall z, z < (len a + len b) * img_xdim g -> img_xdim g <> 0) by (intros z Hz Z; rewrite Z in Hz; lia).
  assert (QA : forall z, z < len a * img_xdim g -> colour g (a ++ b) (z / img_xdim g) = colour g a (z / img_xdim g)).
  { intros z Hz. apply CA. apply N.div_lt_upper_bound; nia. }
  assert (QB : forall z, img_xdim g <> 0 -> colour g (a ++ b) ((len a * img_xdim g + z) / img_xdim g) = colour g b (z / img_xdim g)).
  { intros z HX'. rewrite N.add_comm, N.div_add by assumption. rewrite N.add_comm. apply CB. }
  set (wa := len a * img_xdim g) in *. set (wb := len b * img_xdim g) in *.
  assert (EW : (len a + len b) * img_xdim g = wa + wb) by (unfold wa, wb; lia). rewrite EW in *.
  destruct (img_rotation g); cbn [turned_size run] in *; injection S1 as W1 H1; injection S2 as W2 H2; injection S3 as W3 H3;
    rewrite W1, H1, W2, H2, W3, H3 in *; (split; [lia|]); (split; [reflexivity|]); (split; [reflexivity|]); intros x y Hx Hy;
    rewrite P3 by assumption.
  - destruct (N.ltb_spec x wa) as [L|L]; [now rewrite P1, QA|].
    rewrite P2 by lia. rewrite <- QB by eauto. do 3 f_equal. lia.
  - destruct (N.ltb_spec y wa) as [L|L]; [now rewrite P1, QA|].
    rewrite P2 by lia. rewrite <- QB by eauto. do 3 f_equal. lia.
  - destruct (N.ltb_spec x wb) as [L|L].
    + rewrite P2 by lia. rewrite <- QB by eauto. do 3 f_equal. lia.
    + rewrite P1 by lia. rewrite <- QA by lia. do 3 f_equal. lia.
  - destruct (N.ltb_spec y wb) as [L|L].
    + rewrite P2 by lia. rewrite <- QB by eauto. do 3 f_equal. lia.
    + rewrite P1 by lia. rewrite <- QA by lia. do 3 f_equal. lia.
Qed.

(** ** SVG *)
Lemma svg_enlarged p h x fg bg ns k b : good_svg (mkSVG h x fg bg ns) -> 1 <= k -> len b * (k * x) < 2 ^ 32 ->
  exists out out' d, svg_generate p (mkSVG h x fg bg ns) b = Ret (Ok out) /\ svg_generate p (mkSVG (k * h) (k * x) fg bg ns) b = Ret (Ok out') /\
    read_svg out = Some d /\ read_svg out' = Some (enlarge_drawing k d).
Proof.
  intros HG Hk HL. assert (HG' : good_svg (mkSVG (k * h) (k * x) fg bg ns)) by exact HG.
  destruct (svg_fits p _ b HG) as (out & E & R); [cbn [svg_xdim]; nia|]. destruct (svg_fits p _ b HG') as (out' & E' & R'); [exact HL|].
  eexists out, out', _. split; [exact E|]. split; [exact E'|]. split; [exact R|]. rewrite R'. f_equal.
  cbn [svg_height svg_xdim svg_foreground svg_background svg_xmlns]. unfold enlarge_drawing, barcode_drawing. cbn [d_box d_xmlns d_rects map].
  unfold enlarge_rectangle at 1. cbn [r_x r_y r_w r_h r_paint]. rewrite !N.mul_0_r. rewrite map_map. unfold enlarge_rectangle. cbn [r_x r_y r_w r_h r_paint].
  rewrite !N.mul_0_r. f_equal; [do 2 f_equal; lia|]. f_equal; [f_equal; lia|]. apply map_ext. intros i. f_equal. lia.
Qed.
Lemma svg_joined p g a b : good_svg g -> len (a ++ b) * svg_xdim g < 2 ^ 32 ->
  exists o1 o2 o3 d1 d2 d3, svg_generate p g a = Ret (Ok o1) /\ svg_generate p g b = Ret (Ok o2) /\ svg_generate p g (a ++ b) = Ret (Ok o3) /\
    read_svg o1 = Some d1 /\ read_svg o2 = Some d2 /\ read_svg o3 = Some d3 /\
    forall x y, colour_at d3 x y = if x <? len a * svg_xdim g then colour_at d1 x y else colour_at d2 (x - len a * svg_xdim g) y.
Proof.
  intros HG HL. assert (EL : len (a ++ b) = len a + len b) by (unfold len; rewrite app_length; lia). rewrite EL in HL.
  destruct (svg_fits p g a HG ltac:(nia)) as (o1 & E1 & R1). destruct (svg_fits p g b HG ltac:(nia)) as (o2 & E2 & R2).
  destruct (svg_fits p g (a ++ b) HG ltac:(rewrite EL; exact HL)) as (o3 & E3 & R3).
  eexists o1, o2, o3, _, _, _. split; [exact E1|]. split; [exact E2|]. split; [exact E3|]. split; [exact R1|]. split; [exact R2|]. split; [exact R3|].
  intros x y. rewrite !colour_at_spec, EL. set (wa := len a * svg_xdim g).
  destruct (N.ltb_spec x wa) as [L|L].
  - replace (x <? (len a + len b) * svg_xdim g) with true by (symmetry; apply N.ltb_lt; unfold wa in L; nia). destruct (y <? svg_height g); [|reflexivity].
    cbn [andb]. rewrite nth_error_app1; [reflexivity|]. assert (x / svg_xdim g < len a) by (apply N.div_lt_upper_bound; unfold wa in L; nia).
    unfold len in *. lia.
  - replace (x - wa <? len b * svg_xdim g) with (x <? (len a + len b) * svg_xdim g) by
      (destruct (N.ltb_spec x ((len a + len b) * svg_xdim g)), (N.ltb_spec (x - wa) (len b * svg_xdim g)); try reflexivity; unfold wa in *; lia).
    destruct (N.ltb_spec x ((len a + len b) * svg_xdim g)) as [L2|L2]; [|reflexivity]. destruct (y <? svg_height g); [|reflexivity].
    cbn [andb]. assert (HX : svg_xdim g <> 0) by nia.
    assert (ED : x / svg_xdim g = len a + (x - wa) / svg_xdim g)
      by (rewrite <- N.div_add_l by assumption; f_equal; unfold wa in *; lia). rewrite ED.
    set (q := (x - wa) / svg_xdim g). assert (LQ : (N.to_nat (len a + q) = length a + N.to_nat q)%nat) by (unfold len; lia). rewrite LQ.
    rewrite nth_error_app2 by apply Nat.le_add_r. rewrite Nat.add_comm, Nat.add_sub. reflexivity.
Qed.
