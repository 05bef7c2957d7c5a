(** * Proofs: what the readers of generator output find *)
From Verif Require Import Rust M_Error M_Ascii M_Json M_Svg M_Image S_Barcode S_Text S_Num S_Ascii S_Json S_Svg S_Image S_Gen
  P_Rust P_Barcode P_Num P_Ascii P_Json P_Svg P_Svg2 P_Image P_Image2.

Lemma map_const {A B} (f : A -> B) c l : (forall x, In x l -> f x = c) -> map f l = repeat c (length l).
Proof.
  induction l as [|x l IH]; intros H; [reflexivity|]. cbn [map length repeat]. rewrite H by now left.
  f_equal. apply IH. intros z Hz. apply H. now right.
Qed.
Lemma seq_blocks {A} (f : nat -> A) x n : (0 < x)%nat ->
  map (fun k => f (k / x)%nat) (seq 0 (n * x)) = flat_map (fun i => repeat (f i) x) (seq 0 n).
Proof.
  intros Hx. induction n as [|n IH]; [reflexivity|]. replace (S n * x)%nat with (n * x + x)%nat by lia.
  rewrite seq_app, map_app, IH. replace (S n) with (n + 1)%nat by lia. rewrite seq_app, flat_map_app.
  f_equal. cbn [seq flat_map plus]. rewrite app_nil_r.
  rewrite (map_const _ (f n)); [now rewrite seq_length|]. intros k Hk. apply in_seq in Hk. f_equal.
  symmetry. apply (Nat.div_unique k x n (k - n * x)); lia.
Qed.
Lemma map_nth_all {A} (d : A) l : map (fun i => nth i l d) (seq 0 (length l)) = l.
Proof.
  induction l as [|x l IH]; [reflexivity|]. cbn [length seq map nth]. f_equal. rewrite <- seq_shift, map_map. exact IH.
Qed.
Lemma to_nat_div k x : x <> 0 -> N.to_nat (N.of_nat k / x) = (k / N.to_nat x)%nat.
Proof.
  intros Hx. apply (Nat.div_unique _ _ _ (N.to_nat (N.of_nat k mod x))).
  - pose proof (N.mod_lt (N.of_nat k) x Hx). lia.
  - pose proof (N.div_mod (N.of_nat k) x Hx) as E. lia.
Qed.
Lemma flat_map_map {A B C} (f : A -> B) (g : B -> list C) l : flat_map g (map f l) = flat_map (fun x => g (f x)) l.
Proof. induction l as [|x l IH]; [reflexivity|]. cbn [map flat_map]. now rewrite IH. Qed.
Lemma line_blocks {A} (g : N -> A) x b : 1 <= x ->
  map (fun t => g (nth (N.to_nat (t / x)) b 0)) (range (len b * x)) = flat_map (fun v => repeat (g v) (N.to_nat x)) b.
Proof.
  intros Hx. unfold range. rewrite map_map. replace (N.to_nat (len b * x)) with (length b * N.to_nat x)%nat by (unfold len; lia).
  rewrite (map_ext _ (fun k => g (nth (k / N.to_nat x)%nat b 0))) by (intros k; now rewrite to_nat_div by lia).
  rewrite (seq_blocks (fun i => g (nth i b 0)) (N.to_nat x) (length b)) by lia.
  transitivity (flat_map (fun v => repeat (g v) (N.to_nat x)) (map (fun i => nth i b 0) (seq 0 (length b)))).
  - now rewrite flat_map_map.
  - now rewrite map_nth_all.
Qed.
Lemma read_all_Some {A B} (f : A -> option B) (g : A -> B) l : (forall x, In x l -> f x = Some (g x)) -> read_all f l = Some (map g l).
Proof.
  induction l as [|x l IH]; intros H; [reflexivity|]. cbn [read_all map]. rewrite H by now left.
  rewrite IH; [reflexivity|]. intros z Hz. apply H. now right.
Qed.
Section lines.
  Context {A : Type} (eqb : A -> A -> bool) (fg bg : A).
  Hypothesis eqb_true : forall x y, eqb x y = true <-> x = y.
  Hypothesis differ : fg <> bg.
  Lemma read_line_blocks x b : 1 <= x -> Forall module b ->
    read_line eqb fg bg x (flat_map (fun v => repeat (if v =? 0 then bg else fg) (N.to_nat x)) b) = Some b.
  Proof.
    intros Hx H. unfold read_line. rewrite flat_map_concat_map, chop_concat.
    - cbn [obind]. apply read_all_map_id. intros d Hd. rewrite Forall_forall in H. specialize (H d Hd).
      destruct (N.to_nat x) as [|n] eqn:E; [lia|]. unfold read_samples. cbn [repeat].
      destruct H as [->| ->]; cbn [N.eqb].
      + replace (forallb (eqb fg) (bg :: repeat bg n)) with false.
        * change (bg :: repeat bg n) with (repeat bg (S n)). rewrite forallb_repeat; [reflexivity | now apply eqb_true].
        * symmetry. cbn [forallb]. destruct (eqb fg bg) eqn:Q; [apply eqb_true in Q; contradiction | reflexivity].
      + change (fg :: repeat fg n) with (repeat fg (S n)). rewrite forallb_repeat; [reflexivity | now apply eqb_true].
    - lia.
    - apply Forall_map, Forall_forall. intros d _. apply repeat_length.
  Qed.
End lines.

Lemma rgb_eqb_true a b : rgb_eqb a b = true <-> a = b.
Proof.
  destruct a as [[r g] c], b as [[r' g'] c']. cbn [rgb_eqb]. rewrite !Bool.andb_true_iff, !N.eqb_eq.
  split; [intros [[-> ->] ->]; reflexivity | intros E; now injection E as -> -> ->].
Qed.
Lemma rgba_eqb_true a b : rgba_eqb a b = true <-> a = b.
Proof.
  destruct a, b. unfold rgba_eqb. cbn. rewrite !Bool.andb_true_iff, !N.eqb_eq.
  split; [intros [[[-> ->] ->] ->]; reflexivity | intros E; now injection E as -> -> -> ->].
Qed.

Lemma range_In n t : In t (range n) -> t < n.
Proof. unfold range. intros H. apply in_map_iff in H. destruct H as [k [<- Hk]]. apply in_seq in Hk. lia. Qed.

(** ** JSON *)
Lemma json_modules_text h x b : Forall module b -> json_modules (json_text h x b) = Some b.
Proof.
  intros H. unfold json_modules. rewrite json_text_read. change (member _ _) with (Some (JArr (map (fun v => JNum (bit v)) b))). cbv beta iota.
  apply read_all_map_id. intros v Hv. rewrite Forall_forall in H. destruct (H v Hv) as [->| ->]; reflexivity.
Qed.
(** ** SVG *)
Definition rgb (c : color) : N * N * N := (red c, green c, blue c).
Lemma svg_modules_drawing p g b y : good_svg g -> len b * svg_xdim g < 2 ^ 32 -> 1 <= svg_xdim g -> y < svg_height g ->
  rgb (svg_foreground g) <> rgb (svg_background g) -> Forall module b ->
  exists out, svg_generate p g b = Ret (Ok out) /\
    svg_modules (rgb (svg_foreground g)) (rgb (svg_background g)) (svg_xdim g) y out = Some b.
Proof.
  intros HG HF Hx Hy HC HM. destruct (svg_fits p g b HG HF) as [out [E R]]. exists out. split; [assumption|].
  unfold svg_modules. rewrite R. cbn [obind]. cbn [barcode_drawing d_box].
  rewrite (read_all_Some _ (fun t => if nth (N.to_nat (t / svg_xdim g)) b 0 =? 0 then rgb (svg_background g) else rgb (svg_foreground g))).
  - cbn [obind]. rewrite (line_blocks (fun v => if v =? 0 then rgb (svg_background g) else rgb (svg_foreground g))) by assumption.
    apply read_line_blocks; [apply rgb_eqb_true | assumption | assumption | assumption].
  - intros t Ht. apply range_In in Ht. rewrite !N.add_0_l, colour_at_spec.
    apply N.ltb_lt in Ht as Ht'. apply N.ltb_lt in Hy. rewrite Ht', Hy. cbn [andb option_map].
    assert (Hi : t / svg_xdim g < len b) by (apply N.div_lt_upper_bound; lia).
    destruct (nth_error b (N.to_nat (t / svg_xdim g))) as [v|] eqn:Ev.
    2:{ apply nth_error_None in Ev. unfold len in Hi. lia. }
    rewrite (nth_error_nth _ _ 0 Ev). apply nth_error_In in Ev. rewrite Forall_forall in HM. destruct (HM v Ev) as [->| ->]; reflexivity.
Qed.
(** ** Pictures *)
Lemma rev_range n : rev (range n) = map (fun t => n - 1 - t) (range n).
Proof.
  unfold range. rewrite <- map_rev, map_map.
  assert (E : forall k, rev (seq 0 k) = map (fun t => (k - 1 - t)%nat) (seq 0 k)).
  { intros k. induction k as [|k IH]; [reflexivity|]. rewrite <- (Nat.add_1_r k) at 1. rewrite seq_app, rev_app_distr, IH. cbn [seq rev app plus map].
    f_equal; [lia|]. rewrite <- seq_shift, map_map. apply map_ext. intros t. lia. }
  rewrite E, map_map. apply map_ext_in. intros t Ht. apply in_seq in Ht. lia.
Qed.
Lemma image_modules_picture p g b k : fits g b -> 1 <= img_xdim g -> k < img_height g ->
  img_foreground g <> img_background g -> Forall module b ->
  exists buf, image_generate_buffer p g b = Ret (Ok buf) /\
    image_modules (img_rotation g) (img_foreground g) (img_background g) (img_xdim g) k buf = Some b.
Proof.
  intros HF Hx Hk HC HM. destruct (place_pixels_fits p g b HF) as (buf & E & HS & HW & HP). exists buf.
  unfold image_generate_buffer. rewrite E. split; [reflexivity|].
  set (w := len b * img_xdim g) in *. set (h := img_height g) in *.
  set (c := fun t => if nth (N.to_nat (t / img_xdim g)) b 0 =? 0 then img_background g else img_foreground g).
  assert (HL : image_line (img_rotation g) buf k = Some (map c (range w))).
  { unfold image_line. unfold turned_size, turn in HS, HP. destruct (img_rotation g); injection HS as W H; cbv zeta; rewrite ?H, ?W; rewrite ?W in HP; cbn [fst snd] in HP.
    - apply read_all_Some. intros t Ht. apply range_In in Ht. now apply HP.
    - apply read_all_Some. intros t Ht. apply range_In in Ht. replace k with (h - 1 - (h - 1 - k)) by lia. apply HP; lia.
    - rewrite (read_all_Some _ (fun t => c (w - 1 - t))).
      + cbn [option_map]. f_equal. rewrite <- map_rev, rev_range, map_map. apply map_ext_in. intros t Ht. apply range_In in Ht. f_equal. lia.
      + intros t Ht. apply range_In in Ht. replace k with (h - 1 - (h - 1 - k)) by lia. replace t with (w - 1 - (w - 1 - t)) at 1 by lia. apply HP; lia.
    - rewrite (read_all_Some _ (fun t => c (w - 1 - t))).
      + cbn [option_map]. f_equal. rewrite <- map_rev, rev_range, map_map. apply map_ext_in. intros t Ht. apply range_In in Ht. f_equal. lia.
      + intros t Ht. apply range_In in Ht. replace t with (w - 1 - (w - 1 - t)) at 1 by lia. apply HP; lia. }
  unfold image_modules. rewrite HL. cbn [obind]. unfold c, w.
  rewrite (line_blocks (fun v => if v =? 0 then img_background g else img_foreground g)) by assumption.
  apply read_line_blocks; [apply rgba_eqb_true | assumption | assumption | assumption].
Qed.
