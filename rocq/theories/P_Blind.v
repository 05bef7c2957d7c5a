(** * Proofs about readers that are not told the module width *)
From Verif Require Import Rust M_Error M_Helpers M_Parse M_Ean13 M_Ean8 M_Upca M_EanSupp M_Code39 M_Code93 M_Code11
  M_Codabar M_Code128 M_Tf M_Ascii M_Svg M_Image Symbology M_Use S_Barcode S_Ean S_Text S_Linear S_Codabar S_Tf S_Code128 S_Num S_Ascii S_Svg S_Image S_All S_Gen S_Blind
  P_Rust P_Barcode P_Parse P_Gs1 P_Ean P_Retail P_Retail2 P_Retail3 P_Supp P_Code39 P_Code93 P_Code11
  P_Codabar P_Tf P_Code128 P_Code128b P_Ascii P_Svg P_Svg2 P_Image P_Image2 P_Gen P_All P_Turned.
Open Scope nat_scope.

(** ** Enlarged lines *)
Lemma enlarged_app k a b : enlarged k (a ++ b) = enlarged k a ++ enlarged k b.
Proof. unfold enlarged. now rewrite flat_map_concat_map, map_app, concat_app, <- !flat_map_concat_map. Qed.
Lemma rev_enlarged k m : rev (enlarged k m) = enlarged k (rev m).
Proof.
  induction m as [|x m IH]; [reflexivity|]. cbn [rev]. rewrite enlarged_app, <- IH. unfold enlarged at 1. cbn [flat_map].
  rewrite rev_app_distr, rev_repeat. cbn [enlarged flat_map]. unfold enlarged. now rewrite app_nil_r.
Qed.
Lemma drop_light_enlarged k m : 1 <= k -> drop_light (enlarged k m) = enlarged k (drop_light m).
Proof.
  intros Hk. induction m as [|x m IH]; [reflexivity|]. change (enlarged k (x :: m)) with (repeat x k ++ enlarged k m).
  destruct x as [|x]; cbn [drop_light].
  - rewrite <- IH. generalize (enlarged k m). intros l. clear. induction k as [|k IHk]; [reflexivity|]. exact IHk.
  - destruct k as [|k]; [lia|]. reflexivity.
Qed.
Lemma trim_enlarged k m : 1 <= k -> trim (enlarged k m) = enlarged k (trim m).
Proof. intros Hk. unfold trim. now rewrite drop_light_enlarged, rev_enlarged, drop_light_enlarged, rev_enlarged. Qed.
Lemma runs_repeat b k : forall n l, runs b n (repeat b k ++ l) = runs b (n + k) l.
Proof.
  induction k as [|k IH]; intros n l; [now rewrite Nat.add_0_r|]. cbn [repeat app runs]. rewrite N.eqb_refl, IH. f_equal. lia.
Qed.
Lemma runs_enlarged k m : 1 <= k -> forall b n, runs b (n * k) (enlarged k m) = map (fun w => w * k) (runs b n m).
Proof.
  intros Hk. induction m as [|x m IH]; intros b n; [reflexivity|]. cbn [enlarged flat_map]. fold (enlarged k m). cbn [runs].
  destruct (x =? b)%N eqn:E.
  - apply N.eqb_eq in E. subst x. rewrite runs_repeat. replace (n * k + k) with (S n * k) by lia. apply IH.
  - destruct k as [|k]; [lia|]. cbn [repeat app runs]. rewrite E. cbn [map]. f_equal.
    rewrite runs_repeat. replace (1 + k) with (1 * S k) by lia. apply IH.
Qed.
Lemma modules_enlarged k m : 1 <= k -> forallb is_module (enlarged k m) = forallb is_module m.
Proof.
  intros Hk. induction m as [|x m IH]; [reflexivity|]. cbn [enlarged flat_map forallb]. fold (enlarged k m).
  rewrite forallb_app, IH. f_equal. destruct k as [|k]; [lia|]. cbn [repeat forallb].
  destruct (is_module x) eqn:E; [|reflexivity]. cbn [andb]. apply forallb_forall. intros z Hz. apply repeat_spec in Hz. now subst.
Qed.
Lemma scan_enlarged k m : 1 <= k -> scan (enlarged k m) = option_map (map (fun w => w * k)) (scan m).
Proof.
  intros Hk. unfold scan. rewrite modules_enlarged, trim_enlarged by assumption. destruct (forallb is_module m); [|reflexivity].
  destruct (trim m) as [|x t]; [reflexivity|]. cbn [enlarged flat_map option_map]. fold (enlarged k t).
  destruct k as [|k]; [lia|]. cbn [repeat app]. rewrite runs_repeat. f_equal. replace (1 + k) with (1 * S k) by lia. now apply runs_enlarged.
Qed.

(** ** The narrowest element *)
Lemma narrowest_cons w tl : tl <> [] -> narrowest (w :: tl) = Nat.min w (narrowest tl).
Proof. destruct tl; [congruence | reflexivity]. Qed.
Lemma narrowest_le ws w : In w ws -> narrowest ws <= w.
Proof.
  induction ws as [|a tl IH]; intros H; [destruct H|]. destruct tl as [|b tl]; [destruct H as [<-|[]]; reflexivity|].
  rewrite narrowest_cons by discriminate. destruct H as [<-|H]; [lia|]. specialize (IH H). lia.
Qed.
Lemma narrowest_ge ws k : ws <> [] -> Forall (fun w => k <= w) ws -> k <= narrowest ws.
Proof.
  induction ws as [|a tl IH]; intros Hn H; [congruence|]. inversion H as [|? ? Ha Ht]; subst.
  destruct tl as [|b tl]; [assumption|]. rewrite narrowest_cons by discriminate. apply Nat.min_glb; [assumption|]. now apply IH.
Qed.
Lemma narrowest_scaled k ws : In 1 ws -> Forall (fun w => 1 <= w) ws -> narrowest (map (fun w => w * k) ws) = k.
Proof.
  intros H1 HF. apply Nat.le_antisymm.
  - apply narrowest_le. apply in_map_iff. exists 1. split; [lia | assumption].
  - apply narrowest_ge; [destruct ws; [destruct H1 | discriminate]|]. apply Forall_map. revert HF. apply Forall_impl. intros w Hw. nia.
Qed.
Lemma blind_read_scaled y k m ws : 1 <= k -> scan m = Some ws -> In 1 ws -> Forall (fun w => 1 <= w) ws ->
  blind_read y (enlarged k m) = read_modules y m.
Proof.
  intros Hk HS H1 HF. unfold blind_read, read_modules. rewrite scan_enlarged, HS by assumption. cbn [option_map obind].
  rewrite narrowest_scaled by assumption.
  replace (forallb _ _) with true.
  - cbn [guard]. f_equal. rewrite map_map. rewrite <- (map_id ws) at 2. apply map_ext. intros w. apply Nat.div_mul. lia.
  - symmetry. apply forallb_forall. intros w Hw. apply in_map_iff in Hw. destruct Hw as (v & <- & _).
    apply Nat.eqb_eq. apply Nat.mod_mul. lia.
Qed.

(** ** Every symbol has a narrow element *)
Lemma one_in_app_r a b : In 1 b -> In 1 (a ++ b). Proof. intros. apply in_or_app. now right. Qed.
Lemma lib_pattern_narrow c : In c cod_chars -> In 1 (lib_pattern c).
Proof.
  intros H. assert (E : forallb (fun c => existsb (Nat.eqb 1) (lib_pattern c)) cod_chars = true) by (vm_compute; reflexivity).
  rewrite forallb_forall in E. specialize (E c H). apply existsb_exists in E. destruct E as (x & Hx & E). apply Nat.eqb_eq in E. now subst x.
Qed.
Definition narrow (y : symbology) (m : list N) : Prop := exists ws, m = render ws ++ tail y /\ drawn y ws /\ In 1 ws.
Lemma narrow_plain y ws : tail y = [] -> In 1 ws -> drawn y ws -> narrow y (render ws).
Proof. intros E H1 H. exists ws. rewrite E, app_nil_r. now split. Qed.
Lemma codabar_one s : Forall cod_in s -> s <> [] -> In 1 (sep_symbol lib_pattern s).
Proof.
  intros H Hn. destruct H as [|c s Hc H]; [congruence|]. cbn [sep_symbol]. apply in_or_app. left. now apply lib_pattern_narrow.
Qed.
Lemma c128_one vs chk : In 1 (symbol_with vs chk).
Proof. unfold symbol_with. apply one_in_app_r. unfold c128_stop. cbn. tauto. Qed.
Ltac one :=
  first [ apply c128_one
        | apply codabar_one; assumption
        | unfold ean13_symbol, ean8_symbol, upca_symbol, ean2_symbol, ean5_symbol, c39_symbol, c93_symbol, c11_symbol, itf_symbol, stf_symbol, stf_bars;
          apply in_or_app; left; unfold normal_guard, addon_guard, c39_star, c93_star, c11_guard; cbn; tauto ].
Open Scope N_scope.
Lemma barcode_narrow y p s m : str_len s < 2 ^ 48 -> barcode y p s = Ret (Ok m) -> narrow y m.
Proof.
  intros Hs H. destruct y; cbn [barcode] in H; (apply run_Ret in H || apply run_Ok in H);
    destruct H as [b [HN HE]].
  - destruct (ean13_conform p p s b HN) as [E _]. destruct (ean13_accepted p s b HN) as (_ & _ & D).
    rewrite HE in E. injection E as ->. apply narrow_plain; [reflexivity | one |].
    apply Forall_snoc with (x := gs1_check (firstn 12 (digits_of s))) in D; [|apply gs1_check_digit].
    split; [now apply ean13_symbol_odd | now apply ean13_symbol_width].
  - destruct (ean8_conform p p s b HN) as [E _]. destruct (ean8_accepted p s b HN) as (_ & _ & D).
    rewrite HE in E. injection E as ->. apply narrow_plain; [reflexivity | one |].
    apply Forall_snoc with (x := gs1_check (firstn 7 (digits_of s))) in D; [|apply gs1_check_digit].
    split; [now apply ean8_symbol_odd | now apply ean8_symbol_width].
  - destruct (upca_conform p p s b HN) as [E _]. destruct (upca_accepted p s b HN) as (_ & _ & D).
    rewrite HE in E. injection E as ->. apply narrow_plain; [reflexivity | one |].
    apply Forall_snoc with (x := gs1_check (firstn 11 (digits_of s))) in D; [|apply gs1_check_digit].
    split; [now apply upca_symbol_odd | now apply upca_symbol_width].
  - destruct (eansupp_accepted p s b HN) as [m' [E HC]]. rewrite HE in E. injection E as <-.
    destruct (eansupp_new_spec s) as [r [ER [_ [_ [_ HO]]]]]. rewrite HN in ER. injection ER as <-.
    specialize (HO b). destruct HO as [HO _]. destruct (HO eq_refl) as [HD _].
    apply digits_of_digits in HD.
    destruct HC as [[_ [_ [-> _]]]|[_ [_ [-> _]]]]; (apply narrow_plain; [reflexivity | one |]).
    + now apply ean2_shape.
    + now apply ean5_shape.
  - destruct (code39_accepted p s b false Hs (or_introl HN)) as [m' [E [Em _]]].
    apply code39_init_Ok in HN. destruct HN as [HD [Hd Hb]]. subst b.
    cbn [c39_data] in E. rewrite HE in E. injection E as <-. subst m. apply narrow_plain; [reflexivity | one |].
    split; [now apply c39_symbol_odd | now apply c39_symbol_widths].
  - destruct (code39_accepted p s b true Hs (or_intror HN)) as [m' [E [Em _]]].
    apply code39_init_Ok in HN. destruct HN as [HD [Hd Hb]]. subst b.
    cbn [c39_data] in E. rewrite HE in E. injection E as <-. subst m. apply narrow_plain; [reflexivity | one |].
    pose proof (c39_message_in s true HD) as HM.
    split; [now apply c39_symbol_odd | now apply c39_symbol_widths].
  - destruct (code93_accepted p s b Hs HN) as [m' [E [Em _]]]. rewrite HE in E. injection E as <-. subst m.
    apply narrow_plain; [reflexivity | one |].
    apply code93_new_Ok in HN. destruct HN as [HD _]. pose proof (c93_message_in s HD) as HM.
    split; [now apply c93_symbol_odd | now apply c93_symbol_widths].
  - pose proof (code11_accepted p s b Hs HN) as E. rewrite HE in E. injection E as ->.
    apply narrow_plain; [reflexivity | one |].
    apply code11_new_Ok in HN. destruct HN as [HD _]. pose proof (c11_message_in s HD) as HM.
    split; [now apply c11_symbol_odd | now apply c11_symbol_widths].
  - pose proof (codabar_encode_lib p s b HN) as E. rewrite HE in E. injection E as ->.
    apply codabar_new_Ok in HN. destruct HN as [HF [Hn _]].
    apply narrow_plain; [reflexivity | one |]. split; [|now apply lib_symbol_widths].
    apply sep_odd; [exact lib_pattern_length | assumption | assumption].
  - destruct (code128_new_Ok s b HN) as [segs [HM [_ ->]]].
    destruct (encode_returns_form p _ m (message_units_idx _ HM) HE) as [chk [HC ->]].
    rewrite message_units_values. apply narrow_plain; [reflexivity | one |].
    assert (HL : Forall (fun v => v < 106) (message_values segs ++ [chk])).
    { apply Forall_snoc; [now apply message_values_lt | assumption]. }
    split; [now apply symbol_with_odd | now apply symbol_with_widths].
  - destruct (itf_accepted p s b HN) as [ds [HD [_ [_ [E _]]]]]. rewrite HE in E. injection E as ->.
    apply narrow_plain; [reflexivity | one |]. split; [now apply itf_symbol_odd | now apply itf_symbol_widths].
  - destruct (stf_accepted s b HN) as [m' [E [-> _]]]. rewrite HE in E. injection E as ->.
    apply tf_standard_Ok in HN. destruct HN as [HD _]. apply digits_of_digits in HD.
    exists (stf_symbol 3 2 (digits_of s)). split; [reflexivity|].
    split; [split; [now apply stf_symbol_odd | now apply stf_symbol_widths] | one].
Qed.
Open Scope nat_scope.
Lemma scan_lead l : scan (0%N :: l) = scan l.
Proof. reflexivity. Qed.
Lemma narrow_scan y m : narrow y m -> exists ws, scan m = Some ws /\ scan (rev m) = Some (rev ws) /\ In 1 ws /\ Forall (fun w => 1 <= w) ws.
Proof.
  intros (ws & -> & HD & H1). pose proof (shape_pos y ws HD) as HP. destruct HD as [HO _]. exists ws.
  destruct (tail_repeat y) as [k ->]. split; [now apply scan_render_tail|]. split; [|now split].
  rewrite rev_app_distr, rev_repeat. induction k as [|k IH]; [now apply scan_rev_render | exact IH].
Qed.
Lemma blind_both y k m : 1 <= k -> narrow y m ->
  blind_read y (enlarged k m) = read_modules y m /\ blind_read y (rev (enlarged k m)) = read_modules y (rev m).
Proof.
  intros Hk H. destruct (narrow_scan y m H) as (ws & HS & HR & H1 & HP). split.
  - now apply (blind_read_scaled y k m ws).
  - rewrite rev_enlarged. apply (blind_read_scaled y k (rev m) (rev ws)); [assumption | assumption | now apply -> in_rev | now apply Forall_rev].
Qed.

(** ** Lines along the bars *)
Lemma read_as_one y : read_as y [1] = None.
Proof. destruct y; vm_compute; reflexivity. Qed.
Lemma drop_light_zeros n : drop_light (repeat 0%N n) = [].
Proof. induction n; [reflexivity | assumption]. Qed.
Lemma drop_light_ones n : drop_light (repeat 1%N n) = repeat 1%N n.
Proof. destruct n; reflexivity. Qed.
Lemma modules_repeat v n : is_module v = true -> forallb is_module (repeat v n) = true.
Proof. intros H. apply forallb_forall. intros z Hz. apply repeat_spec in Hz. now subst. Qed.
Lemma blind_flat y v n : v = 0%N \/ v = 1%N -> blind_read y (repeat v n) = None.
Proof.
  intros Hv. unfold blind_read, scan. destruct Hv as [-> | ->]; rewrite modules_repeat by reflexivity; unfold trim.
  - rewrite drop_light_zeros. reflexivity.
  - rewrite drop_light_ones, rev_repeat, drop_light_ones, rev_repeat. destruct n as [|n]; [reflexivity|]. cbn [repeat].
    rewrite <- (app_nil_r (repeat 1%N n)), runs_repeat. cbn [runs obind narrowest forallb map].
    rewrite Nat.mod_same, Nat.div_same by lia. cbn [Nat.eqb andb guard]. apply read_as_one.
Qed.
Lemma either_flat y v n : v = 0%N \/ v = 1%N -> either_way y (repeat v n) = None.
Proof. intros Hv. unfold either_way. now rewrite rev_repeat, !blind_flat by assumption. Qed.

(** ** Pictures *)
Open Scope N_scope.
Lemma marks_blocks {A} (eqb : A -> A -> bool) fg bg x (b : list N) : (forall u v, eqb u v = true <-> u = v) -> 1 <= x -> fg <> bg ->
  Forall (fun v => v = 0 \/ v = 1) b ->
  marks eqb fg (map (fun t => if nth (N.to_nat (t / x)) b 0 =? 0 then bg else fg) (range (len b * x))) = enlarged (N.to_nat x) b.
Proof.
  intros HE Hx HC HM. unfold marks. rewrite map_map.
  rewrite (map_ext _ (fun t => if nth (N.to_nat (t / x)) b 0 =? 0 then 0 else 1)).
  - rewrite (line_blocks (fun v => if v =? 0 then 0 else 1)) by assumption. unfold enlarged.
    induction HM as [|v b Hv HM IH]; [reflexivity|]. cbn [flat_map]. rewrite IH. f_equal. now destruct Hv as [-> | ->].
  - intros t. destruct (nth (N.to_nat (t / x)) b 0 =? 0).
    + destruct (eqb fg bg) eqn:E; [|reflexivity]. apply HE in E. now subst.
    + assert (E : eqb fg fg = true) by now apply HE. now rewrite E.
Qed.
Lemma svg_across p g b f : good_svg g -> len b * svg_xdim g < 2 ^ 32 -> 1 <= svg_xdim g ->
  (forall t, t < len b * svg_xdim g -> f t < svg_height g) ->
  rgb (svg_foreground g) <> rgb (svg_background g) -> Forall (fun v => v = 0 \/ v = 1) b ->
  exists out line, svg_generate p g b = Ret (Ok out) /\ svg_rightwards out f = Some line /\
    marks rgb_eqb (rgb (svg_foreground g)) line = enlarged (N.to_nat (svg_xdim g)) b.
Proof.
  intros HG HF Hx Hf HC HM. destruct (svg_fits p g b HG HF) as [out [E R]].
  exists out, (map (fun t => if nth (N.to_nat (t / svg_xdim g)) b 0 =? 0 then rgb (svg_background g) else rgb (svg_foreground g)) (range (len b * svg_xdim g))).
  split; [assumption|]. split; [|apply marks_blocks; try assumption; apply rgb_eqb_true].
  unfold svg_rightwards. rewrite R. cbn [obind]. cbn [barcode_drawing d_box]. apply read_all_Some.
  intros t Ht. apply range_In in Ht. specialize (Hf t Ht). rewrite !N.add_0_l, colour_at_spec.
  apply N.ltb_lt in Ht as Ht'. apply N.ltb_lt in Hf. rewrite Ht', Hf. cbn [andb option_map].
  assert (Hi : t / svg_xdim g < len b) by (apply N.div_lt_upper_bound; lia).
  destruct (nth_error b (N.to_nat (t / svg_xdim g))) as [v|] eqn:Ev.
  2:{ apply nth_error_None in Ev. unfold len in Hi. lia. }
  rewrite (nth_error_nth _ _ 0 Ev). apply nth_error_In in Ev. rewrite Forall_forall in HM. destruct (HM v Ev) as [->| ->]; reflexivity.
Qed.
Lemma text_line_marks x b : Forall (fun v => v = 0 \/ v = 1) b -> marks N.eqb bar_char (text_line x b) = enlarged (N.to_nat x) b.
Proof.
  intros HM. unfold marks, text_line, enlarged, str, char. induction HM as [|v b Hv HM IH]; [reflexivity|]. cbn [flat_map]. rewrite map_app, IH. f_equal.
  assert (E : forall n, map (fun c => if bar_char =? c then 1 else 0) (repeat (if v =? 1 then bar_char else space_char) n) = repeat (if v =? 1 then 1 else 0) n).
  { intros n. induction n as [|n IHn]; [reflexivity|]. cbn [repeat map]. rewrite IHn. now destruct (v =? 1). }
  rewrite E. now destruct Hv as [-> | ->].
Qed.
Definition across (r : rotation) (buf : buffer) (f : N -> N) : option (list rgba) :=
  match r with RZero | ROneEighty => rightwards buf f | RNinety | RTwoSeventy => downwards buf f end.
Definition upturned (r : rotation) : bool := match r with ROneEighty | RTwoSeventy => true | _ => false end.
Lemma image_across p g m f : Forall (fun v => v = 0 \/ v = 1) m -> 1 <= img_xdim g -> fits g m ->
  img_foreground g <> img_background g ->
  exists buf, image_generate_buffer p g m = Ret (Ok buf) /\
    (buf_w buf, buf_h buf) = turned_size (img_rotation g) (len m * img_xdim g) (img_height g) /\
    ((forall t, t < len m * img_xdim g -> f t < img_height g) -> exists line, across (img_rotation g) buf f = Some line /\
       marks rgba_eqb (img_foreground g) line =
         if upturned (img_rotation g) then rev (enlarged (N.to_nat (img_xdim g)) m) else enlarged (N.to_nat (img_xdim g)) m) /\
    (forall k, k < len m * img_xdim g -> exists v n, (v = 0 \/ v = 1) /\
       option_map (marks rgba_eqb (img_foreground g))
         (match img_rotation g with RZero | ROneEighty => downwards buf (fun _ => k) | _ => rightwards buf (fun _ => k) end)
       = Some (repeat v n)).
Proof.
  intros HM Hx HF HC. destruct (place_pixels_fits p g m HF) as (buf & E & HS & HW & HP). exists buf.
  unfold image_generate_buffer. rewrite E. split; [reflexivity|]. split; [assumption|].
  set (w := len m * img_xdim g) in *. set (h := img_height g) in *.
  set (c := fun t => bars (img_xdim g) (img_foreground g) (img_background g) m t 0).
  assert (HP' : forall x y, x < w -> y < h -> pixel (buf_w buf) (buf_px buf) (fst (turn (img_rotation g) w h x y)) (snd (turn (img_rotation g) w h x y)) = Some (c x)) by exact HP.
  clear HP. assert (HB : marks rgba_eqb (img_foreground g) (map c (range w)) = enlarged (N.to_nat (img_xdim g)) m)
    by (apply marks_blocks; try assumption; apply rgba_eqb_true).
  assert (HR : marks rgba_eqb (img_foreground g) (map (fun t => c (w - 1 - t)) (range w)) = rev (enlarged (N.to_nat (img_xdim g)) m)).
  { rewrite <- HB. unfold marks. rewrite <- !map_rev, rev_range, !map_map. reflexivity. }
  assert (HK : forall k (l : list N), marks rgba_eqb (img_foreground g) (map (fun _ => c k) l) = repeat (if rgba_eqb (img_foreground g) (c k) then 1 else 0) (length l)).
  { intros k l. unfold marks. rewrite map_map. induction l as [|a l IH]; [reflexivity|]. cbn [map length repeat]. now rewrite IH. }
  assert (HV : forall k, (if rgba_eqb (img_foreground g) (c k) then 1 else 0) = 0 \/ (if rgba_eqb (img_foreground g) (c k) then 1 else 0) = 1)
    by (intros k; destruct (rgba_eqb _ _); auto).
  split.
  - intros Hf. unfold turned_size, turn in HS, HP'. destruct (img_rotation g); injection HS as W H; cbn [across upturned fst snd] in *;
      unfold rightwards, downwards; rewrite ?H, ?W; rewrite ?W in HP'.
    + exists (map c (range w)). split; [|exact HB]. apply read_all_Some. intros t Ht. apply range_In in Ht. specialize (Hf t Ht). now apply HP'.
    + exists (map c (range w)). split; [|exact HB]. apply read_all_Some. intros t Ht. apply range_In in Ht.
      specialize (Hf t Ht). replace (f t) with (h - 1 - (h - 1 - f t)) by lia. apply HP'; lia.
    + exists (map (fun t => c (w - 1 - t)) (range w)). split; [|exact HR]. apply read_all_Some. intros t Ht. apply range_In in Ht.
      specialize (Hf t Ht). replace (f t) with (h - 1 - (h - 1 - f t)) by lia. replace t with (w - 1 - (w - 1 - t)) at 1 by lia. apply HP'; lia.
    + exists (map (fun t => c (w - 1 - t)) (range w)). split; [|exact HR]. apply read_all_Some. intros t Ht. apply range_In in Ht.
      specialize (Hf t Ht). replace t with (w - 1 - (w - 1 - t)) at 2 by lia. apply HP'; [lia | exact Hf].
  - intros k Hk. unfold turned_size, turn in HS, HP'. destruct (img_rotation g); injection HS as W H; cbn [fst snd] in *;
      unfold rightwards, downwards; rewrite ?H, ?W; rewrite ?W in HP'.
    + rewrite (read_all_Some _ (fun _ => c k)); [cbn [option_map]; rewrite HK; eauto|]. intros t Ht. apply range_In in Ht. now apply HP'.
    + rewrite (read_all_Some _ (fun _ => c k)); [cbn [option_map]; rewrite HK; eauto|]. intros t Ht. apply range_In in Ht.
      replace t with (h - 1 - (h - 1 - t)) by lia. apply HP'; lia.
    + rewrite (read_all_Some _ (fun _ => c (w - 1 - k))); [cbn [option_map]; rewrite HK; eauto|]. intros t Ht. apply range_In in Ht.
      replace t with (h - 1 - (h - 1 - t)) by lia. replace k with (w - 1 - (w - 1 - k)) at 1 by lia. apply HP'; lia.
    + rewrite (read_all_Some _ (fun _ => c (w - 1 - k))); [cbn [option_map]; rewrite HK; eauto|]. intros t Ht. apply range_In in Ht.
      replace k with (w - 1 - (w - 1 - k)) at 1 by lia. apply HP'; lia.
Qed.
