(** * Proofs about the SVG generator: sizes and painting *)
From Verif Require Import Rust M_Error M_Svg S_Barcode S_Text S_Num S_Svg P_Rust P_Barcode P_Num P_Xml P_Svg.

Definition good_svg (g : SVG) : Prop :=
  byte_color (svg_foreground g) /\ byte_color (svg_background g) /\ plain_ns (svg_xmlns g).
Lemma mul_cast_fits p n x : n * x < 2 ^ 32 -> mul_u 32 p (cast_u 32 n) x = Ret (n * x).
Proof.
  intros H. unfold mul_u. destruct (N.eq_dec x 0) as [->|Hx].
  - now rewrite !N.mul_0_r.
  - rewrite cast_u_small; [now apply fit_u_ok|]. nia.
Qed.
Lemma mul_cast_release n x : mul_u 32 Release (cast_u 32 n) x = Ret (n * x mod 2 ^ 32).
Proof. unfold mul_u, cast_u. rewrite fit_u_release. now rewrite N.mul_mod_idemp_l. Qed.
Lemma paint_shows c : byte_color c -> shows (red c) (green c) (blue c) (alpha c) (paint_of c).
Proof. intros (_ & _ & _ & Ha). split; [reflexivity|]. apply (opacity_facts c Ha). Qed.

Lemma svg_fits p g b : good_svg g -> len b * svg_xdim g < 2 ^ 32 ->
  exists out, svg_generate p g b = Ret (Ok out) /\
    read_svg out = Some (barcode_drawing (svg_height g) (svg_xdim g) (paint_of (svg_foreground g))
                           (paint_of (svg_background g)) (svg_xmlns g) b).
Proof.
  intros (Hf & Hb & Hn) H. eexists. split.
  - apply svg_generate_gen with (w := len b * svg_xdim g) (off := fun i => i * svg_xdim g); try assumption.
    + now apply mul_cast_fits.
    + intros i Hi. apply mul_cast_fits. apply bar_positions_lt in Hi. nia.
  - rewrite svg_text_read by assumption. unfold svg_drawing, barcode_drawing. now rewrite map_map.
Qed.
Lemma svg_release g b : good_svg g ->
  exists out, svg_generate Release g b = Ret (Ok out) /\
    read_svg out = Some (wrapped_drawing (svg_height g) (svg_xdim g) (paint_of (svg_foreground g))
                           (paint_of (svg_background g)) (svg_xmlns g) b).
Proof.
  intros (Hf & Hb & Hn). eexists. split.
  - apply svg_generate_gen with (off := fun i => i * svg_xdim g mod 2 ^ 32); try assumption.
    + apply mul_cast_release.
    + intros i _. apply mul_cast_release.
  - rewrite svg_text_read by assumption. unfold svg_drawing, wrapped_drawing. now rewrite map_map.
Qed.
Lemma svg_debug_panics g b : len b < 2 ^ 32 -> 2 ^ 32 <= len b * svg_xdim g -> svg_generate Debug g b = Panic PanicOverflow.
Proof.
  intros Hl H. unfold svg_generate, mul_u at 1. rewrite cast_u_small by assumption. now rewrite fit_u_debug.
Qed.

Lemma mapM_inv {A B} (f : A -> M B) l : forall r, mapM f l = Ret r -> forall x, In x l -> exists y, f x = Ret y.
Proof.
  induction l as [|z l IH]; intros r E x [] ; cbn [mapM] in E.
  - subst. destruct (f x) as [y|]; [now exists y | discriminate].
  - destruct (f z); [|discriminate]. cbn [bind] in E. destruct (mapM f l) as [l'|]; [|discriminate]. now apply (IH l' eq_refl x).
Qed.
Lemma mul_debug n x v : mul_u 32 Debug (cast_u 32 n) x = Ret v -> n mod 2 ^ 32 * x < 2 ^ 32.
Proof.
  unfold mul_u, cast_u. intros E. destruct (N.lt_ge_cases (n mod 2 ^ 32 * x) (2 ^ 32)) as [|G]; [assumption|].
  rewrite fit_u_debug in E by assumption. discriminate.
Qed.
Lemma svg_debug_exact g b : byte_color (svg_foreground g) -> byte_color (svg_background g) ->
  (returns (svg_generate Debug g b) <->
    len b mod 2 ^ 32 * svg_xdim g < 2 ^ 32 /\ forall i, nth_error b (N.to_nat i) = Some 1 -> i mod 2 ^ 32 * svg_xdim g < 2 ^ 32) /\
  (forall r, svg_generate Debug g b = Ret r -> svg_generate Release g b = Ret r).
Proof.
  intros Hf Hb.
  assert (HI : returns (svg_generate Debug g b) ->
    len b mod 2 ^ 32 * svg_xdim g < 2 ^ 32 /\ forall i, nth_error b (N.to_nat i) = Some 1 -> i mod 2 ^ 32 * svg_xdim g < 2 ^ 32).
  { intros [r E]. unfold svg_generate in E. destruct (mul_u 32 Debug (cast_u 32 (len b)) (svg_xdim g)) as [w|] eqn:Ew; [|discriminate].
    apply mul_debug in Ew. split; [assumption|]. cbn [bind] in E.
    match type of E with context [mapM ?f ?l] => destruct (mapM f l) as [rs|] eqn:Em; [|discriminate] end.
    intros i Hi. apply bar_positions_In in Hi. rewrite <- enumerate_bars in Hi. apply in_map_iff in Hi. destruct Hi as [[j n] [Ej Hi]].
    cbn [fst] in Ej. subst j. destruct (mapM_inv _ _ _ Em _ Hi) as [y Ey]. cbv beta iota in Ey.
    destruct (mul_u 32 Debug (cast_u 32 i) (svg_xdim g)) as [v|] eqn:Ev; [|discriminate]. now apply mul_debug in Ev. }
  assert (HE : forall p, len b mod 2 ^ 32 * svg_xdim g < 2 ^ 32 ->
    (forall i, nth_error b (N.to_nat i) = Some 1 -> i mod 2 ^ 32 * svg_xdim g < 2 ^ 32) ->
    svg_generate p g b = Ret (Ok (svg_text g (len b mod 2 ^ 32 * svg_xdim g) (map (fun i => i mod 2 ^ 32 * svg_xdim g) (bar_positions b))))).
  { intros p Hw Hi. apply svg_generate_gen; try assumption.
    - unfold mul_u, cast_u. now apply fit_u_ok.
    - intros i H. apply bar_positions_In in H. unfold mul_u, cast_u. now apply fit_u_ok, Hi. }
  split; [split; [exact HI|]; intros [Hw Hi]; rewrite HE by assumption; now eexists|].
  intros r E. destruct HI as [Hw Hi]; [now exists r|]. rewrite HE in * by assumption. exact E.
Qed.

(** ** Painting *)
Lemma fold_cover (rs : list rectangle) pt x y : Forall (fun r => r_paint r = pt) rs -> forall c,
  fold_left (fun c r => if covers r x y then Some (r_paint r) else c) rs c =
  if existsb (fun r => covers r x y) rs then Some pt else c.
Proof.
  induction rs as [|r rs IH]; intros HF c; [reflexivity|]. inversion HF as [|? ? Hr HF']; subst. cbn [fold_left existsb].
  rewrite IH by assumption. destruct (covers r x y); cbn [orb]; [|reflexivity].
  now destruct (existsb (fun r => covers r x y) rs).
Qed.
Lemma colour_at_spec h xdim fg bg ns b x y :
  colour_at (barcode_drawing h xdim fg bg ns b) x y =
  if (x <? len b * xdim) && (y <? h)
  then Some (match nth_error b (N.to_nat (x / xdim)) with Some 1 => fg | _ => bg end)
  else None.
Proof.
  unfold colour_at, barcode_drawing. cbn [d_rects fold_left].
  rewrite (fold_cover _ fg) by (apply Forall_map, Forall_forall; reflexivity).
  unfold covers at 2. cbn [r_x r_y r_w r_h r_paint]. rewrite !N.add_0_l.
  assert (Z : forall n, (0 <=? n) = true) by (intros; apply N.leb_le; lia). rewrite !Z. cbn [andb].
  rewrite andb_true_r. destruct (N.ltb_spec x (len b * xdim)) as [Hx|Hx]; cbn [andb].
  - assert (Hd : xdim <> 0) by nia.
    assert (HI : forall i, (i * xdim <= x < i * xdim + xdim) <-> i = x / xdim).
    { intros i. split.
      - intros H. apply N.div_unique with (r := x - i * xdim); lia.
      - intros ->. pose proof (N.mul_div_le x xdim Hd). pose proof (N.mul_succ_div_gt x xdim Hd). nia. }
    destruct (N.ltb_spec y h) as [Hy|Hy].
    + match goal with |- (if ?e then _ else _) = _ => destruct e eqn:E end.
      * apply existsb_exists in E. destruct E as [r [Hr Hc]]. apply in_map_iff in Hr. destruct Hr as [i [<- Hi]].
        apply bar_positions_In in Hi. unfold covers in Hc. cbn [r_x r_y r_w r_h] in Hc.
        rewrite !andb_true_iff, !N.leb_le, !N.ltb_lt in Hc. assert (i = x / xdim) as -> by (apply HI; lia).
        now rewrite Hi.
      * destruct (nth_error b (N.to_nat (x / xdim))) as [d|] eqn:En; [|reflexivity].
        destruct (N.eq_dec d 1) as [->|Hd1].
        { exfalso. apply bar_positions_In in En. apply not_true_iff_false in E. apply E, existsb_exists.
          exists (mkRectangle (x / xdim * xdim) 0 xdim h fg). split; [apply in_map_iff; eauto|].
          unfold covers. cbn [r_x r_y r_w r_h]. rewrite !andb_true_iff, !N.leb_le, !N.ltb_lt.
          pose proof (proj2 (HI _) eq_refl). lia. }
        destruct d as [|[q|q|]]; try reflexivity. congruence.
    + match goal with |- (if ?e then _ else _) = _ => destruct e eqn:E end; [|reflexivity].
      exfalso. apply existsb_exists in E. destruct E as [r [Hr Hc]]. apply in_map_iff in Hr. destruct Hr as [i [<- Hi]].
      unfold covers in Hc. cbn [r_x r_y r_w r_h] in Hc. rewrite !andb_true_iff, !N.leb_le, !N.ltb_lt in Hc. lia.
  - match goal with |- (if ?e then _ else _) = _ => destruct e eqn:E end; [|reflexivity].
    exfalso. apply existsb_exists in E. destruct E as [r [Hr Hc]]. apply in_map_iff in Hr. destruct Hr as [i [<- Hi]].
    apply bar_positions_lt in Hi. unfold covers in Hc. cbn [r_x r_y r_w r_h] in Hc.
    rewrite !andb_true_iff, !N.leb_le, !N.ltb_lt in Hc. nia.
Qed.

(** ** The fill attributes of one rectangle *)
Definition rect_color (g : SVG) (style : N) : color := if style =? 1 then svg_foreground g else svg_background g.
Lemma rect_text_length c o x h : (20 <= length (rect_text c o x h))%nat.
Proof.
  unfold rect_text. cbn [length]. rewrite !app_length. unfold rect_attrs, attrs_text. cbn [flat_map].
  rewrite !app_length. unfold attr_text at 1 2 3 4. cbn [fst snd]. cbn [length]. rewrite !app_length.
  cbn [length lit map String.list_ascii_of_string]. lia.
Qed.
Lemma svg_rect_fill p g style off w : byte_color (rect_color g style) ->
  let c := rect_color g style in
  exists t attrs fill, svg_rect p g style off w = Ret t /\
    read_xml t = Some (Elem (lit "rect") attrs []) /\
    get (lit "fill") attrs = Some fill /\ read_colour fill = Some (red c, green c, blue c) /\
    (rounds_to (alpha c) 100 -> get (lit "fill-opacity") attrs = None) /\
    (~ rounds_to (alpha c) 100 -> exists o h, get (lit "fill-opacity") attrs = Some o /\
       read_opacity o = Some h /\ rounds_to (alpha c) h).
Proof.
  intros Hc. cbv zeta. set (c := rect_color g style) in *.
  exists (rect_text c off w (svg_height g)), (rect_attrs c off w (svg_height g)), (35 :: hexes c).
  split; [now apply svg_rect_text|]. split.
  { unfold read_xml. pose proof (rect_text_length c off w (svg_height g)) as HL.
    change (skip_space (rect_text c off w (svg_height g))) with (rect_text c off w (svg_height g)).
    generalize dependent (length (rect_text c off w (svg_height g))). intros n HL.
    destruct (rect_readable c off w (svg_height g) Hc) as [_ HR]. specialize (HR (S n) [] ltac:(lia)).
    rewrite app_nil_r in HR. rewrite HR. reflexivity. }
  destruct (to_hex_ok p c Hc) as (_ & HR & _). destruct Hc as (_ & _ & _ & Ha).
  destruct (opacity_facts c Ha) as (HRo & _ & HO & _).
  split; [reflexivity|]. split; [exact HR|]. unfold rect_attrs, fill_attrs, opaque.
  destruct (N.eqb_spec (hundredths (alpha c)) 100) as [E|E].
  - split; [reflexivity|]. intros H. rewrite E in HRo. contradiction.
  - split; [intros H; exfalso; apply E; now apply (rounds_to_unique (alpha c))|].
    intros _. exists (to_opacity c), (hundredths (alpha c)). split; [reflexivity|]. split; assumption.
Qed.
