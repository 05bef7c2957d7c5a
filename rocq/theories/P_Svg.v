(** * Proofs about the SVG generator *)
From Verif Require Import Rust M_Error M_Json M_Svg S_Barcode S_Text S_Num S_Svg P_Rust P_Barcode P_Num P_Xml.

(** ** Colours *)
Definition byte (n : N) : Prop := n < 256.
Definition byte_color (c : color) : Prop := byte (red c) /\ byte (green c) /\ byte (blue c) /\ byte (alpha c).
Lemma byte_check (f : N -> bool) n : forallb f (range 256) = true -> byte n -> f n = true.
Proof. intros H Hn. rewrite forallb_forall in H. now apply H, In_range. Qed.

Definition hex_ok (p : profile) (n : N) : bool :=
  match format_hex p n with
  | Ret [a; b] => xml_plain a && xml_plain b && match read_hex2 a b with Some m => m =? n | None => false end
  | _ => false
  end.
Lemma hex_check p : forallb (hex_ok p) (range 256) = true.
Proof. destruct p; vm_compute; reflexivity. Qed.
Lemma format_hex_ok p n : byte n -> exists a b, format_hex p n = Ret [a; b] /\ xml_plain a = true /\ xml_plain b = true /\
  read_hex2 a b = Some n.
Proof.
  intros Hn. pose proof (byte_check _ n (hex_check p) Hn) as H. unfold hex_ok in H.
  destruct (format_hex p n) as [[|a [|b [|c l]]]|]; try discriminate. exists a, b.
  apply andb_true_iff in H. destruct H as [H H3]. apply andb_true_iff in H. destruct H as [H1 H2].
  destruct (read_hex2 a b) as [m|]; [|discriminate]. apply N.eqb_eq in H3. subst m. auto.
Qed.
Definition hex_same (n : N) : bool :=
  match format_hex Debug n, format_hex Release n with
  | Ret a, Ret b => str_eqb a b
  | _, _ => false
  end.
Lemma hex_same_check : forallb hex_same (range 256) = true.
Proof. vm_compute. reflexivity. Qed.
Lemma format_hex_profile p n : byte n -> format_hex p n = format_hex Debug n.
Proof.
  intros Hn. pose proof (byte_check _ n hex_same_check Hn) as H. unfold hex_same in H.
  destruct p; [reflexivity|]. destruct (format_hex Debug n); [|discriminate]. destruct (format_hex Release n); [|discriminate].
  apply str_eqb_eq in H. now subst.
Qed.
Definition hexes (c : color) : str := match to_hex Debug c with Ret h => h | Panic _ => [] end.
Lemma to_hex_ok p c : byte_color c -> to_hex p c = Ret (hexes c) /\
  read_colour (35 :: hexes c) = Some (red c, green c, blue c) /\ forallb xml_plain (35 :: hexes c) = true.
Proof.
  intros (Hr & Hg & Hb & _). unfold hexes, to_hex. cbn [mapM].
  rewrite !(format_hex_profile p) by assumption.
  destruct (format_hex_ok Debug _ Hr) as (r1 & r2 & Er & Pr1 & Pr2 & Rr).
  destruct (format_hex_ok Debug _ Hg) as (g1 & g2 & Eg & Pg1 & Pg2 & Rg).
  destruct (format_hex_ok Debug _ Hb) as (b1 & b2 & Eb & Pb1 & Pb2 & Rb).
  rewrite Er, Eg, Eb. cbn [bind concat app]. split; [reflexivity|]. split.
  - cbn [read_colour]. rewrite Rr, Rg, Rb. reflexivity.
  - cbn [forallb]. rewrite Pr1, Pr2, Pg1, Pg2, Pb1, Pb2. reflexivity.
Qed.

(** ** Opacity *)
Definition opacity_of (a : N) : str := to_opacity (mkColor 0 0 0 a).
Definition hundredths (a : N) : N := (200 * a + 255) / 510.
Definition rounds_tob (a h : N) : bool :=
  (2 * (100 * a) <? 255 * (2 * h + 1)) && (255 * (2 * h) <? 2 * (100 * a) + 255).
Definition opacity_ok (a : N) : bool :=
  let o := opacity_of a in
  rounds_tob a (hundredths a) && (hundredths a <=? 100)
  && match read_opacity o with Some h => h =? hundredths a | None => false end
  && forallb xml_plain o
  && Bool.eqb (str_eqb o (lit "1.00") || str_eqb o (lit "1")) (hundredths a =? 100).
Lemma opacity_check : forallb opacity_ok (range 256) = true.
Proof. vm_compute. reflexivity. Qed.
Lemma to_opacity_of c : to_opacity c = opacity_of (alpha c).
Proof. reflexivity. Qed.
Lemma opacity_facts c : byte (alpha c) ->
  rounds_to (alpha c) (hundredths (alpha c)) /\ hundredths (alpha c) <= 100 /\
  read_opacity (to_opacity c) = Some (hundredths (alpha c)) /\ forallb xml_plain (to_opacity c) = true /\
  (str_eqb (to_opacity c) (lit "1.00") || str_eqb (to_opacity c) (lit "1")) = (hundredths (alpha c) =? 100).
Proof.
  intros H. rewrite to_opacity_of. pose proof (byte_check _ _ opacity_check H) as E. unfold opacity_ok in E.
  cbv zeta in E. rewrite !andb_true_iff in E. destruct E as [[[[E1 E2] E3] E4] E5].
  split; [|split; [|split; [|split]]].
  - unfold rounds_tob in E1. apply andb_true_iff in E1. destruct E1 as [A B]. apply N.ltb_lt in A, B. split; assumption.
  - now apply N.leb_le.
  - destruct (read_opacity (opacity_of (alpha c))) as [h|]; [|discriminate]. apply N.eqb_eq in E3. now subst.
  - assumption.
  - now apply Bool.eqb_prop.
Qed.
Lemma rounds_to_unique a h h' : rounds_to a h -> rounds_to a h' -> h = h'.
Proof. unfold rounds_to. lia. Qed.

(** ** Rectangles *)
Definition opaque (c : color) : bool := hundredths (alpha c) =? 100.
Definition fill_attrs (c : color) : list (str * str) :=
  (lit "fill", 35 :: hexes c) :: (if opaque c then [] else [(lit "fill-opacity", to_opacity c)]).
Definition fill_end (c : color) : str := (if opaque c then [] else [32]) ++ [47; 62].
Definition rect_attrs (c : color) (off w h : N) : list (str * str) :=
  (lit "x", fmt_dec off) :: (lit "y", lit "0") :: (lit "width", fmt_dec w) :: (lit "height", fmt_dec h) :: fill_attrs c.
Definition rect_text (c : color) (off w h : N) : str :=
  60 :: lit "rect" ++ attrs_text (rect_attrs c off w h) ++ fill_end c.
Definition rect_elem (c : color) (off w h : N) : xml := Elem (lit "rect") (rect_attrs c off w h) [].

Lemma svg_rect_text p g style off w c : c = (if style =? 1 then svg_foreground g else svg_background g) ->
  byte_color c -> svg_rect p g style off w = Ret (rect_text c off w (svg_height g)).
Proof.
  intros -> Hc. unfold svg_rect. destruct (to_hex_ok p _ Hc) as [E _]. rewrite E. cbn [bind]. f_equal.
  destruct Hc as (_ & _ & _ & Ha). destruct (opacity_facts _ Ha) as (_ & _ & _ & _ & HO).
  set (c := if style =? 1 then svg_foreground g else svg_background g) in *. clearbody c.
  unfold svg_opacity_attr. rewrite HO. fold (opaque c).
  unfold rect_text, rect_attrs, fill_attrs, fill_end, attr, dq. unfold attrs_text. cbn [flat_map]. unfold attr_text. cbn [fst snd].
  destruct (opaque c); cbn [flat_map]; cbn [lit map String.list_ascii_of_string app]; unfold attr_text; cbn [fst snd];
  cbn [lit map String.list_ascii_of_string app]; repeat (rewrite <- !app_assoc; cbn [app]); reflexivity.
Qed.
Lemma plain_digits s : Forall digit_char s -> forallb xml_plain s = true.
Proof.
  intros H. apply forallb_forall. rewrite Forall_forall in H. intros c Hc. specialize (H c Hc). unfold digit_char in H.
  unfold xml_plain. rewrite !andb_true_iff, !negb_true_iff, N.leb_le, !N.eqb_neq. lia.
Qed.
Lemma rect_attrs_good c off w h : byte_color c ->
  Forall (fun a => good_name (fst a) /\ forallb xml_plain (snd a) = true) (rect_attrs c off w h).
Proof.
  intros Hc. destruct (to_hex_ok Debug c Hc) as (_ & _ & HP). destruct Hc as (_ & _ & _ & Ha).
  destruct (opacity_facts _ Ha) as (_ & _ & _ & HP' & _).
  assert (N1 : forall n, forallb xml_plain (fmt_dec n) = true) by (intros; apply plain_digits, fmt_dec_digits).
  unfold rect_attrs. do 4 (constructor; [split; [now split | (exact (N1 _) || reflexivity)]|]).
  constructor; [split; [now split | exact HP]|].
  destruct (opaque c); [constructor|]. constructor; [|constructor]. split; [now split | exact HP'].
Qed.
Lemma rect_attrs_length c off w h : (length (rect_attrs c off w h) <= 6)%nat.
Proof. unfold rect_attrs, fill_attrs. destruct (opaque c); cbn; lia. Qed.
Lemma rect_readable c off w h : byte_color c -> readable 8 (rect_elem c off w h) (rect_text c off w h).
Proof.
  intros Hc. split.
  - exists 114. eexists. split; [reflexivity | discriminate].
  - intros fuel rest Hf. destruct fuel as [|f]; [lia|]. unfold rect_text.
    change ((60 :: lit "rect" ++ attrs_text (rect_attrs c off w h) ++ fill_end c) ++ rest)
      with (60 :: (lit "rect" ++ attrs_text (rect_attrs c off w h) ++ fill_end c) ++ rest).
    rewrite <- !app_assoc. apply xml_leaf.
    + now split.
    + now apply rect_attrs_good.
    + discriminate.
    + unfold rect_attrs, fill_attrs. destruct (opaque c); reflexivity.
    + unfold fill_end. destruct (opaque c); reflexivity.
    + eapply Nat.le_lt_trans; [apply rect_attrs_length | lia].
Qed.
Definition paint_of (c : color) : paint := mkPaint (red c, green c, blue c) (hundredths (alpha c)).
Lemma rect_read c off w h : byte_color c ->
  read_rect (rect_elem c off w h) = Some (mkRectangle off 0 w h (paint_of c)).
Proof.
  intros Hc. destruct (to_hex_ok Debug c Hc) as (_ & HR & _). destruct Hc as (_ & _ & _ & Ha).
  destruct (opacity_facts _ Ha) as (_ & _ & HO & _). unfold rect_elem, rect_attrs, fill_attrs.
  unfold read_rect, paint_of. destruct (opaque c) eqn:Eo.
  - apply N.eqb_eq in Eo. rewrite Eo. cbn [map fst].
    match goal with |- context [subset ?a ?b] => change (subset a b) with true end.
    match goal with |- context [str_eqb ?a ?b] => change (str_eqb a b) with true end. cbn [andb].
    match goal with |- context [get (lit "x") ?a] => change (get (lit "x") a) with (Some (fmt_dec off)) end.
    match goal with |- context [get (lit "y") ?a] => change (get (lit "y") a) with (Some (lit "0")) end.
    match goal with |- context [get (lit "width") ?a] => change (get (lit "width") a) with (Some (fmt_dec w)) end.
    match goal with |- context [get (lit "height") ?a] => change (get (lit "height") a) with (Some (fmt_dec h)) end.
    match goal with |- context [get (lit "fill") ?a] => change (get (lit "fill") a) with (Some (35 :: hexes c)) end.
    match goal with |- context [get (lit "fill-opacity") ?a] => change (get (lit "fill-opacity") a) with (@None str) end.
    cbn [obind]. rewrite !read_fmt_dec, HR. reflexivity.
  - cbn [map fst].
    match goal with |- context [subset ?a ?b] => change (subset a b) with true end.
    match goal with |- context [str_eqb ?a ?b] => change (str_eqb a b) with true end. cbn [andb].
    match goal with |- context [get (lit "x") ?a] => change (get (lit "x") a) with (Some (fmt_dec off)) end.
    match goal with |- context [get (lit "y") ?a] => change (get (lit "y") a) with (Some (lit "0")) end.
    match goal with |- context [get (lit "width") ?a] => change (get (lit "width") a) with (Some (fmt_dec w)) end.
    match goal with |- context [get (lit "height") ?a] => change (get (lit "height") a) with (Some (fmt_dec h)) end.
    match goal with |- context [get (lit "fill") ?a] => change (get (lit "fill") a) with (Some (35 :: hexes c)) end.
    match goal with |- context [get (lit "fill-opacity") ?a] => change (get (lit "fill-opacity") a) with (Some (to_opacity c)) end.
    cbn [obind]. rewrite !read_fmt_dec, HR, HO. reflexivity.
Qed.

(** ** The document *)
Definition ns_attrs (ns : option str) : list (str * str) :=
  match ns with Some u => [(lit "xmlns", u)] | None => [] end.
Definition svg_attrs (ns : option str) (w h : N) : list (str * str) :=
  (lit "version", lit "1.1") :: ns_attrs ns ++ [(lit "viewBox", lit "0 0 " ++ fmt_dec w ++ lit " " ++ fmt_dec h)].
Definition svg_text (g : SVG) (w : N) (offs : list N) : str :=
  60 :: lit "svg" ++ attrs_text (svg_attrs (svg_xmlns g) w (svg_height g)) ++
  62 :: concat (rect_text (svg_background g) 0 w (svg_height g) ::
                map (fun o => rect_text (svg_foreground g) o (svg_xdim g) (svg_height g)) offs) ++
  60 :: 47 :: lit "svg" ++ [62].

Lemma enumerate_positions b : forall k,
  map fst (filter (fun x : N * N => snd x =? 1) (enumerate_from k b)) = map (fun i => k + i) (bar_positions b).
Proof.
  assert (HB : forall x b, bar_positions (x :: b) =
    (if x =? 1 then [0] else []) ++ map (fun i => 1 + i) (bar_positions b)).
  { intros x l. unfold bar_positions, range. rewrite len_cons.
    replace (N.to_nat (1 + len l)) with (S (N.to_nat (len l))) by lia. cbn [seq map filter].
    change (nth_error (x :: l) (N.to_nat (N.of_nat 0))) with (Some x).
    assert (E : filter (fun i => match nth_error (x :: l) (N.to_nat i) with Some 1 => true | _ => false end)
                  (map N.of_nat (seq 1 (N.to_nat (len l)))) =
                map (fun i => 1 + i) (filter (fun i => match nth_error l (N.to_nat i) with Some 1 => true | _ => false end)
                  (map N.of_nat (seq 0 (N.to_nat (len l)))))).
    { rewrite <- seq_shift, map_map. induction (seq 0 (N.to_nat (len l))) as [|i q IH]; [reflexivity|].
      cbn [map filter]. rewrite IH. replace (N.to_nat (N.of_nat (S i))) with (S (N.to_nat (N.of_nat i))) by lia.
      cbn [nth_error]. destruct (nth_error l (N.to_nat (N.of_nat i))) as [[|[| |]]|]; cbn [map]; try reflexivity.
      f_equal. lia. }
    rewrite E. destruct (N.eqb_spec x 1) as [->|Hx]; [reflexivity|].
    destruct x as [|[q|q|]]; try reflexivity. congruence. }
  induction b as [|x b IH]; intros k; [reflexivity|]. rewrite HB. cbn [enumerate_from filter snd].
  destruct (x =? 1); cbn [map fst app].
  - rewrite IH, map_map. f_equal; [lia|]. apply map_ext. intros; lia.
  - rewrite IH, map_map. apply map_ext. intros; lia.
Qed.
Lemma enumerate_bars b : map fst (filter (fun x : N * N => snd x =? 1) (enumerate b)) = bar_positions b.
Proof. unfold enumerate. rewrite enumerate_positions. rewrite <- (map_id (bar_positions b)) at 2. apply map_ext. intros; lia. Qed.
Lemma bar_positions_lt b i : In i (bar_positions b) -> i < len b.
Proof. unfold bar_positions. intros H. apply filter_In in H. now apply In_range. Qed.
Lemma bar_positions_In b i : In i (bar_positions b) <-> nth_error b (N.to_nat i) = Some 1.
Proof.
  unfold bar_positions. rewrite filter_In, In_range. split.
  - intros [_ H]. destruct (nth_error b (N.to_nat i)) as [[|[| |]]|]; congruence.
  - intros H. split; [|now rewrite H]. assert (N.to_nat i < length b)%nat by (apply nth_error_Some; congruence).
    unfold len. lia.
Qed.

Lemma svg_generate_gen p g b w off : byte_color (svg_foreground g) -> byte_color (svg_background g) ->
  mul_u 32 p (cast_u 32 (len b)) (svg_xdim g) = Ret w ->
  (forall i, In i (bar_positions b) -> mul_u 32 p (cast_u 32 i) (svg_xdim g) = Ret (off i)) ->
  svg_generate p g b = Ret (Ok (svg_text g w (map off (bar_positions b)))).
Proof.
  intros Hf Hb Hw Ho. unfold svg_generate. rewrite Hw. cbn [bind].
  rewrite (mapM_Ret _ (fun x => rect_text (svg_foreground g) (off (fst x)) (svg_xdim g) (svg_height g))).
  2:{ intros [i n] Hin. assert (Hi : In i (bar_positions b)).
      { rewrite <- enumerate_bars. apply in_map_iff. exists (i, n). split; [reflexivity | assumption]. }
      apply filter_In in Hin. destruct Hin as [_ Hn]. cbn [snd] in Hn.
      rewrite (Ho i Hi). cbn [bind fst]. apply svg_rect_text; [now rewrite Hn | assumption]. }
  cbn [bind]. rewrite (svg_rect_text p g 0 0 w (svg_background g) eq_refl Hb). cbn [bind]. do 2 f_equal.
  rewrite <- enumerate_bars, map_map. unfold svg_text, svg_attrs, ns_attrs. cbn [concat].
  rewrite map_map. unfold attr, dq. destruct (svg_xmlns g) as [u|]; unfold attrs_text; cbn [flat_map app]; unfold attr_text; cbn [fst snd];
  cbn [lit map String.list_ascii_of_string app]; repeat (rewrite <- !app_assoc; cbn [app]); reflexivity.
Qed.
Lemma svg_text_length g w offs : (length offs + 20 <= length (svg_text g w offs))%nat.
Proof.
  unfold svg_text. cbn [length]. rewrite !app_length. cbn [length]. rewrite !app_length. cbn [concat]. rewrite app_length.
  assert (forall c o x h, 20 <= length (rect_text c o x h))%nat.
  { intros. unfold rect_text. cbn [length]. rewrite !app_length. unfold rect_attrs, attrs_text. cbn [flat_map].
    rewrite !app_length. unfold attr_text at 1 2 3 4. cbn [fst snd]. cbn [length]. rewrite !app_length.
    cbn [length lit map String.list_ascii_of_string]. lia. }
  pose proof (H (svg_background g) 0 w (svg_height g)).
  assert (length offs <= length (concat (map (fun o => rect_text (svg_foreground g) o (svg_xdim g) (svg_height g)) offs)))%nat.
  { clear - H. induction offs as [|o offs IH]; [reflexivity|]. cbn [map concat length]. rewrite app_length.
    pose proof (H (svg_foreground g) o (svg_xdim g) (svg_height g)). lia. }
  lia.
Qed.
Definition plain_ns (ns : option str) : Prop := match ns with Some u => forallb xml_plain u = true | None => True end.
Definition svg_elem (g : SVG) (w : N) (offs : list N) : xml :=
  Elem (lit "svg") (svg_attrs (svg_xmlns g) w (svg_height g))
    (rect_elem (svg_background g) 0 w (svg_height g) ::
     map (fun o => rect_elem (svg_foreground g) o (svg_xdim g) (svg_height g)) offs).
Lemma svg_attrs_good ns w h : plain_ns ns ->
  Forall (fun a => good_name (fst a) /\ forallb xml_plain (snd a) = true) (svg_attrs ns w h).
Proof.
  intros Hn. unfold svg_attrs. constructor; [split; [now split | reflexivity]|]. apply Forall_app. split.
  - destruct ns as [u|]; [|constructor]. constructor; [|constructor]. split; [now split | exact Hn].
  - constructor; [|constructor]. split; [now split|]. cbn [snd].
    rewrite !forallb_app. rewrite !(plain_digits (fmt_dec _)) by apply fmt_dec_digits. reflexivity.
Qed.
Lemma svg_text_read_xml g w offs : byte_color (svg_foreground g) -> byte_color (svg_background g) -> plain_ns (svg_xmlns g) ->
  read_xml (svg_text g w offs) = Some (svg_elem g w offs).
Proof.
  intros Hf Hb Hn. unfold read_xml. pose proof (svg_text_length g w offs) as HL.
  assert (E : skip_space (svg_text g w offs) = svg_text g w offs) by reflexivity. rewrite E. clear E.
  generalize dependent (length (svg_text g w offs)). intros n HL.
  assert (E : xml_element (S n) (svg_text g w offs) = Some (svg_elem g w offs, [])).
  { unfold svg_text. apply xml_node with (k := 8%nat).
    - now split.
    - now apply svg_attrs_good.
    - discriminate.
    - unfold svg_attrs, ns_attrs. destruct (svg_xmlns g); reflexivity.
    - constructor; [now apply rect_readable|]. clear - Hf. induction offs; [constructor|]. constructor; [now apply rect_readable | assumption].
    - unfold svg_attrs, ns_attrs. destruct (svg_xmlns g); cbn [length app]; lia.
    - cbn [length]. rewrite map_length. lia. }
  rewrite E. reflexivity.
Qed.
Definition svg_drawing (g : SVG) (w : N) (offs : list N) : drawing :=
  mkDrawing (0, 0, w, svg_height g) (svg_xmlns g)
    (mkRectangle 0 0 w (svg_height g) (paint_of (svg_background g)) ::
     map (fun o => mkRectangle o 0 (svg_xdim g) (svg_height g) (paint_of (svg_foreground g))) offs).
Lemma digits_no_space n : Forall (fun c => c <> 32) (fmt_dec n).
Proof. eapply Forall_impl; [|apply fmt_dec_digits]. unfold digit_char. intros c Hc E. subst c. lia. Qed.
Lemma read_view_box w h : read_all read_dec (split_on 32 (lit "0 0 " ++ fmt_dec w ++ lit " " ++ fmt_dec h)) = Some [0; 0; w; h].
Proof.
  change (lit "0 0 " ++ fmt_dec w ++ lit " " ++ fmt_dec h) with ([48] ++ 32 :: [48] ++ 32 :: fmt_dec w ++ 32 :: fmt_dec h).
  rewrite !split_on_app; try (repeat constructor; discriminate); [|apply digits_no_space].
  rewrite split_on_none by apply digits_no_space. cbn [read_all]. rewrite !read_fmt_dec. reflexivity.
Qed.
Lemma svg_elem_read g w offs : byte_color (svg_foreground g) -> byte_color (svg_background g) ->
  read_drawing (svg_elem g w offs) = Some (svg_drawing g w offs).
Proof.
  intros Hf Hb. unfold svg_elem, read_drawing.
  assert (ER : read_all read_rect (rect_elem (svg_background g) 0 w (svg_height g) ::
     map (fun o => rect_elem (svg_foreground g) o (svg_xdim g) (svg_height g)) offs) =
     Some (d_rects (svg_drawing g w offs))).
  { cbn [read_all]. rewrite rect_read by assumption.
    rewrite (read_all_map _ _ (fun o => mkRectangle o 0 (svg_xdim g) (svg_height g) (paint_of (svg_foreground g))))
      by (intros; now apply rect_read). reflexivity. }
  rewrite ER. unfold svg_attrs, ns_attrs, svg_drawing. cbn [d_rects].
  pose proof (read_view_box w (svg_height g)) as EV.
  destruct (svg_xmlns g) as [u|].
  - cbn [app map fst]. match goal with |- context [subset ?a ?b] => change (subset a b) with true end.
    match goal with |- context [get (lit "version") ?a] => change (get (lit "version") a) with (Some (lit "1.1")) end.
    match goal with |- context [get (lit "viewBox") ?a] => change (get (lit "viewBox") a) with (Some (lit "0 0 " ++ fmt_dec w ++ lit " " ++ fmt_dec (svg_height g))) end.
    match goal with |- context [get (lit "xmlns") ?a] => change (get (lit "xmlns") a) with (Some u) end.
    match goal with |- context [if ?x then _ else _] => change x with true end. cbv iota.
    cbn [obind]. rewrite EV. reflexivity.
  - cbn [app map fst]. match goal with |- context [subset ?a ?b] => change (subset a b) with true end.
    match goal with |- context [get (lit "version") ?a] => change (get (lit "version") a) with (Some (lit "1.1")) end.
    match goal with |- context [get (lit "viewBox") ?a] => change (get (lit "viewBox") a) with (Some (lit "0 0 " ++ fmt_dec w ++ lit " " ++ fmt_dec (svg_height g))) end.
    match goal with |- context [get (lit "xmlns") ?a] => change (get (lit "xmlns") a) with (@None str) end.
    match goal with |- context [if ?x then _ else _] => change x with true end. cbv iota.
    cbn [obind]. rewrite EV. reflexivity.
Qed.
Lemma svg_text_read g w offs : byte_color (svg_foreground g) -> byte_color (svg_background g) -> plain_ns (svg_xmlns g) ->
  read_svg (svg_text g w offs) = Some (svg_drawing g w offs).
Proof. intros Hf Hb Hn. unfold read_svg. rewrite svg_text_read_xml by assumption. now apply svg_elem_read. Qed.
