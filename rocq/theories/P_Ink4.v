(** * Proofs: ink added or lost all over a symbol, by symbology *)
From Verif Require Import Rust M_Error Symbology M_Tf M_Use S_Barcode S_Ean S_Text S_Linear S_Codabar S_Tf S_Code128 S_All S_Damage S_Ink
  P_Rust P_Barcode P_Tf P_All P_Apart P_Damage P_Cell P_Cut P_Wrong P_Part P_Line P_Stretch P_Ink P_Ink2 P_Ink3.
Local Open Scope nat_scope.

Lemma Forall_removelast {A} (P : A -> Prop) l : Forall P l -> Forall P (removelast l).
Proof. intros H. destruct l as [|x l _] using rev_ind; [constructor|]. rewrite removelast_last. now apply Forall_app in H. Qed.
Lemma scan_pos m ws : scan m = Some ws -> Forall (fun w => 1 <= w) ws.
Proof.
  intros HS. pose proof (bits_of m ws HS) as HB. destruct (runs_form m HB) as (c & F & Hc & HF & ->). destruct (scan_core c F ws Hc HF HS) as [-> _].
  assert (G : Forall (fun w => 1 <= w) (inner c F)) by (unfold inner; destruct (c =? 0)%N; [destruct HF; [constructor | assumption] | assumption]).
  unfold core. destruct (Nat.even (length (inner c F))); [now apply Forall_removelast | assumption].
Qed.
Lemma tail_same a b k n : a ++ 1%N :: repeat 0%N k = b ++ 1%N :: repeat 0%N n -> a = b /\ k = n.
Proof.
  revert n. induction k as [|k IH]; intros [|n] E.
  - cbn [repeat] in E. apply app_inj_tail in E. now destruct E.
  - exfalso. cbn [repeat] in E. rewrite repeat_cons in E. change (b ++ 1%N :: repeat 0%N n ++ [0%N]) with (b ++ (1%N :: repeat 0%N n) ++ [0%N]) in E. rewrite app_assoc in E. apply app_inj_tail in E. now destruct E.
  - exfalso. cbn [repeat] in E. rewrite repeat_cons in E. change (a ++ 1%N :: repeat 0%N k ++ [0%N]) with (a ++ (1%N :: repeat 0%N k) ++ [0%N]) in E. rewrite app_assoc in E. apply app_inj_tail in E. now destruct E.
  - cbn [repeat] in E. rewrite !repeat_cons in E. change (a ++ 1%N :: repeat 0%N k ++ [0%N]) with (a ++ (1%N :: repeat 0%N k) ++ [0%N]) in E. change (b ++ 1%N :: repeat 0%N n ++ [0%N]) with (b ++ (1%N :: repeat 0%N n) ++ [0%N]) in E.
    rewrite !app_assoc in E. apply app_inj_tail in E. destruct E as [E _]. destruct (IH n E) as [-> ->]. now split.
Qed.
Lemma starts_one z zs v : scan z = Some zs -> z = 1%N :: v -> exists k, z = render zs ++ repeat 0%N k.
Proof. intros HS E. destruct (scan_form z zs HS) as (j & k & Ez). exists k. destruct j as [|j]; [exact Ez|]. rewrite E in Ez. discriminate. Qed.
Lemma inked_shape ws n z zs : Nat.even (length ws) = false -> Forall (fun w => 1 <= w) ws -> inked (render ws ++ repeat 0%N n) z -> scan z = Some zs ->
  exists k, k <= n /\ z = render zs ++ repeat 0%N k.
Proof.
  intros HO HP HI HS. destruct (render_ends ws HO HP) as [[t Et] [u Eu]].
  assert (H1 : exists v, z = 1%N :: v).
  { rewrite Et in HI. cbn [app] in HI. inversion HI as [|? b ? v Hb _]; subst. destruct Hb as [<-|[Hb _]]; [now exists v | discriminate]. }
  destruct H1 as [v Ev]. destruct (starts_one z zs v HS Ev) as [k Ez]. exists k. split; [|assumption].
  rewrite Eu, <- app_assoc in HI. apply Forall2_app_inv_l in HI. destruct HI as (x & y & _ & Hy & E). cbn [app] in Hy. inversion Hy as [|? b ? y' Hb Hy']; subst y.
  assert (b = 1%N) by (destruct Hb as [<-|[Hb _]]; [reflexivity | discriminate]). subst b. apply inked_length in Hy'. rewrite repeat_length in Hy'.
  destruct (Nat.le_gt_cases k n) as [|HK]; [assumption|]. exfalso. rewrite Ez in E.
  assert (L : length (render zs) + k = length x + S n) by (apply (f_equal (@length _)) in E; rewrite !app_length, repeat_length in E; cbn [length] in E; lia).
  assert (N1 : nth_error (x ++ 1%N :: y') (length x) = Some 1%N) by (rewrite nth_error_app2, Nat.sub_diag by lia; reflexivity).
  rewrite <- E, nth_error_app2 in N1 by lia. apply nth_error_In, repeat_spec in N1. discriminate.
Qed.
Lemma faded_shape ws n z zs : Nat.even (length ws) = false -> Forall (fun w => 1 <= w) ws -> faded (render ws ++ repeat 0%N n) z -> scan z = Some zs ->
  z = render zs ++ repeat 0%N n /\ inked (render zs) (render ws).
Proof.
  intros HO HP (HI & u & v & n' & Em & Ez) HS. destruct (render_ends ws HO HP) as [_ [t Et]]. rewrite Et, <- app_assoc in Em. cbn [app] in Em.
  rewrite (app_comm_cons u) in Em. apply tail_same in Em. destruct Em as [_ <-].
  destruct (starts_one z zs _ HS Ez) as [k Ek]. destruct (render_ends zs (scan_odd _ _ HS) (scan_pos _ _ HS)) as [_ [t' Et']].
  assert (k = n) by (rewrite Ek, Et', <- app_assoc in Ez; cbn [app] in Ez; rewrite (app_comm_cons v) in Ez; apply tail_same in Ez; tauto). subst k. split; [assumption|].
  rewrite Ek in HI. apply Forall2_app_inv_l in HI. destruct HI as (x & y & Hx & Hy & E). apply inked_length in Hy. rewrite repeat_length in Hy.
  assert (L : length (render ws) = length x) by (apply (f_equal (@length _)) in E; rewrite !app_length, repeat_length in E; lia).
  apply (split_same _ _ _ _ L) in E. destruct E as [<- _]. assumption.
Qed.

Lemma read_inv y z r : read_modules y z = Some r -> exists zs, scan z = Some zs /\ read_as y zs = Some r.
Proof. intros H. apply obind_Some in H. exact H. Qed.
Lemma tail_none y : y <> SStf -> tail y = repeat 0%N 0.
Proof. destruct y; intros H; try reflexivity. congruence. Qed.
Lemma printed_elements y p s m : (str_len s < 2 ^ 48)%N -> barcode y p s = Ret (Ok m) -> exists ws, scan m = Some ws /\ m = render ws ++ tail y /\ Nat.even (length ws) = false /\ Forall (fun w => 1 <= w) ws.
Proof.
  intros Hs H. destruct (shape_scan y m (barcode_shape y p s m Hs H)) as (ws & S & E & D). exists ws. split; [assumption|]. split; [assumption|]. split; [apply D | now apply (shape_pos y)].
Qed.
Lemma itf_printed p s m : barcode SItf p s = Ret (Ok m) -> exists ws, scan m = Some ws /\ exists data, ws = [1;1;1;1] ++ data ++ [2;1;1] /\ Forall (fun w => w = 1 \/ w = 3) data.
Proof.
  intros H. cbn [barcode] in H. apply run_Ok in H. destruct H as [b [HN HE]]. destruct (itf_printed_ratio p s b HN) as (m' & data & E & S & F). rewrite E in HE. injection HE as <-. eauto.
Qed.

Definition two_of_five (y : symbology) : bool := match y with SItf | SStf => true | _ => false end.
Lemma tf_added y p s m z r : two_of_five y = true -> (str_len s < 2 ^ 48)%N -> barcode y p s = Ret (Ok m) -> read_modules y m = Some r -> inked m z ->
  read_modules y z = None \/ read_modules y z = Some r.
Proof.
  intros HY Hs H HR HI. destruct (read_modules y z) as [r'|] eqn:HZ; [|now left]. right.
  assert (G : z = m \/ one_wrong m z).
  { destruct (printed_elements y p s m Hs H) as (ws & S & E & HO & HP). destruct (read_inv _ _ _ HR) as (ws0 & S0 & R0). assert (ws0 = ws) by congruence. subst ws0.
    destruct (read_inv _ _ _ HZ) as (zs & SZ & RZ). destruct y; try discriminate HY.
    - cbn [tail] in E. rewrite app_nil_r in E. destruct (itf_printed p s m H) as (ws1 & S1 & D). assert (ws1 = ws) by congruence. subst ws1.
      cbn [read_as] in R0, RZ. apply option_map_Some in R0, RZ. destruct R0 as (l & R0 & _), RZ as (l' & RZ & _).
      rewrite E in HI. destruct (inked_shape ws 0 z zs HO HP) as (k & HK & Ez); [cbn [repeat]; now rewrite app_nil_r | assumption|]. assert (k = 0) by lia. subst k. cbn [repeat] in Ez. rewrite app_nil_r in Ez.
      rewrite Ez in HI. destruct (itf_inked ws zs l l' R0 D RZ HI) as [EQ|OW]; [left; congruence | right; now rewrite E, Ez].
    - cbn [tail] in E. cbn [read_as] in R0, RZ. apply option_map_Some in R0, RZ. destruct R0 as (l & R0 & _), RZ as (l' & RZ & _).
      rewrite E in HI. destruct (inked_shape ws 1 z zs HO HP HI SZ) as (k & HK & Ez).
      assert (HX : z = render zs ++ [0%N] \/ z = render zs) by (destruct k as [|[|k]]; [right; cbn [repeat] in Ez; now rewrite app_nil_r in Ez | left; exact Ez | lia]).
      destruct (stf_inked ws zs l l' z R0 RZ HI HX) as [_ [EQ|EQ]]; [left; congruence|]. right. exists (render ws), 0%N, 1%N, []. rewrite E, EQ. repeat split. discriminate. }
  destruct G as [->|G]; [congruence|]. destruct (one_wrong_read y p s m z r Hs H HR ltac:(intros ->; discriminate) G) as [C|[_ C]]; congruence.
Qed.
Lemma tf_lost y p s m z r : two_of_five y = true -> (str_len s < 2 ^ 48)%N -> barcode y p s = Ret (Ok m) -> faded m z -> read_modules y z = Some r -> z = m.
Proof.
  intros HY Hs H HI HZ. pose proof (barcode_meant y p s m Hs H) as HM.
  assert (HR : exists l, read_modules y m = Some (Digits l)) by (destruct y; try discriminate HY; cbn [meant] in HM; [destruct HM as (ds & _ & HM)|]; eauto).
  destruct HR as [l HR]. destruct (printed_elements y p s m Hs H) as (ws & S & E & HO & HP). destruct (read_inv _ _ _ HR) as (ws0 & S0 & R0). assert (ws0 = ws) by congruence. subst ws0.
  destruct (read_inv _ _ _ HZ) as (zs & SZ & RZ). destruct (tail_repeat y) as [n En]. rewrite En in E. rewrite E in HI. destruct (faded_shape ws n z zs HO HP HI SZ) as [Ez HJ].
  rewrite E, Ez. f_equal. destruct y; try discriminate HY; cbn [read_as] in R0, RZ; apply option_map_Some in R0, RZ; destruct R0 as (l0 & R0 & _), RZ as (l' & RZ & _).
  - destruct (itf_printed p s m H) as (ws1 & S1 & D). assert (ws1 = ws) by congruence. subst ws1. now apply (itf_faded ws zs l0 l').
  - now apply (stf_faded ws zs l0 l').
Qed.

Definition code39 (y : symbology) : bool := match y with SCode39 | SCode39Checked => true | _ => false end.
Lemma light_In (c : char) : existsb (N.eqb c) light_chars = true -> In c light_chars.
Proof. intros H. apply existsb_exists in H. destruct H as (d & Hd & E). apply N.eqb_eq in E. now subst d. Qed.
Lemma c39_inv y z t : code39 y = true -> read_modules y z = Some (Text t) -> exists zs, scan z = Some zs /\ read_c39 zs = Some t.
Proof.
  intros HY H. destruct (read_inv _ _ _ H) as (zs & S & R). exists zs. split; [assumption|].
  destruct y; try discriminate HY; cbn [read_as] in R; apply option_map_Some in R; destruct R as (l & R & E); injection E as <-; assumption.
Qed.
Lemma c39_added y p s m z t t' : code39 y = true -> (str_len s < 2 ^ 48)%N -> barcode y p s = Ret (Ok m) -> read_modules y m = Some (Text t) -> inked m z -> read_modules y z = Some (Text t') ->
  Forall2 (fun c d => c = d \/ In c light_chars) t t'.
Proof.
  intros HY Hs H HR HI HZ. destruct (printed_elements y p s m Hs H) as (ws & S & E & HO & HP). destruct (c39_inv y m t HY HR) as (ws0 & S0 & R0). assert (ws0 = ws) by congruence. subst ws0.
  destruct (c39_inv y z t' HY HZ) as (zs & SZ & RZ). rewrite tail_none in E by (intros ->; discriminate). rewrite E in HI. destruct (inked_shape ws 0 z zs HO HP HI SZ) as (k & HK & Ez). assert (k = 0) by lia. subst k.
  cbn [repeat] in E, Ez, HI. rewrite app_nil_r in E, Ez, HI. rewrite Ez in HI. pose proof (c39_ink more _ ws zs t t' (or_introl eq_refl) c39_more R0 RZ (more_inked _ _ HI)) as G.
  clear - G. induction G as [|c d t t' [->|G] _ IH]; constructor; auto. right. now apply light_In.
Qed.
Lemma c39_lost y p s m z t t' : code39 y = true -> (str_len s < 2 ^ 48)%N -> barcode y p s = Ret (Ok m) -> read_modules y m = Some (Text t) -> faded m z -> read_modules y z = Some (Text t') ->
  Forall2 (fun c d => c = d \/ In d light_chars) t t'.
Proof.
  intros HY Hs H HR HI HZ. destruct (printed_elements y p s m Hs H) as (ws & S & E & HO & HP). destruct (c39_inv y m t HY HR) as (ws0 & S0 & R0). assert (ws0 = ws) by congruence. subst ws0.
  destruct (c39_inv y z t' HY HZ) as (zs & SZ & RZ). rewrite tail_none in E by (intros ->; discriminate). rewrite E in HI. destruct (faded_shape ws 0 z zs HO HP HI SZ) as [_ HJ].
  pose proof (c39_ink less _ ws zs t t' (or_intror eq_refl) c39_less R0 RZ (less_inked _ _ HJ)) as G.
  clear - G. induction G as [|c d t t' [->|G] _ IH]; constructor; auto. right. now apply light_In.
Qed.

Lemma cod_ink p s m z t : (str_len s < 2 ^ 48)%N -> cod_framed s -> barcode SCodabar p s = Ret (Ok m) -> inked m z \/ faded m z -> read_modules SCodabar z = Some (Text t) -> cod_framed t -> z = m.
Proof.
  intros Hs HF H HI HZ HT. destruct (printed_elements SCodabar p s m Hs H) as (ws & S & E & HO & HP). cbn [tail] in E. rewrite app_nil_r in E.
  destruct (cod_printed p s m H HF) as (a & mid & c & ws0 & E0 & G & L & Ha & Hc & Hm).
  assert (ws0 = ws).
  { assert (O0 : Nat.even (length ws0) = false) by exact (proj2 (rg_blocks 7 _ ws0 eq_refl L G)).
    rewrite E0 in S. destruct (scan_form (render ws0) ws S) as (j & k & F).
    assert (P0 : Forall (fun w => 1 <= w) ws0).
    { assert (P1 : Forall (fun w => 1 <= w) (ws0 ++ [1])).
      { rewrite G. assert (T : forallb (forallb (fun w => 1 <=? w)) (cod_starts ++ lib_inner) = true) by (vm_compute; reflexivity).
        assert (Q : forall x, In x (cod_starts ++ lib_inner) -> Forall (fun w => 1 <= w) x) by (intros x Hx; apply Forall_forall; intros w Hw; apply Nat.leb_le; exact (proj1 (forallb_forall _ _) (proj1 (forallb_forall _ _) T x Hx) w Hw)).
        apply Forall_concat, Forall_map. clear T. constructor; [apply Forall_app; split; [apply Q, in_or_app; now left | repeat constructor]|]. apply Forall_app. split.
        - revert Hm. apply Forall_impl. intros x Hx. apply Forall_app; split; [apply Q, in_or_app; now right | repeat constructor].
        - constructor; [apply Forall_app; split; [apply Q, in_or_app; now left | repeat constructor] | constructor]. }
      apply Forall_app in P1. tauto. }
    pose proof (scan_render_tail ws0 0 P0 O0) as S1. cbn [repeat] in S1. rewrite app_nil_r in S1. congruence. }
  subst ws0. destruct (read_inv _ _ _ HZ) as (zs & SZ & RZ). cbn [read_as] in RZ. apply option_map_Some in RZ. destruct RZ as (t0 & RZ & Et). assert (t0 = t) by congruence. subst t0.
  destruct (cod_form zs t RZ HT) as (a' & mid' & c' & G' & L' & Ha' & Hc' & Hm' & _). rewrite E in HI.
  assert (K : exists r, (r = more \/ r = less) /\ z = render zs /\ Forall2 (fun p q => r p q = true) (render ws) (render zs)).
  { destruct HI as [HI|HI].
    - destruct (inked_shape ws 0 z zs HO HP) as (k & HK & Ez); [cbn [repeat]; now rewrite app_nil_r | assumption|]. assert (k = 0) by lia. subst k. cbn [repeat] in Ez. rewrite app_nil_r in Ez.
      exists more. split; [now left|]. split; [assumption|]. rewrite Ez in HI. now apply more_inked.
    - destruct (faded_shape ws 0 z zs HO HP) as [Ez HJ]; [cbn [repeat]; now rewrite app_nil_r | assumption|]. cbn [repeat] in Ez. rewrite app_nil_r in Ez.
      exists less. split; [now right|]. split; [assumption|]. now apply less_inked. }
  destruct K as (r & Hr & Ez & K). rewrite E, Ez. f_equal. symmetry. exact (cod_inked r a mid c a' mid' c' ws zs Hr G L Ha Hc Hm G' L' Ha' Hc' Hm' K).
Qed.

(** ** One symbol over another *)
Lemma over_left a : forall b, Forall bit a -> Forall bit b -> length a = length b -> inked a (over a b) /\ inked b (over a b).
Proof.
  induction a as [|x a IH]; intros [|y b] Ha Hb HL; try discriminate; [split; constructor|]. inversion Ha as [|? ? Bx Ha']; subst. inversion Hb as [|? ? By Hb']; subst. injection HL as HL.
  destruct (IH b Ha' Hb' HL) as [I1 I2]. cbn [over]. split; (constructor; [|assumption]); destruct Bx as [-> | ->], By as [-> | ->]; cbn; auto.
Qed.
Lemma inked_over y p p' s s' m m' : (str_len s < 2 ^ 48)%N -> (str_len s' < 2 ^ 48)%N -> barcode y p s = Ret (Ok m) -> barcode y p' s' = Ret (Ok m') -> length m = length m' ->
  inked m (over m m') /\ inked m' (over m m').
Proof.
  intros Hs Hs' H H' HL. destruct (printed_elements y p s m Hs H) as (ws & S & _). destruct (printed_elements y p' s' m' Hs' H') as (ws' & S' & _).
  apply over_left; [exact (bits_of _ _ S) | exact (bits_of _ _ S') | assumption].
Qed.
