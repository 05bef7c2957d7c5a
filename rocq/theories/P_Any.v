(** * Proofs: a reader that tries every symbology in both directions *)
From Verif Require Import Rust M_Error M_Helpers M_Parse M_Ean13 M_Ean8 M_Upca M_EanSupp M_Code39 M_Code93 M_Code11
  M_Codabar M_Code128 M_Tf Symbology M_Use S_Barcode S_Ean S_Text S_Linear S_Codabar S_Tf S_Code128 S_All S_Any
  P_Rust P_Barcode P_Parse P_Gs1 P_Ean P_Retail P_Retail2 P_Retail3 P_Supp P_Codabar P_Code128 P_Code128b P_Tf P_All P_Apart P_Damage P_Cell P_Cut P_Reprint.
Local Open Scope nat_scope.

(** What the last elements of printed symbols look like from behind *)
Definition end_of (y : symbology) (e : list nat) (n a c : nat) : Prop :=
  match y with
  | SEan13 | SUpca => starts [1;1;1] e /\ n = 59
  | SEan8 => starts [1;1;1] e /\ n = 43 /\ c = 1
  | SSupp => (exists x1 x2 x3 x4, starts [x1;x2;x3;x4] e /\ x1 + x2 + x3 + x4 = 7) /\ (n = 13 \/ n = 31) /\ a = 1 /\ c = 2
  | SCode39 | SCode39Checked => starts [1;1;2;1] e /\ n mod 10 = 9
  | SCode93 => starts [1;1;4] e
  | SCode11 => starts [1;2;2] e
  | SCodabar => exists l, In l (map (@rev nat) cod_starts) /\ starts l e
  | SCode128 => starts [2;1;1;1] e
  | SItf => exists x, x <> 2 /\ starts [1;1;2;x] e /\ n mod 10 = 7
  | SStf => starts [2;1;1;1] e
  end.
(** What a reader asks of a symbol *)
Definition front_of (y : symbology) (e : list nat) (n a c : nat) : Prop :=
  sig_of y e n c /\
  match y with
  | SCode128 => (exists l, In l [[2;1;1;4;1;2]; [2;1;1;2;1;4]; [2;1;1;2;3;2]] /\ starts l e) /\ a = 2
  | SStf => a <> 1
  | _ => True
  end.
Lemma front_end y y' e n a c : end_of y e n a c -> front_of y' e n a c -> same_kind y y'.
Proof.
  unfold end_of, front_of, sig_of, starts, cod_starts. intros H [H' H''].
  destruct y, y'; cbn [same_kind]; try exact I; try reflexivity; exfalso; cbn [map rev app] in *;
    repeat match goal with
    | H : _ /\ _ |- _ => destruct H
    | H : exists _, _ |- _ => destruct H
    | H : In _ _ |- _ => destruct H
    | H : False |- _ => contradiction
    | H : _ \/ _ |- _ => destruct H
    end; subst; cbn [app] in *; try discriminate;
    repeat match goal with
    | H : _ :: _ = _ :: _ |- _ => injection H; clear H; intros; subst
    end;
    try discriminate; try congruence; try lia.
Qed.

Lemma rev_start (l t ws : list nat) : ws = t ++ l -> starts (rev l) (rev ws).
Proof. intros ->. exists (rev t). apply rev_app_distr. Qed.
Lemma gapped_end (ws : list nat) cs z : ws ++ [1] = concat (map (fun c => c ++ [1]) (cs ++ [z])) -> exists t, ws = t ++ z.
Proof.
  rewrite map_app, concat_app. cbn [map concat]. rewrite app_nil_r, app_assoc. intros H. apply app_inj_tail in H. destruct H as [-> _].
  eexists. reflexivity.
Qed.
Lemma nth_rev_rev k (ws : list nat) : nth k (rev (rev ws)) 0 = nth k ws 0.
Proof. now rewrite rev_involutive. Qed.

Lemma halves_end n ws l r : read_halves n ws = Some (l, r) -> starts [1;1;1] (rev ws) /\ nth 2 ws 0 = 1.
Proof.
  intros H. apply halves_form in H. destruct H as (lb & rb & -> & _). split; [|reflexivity].
  rewrite !app_assoc, rev_app_distr. eexists. reflexivity.
Qed.
Lemma supp_end ws r : read_as SSupp ws = Some r -> end_of SSupp (rev ws) (length ws) (nth 0 ws 0) (nth 2 ws 0).
Proof.
  intros H. pose proof (supp_sig ws r H) as (? & ? & ? & ? & _ & HN & _). apply supp_form in H. destruct H as (l & HB & HL & _).
  apply addon_cells in HB; [|intros ->; destruct HL; discriminate]. destruct HB as (c & cs & -> & HR).
  apply read_AB_all in HR. destruct HR as [HF HC]. cbn [end_of]. split; [|split; [assumption|split; reflexivity]].
  assert (G : exists t z, [1;1;2] ++ c ++ concat (map (fun c => 1 :: 1 :: c) cs) = t ++ z /\ length z = 4 /\ list_sum z = 7).
  { destruct (exists_last (l := c :: cs)) as (u & z & E); [discriminate|]. assert (Z : length z = 4 /\ list_sum z = 7).
    { rewrite E in HF. apply Forall_app in HF. destruct HF as [_ HF]. now apply Forall_inv in HF. }
    destruct u as [|c' u]; cbn [app] in E; injection E as -> ->.
    - exists [1;1;2], z. cbn [map concat]. now rewrite app_nil_r.
    - rewrite map_app, concat_app. cbn [map concat]. rewrite app_nil_r.
      exists ([1;1;2] ++ c' ++ concat (map (fun c => 1 :: 1 :: c) u) ++ [1;1]), z. split; [|exact Z]. rewrite <- !app_assoc. reflexivity. }
  destruct G as (t & z & -> & Z4 & Z7). destruct z as [|z1 [|z2 [|z3 [|z4 [|? ?]]]]]; try discriminate.
  exists z4, z3, z2, z1. split; [exact (rev_start [z1;z2;z3;z4] t _ eq_refl)|]. cbn in Z7. lia.
Qed.
Lemma itf_end ds : Forall is_digit ds -> let ws := itf_symbol 3 2 ds in end_of SItf (rev ws) (length ws) (nth 0 ws 0) (nth 2 ws 0).
Proof.
  intros HD ws. cbn [end_of]. assert (HX : Forall (fun x => x = 1 \/ x = 3) ([1;1;1;1] ++ concat (map (itf_pair 3) (pairs ds)))).
  { apply Forall_app. split; [repeat constructor; lia|]. apply Forall_concat, Forall_map. apply Forall_forall. intros [a b] _. unfold itf_pair.
    assert (HS : forall l, Forall (fun x => x = 1 \/ x = 3) (stretch 3 l)).
    { intros l. unfold stretch. apply Forall_map, Forall_forall. intros x _. destruct (Nat.eqb x 1); lia. }
    generalize (HS (tf_digit (snd (a, b)))), (HS (tf_digit (fst (a, b)))). generalize (stretch 3 (tf_digit (snd (a, b)))) as v, (stretch 3 (tf_digit (fst (a, b)))) as u.
    intros v u HV HU. revert v HV. induction HU as [|x u Hx _ IH]; intros [|z v] HV; cbn [weave]; try constructor.
    - exact Hx.
    - inversion HV; subst. constructor; [assumption | now apply IH]. }
  assert (HN : length ws mod 10 = 7).
  { unfold ws, itf_symbol. rewrite !app_length. cbn [length].
    rewrite (concat_length_const 10).
    - rewrite map_length. replace (4 + (10 * length (pairs ds) + 3)) with (7 + length (pairs ds) * 10) by lia. now rewrite Nat.mod_add.
    - apply pairs_Forall in HD. apply Forall_map. revert HD. apply Forall_impl. intros [a b] [Ha Hb]. now destruct (itf_pair_facts 3 a b Ha Hb). }
  destruct (exists_last (l := [1;1;1;1] ++ concat (map (itf_pair 3) (pairs ds)))) as (t & x & E); [discriminate|].
  exists x. split; [|split; [|exact HN]].
  - rewrite E in HX. apply Forall_app in HX. destruct HX as [_ HX]. apply Forall_inv in HX. lia.
  - apply (rev_start [x;2;1;1] t). unfold ws, itf_symbol. rewrite app_assoc, E, <- app_assoc. reflexivity.
Qed.

(** ** Printed symbols *)
Lemma read_end y ws r : y <> SItf -> y <> SCodabar -> y <> SCode128 -> read_as y ws = Some r -> (y = SStf -> nth 0 (rev ws) 0 = 2 /\ nth 4 (rev ws) 0 = 2) ->
  end_of y (rev ws) (length ws) (nth 0 ws 0) (nth 2 ws 0).
Proof.
  intros N1 N2 N3 H H2. pose proof (read_sig y ws r H) as HS. specialize (HS ltac:(congruence)).
  destruct y; try congruence; try (now apply (supp_end ws r)); cbn [read_as] in H; apply option_map_Some in H; destruct H as (l & H & _).
  - apply obind_Some in H. destruct H as [[? ?] [H _]]. apply halves_end in H. destruct HS as [_ HS]. split; tauto.
  - apply obind_Some in H. destruct H as [[? ?] [H _]]. apply halves_end in H. destruct HS as (_ & HS & _). split; tauto.
  - apply obind_Some in H. destruct H as [[? ?] [H _]]. apply halves_end in H. destruct HS as [_ HS]. split; tauto.
  - apply c39_form in H. destruct H as (mid & E & L & _). apply (gapped_end ws (c39_star :: mid) c39_star) in E. destruct E as [t E]. split.
    + apply rev_start in E. change (rev c39_star) with ([1;1;2;1] ++ [2;1;1;2;1]) in E. exact (starts_shorter _ _ _ E).
    + replace (length ws) with (9 + (1 + length mid) * 10) by lia. now rewrite Nat.mod_add.
  - apply c39_form in H. destruct H as (mid & E & L & _). apply (gapped_end ws (c39_star :: mid) c39_star) in E. destruct E as [t E]. split.
    + apply rev_start in E. change (rev c39_star) with ([1;1;2;1] ++ [2;1;1;2;1]) in E. exact (starts_shorter _ _ _ E).
    + replace (length ws) with (9 + (1 + length mid) * 10) by lia. now rewrite Nat.mod_add.
  - apply c93_form' in H. destruct H as (mid & -> & _). cbn [concat]. rewrite concat_app. cbn [concat]. rewrite app_nil_r, !rev_app_distr. eexists. reflexivity.
  - apply c11_form in H. destruct H as (mid & raw & E & _). apply (gapped_end ws (c11_guard :: mid) c11_guard) in E. destruct E as [t E].
    apply rev_start in E. change (rev c11_guard) with ([1;2;2] ++ [1;1]) in E. exact (starts_shorter _ _ _ E).
  - apply stf_form in H. destruct H as (a & bs & z & -> & _ & Hz & _). destruct (H2 eq_refl) as [E0 E4]. rewrite !rev_app_distr in *.
    destruct z as [|z1 [|z2 [|z3 [|z4 [|z5 [|? ?]]]]]]; try discriminate. cbn [rev app nth] in *. subst.
    rewrite !squash_cons in Hz. injection Hz as ? ? ?. rewrite (narrow z2), (narrow z3), (narrow z4) by assumption. eexists. reflexivity.
Qed.
Lemma print_end y p s m : (str_len s < 2 ^ 48)%N -> (y = SCodabar -> cod_framed s) -> barcode y p s = Ret (Ok m) ->
  exists ws, m = render ws ++ tail y /\ drawn y ws /\ end_of y (rev ws) (length ws) (nth 0 ws 0) (nth 2 ws 0).
Proof.
  intros Hs HF H. destruct (shape_scan y m (barcode_shape y p s m Hs H)) as (ws & HW & Em & HD). exists ws. split; [assumption|]. split; [assumption|].
  pose proof (barcode_meant y p s m Hs H) as HM. unfold read_modules in HM. rewrite HW in HM. cbn [obind] in HM.
  destruct y; cbn [meant] in HM;
    try (eapply read_end; [discriminate | discriminate | discriminate | exact HM | discriminate]);
    try (destruct HM as (c & _ & HM); eapply read_end; [discriminate | discriminate | discriminate | exact HM | discriminate]).
  - specialize (HF eq_refl). cbn [barcode] in H. apply run_Ok in H. destruct H as [b [HN HE]].
    pose proof (codabar_encode_lib p s b HN) as E. rewrite HE in E. injection E as ->.
    apply codabar_new_Ok in HN. destruct HN as [HC [Hn _]]. rewrite lib_symbol_scan in HW by assumption. injection HW as <-.
    destruct HF as (a & mid & z & -> & _ & Hz & _). cbn [end_of]. exists (rev (lib_pattern z)). split; [now apply in_map, lib_stop_shape|].
    cbn [sep_symbol]. rewrite map_app, concat_app. cbn [map concat]. rewrite app_nil_r.
    match goal with |- starts _ (rev (?x ++ ?u ++ _)) => apply (rev_start _ (x ++ u ++ [1])) end. rewrite <- !app_assoc. reflexivity.
  - cbn [barcode] in H. apply run_Ret in H. destruct H as [b [HN HE]].
    destruct (code128_new_Ok s b HN) as [segs [HS [_ ->]]].
    destruct (encode_returns_form p _ m (message_units_idx _ HS) HE) as [chk [HC ->]].
    rewrite message_units_values in HW.
    assert (HL : Forall (fun v => (v < 106)%N) (message_values segs ++ [chk])).
    { apply Forall_snoc; [now apply message_values_lt | assumption]. }
    rewrite scan_render in HW; [injection HW as <-| |now apply symbol_with_odd].
    + cbn [end_of]. unfold symbol_with. pose proof (rev_start c128_stop _ _ eq_refl : starts _ (rev (concat (map c128_pattern (message_values segs ++ [chk])) ++ c128_stop))) as R.
      change (rev c128_stop) with ([2;1;1;1] ++ [3;3;2]) in R. exact (starts_shorter _ _ _ R).
    + pose proof (symbol_with_widths (message_values segs) chk HL) as W. revert W. apply Forall_impl. lia.
  - cbn [barcode] in H. apply run_Ok in H. destruct H as [b [HN HE]]. destruct (itf_accepted p s b HN) as [ds [HDs [_ [_ [E _]]]]].
    rewrite HE in E. injection E as ->. rewrite itf_scan in HW by assumption. injection HW as <-. now apply itf_end.
  - eapply read_end; [discriminate | discriminate | discriminate | exact HM |]. intros _.
    cbn [barcode] in H. apply run_Ok in H. destruct H as [b [HN HE]]. destruct (stf_accepted s b HN) as [m' [E [E' _]]]. rewrite HE in E. injection E as <-.
    apply tf_standard_Ok in HN. destruct HN as [HDs _]. apply digits_of_digits in HDs. rewrite E', stf_scan in HW by assumption. injection HW as <-.
    unfold stf_symbol. rewrite !rev_app_distr. split; reflexivity.
Qed.

(** ** Reversed *)
Lemma read_front y ws r : read_as y ws = Some r -> (y = SCodabar -> exists t, r = Text t /\ cod_framed t) ->
  front_of y ws (length ws) (nth 0 (rev ws) 0) (nth 2 (rev ws) 0).
Proof.
  intros H HF. split; [exact (read_sig y ws r H HF)|]. destruct y; try exact I; cbn [read_as] in H; apply option_map_Some in H; destruct H as (l & H & _).
  - apply c128_inv in H. destruct H as (k & vs & _ & -> & _). rewrite c128_symbol_with. unfold symbol_with. split.
    + cbn [app map concat]. exists (c128_pattern (start_value k)). split; [destruct k; vm_compute; tauto|]. rewrite <- app_assoc. eexists. reflexivity.
    + rewrite rev_app_distr. reflexivity.
  - apply stf_form in H. destruct H as (a & bs & z & -> & _ & Hz & _). rewrite !rev_app_distr.
    destruct z as [|z1 [|z2 [|z3 [|z4 [|z5 [|? ?]]]]]]; try discriminate. cbn [rev app nth].
    rewrite !squash_cons in Hz. injection Hz as ? ? ? ? H5. apply wide in H5. lia.
Qed.
Lemma scan_rev y m ws : m = render ws ++ tail y -> drawn y ws -> scan (rev m) = Some (rev ws).
Proof.
  intros -> HD. destruct (tail_repeat y) as [k ->]. rewrite rev_app_distr, render_rev by apply HD.
  assert (E : rev (repeat 0%N k) = repeat 0%N k) by apply rev_repeat. rewrite E. pose proof (scan_render_quiet (rev ws) k 0) as Q. cbn [repeat] in Q.
  rewrite app_nil_r in Q. apply Q; [apply Forall_rev; now apply (shape_pos y) | rewrite rev_length; apply HD].
Qed.
Lemma nothing_backwards y y' p s m r : (str_len s < 2 ^ 48)%N -> (y = SCodabar -> cod_framed s) ->
  barcode y p s = Ret (Ok m) -> (y' = SCodabar -> exists t, r = Text t /\ cod_framed t) -> read_modules y' (rev m) <> Some r.
Proof.
  intros Hs HF H HF' HR. destruct (print_end y p s m Hs HF H) as (ws & Em & HD & HE).
  assert (HK : same_kind y y').
  { unfold read_modules in HR. rewrite (scan_rev y m ws Em HD) in HR. cbn [obind] in HR.
    pose proof (read_front y' (rev ws) r HR HF') as G. rewrite rev_length, !nth_rev_rev in G. exact (front_end _ _ _ _ _ _ HE G). }
  assert (DY : directed y s) by (destruct y; cbn [directed]; auto).
  pose proof (barcode_mirror y p s m Hs DY H) as M.
  assert (K : y = y' \/ (y = SEan13 /\ y' = SUpca) \/ (y = SUpca /\ y' = SEan13) \/
    (y = SCode39 /\ y' = SCode39Checked) \/ (y = SCode39Checked /\ y' = SCode39)) by (destruct y, y'; cbn [same_kind] in HK; intuition discriminate).
  destruct K as [<-|[[-> ->]|[[-> ->]|[[-> ->]|[-> ->]]]]].
  - congruence.
  - unfold read_modules in M, HR. rewrite (scan_rev SEan13 m ws Em HD) in M, HR. cbn [obind read_as] in M, HR.
    apply option_map_Some in HR. destruct HR as (ds & HR & _). apply upca_is_ean13 in HR. rewrite HR in M. discriminate.
  - unfold read_modules in HR. rewrite (scan_rev SUpca m ws Em HD) in HR. cbn [obind read_as] in HR. apply option_map_Some in HR. destruct HR as (ds & HR & _).
    pose proof (barcode_meant SUpca p s m Hs H) as HM. destruct HM as (c & _ & HM). unfold read_modules in HM.
    destruct (shape_scan SUpca m (barcode_shape SUpca p s m Hs H)) as (ws' & HW & Em' & HD'). rewrite HW in HM. cbn [obind read_as] in HM.
    assert (ws' = ws). { apply (f_equal scan) in Em. rewrite HW in Em. destruct (tail_repeat SUpca) as [k E]. rewrite E, scan_render_tail in Em; [congruence | now apply (shape_pos SUpca) | apply HD]. }
    subst ws'. apply option_map_Some in HM. destruct HM as (l & HM & _). apply upca_is_ean13, ean13_inv in HM. destruct HM as (-> & L & D & _).
    rewrite ean13_mirror in HR by assumption. discriminate.
  - unfold read_modules in M, HR. destruct (scan (rev m)); [|discriminate]. cbn [obind read_as] in *. congruence.
  - unfold read_modules in M, HR. destruct (scan (rev m)); [|discriminate]. cbn [obind read_as] in *. congruence.
Qed.
Lemma found_once y y' p s m r : (str_len s < 2 ^ 48)%N -> (y = SCodabar -> cod_framed s) -> barcode y p s = Ret (Ok m) -> found y' r m ->
  same_kind y y' /\ read_modules y' m = Some r /\ exists r0, read_modules y m = Some r0 /\ same_item r r0.
Proof.
  intros Hs HF H [[HR|HR] HF']; [|now destruct (nothing_backwards y y' p s m r Hs HF H HF' HR)].
  pose proof (symbols_apart y y' p s m r Hs HF H HR HF') as HK. split; [exact HK|]. split; [exact HR|].
  assert (K : y = y' \/ (y = SEan13 /\ y' = SUpca) \/ (y = SUpca /\ y' = SEan13) \/
    (y = SCode39 /\ y' = SCode39Checked) \/ (y = SCode39Checked /\ y' = SCode39)) by (destruct y, y'; cbn [same_kind] in HK; intuition discriminate).
  destruct K as [<-|[[-> ->]|[[-> ->]|[[-> ->]|[-> ->]]]]].
  - exists r. split; [exact HR | now left].
  - unfold read_modules in *. destruct (scan m) as [ws|]; [|discriminate]. cbn [obind read_as] in *. apply option_map_Some in HR. destruct HR as (ds & HR & ->).
    apply upca_is_ean13 in HR. rewrite HR. eexists. split; [reflexivity|]. right. exists ds. left. split; reflexivity.
  - pose proof (barcode_meant SUpca p s m Hs H) as HM. destruct HM as (c & _ & HM). rewrite HM. eexists. split; [reflexivity|].
    unfold read_modules in *. destruct (scan m) as [ws|]; [|discriminate]. cbn [obind read_as] in *. apply option_map_Some in HR. destruct HR as (ds & HR & ->).
    apply option_map_Some in HM. destruct HM as (l & HM & El). apply upca_is_ean13 in HM. rewrite HM in HR. injection HR as <-. rewrite El.
    right. exists l. right. split; reflexivity.
  - exists r. split; [exact HR | now left].
  - exists r. split; [exact HR | now left].
Qed.
