(** * One printed character replaced: the check characters at work *)
From Verif Require Import Rust M_Error M_Use Symbology S_Barcode S_Ean S_Text S_Linear S_Codabar S_Tf S_Code128 S_All S_Check128 S_Cell
  P_Rust P_Barcode P_Gs1 P_Code39 P_Code93 P_Code11 P_All P_Apart P_Damage P_Check128.
Local Open Scope nat_scope.

(** Cutting both symbols into blocks: exactly one block differs. *)
Lemma cell_blocks k b b' v post post' i : forall (bs bs' : list (list nat)) u,
  Forall (fun c => length c = k) bs -> Forall (fun c => length c = k) bs' -> length bs = length bs' ->
  u ++ b ++ v = concat bs ++ post -> u ++ b' ++ v = concat bs' ++ post' ->
  b <> b' -> length b = k -> length b' = k -> length u = k * i -> i < length bs ->
  post = post' /\ exists x y, bs = x ++ b :: y /\ bs' = x ++ b' :: y /\ length x = i.
Proof.
  induction i as [|i IH]; intros bs bs' u HF HF' HL E E' Hb Lb Lb' Lu Hi.
  - destruct u; [|rewrite Nat.mul_0_r in Lu; discriminate]. cbn [app] in E, E'.
    destruct bs as [|c bs]; [cbn in Hi; lia|]. destruct bs' as [|c' bs']; [discriminate|].
    injection HL as HL. cbn [concat] in E, E'. rewrite <- app_assoc in E, E'.
    pose proof (Forall_inv HF) as Lc. pose proof (Forall_inv HF') as Lc'. cbn beta in Lc, Lc'.
    apply split_same in E; [|congruence]. apply split_same in E'; [|congruence].
    destruct E as [-> E]. destruct E' as [-> E']. rewrite E in E'.
    apply Forall_inv_tail in HF, HF'.
    assert (G : concat bs = concat bs' /\ post = post').
    { apply split_same; [|assumption]. now rewrite (concat_length_const k bs), (concat_length_const k bs'), HL. }
    destruct G as [G ->]. split; [reflexivity|]. exists [], bs. split; [reflexivity|]. split; [|reflexivity].
    cbn [app]. f_equal. clear - HF HF' HL G. revert bs' HF' HL G. induction HF as [|c bs Lc HF IH]; intros bs' HF' HL G.
    + destruct bs'; [reflexivity | discriminate].
    + destruct HF' as [|c' bs' Lc' HF']; [discriminate|]. cbn [concat] in G. injection HL as HL.
      apply split_same in G; [|congruence]. destruct G as [-> G]. f_equal. now apply IH.
  - destruct bs as [|c bs]; [cbn in Hi; lia|]. destruct bs' as [|c' bs']; [discriminate|].
    injection HL as HL. cbn [concat] in E, E'. rewrite <- app_assoc in E, E'.
    pose proof (Forall_inv HF) as Lc. pose proof (Forall_inv HF') as Lc'. cbn beta in Lc, Lc'.
    apply Forall_inv_tail in HF, HF'.
    rewrite <- (firstn_skipn k u) in E, E'. rewrite <- app_assoc in E, E'.
    assert (L1 : length (firstn k u) = k) by (rewrite firstn_length; nia).
    apply split_same in E; [|congruence]. apply split_same in E'; [|congruence].
    destruct E as [E1 E]. destruct E' as [E1' E'].
    destruct (IH bs bs' (skipn k u) HF HF' HL E E' Hb Lb Lb') as (HP & x & y & -> & -> & Lx).
    + rewrite skipn_length. nia.
    + cbn [length] in Hi. lia.
    + split; [assumption|]. exists (c :: x), y. split; [reflexivity|]. split; [cbn [app]; congruence|]. cbn [length]. congruence.
Qed.
(** The same after a beginning of equal length *)
Lemma cell_blocks_after k b b' v pre pre' post post' i (bs bs' : list (list nat)) u :
  Forall (fun c => length c = k) bs -> Forall (fun c => length c = k) bs' -> length bs = length bs' ->
  u ++ b ++ v = pre ++ concat bs ++ post -> u ++ b' ++ v = pre' ++ concat bs' ++ post' -> length pre = length pre' ->
  b <> b' -> length b = k -> length b' = k -> length u = length pre + k * i -> i < length bs ->
  pre = pre' /\ post = post' /\ exists x y, bs = x ++ b :: y /\ bs' = x ++ b' :: y /\ length x = i.
Proof.
  intros HF HF' HL E E' LP Hb Lb Lb' Lu Hi.
  rewrite <- (firstn_skipn (length pre) u) in E, E'. rewrite <- app_assoc in E, E'.
  assert (L1 : length (firstn (length pre) u) = length pre) by (rewrite firstn_length; lia).
  apply split_same in E; [|congruence]. apply split_same in E'; [|congruence].
  destruct E as [E1 E]. destruct E' as [E1' E']. split; [congruence|].
  apply (cell_blocks k b b' v post post' i bs bs' (skipn (length pre) u)); try assumption.
  rewrite skipn_length. lia.
Qed.
Lemma read_all_changed {A B} (f : A -> option B) x b b' y r r' :
  read_all f (x ++ b :: y) = Some r -> read_all f (x ++ b' :: y) = Some r' ->
  exists rx c c' ry, r = rx ++ c :: ry /\ r' = rx ++ c' :: ry /\ f b = Some c /\ f b' = Some c' /\ length rx = length x.
Proof.
  intros H H'. apply read_all_app in H, H'. destruct H as (rx & t & H1 & H2 & ->). destruct H' as (rx' & t' & H1' & H2' & ->).
  rewrite H1 in H1'. injection H1' as <-. apply read_all_cons in H2, H2'.
  destruct H2 as (c & ry & E & E2 & ->). destruct H2' as (c' & ry' & E' & E2' & ->).
  rewrite E2 in E2'. injection E2' as <-. exists rx, c, c', ry. pose proof (read_all_length _ _ _ H1). auto.
Qed.

(** ** Retail symbols *)
Lemma read_AB_sound b x : read_AB b = Some x -> nth_error (set_table (fst x)) (N.to_nat (snd x)) = Some b /\ (snd x < 10)%N /\ length b = 4.
Proof.
  unfold read_AB. intros H. destruct (which setA_table b) as [d|] eqn:E.
  - injection H as <-. cbn [fst snd]. rewrite Nat2N.id. apply which_sound in E. split; [exact E|].
    pose proof (nth_error_In _ _ E) as HI. split.
    + assert (d < length setA_table) by (apply nth_error_Some; congruence). change (length setA_table) with 10 in *. lia.
    + cbn in HI. repeat destruct HI as [<-|HI]; try contradiction; reflexivity.
  - destruct (which setB_table b) as [d|] eqn:E2; [|discriminate].
    injection H as <-. cbn [fst snd]. rewrite Nat2N.id. apply which_sound in E2. split; [exact E2|].
    pose proof (nth_error_In _ _ E2) as HI. split.
    + assert (d < length setB_table) by (apply nth_error_Some; congruence). change (length setB_table) with 10 in *. lia.
    + cbn in HI. repeat destruct HI as [<-|HI]; try contradiction; reflexivity.
Qed.
Lemma read_C_sound b x : read_C b = Some x -> nth_error setC_table (N.to_nat x) = Some b /\ (x < 10)%N /\ length b = 4.
Proof.
  unfold read_C. intros H. apply option_map_Some in H. destruct H as (d & E & ->). rewrite Nat2N.id. apply which_sound in E.
  split; [exact E|]. pose proof (nth_error_In _ _ E) as HI. split.
  - assert (d < length setC_table) by (apply nth_error_Some; congruence). change (length setC_table) with 10 in *. lia.
  - cbn in HI. repeat destruct HI as [<-|HI]; try contradiction; reflexivity.
Qed.
Lemma B_count_app a b : B_count (a ++ b) = B_count a + B_count b.
Proof. unfold B_count. rewrite map_app. apply list_sum_app. Qed.
(** One left digit changed: either the parities differ by one, or one digit differs. *)
Lemma left_changed b b' c c' : read_AB b = Some c -> read_AB b' = Some c' -> b <> b' ->
  (fst c = fst c' /\ snd c <> snd c') \/ fst c <> fst c'.
Proof.
  intros H H' Hb. apply read_AB_sound in H, H'. destruct c as [p d], c' as [p' d']. cbn [fst snd] in *.
  destruct p, p'; try (right; discriminate); left; (split; [reflexivity|]); intros ->; destruct H as [H _], H' as [H' _]; congruence.
Qed.
Lemma parity_one (p p' : parity) x y : p <> p' -> B_count (x ++ p :: y) = S (B_count (x ++ p' :: y)) \/ B_count (x ++ p' :: y) = S (B_count (x ++ p :: y)).
Proof.
  intros H. rewrite !B_count_app. unfold B_count, list_sum. cbn [map fold_right]. destruct p, p'; try congruence; lia.
Qed.
(** How the two readings of retail symbols with one changed digit are related *)
Definition digit_changed (l : list (parity * N)) r l' r' : Prop :=
  (exists x d d' y, map snd l ++ r = x ++ d :: y /\ map snd l' ++ r' = x ++ d' :: y /\ (d < 10)%N /\ (d' < 10)%N /\ d <> d' /\ map fst l = map fst l') \/
  (B_count (map fst l) = S (B_count (map fst l')) \/ B_count (map fst l') = S (B_count (map fst l))).
Lemma halves_cell n u b b' v l r l' r' i : read_halves n (u ++ b ++ v) = Some (l, r) -> read_halves n (u ++ b' ++ v) = Some (l', r') ->
  b <> b' -> length b = 4 -> length b' = 4 -> i < n -> length u = 3 + 4 * i \/ length u = 4 * n + 8 + 4 * i ->
  digit_changed l r l' r'.
Proof.
  intros H H' Hb Lb Lb' Hi Hu.
  destruct (halves_form _ _ _ _ H) as (lb & rb & E & Ll & Lr & HA & HB). destruct (halves_form _ _ _ _ H') as (lb' & rb' & E' & Ll' & Lr' & HA' & HB').
  assert (F4 : forall bs t, read_all read_AB bs = Some t -> Forall (fun c => length c = 4) bs).
  { intros bs t HR. refine (read_all_Forall _ _ _ _ _ HR). intros x y Hx. now apply read_AB_sound in Hx. }
  assert (G4 : forall bs t, read_all read_C bs = Some t -> Forall (fun c => length c = 4) bs).
  { intros bs t HR. refine (read_all_Forall _ _ _ _ _ HR). intros x y Hx. now apply read_C_sound in Hx. }
  pose proof (F4 _ _ HA) as FA. pose proof (F4 _ _ HA') as FA'. pose proof (G4 _ _ HB) as FB. pose proof (G4 _ _ HB') as FB'.
  destruct Hu as [Hu|Hu].
  - destruct (cell_blocks_after 4 b b' v _ _ _ _ i lb lb' u FA FA' ltac:(congruence) E E' eq_refl Hb Lb Lb' Hu ltac:(lia)) as (_ & EP & x & y & -> & -> & Lx).
    apply split_same in EP; [|reflexivity]. destruct EP as [_ EP]. apply app_inv_tail in EP.
    assert (rb = rb').
    { clear - FB FB' EP Lr Lr'. revert rb' FB' EP Lr'. subst n. induction FB as [|c bs Lc HF IH]; intros bs' HF' G HL.
      + destruct bs'; [reflexivity | discriminate].
      + destruct HF' as [|c' bs' Lc' HF']; [discriminate|]. cbn [concat] in G. injection HL as HL.
        apply split_same in G; [|congruence]. destruct G as [-> G]. f_equal. now apply IH. }
    subst rb'. rewrite HB in HB'. injection HB' as <-.
    destruct (read_all_changed _ _ _ _ _ _ _ HA HA') as (rx & c & c' & ry & -> & -> & R & R' & _).
    destruct (left_changed _ _ _ _ R R' Hb) as [[P D]|P].
    + left. exists (map snd rx), (snd c), (snd c'), (map snd ry ++ r). rewrite !map_app. cbn [map]. rewrite <- !app_assoc. rewrite P.
      apply read_AB_sound in R, R'. destruct R as (_ & R & _), R' as (_ & R' & _). auto 10.
    + right. rewrite !map_app. cbn [map]. now apply parity_one.
  - assert (E2 : u ++ b ++ v = (normal_guard ++ concat lb ++ centre_guard) ++ concat rb ++ normal_guard) by (rewrite E, <- !app_assoc; reflexivity).
    assert (E2' : u ++ b' ++ v = (normal_guard ++ concat lb' ++ centre_guard) ++ concat rb' ++ normal_guard) by (rewrite E', <- !app_assoc; reflexivity).
    assert (LC : length (concat lb) = 4 * n /\ length (concat lb') = 4 * n).
    { now rewrite (concat_length_const 4 lb), (concat_length_const 4 lb'), Ll, Ll'. }
    destruct LC as [LC LC'].
    destruct (cell_blocks_after 4 b b' v _ _ _ _ i rb rb' u FB FB' ltac:(congruence) E2 E2') as (EP & _ & x & y & -> & -> & Lx); try assumption.
    { rewrite !app_length, LC, LC'. reflexivity. }
    { rewrite !app_length, LC. cbn [normal_guard centre_guard length]. lia. }
    { lia. }
    apply split_same in EP; [|reflexivity]. destruct EP as [_ EP]. apply app_inv_tail in EP.
    assert (lb = lb').
    { clear - FA FA' EP Ll Ll'. revert lb' FA' EP Ll'. subst n. induction FA as [|c bs Lc HF IH]; intros bs' HF' G HL.
      + destruct bs'; [reflexivity | discriminate].
      + destruct HF' as [|c' bs' Lc' HF']; [discriminate|]. cbn [concat] in G. injection HL as HL.
        apply split_same in G; [|congruence]. destruct G as [-> G]. f_equal. now apply IH. }
    subst lb'. rewrite HA in HA'. injection HA' as <-.
    destruct (read_all_changed _ _ _ _ _ _ _ HB HB') as (rx & c & c' & ry & -> & -> & R & R' & _).
    left. exists (map snd l ++ rx), c, c', ry. rewrite <- !app_assoc.
    apply read_C_sound in R, R'. destruct R as (R0 & R & _), R' as (R0' & R' & _). repeat split; try assumption. congruence.
Qed.
Lemma gs1_guard {A} (ds : list N) (x r : A) : guard (gs1_validb ds) (Some x) = Some r -> gs1_valid ds.
Proof. intros H. apply guard_Some in H. destruct H as [H _]. now apply gs1_validb_spec. Qed.
Lemma ean13_cell u b b' v r r' i : read_ean13 (u ++ b ++ v) = Some r -> read_ean13 (u ++ b' ++ v) = Some r' ->
  b <> b' -> length b = 4 -> length b' = 4 -> i < 6 -> length u = 3 + 4 * i \/ length u = 32 + 4 * i -> False.
Proof.
  intros H H' Hb Lb Lb' Hi Hu. apply obind_Some in H, H'. destruct H as [[l rr] [H HP]]. destruct H' as [[l' rr'] [H' HP']].
  apply obind_Some in HP, HP'. destruct HP as [f [HP HV]]. destruct HP' as [f' [HP' HV']]. cbv zeta in HV, HV'. apply gs1_guard in HV, HV'.
  apply which_parity_sound in HP, HP'.
  destruct (halves_cell 6 u b b' v l rr l' rr' i H H' Hb Lb Lb' Hi Hu) as [(x & d & d' & y & E & E' & Hd & Hd' & Hne & EF)|HC].
  - rewrite EF in HP. assert (f = f').
    { assert (N13 : NoDup ean13_parities).
      { repeat (constructor; [cbn; intros HI; repeat destruct HI as [HI|HI]; try discriminate HI; contradiction|]). constructor. }
      apply (proj1 (NoDup_nth_error ean13_parities) N13); [apply nth_error_Some; now rewrite HP | congruence]. }
    subst f'. rewrite E in HV. rewrite E' in HV'.
    exact (gs1_substitution (N.of_nat f :: x) d d' y Hd Hd' Hne HV HV').
  - apply nth_error_In in HP, HP'.
    assert (HB : forall ps, In ps ean13_parities -> B_count ps = 0 \/ B_count ps = 3).
    { intros ps HI. cbn in HI. repeat destruct HI as [<-|HI]; try contradiction; cbn; auto. }
    apply HB in HP, HP'. lia.
Qed.
Lemma fixed_cell n (ps : list parity) u b b' v l rr l' rr' i : read_halves n (u ++ b ++ v) = Some (l, rr) -> read_halves n (u ++ b' ++ v) = Some (l', rr') ->
  parities_eqb (map fst l) ps && gs1_validb (map snd l ++ rr) = true -> parities_eqb (map fst l') ps && gs1_validb (map snd l' ++ rr') = true ->
  b <> b' -> length b = 4 -> length b' = 4 -> i < n -> length u = 3 + 4 * i \/ length u = 4 * n + 8 + 4 * i -> False.
Proof.
  intros H H' HP HP' Hb Lb Lb' Hi Hu. apply andb_prop in HP, HP'. destruct HP as [HP HV]. destruct HP' as [HP' HV'].
  apply parities_eqb_sound in HP, HP'. apply gs1_validb_spec in HV, HV'.
  destruct (halves_cell n u b b' v l rr l' rr' i H H' Hb Lb Lb' Hi Hu) as [(x & d & d' & y & E & E' & Hd & Hd' & Hne & _)|HC].
  - rewrite E in HV. rewrite E' in HV'. exact (gs1_substitution x d d' y Hd Hd' Hne HV HV').
  - rewrite HP, HP' in HC. lia.
Qed.
Lemma ean8_cell u b b' v r r' i : read_ean8 (u ++ b ++ v) = Some r -> read_ean8 (u ++ b' ++ v) = Some r' ->
  b <> b' -> length b = 4 -> length b' = 4 -> i < 4 -> length u = 3 + 4 * i \/ length u = 24 + 4 * i -> False.
Proof.
  intros H H' Hb Lb Lb' Hi Hu. apply obind_Some in H, H'. destruct H as [[l rr] [H HP]]. destruct H' as [[l' rr'] [H' HP']].
  apply guard_Some in HP, HP'. exact (fixed_cell 4 _ u b b' v l rr l' rr' i H H' (proj1 HP) (proj1 HP') Hb Lb Lb' Hi Hu).
Qed.
Lemma upca_cell u b b' v r r' i : read_upca (u ++ b ++ v) = Some r -> read_upca (u ++ b' ++ v) = Some r' ->
  b <> b' -> length b = 4 -> length b' = 4 -> i < 6 -> length u = 3 + 4 * i \/ length u = 32 + 4 * i -> False.
Proof.
  intros H H' Hb Lb Lb' Hi Hu. apply obind_Some in H, H'. destruct H as [[l rr] [H HP]]. destruct H' as [[l' rr'] [H' HP']].
  apply guard_Some in HP, HP'. exact (fixed_cell 6 _ u b b' v l rr l' rr' i H H' (proj1 HP) (proj1 HP') Hb Lb Lb' Hi Hu).
Qed.

(** ** Five-digit add-ons *)
Lemma addon_cell u b b' v l l' i : read_addon_blocks (u ++ b ++ v) = Some l -> read_addon_blocks (u ++ b' ++ v) = Some l' ->
  b <> b' -> length b = 4 -> length b' = 4 -> length u = 3 + 6 * i ->
  exists rx c c' ry, l = rx ++ c :: ry /\ l' = rx ++ c' :: ry /\ read_AB b = Some c /\ read_AB b' = Some c'.
Proof.
  intros H H' Hb Lb Lb' Lu. apply guard_Some in H, H'. destruct H as [_ H], H' as [_ H'].
  apply obind_Some in H, H'. destruct H as [bs [HC HR]], H' as [bs' [HC' HR']].
  assert (ES : forall w, skipn 3 (u ++ w) = skipn 3 u ++ w) by (intros w; rewrite skipn_app; now replace (3 - length u) with 0 by lia).
  rewrite ES in HC, HC'.
  pose proof (chop_length _ _ _ HC) as LC. pose proof (chop_length _ _ _ HC') as LC'.
  apply chop_sound in HC, HC'. destruct HC as [HC HF], HC' as [HC' HF'].
  remember (addon_separator ++ skipn 3 u) as t eqn:Et.
  assert (Lt : length t = 2 + 6 * i) by (rewrite Et, app_length, skipn_length, Lu; cbn [addon_separator length]; lia).
  rewrite app_assoc, <- Et in HC, HC', LC, LC'. rewrite <- (firstn_skipn (6 * i) t) in HC, HC'. rewrite <- app_assoc in HC, HC'.
  remember (skipn (6 * i) t) as sp eqn:Es. assert (Ls : length sp = 2) by (rewrite Es, skipn_length; lia).
  rewrite !app_length in LC, LC'.
  destruct (cell_blocks 6 (sp ++ b) (sp ++ b') v [] [] i bs bs' (firstn (6 * i) t) HF HF') as (_ & x & y & -> & -> & Lx).
  - lia.
  - rewrite app_nil_r, HC, <- app_assoc. reflexivity.
  - rewrite app_nil_r, HC', <- app_assoc. reflexivity.
  - intros E. apply app_inv_head in E. contradiction.
  - rewrite app_length. lia.
  - rewrite app_length. lia.
  - rewrite firstn_length. lia.
  - lia.
  - destruct (read_all_changed _ _ _ _ _ _ _ HR HR') as (rx & c & c' & ry & -> & -> & R & R' & _).
    apply guard_Some in R, R'. destruct R as [_ R], R' as [_ R'].
    assert (EB : forall w, skipn 2 (sp ++ w) = w) by (intros w; rewrite skipn_app, Ls, skipn_all2 by lia; reflexivity).
    rewrite EB in R, R'. exists rx, c, c', ry. auto.
Qed.
Lemma ean5_variant_changed x d d' y : length (x ++ d :: y) = 5 -> (d < 10)%N -> (d' < 10)%N -> d <> d' ->
  ean5_variant (x ++ d :: y) <> ean5_variant (x ++ d' :: y).
Proof.
  intros HL Hd Hd' Hne E. apply Hne. clear Hne.
  assert (K : (forall s w, w = 3 \/ w = 9 -> (s + w * d) mod 10 = (s + w * d') mod 10 -> d = d')%N).
  { clear x y HL E. intros s w Hw E.
    pose proof (N.div_mod (s + w * d) 10 ltac:(discriminate)) as E1. pose proof (N.div_mod (s + w * d') 10 ltac:(discriminate)) as E2.
    rewrite E in E1. set (q := ((s + w * d) / 10)%N) in *. set (q' := ((s + w * d') / 10)%N) in *. set (m := ((s + w * d') mod 10)%N) in *.
    clearbody q q' m. destruct Hw; subst w; lia. }
  rewrite app_length in HL. cbn [length] in HL.
  destruct x as [|x0 [|x1 [|x2 [|x3 [|x4 x]]]]]; destruct y as [|y0 [|y1 [|y2 [|y3 [|y4 y]]]]]; cbn [length] in HL; try lia; cbn [app ean5_variant] in E.
  - apply (K (3 * (y1 + y3) + 9 * (y0 + y2))%N 3%N); [auto|].
    replace (3 * (y1 + y3) + 9 * (y0 + y2) + 3 * d)%N with (3 * (d + y1 + y3) + 9 * (y0 + y2))%N by lia.
    replace (3 * (y1 + y3) + 9 * (y0 + y2) + 3 * d')%N with (3 * (d' + y1 + y3) + 9 * (y0 + y2))%N by lia. exact E.
  - apply (K (3 * (x0 + y0 + y2) + 9 * y1)%N 9%N); [auto|].
    replace (3 * (x0 + y0 + y2) + 9 * y1 + 9 * d)%N with (3 * (x0 + y0 + y2) + 9 * (d + y1))%N by lia.
    replace (3 * (x0 + y0 + y2) + 9 * y1 + 9 * d')%N with (3 * (x0 + y0 + y2) + 9 * (d' + y1))%N by lia. exact E.
  - apply (K (3 * (x0 + y1) + 9 * (x1 + y0))%N 3%N); [auto|].
    replace (3 * (x0 + y1) + 9 * (x1 + y0) + 3 * d)%N with (3 * (x0 + d + y1) + 9 * (x1 + y0))%N by lia.
    replace (3 * (x0 + y1) + 9 * (x1 + y0) + 3 * d')%N with (3 * (x0 + d' + y1) + 9 * (x1 + y0))%N by lia. exact E.
  - apply (K (3 * (x0 + x2 + y0) + 9 * x1)%N 9%N); [auto|].
    replace (3 * (x0 + x2 + y0) + 9 * x1 + 9 * d)%N with (3 * (x0 + x2 + y0) + 9 * (x1 + d))%N by lia.
    replace (3 * (x0 + x2 + y0) + 9 * x1 + 9 * d')%N with (3 * (x0 + x2 + y0) + 9 * (x1 + d'))%N by lia. exact E.
  - apply (K (3 * (x0 + x2) + 9 * (x1 + x3))%N 3%N); [auto|].
    replace (3 * (x0 + x2) + 9 * (x1 + x3) + 3 * d)%N with (3 * (x0 + x2 + d) + 9 * (x1 + x3))%N by lia.
    replace (3 * (x0 + x2) + 9 * (x1 + x3) + 3 * d')%N with (3 * (x0 + x2 + d') + 9 * (x1 + x3))%N by lia. exact E.
Qed.
Lemma ean5_cell u b b' v r r' i : read_ean5 (u ++ b ++ v) = Some r -> read_ean5 (u ++ b' ++ v) = Some r' ->
  b <> b' -> length b = 4 -> length b' = 4 -> length u = 3 + 6 * i -> False.
Proof.
  intros H H' Hb Lb Lb' Lu. apply obind_Some in H, H'. destruct H as [l [H HP]]. destruct H' as [l' [H' HP']].
  cbv zeta in HP, HP'. apply obind_Some in HP, HP'. destruct HP as [f [HP HV]], HP' as [f' [HP' HV']].
  apply guard_Some in HV, HV'. destruct HV as [HV _], HV' as [HV' _].
  apply andb_prop in HV, HV'. destruct HV as [L5 HV], HV' as [L5' HV']. apply Nat.eqb_eq in L5, L5'. apply N.eqb_eq in HV, HV'.
  apply which_parity_sound in HP, HP'.
  destruct (addon_cell u b b' v l l' i H H' Hb Lb Lb' Lu) as (rx & c & c' & ry & -> & -> & R & R').
  rewrite !map_app in *. cbn [map] in *.
  destruct (left_changed _ _ _ _ R R' Hb) as [[P D]|P].
  - rewrite P in HP. assert (f = f').
    { assert (N5 : NoDup ean5_parities).
      { repeat (constructor; [cbn; intros HI; repeat destruct HI as [HI|HI]; try discriminate HI; contradiction|]). constructor. }
      apply (proj1 (NoDup_nth_error ean5_parities) N5); [apply nth_error_Some; now rewrite HP | congruence]. }
    subst f'. apply read_AB_sound in R, R'. destruct R as (_ & R & _), R' as (_ & R' & _).
    apply (ean5_variant_changed (map snd rx) (snd c) (snd c') (map snd ry) L5 R R' D). congruence.
  - apply nth_error_In in HP, HP'.
    assert (HB : forall ps, In ps ean5_parities -> B_count ps = 2).
    { intros ps HI. cbn in HI. repeat destruct HI as [<-|HI]; try contradiction; reflexivity. }
    apply HB in HP, HP'. pose proof (parity_one (fst c) (fst c') (map fst rx) (map fst ry) P). lia.
Qed.

(** ** Characters separated by gaps: Code 39 and Code 11 *)
Lemma gapped_cell k b b' v i : forall (cs cs' : list (list nat)) u,
  Forall (fun c => length c = k) cs -> Forall (fun c => length c = k) cs' -> length cs = length cs' ->
  u ++ b ++ v ++ [1] = concat (map (fun c => c ++ [1]) cs) -> u ++ b' ++ v ++ [1] = concat (map (fun c => c ++ [1]) cs') ->
  b <> b' -> length b = k -> length b' = k -> length u = S k * i -> one_block cs cs'.
Proof.
  intros cs cs' u HF HF' HL E E' Hb Lb Lb' Lu.
  assert (HV : exists g t, v ++ [1] = g :: t) by (destruct v; cbn [app]; eauto). destruct HV as (g & t & HV). rewrite HV in E, E'.
  assert (G : forall l, Forall (fun c => length c = k) l -> Forall (fun c : list nat => length c = S k) (map (fun c => c ++ [1]) l)).
  { intros l Hl. apply Forall_map. revert Hl. apply Forall_impl. intros c Hc. rewrite app_length, Hc. cbn [length]. lia. }
  assert (LE : length (u ++ b ++ g :: t) = S k * length cs).
  { rewrite E, (concat_length_const (S k)), map_length by now apply G. reflexivity. }
  rewrite !app_length in LE. cbn [length] in LE.
  destruct (cell_blocks (S k) (b ++ [g]) (b' ++ [g]) t [] [] i (map (fun c => c ++ [1]) cs) (map (fun c => c ++ [1]) cs') u) as (_ & x & y & EX & EX' & Lx).
  - now apply G.
  - now apply G.
  - now rewrite !map_length.
  - rewrite app_nil_r, <- E, <- app_assoc. reflexivity.
  - rewrite app_nil_r, <- E', <- app_assoc. reflexivity.
  - intros EB. apply app_inj_tail in EB. tauto.
  - rewrite app_length. cbn [length]. lia.
  - rewrite app_length. cbn [length]. lia.
  - assumption.
  - rewrite map_length. nia.
  - apply map_eq_app in EX, EX'. destruct EX as (x1 & x2 & -> & X1 & X2), EX' as (x1' & x2' & -> & X1' & X2').
    apply map_eq_cons in X2, X2'. destruct X2 as (c & y1 & -> & C1 & Y1), X2' as (c' & y1' & -> & C1' & Y1').
    assert (INJ : forall l l', map (fun c : list nat => c ++ [1]) l = map (fun c => c ++ [1]) l' -> l = l').
    { induction l as [|h l IH]; intros [|h' l'] Q; try discriminate; [reflexivity|]. cbn [map] in Q. injection Q as Q1 Q2.
      apply app_inj_tail in Q1. destruct Q1 as [-> _]. f_equal. now apply IH. }
    apply app_inj_tail in C1, C1'. destruct C1 as [C1 _], C1' as [C1' _].
    rewrite <- X1' in X1. apply INJ in X1. rewrite <- Y1' in Y1. apply INJ in Y1. subst x1 y1.
    exists x1', c, c', y1'. split; [reflexivity|]. split; [reflexivity|]. congruence.
Qed.
Lemma c11_cell u b b' v r r' i : read_c11 (u ++ b ++ v) = Some r -> read_c11 (u ++ b' ++ v) = Some r' ->
  b <> b' -> length b = 5 -> length b' = 5 -> length u = 6 * i -> False.
Proof.
  intros H H' Hb Lb Lb' Lu.
  destruct (c11_form _ r H) as (mid & raw & EW & EL & HF & HR & HV). destruct (c11_form _ r' H') as (mid' & raw' & EW' & EL' & HF' & HR' & HV').
  rewrite !app_length in EL, EL'. rewrite <- !app_assoc in EW, EW'.
  assert (HS : one_block mid mid').
  { apply (one_block_inner c11_guard). apply (gapped_cell 5 b b' v i) with (u := u); try assumption.
    - constructor; [reflexivity|]. apply Forall_app. split; [assumption|]. constructor; [reflexivity | constructor].
    - constructor; [reflexivity|]. apply Forall_app. split; [assumption|]. constructor; [reflexivity | constructor].
    - cbn [length]. rewrite !app_length. cbn [length]. lia. }
  destruct (one_block_chars _ _ _ _ _ _ c11_nodup HS HR HR') as (x & c & c' & y & E1 & E2 & Hc & HI & HI').
  assert (HRL : length raw = length raw') by (subst; rewrite !app_length; reflexivity).
  set (top := (if Nat.ltb 11 (length raw) then 9 else 10)%N).
  assert (HT : (1 <= top <= 10)%N) by (unfold top; destruct (Nat.ltb 11 (length raw)); lia).
  assert (X : verify_last c11_chars 11 top raw <> None).
  { apply (verify_weights raw raw); [congruence | reflexivity | reflexivity]. }
  assert (X' : verify_last c11_chars 11 top raw' <> None).
  { apply (verify_weights raw raw'); [congruence | assumption | reflexivity]. }
  apply X'. rewrite E2. apply (c11_subst top x c c' y HT HI HI' Hc). now rewrite <- E1.
Qed.
Lemma c39_form ws r : read_c39 ws = Some r -> exists mid,
  ws ++ [1] = concat (map (fun c => c ++ [1]) (c39_star :: mid ++ [c39_star])) /\ length ws + 1 = 10 * (2 + length mid) /\
  Forall (fun c => length c = 9) mid /\ read_all (read_char c39_chars c39_table) mid = Some r.
Proof.
  intros H. apply obind_Some in H. destruct H as [bs [H1 H]]. apply obind_Some in H. destruct H as [cs [H2 H]].
  apply obind_Some in H. destruct H as [[[a mid] z] [H3 H]]. apply guard_Some in H. destruct H as [H HR].
  apply andb_prop in H. destruct H as [Ha Hz]. apply widths_eqb_eq in Ha, Hz. subst a z. apply strip_ends_form in H3.
  destruct (gap_blocks 9 ws bs cs H1 H2) as (_ & HF & HE & HL). subst cs. exists mid.
  split; [exact HE|]. split; [rewrite HL; cbn [length]; rewrite app_length; cbn [length]; lia|].
  split; [|assumption]. inversion HF as [|? ? _ HF']. apply Forall_app in HF'. tauto.
Qed.
Lemma c39_nodup : NoDup c39_chars.
Proof. apply (NoDup_count_occ' N.eq_dec). intros x Hx. vm_compute in Hx. repeat destruct Hx as [<-|Hx]; try contradiction; vm_compute; reflexivity. Qed.
Lemma c39_cell u b b' v r r' i : read_c39 (u ++ b ++ v) = Some r -> read_c39 (u ++ b' ++ v) = Some r' ->
  b <> b' -> length b = 9 -> length b' = 9 -> length u = 10 * i ->
  exists x c c' y, r = x ++ c :: y /\ r' = x ++ c' :: y /\ c' <> c /\ In c' c39_chars /\ Forall (fun c => In c c39_chars) r.
Proof.
  intros H H' Hb Lb Lb' Lu.
  destruct (c39_form _ r H) as (mid & EW & EL & HF & HR). destruct (c39_form _ r' H') as (mid' & EW' & EL' & HF' & HR').
  rewrite !app_length in EL, EL'. rewrite <- !app_assoc in EW, EW'.
  assert (HS : one_block mid mid').
  { apply (one_block_inner c39_star). apply (gapped_cell 9 b b' v i) with (u := u); try assumption.
    - constructor; [reflexivity|]. apply Forall_app. split; [assumption|]. constructor; [reflexivity | constructor].
    - constructor; [reflexivity|]. apply Forall_app. split; [assumption|]. constructor; [reflexivity | constructor].
    - cbn [length]. rewrite !app_length. cbn [length]. lia. }
  destruct (one_block_chars _ _ _ _ _ _ c39_nodup HS HR HR') as (x & c & c' & y & E1 & E2 & Hc & HI & HI').
  exists x, c, c', y. repeat split; try assumption. clear - HR. revert r HR. induction mid as [|m mid IH]; intros r HR.
  - apply read_all_nil in HR. subst. constructor.
  - apply read_all_cons in HR. destruct HR as (z & zs & Z1 & Z2 & ->). constructor; [now apply read_char_In in Z1 | now apply IH].
Qed.

(** ** Code 93 and Code 128 *)
Lemma c93_cell u b b' v r r' i : read_c93 (u ++ b ++ v) = Some r -> read_c93 (u ++ b' ++ v) = Some r' ->
  b <> b' -> length b = 6 -> length b' = 6 -> length u = 6 * i -> False.
Proof.
  intros H H' Hb Lb Lb' Lu.
  destruct (c93_form _ r H) as (mid & raw & EW & HR & HV & HF). destruct (c93_form _ r' H') as (mid' & raw' & EW' & HR' & HV' & HF').
  apply sized in HF, HF'.
  assert (EB : forall m, c93_star ++ concat m ++ c93_star ++ [1] = concat (c93_star :: m ++ [c93_star]) ++ [1]).
  { intros m. cbn [concat]. rewrite concat_app. cbn [concat]. rewrite app_nil_r, <- !app_assoc. reflexivity. }
  assert (LL : forall m, Forall (fun c => length c = 6) m -> length (c93_star ++ concat m ++ c93_star ++ [1]) = 13 + 6 * length m).
  { intros m Hm. rewrite !app_length, (concat_length_const 6 m) by assumption. cbn [length]. change (length c93_star) with 6. lia. }
  assert (L1 : length (u ++ b ++ v) = 13 + 6 * length mid) by (rewrite EW; now apply LL).
  assert (L2 : length (u ++ b' ++ v) = 13 + 6 * length mid') by (rewrite EW'; now apply LL).
  rewrite !app_length in L1, L2. rewrite EB in EW, EW'.
  destruct (cell_blocks 6 b b' v [1] [1] i (c93_star :: mid ++ [c93_star]) (c93_star :: mid' ++ [c93_star]) u) as (_ & x & y & E1 & E2 & _); try assumption.
  - constructor; [reflexivity|]. apply Forall_app. split; [assumption|]. constructor; [reflexivity | constructor].
  - constructor; [reflexivity|]. apply Forall_app. split; [assumption|]. constructor; [reflexivity | constructor].
  - cbn [length]. rewrite !app_length. cbn [length]. lia.
  - cbn [length]. rewrite !app_length. cbn [length]. lia.
  - assert (HB : one_block mid mid').
    { apply (one_block_inner c93_star). exists x, b, b', y. auto. }
    destruct (one_block_chars _ _ _ _ _ _ c93_nodup HB HR HR') as (x' & c & c' & y' & -> & -> & Hc & HI & HI').
    unfold c93_verify in HV, HV'. apply obind_Some in HV, HV'. destruct HV as [f [HV _]]. destruct HV' as [f' [HV' _]].
    rewrite (c93_subst 15 x' c c' y') in HV'; try assumption; [discriminate | lia |]. rewrite HV. discriminate.
Qed.
Lemma c128_form ws r : read_c128 ws = Some r -> exists bs vs, ws = concat bs ++ c128_stop /\ Forall (fun c => length c = 6) bs /\
  read_all (fun b => option_map N.of_nat (which c128_table b)) bs = Some vs /\ decode_checked vs = Some r.
Proof.
  intros H. apply obind_Some in H. destruct H as [vs [H HD]]. unfold read_values in H.
  destruct (trim_ends 0 7 ws) as [[a body] z] eqn:ET. apply trim_ends_whole in ET. destruct ET as [HW Ea].
  cbn [firstn] in Ea. subst a. cbn [app] in HW. apply guard_Some in H. destruct H as [Hz H]. apply widths_eqb_eq in Hz. subst z.
  apply obind_Some in H. destruct H as [bs [HC H]]. apply chop_sound in HC. destruct HC as [HC HF].
  exists bs, vs. rewrite HC. auto.
Qed.
Lemma c128_cell u b b' v r r' i : read_c128 (u ++ b ++ v) = Some r -> read_c128 (u ++ b' ++ v) = Some r' ->
  b <> b' -> length b = 6 -> length b' = 6 -> length u = 6 * i -> ~ weightless i -> False.
Proof.
  intros H H' Hb Lb Lb' Lu HW.
  destruct (c128_form _ r H) as (bs & vs & EW & HF & HR & HV). destruct (c128_form _ r' H') as (bs' & vs' & EW' & HF' & HR' & HV').
  assert (L1 : length (u ++ b ++ v) = 6 * length bs + 7) by (rewrite EW, app_length, (concat_length_const 6 bs) by assumption; reflexivity).
  assert (L2 : length (u ++ b' ++ v) = 6 * length bs' + 7) by (rewrite EW', app_length, (concat_length_const 6 bs') by assumption; reflexivity).
  rewrite !app_length in L1, L2.
  destruct (Nat.lt_ge_cases i (length bs)) as [Hi|Hi].
  - destruct (cell_blocks 6 b b' v c128_stop c128_stop i bs bs' u) as (_ & x & y & -> & -> & Lx); try assumption; [lia|].
    destruct (read_all_changed _ _ _ _ _ _ _ HR HR') as (rx & c & c' & ry & -> & -> & R & R' & Lr).
    apply option_map_Some in R, R'. destruct R as (w & R & ->), R' as (w' & R' & ->). apply which_sound in R, R'.
    apply HW. rewrite <- Lx, <- Lr.
    apply (c128_subst rx (N.of_nat w) ry (N.of_nat w')); [congruence | | congruence].
    intros E. apply Nat2N.inj in E. subst w'. congruence.
  - assert (length u = length (concat bs)) by (rewrite (concat_length_const 6 bs) by assumption; lia).
    assert (length u = length (concat bs')) by (rewrite (concat_length_const 6 bs') by assumption; lia).
    apply split_same in EW; [|assumption]. apply split_same in EW'; [|assumption]. destruct EW as [_ EW], EW' as [_ EW'].
    rewrite <- EW' in EW. apply app_inv_tail in EW. contradiction.
Qed.

(** ** All symbologies with a check character *)
Lemma cell_changed_read y ws ws' r r' : cell_changed y ws ws' -> read_as y ws = Some r -> read_as y ws' = Some r' ->
  (y = SSupp -> exists l, r = Digits l /\ length l = 5) -> verified y r -> verified y r' -> 
  match y with SCode39 | SCodabar | SItf | SStf => True | _ => False end.
Proof.
  intros (u & b & b' & v & -> & -> & Hb & Lb & Lb' & HC) H H' HS V V'. destruct y; cbn [cell_size cell_start read_as] in *; try exact I.
  - destruct HC as (i & Hi & Hu). apply option_map_Some in H, H'. destruct H as (l & H & _), H' as (l' & H' & _).
    exact (ean13_cell u b b' v l l' i H H' Hb Lb Lb' Hi Hu).
  - destruct HC as (i & Hi & Hu). apply option_map_Some in H, H'. destruct H as (l & H & _), H' as (l' & H' & _).
    exact (ean8_cell u b b' v l l' i H H' Hb Lb Lb' Hi Hu).
  - destruct HC as (i & Hi & Hu). apply option_map_Some in H, H'. destruct H as (l & H & _), H' as (l' & H' & _).
    exact (upca_cell u b b' v l l' i H H' Hb Lb Lb' Hi Hu).
  - destruct HC as (i & Hu). destruct (HS eq_refl) as (l & -> & L5).
    destruct (read_ean2 (u ++ b ++ v)) as [l2|] eqn:E2.
    { injection H as ->. apply ean2_form in E2. lia. }
    apply option_map_Some in H. destruct H as (l' & H & E). injection E as <-. pose proof (ean5_form _ _ H) as (_ & HL & _).
    destruct (read_ean2 (u ++ b' ++ v)) as [l2|] eqn:E2'.
    { apply ean2_form in E2'. rewrite !app_length in *. lia. }
    apply option_map_Some in H'. destruct H' as (l'' & H' & _). exact (ean5_cell u b b' v l l'' i H H' Hb Lb Lb' Hu).
  - destruct HC as (i & Hu). apply option_map_Some in H, H'. destruct H as (l & H & ->), H' as (l' & H' & ->).
    destruct (c39_cell u b b' v l l' i H H' Hb Lb Lb' Hu) as (x & c & c' & z & -> & -> & Hc & HI & HF).
    exact (c39_typo x c z c' HF HI Hc V V').
  - destruct HC as (i & Hu). apply option_map_Some in H, H'. destruct H as (l & H & _), H' as (l' & H' & _).
    exact (c93_cell u b b' v l l' i H H' Hb Lb Lb' Hu).
  - destruct HC as (i & Hu). apply option_map_Some in H, H'. destruct H as (l & H & _), H' as (l' & H' & _).
    exact (c11_cell u b b' v l l' i H H' Hb Lb Lb' Hu).
  - destruct HC as (i & Hu & HW). apply option_map_Some in H, H'. destruct H as (l & H & _), H' as (l' & H' & _).
    exact (c128_cell u b b' v l l' i H H' Hb Lb Lb' Hu HW).
Qed.
Lemma cell_detected y p s m : (str_len s < 2 ^ 48)%N -> checked y s -> barcode y p s = Ret (Ok m) ->
  (y = SCode128 -> read_modules y m <> None) ->
  exists ws r, m = render ws /\ read_as y ws = Some r /\ verified y r /\
    forall ws' r', cell_changed y ws ws' -> read_as y ws' = Some r' -> ~ verified y r'.
Proof.
  intros Hs HC H H128. destruct (barcode_shape y p s m Hs H) as (ws & Em & HO & HF).
  assert (H1 : Forall (fun w => 0 < w) ws) by (revert HF; apply Forall_impl; lia).
  assert (HT : tail y = []) by (destruct y; try reflexivity; contradiction).
  rewrite HT, app_nil_r in Em.
  assert (HS : scan m = Some ws) by (rewrite Em; now apply scan_render).
  pose proof (barcode_meant y p s m Hs H) as HM. unfold read_modules in HM, H128. rewrite HS in HM, H128. cbn [obind] in HM, H128.
  assert (HR : exists r, read_as y ws = Some r /\ verified y r /\ (y = SSupp -> exists l, r = Digits l /\ length l = 5)).
  { destruct y; cbn [meant checked] in HM, HC; try contradiction.
    - destruct HM as (c & _ & HM). rewrite HM. eexists. split; [reflexivity|]. split; [exact I | discriminate].
    - destruct HM as (c & _ & HM). rewrite HM. eexists. split; [reflexivity|]. split; [exact I | discriminate].
    - destruct HM as (c & _ & HM). rewrite HM. eexists. split; [reflexivity|]. split; [exact I | discriminate].
    - rewrite HM. eexists. split; [reflexivity|]. split; [exact I|]. intros _. eexists. split; [reflexivity|]. unfold digits_of. now rewrite map_length.
    - destruct HM as (c & HV & HM). rewrite HM. eexists. split; [reflexivity|]. split; [exact HV | discriminate].
    - rewrite HM. eexists. split; [reflexivity|]. split; [exact I | discriminate].
    - rewrite HM. eexists. split; [reflexivity|]. split; [exact I | discriminate].
    - specialize (H128 eq_refl). destruct (read_as SCode128 ws) as [r|]; [|contradiction]. exists r. split; [reflexivity|]. split; [exact I | discriminate]. }
  destruct HR as (r & HR & HV & HL). exists ws, r. split; [assumption|]. split; [assumption|]. split; [assumption|].
  intros ws' r' HX HR' HV'. pose proof (cell_changed_read y ws ws' r r' HX HR HR' HL HV HV') as HE.
  destruct y; try contradiction.
Qed.
