(** * Printed characters missing, or printed again *)
From Verif Require Import Rust M_Error Symbology M_Code39 M_Code128 M_Use S_Barcode S_Ean S_Text S_Linear S_Codabar S_Tf S_Code128 S_All S_Exact S_Skip
  P_Rust P_Barcode P_Alphabet P_Weighted P_Gap P_Tf P_Code39 P_Code93 P_Code11 P_Code128 P_Code128b P_Check128 P_All P_Apart P_Damage P_Cell P_Cut P_Exact.
Local Open Scope nat_scope.

(** ** Characters in a frame *)
Lemma mend_length {A} i j (l : list A) : i <= length l -> length (mend i j l) = i + (length l - j).
Proof. intros H. unfold mend. rewrite app_length, firstn_length, skipn_length. lia. Qed.
Lemma mend_map {A B} (f : A -> B) i j l : mend i j (map f l) = map f (mend i j l).
Proof. unfold mend. now rewrite map_app, firstn_map, skipn_map. Qed.
Lemma mend_Forall {A} (P : A -> Prop) i j l : Forall P l -> Forall P (mend i j l).
Proof.
  intros H. unfold mend. apply Forall_app.
  split; [rewrite <- (firstn_skipn i l) in H | rewrite <- (firstn_skipn j l) in H]; apply Forall_app in H; tauto.
Qed.
Lemma mend_app {A} i j (l t : list A) : i <= length l -> j <= length l -> mend i j (l ++ t) = mend i j l ++ t.
Proof.
  intros Hi Hj. unfold mend. rewrite firstn_app, skipn_app.
  replace (i - length l) with 0 by lia. replace (j - length l) with 0 by lia. cbn [firstn skipn]. now rewrite app_nil_r, app_assoc.
Qed.
Lemma read_all_firstn {A B} (f : A -> option B) i : forall l r, read_all f l = Some r -> read_all f (firstn i l) = Some (firstn i r).
Proof.
  induction i as [|i IH]; intros l r H; [reflexivity|]. destruct l as [|x l]; [apply read_all_nil in H; now subst|].
  apply read_all_cons in H. destruct H as (y & ys & Hx & H & ->). cbn [firstn read_all]. rewrite Hx. now rewrite (IH _ _ H).
Qed.
Lemma read_all_skipn {A B} (f : A -> option B) i : forall l r, read_all f l = Some r -> read_all f (skipn i l) = Some (skipn i r).
Proof.
  induction i as [|i IH]; intros l r H; [exact H|]. destruct l as [|x l]; [apply read_all_nil in H; now subst|].
  apply read_all_cons in H. destruct H as (y & ys & Hx & H & ->). cbn [skipn]. now apply IH.
Qed.
Lemma read_all_join {A B} (f : A -> option B) u v a b : read_all f u = Some a -> read_all f v = Some b -> read_all f (u ++ v) = Some (a ++ b).
Proof.
  revert a. induction u as [|x u IH]; intros a Hu Hv; [apply read_all_nil in Hu; now subst|].
  apply read_all_cons in Hu. destruct Hu as (y & ys & Hx & Hu & ->). cbn [app read_all]. rewrite Hx. now rewrite (IH _ Hu Hv).
Qed.
Lemma read_all_mend {A B} (f : A -> option B) i j l r : read_all f l = Some r -> read_all f (mend i j l) = Some (mend i j r).
Proof. intros H. apply read_all_join; [now apply read_all_firstn | now apply read_all_skipn]. Qed.

Lemma blocks_firstn {A} k (bs : list (list A)) z : Forall (fun b => length b = k) bs -> forall i, i <= length bs ->
  firstn (k * i) (concat bs ++ z) = concat (firstn i bs).
Proof.
  induction 1 as [|b bs Hb H IH]; intros i Hi; cbn [length] in Hi.
  - replace i with 0 by lia. now rewrite Nat.mul_0_r.
  - destruct i as [|i]; [now rewrite Nat.mul_0_r|]. cbn [concat firstn]. rewrite <- app_assoc, firstn_app.
    rewrite firstn_all2 by nia. rewrite Hb. replace (k * S i - k) with (k * i) by nia. now rewrite IH by lia.
Qed.
Lemma blocks_skipn {A} k (bs : list (list A)) z : Forall (fun b => length b = k) bs -> forall i, i <= length bs ->
  skipn (k * i) (concat bs ++ z) = concat (skipn i bs) ++ z.
Proof.
  induction 1 as [|b bs Hb H IH]; intros i Hi; cbn [length] in Hi.
  - replace i with 0 by lia. now rewrite Nat.mul_0_r.
  - destruct i as [|i]; [now rewrite Nat.mul_0_r|]. cbn [concat skipn]. rewrite <- app_assoc, skipn_app.
    rewrite skipn_all2 by nia. rewrite Hb. replace (k * S i - k) with (k * i) by nia. now rewrite IH by lia.
Qed.
Lemma blocks_splice {A} n k (h z : list A) bs i j : length h = n -> Forall (fun b => length b = k) bs -> i <= length bs -> j <= length bs ->
  mend (n + k * i) (n + k * j) (h ++ concat bs ++ z) = h ++ concat (mend i j bs) ++ z.
Proof.
  intros <- H Hi Hj. unfold mend. rewrite firstn_app_2, skipn_app, blocks_firstn by assumption.
  rewrite skipn_all2 by lia. replace (length h + k * j - length h) with (k * j) by lia. rewrite blocks_skipn by assumption.
  rewrite concat_app, <- !app_assoc. reflexivity.
Qed.

(** ** Readers *)
Lemma gaps_length k cs : Forall (fun c => length c = k) cs -> Forall (fun b => length b = S k) (map (fun c => c ++ [1]) cs).
Proof. intros H. apply Forall_map. revert H. apply Forall_impl. intros c <-. rewrite app_length. cbn [length]. lia. Qed.
Lemma gaps_read k ws cs : 0 < k -> Forall (fun c => length c = k) cs -> ws ++ [1] = concat (map (fun c => c ++ [1]) cs) ->
  obind (chop (S k) (ws ++ [1])) (read_all (gap_block k)) = Some cs.
Proof.
  intros Hk H ->. rewrite chop_concat; [|lia | now apply gaps_length]. cbn [obind]. apply read_all_map_id.
  intros c Hc. apply gap_block_ok. rewrite Forall_forall in H. now apply H.
Qed.
Lemma gaps_frame (ws : list nat) a mid z : ws ++ [1] = concat (map (fun c => c ++ [1]) (a :: mid ++ [z])) ->
  ws = (a ++ [1]) ++ concat (map (fun c => c ++ [1]) mid) ++ z.
Proof.
  intros H. cbn [map concat] in H. rewrite map_app, concat_app in H. cbn [map concat] in H. rewrite app_nil_r, !app_assoc in H.
  apply app_inj_tail in H. destruct H as [-> _]. now rewrite <- !app_assoc.
Qed.
Lemma frame_gaps a (mid : list (list nat)) z : ((a ++ [1]) ++ concat (map (fun c => c ++ [1]) mid) ++ z) ++ [1] = concat (map (fun c => c ++ [1]) (a :: mid ++ [z])).
Proof. cbn [map concat]. rewrite map_app, concat_app. cbn [map concat]. rewrite app_nil_r, <- !app_assoc. reflexivity. Qed.
Lemma gaps_splice n k (ws : list nat) a mid z i j : length a + 1 = n -> Forall (fun c => length c = k) mid ->
  ws ++ [1] = concat (map (fun c => c ++ [1]) (a :: mid ++ [z])) -> i <= length mid -> j <= length mid ->
  mend (n + S k * i) (n + S k * j) ws ++ [1] = concat (map (fun c => c ++ [1]) (a :: mend i j mid ++ [z])).
Proof.
  intros Ha H E Hi Hj. apply gaps_frame in E. subst ws.
  rewrite blocks_splice; [|now rewrite app_length | now apply gaps_length | now rewrite map_length | now rewrite map_length].
  rewrite mend_map. apply frame_gaps.
Qed.

Lemma c39_splice ws t i j : read_c39 ws = Some t -> i <= length t -> j <= length t ->
  read_c39 (mend (10 + 10 * i) (10 + 10 * j) ws) = Some (mend i j t).
Proof.
  intros H Hi Hj. destruct (c39_form _ _ H) as (mid & E & _ & HF & HR). pose proof (read_all_length _ _ _ HR) as HL. rewrite HL in Hi, Hj.
  pose proof (gaps_splice 10 9 ws c39_star mid c39_star i j eq_refl HF E Hi Hj) as E2.
  unfold read_c39. assert (G : obind (chop 10 (mend (10 + 10 * i) (10 + 10 * j) ws ++ [1])) (read_all (gap_block 9)) = Some (c39_star :: mend i j mid ++ [c39_star])).
  { apply gaps_read; [lia | | exact E2]. constructor; [reflexivity|]. apply Forall_app. split; [now apply mend_Forall | repeat constructor]. }
  destruct (chop 10 _) as [bs|]; [|discriminate G]. cbn [obind] in G |- *. rewrite G. cbn [obind]. rewrite strip_ends_ok. cbn [obind].
  rewrite !widths_eqb_refl. cbn [andb guard]. now apply read_all_mend.
Qed.
Lemma c11_raw_form ws raw : read_c11_raw ws = Some raw -> exists mid,
  ws ++ [1] = concat (map (fun c => c ++ [1]) (c11_guard :: mid ++ [c11_guard])) /\
  Forall (fun c => length c = 5) mid /\ read_all (read_char c11_chars c11_table) mid = Some raw.
Proof.
  intros H. apply obind_Some in H. destruct H as [bs [H1 H]]. apply obind_Some in H. destruct H as [cs [H2 H]].
  apply obind_Some in H. destruct H as [[[a mid] z] [H3 H]]. apply guard_Some in H. destruct H as [H HR].
  apply andb_prop in H. destruct H as [Ha Hz]. apply widths_eqb_eq in Ha, Hz. subst a z. apply strip_ends_form in H3.
  destruct (gap_blocks 5 ws bs cs H1 H2) as (_ & HF & HE & HL). subst cs. exists mid.
  split; [exact HE|]. split; [|assumption]. inversion HF as [|? ? _ HF']. apply Forall_app in HF'. tauto.
Qed.
Lemma c11_splice ws t i j : read_c11_raw ws = Some t -> i <= length t -> j <= length t ->
  read_c11_raw (mend (6 + 6 * i) (6 + 6 * j) ws) = Some (mend i j t).
Proof.
  intros H Hi Hj. destruct (c11_raw_form _ _ H) as (mid & E & HF & HR). pose proof (read_all_length _ _ _ HR) as HL. rewrite HL in Hi, Hj.
  pose proof (gaps_splice 6 5 ws c11_guard mid c11_guard i j eq_refl HF E Hi Hj) as E2.
  unfold read_c11_raw. assert (G : obind (chop 6 (mend (6 + 6 * i) (6 + 6 * j) ws ++ [1])) (read_all (gap_block 5)) = Some (c11_guard :: mend i j mid ++ [c11_guard])).
  { apply gaps_read; [lia | | exact E2]. constructor; [reflexivity|]. apply Forall_app. split; [now apply mend_Forall | repeat constructor]. }
  destruct (chop 6 _) as [bs|]; [|discriminate G]. cbn [obind] in G |- *. rewrite G. cbn [obind]. rewrite strip_ends_ok. cbn [obind].
  rewrite !widths_eqb_refl. cbn [andb guard]. now apply read_all_mend.
Qed.
Lemma cod_splice ws t i j : read_cod ws = Some t -> i <= length t - 2 -> j <= length t - 2 ->
  read_cod (mend (8 + 8 * i) (8 + 8 * j) ws) = Some (mend (S i) (S j) t).
Proof.
  intros H Hi Hj. destruct (Nat.ltb_spec (length t) 2) as [L|L].
  { replace i with 0 by lia. replace j with 0 by lia. unfold mend. now rewrite !firstn_skipn. }
  unfold read_cod in H |- *. apply obind_Some in H. destruct H as [bs [H1 H]]. apply obind_Some in H. destruct H as [cs [H2 HR]].
  destruct (gap_blocks 7 ws bs cs H1 H2) as (_ & HF & HE & _). pose proof (read_all_length _ _ _ HR) as HL.
  destruct cs as [|a cs]; [cbn in HL; lia|]. destruct cs as [|z mid _] using rev_ind; [cbn in HL; lia|].
  rewrite HL in Hi, Hj. cbn [length] in Hi, Hj. rewrite app_length in Hi, Hj. cbn [length] in Hi, Hj.
  inversion HF as [|? ? Fa HF']; subst. apply Forall_app in HF'. destruct HF' as [Fm Fz].
  pose proof (gaps_splice 8 7 ws a mid z i j ltac:(rewrite Fa; reflexivity) Fm HE ltac:(lia) ltac:(lia)) as E2.
  assert (G : obind (chop 8 (mend (8 + 8 * i) (8 + 8 * j) ws ++ [1])) (read_all (gap_block 7)) = Some (a :: mend i j mid ++ [z])).
  { apply gaps_read; [lia | | exact E2]. constructor; [assumption|]. apply Forall_app. split; [now apply mend_Forall | exact Fz]. }
  destruct (chop 8 (mend _ _ ws ++ [1])) as [bs'|]; [|discriminate G]. cbn [obind] in G |- *. rewrite G. cbn [obind].
  rewrite <- (mend_app i j mid [z]) by lia. change (a :: mend i j (mid ++ [z])) with (mend (S i) (S j) (a :: mid ++ [z])).
  now apply read_all_mend.
Qed.
Lemma c93_raw_form ws raw : read_c93_raw ws = Some raw -> exists mid,
  ws = c93_star ++ concat mid ++ c93_star ++ [1] /\ Forall (fun b => length b = 6) mid /\ read_all (read_char c93_chars c93_table) mid = Some raw.
Proof.
  intros H. apply guard_Some in H. destruct H as [H1 H].
  apply obind_Some in H. destruct H as [bs [H2 H]]. apply obind_Some in H. destruct H as [[[a mid] z] [H3 H]].
  apply guard_Some in H. destruct H as [H HR]. apply andb_prop in H. destruct H as [Ha Hz].
  apply widths_eqb_eq in H1, Ha, Hz. subst a z. apply strip_ends_form in H3. subst bs.
  apply chop_sound in H2. destruct H2 as [HC HF]. exists mid. split; [|split; [|assumption]].
  - rewrite <- (rev_involutive ws) at 1. rewrite <- (firstn_skipn 1 (rev ws)) at 1. rewrite H1, rev_app_distr, <- HC.
    cbn [concat rev app]. rewrite concat_app. cbn [concat]. rewrite app_nil_r, <- !app_assoc. reflexivity.
  - inversion HF as [|? ? _ HF']. apply Forall_app in HF'. tauto.
Qed.
Lemma c93_splice ws t i j : read_c93_raw ws = Some t -> i <= length t -> j <= length t ->
  read_c93_raw (mend (6 + 6 * i) (6 + 6 * j) ws) = Some (mend i j t).
Proof.
  intros H Hi Hj. destruct (c93_raw_form _ _ H) as (mid & -> & HF & HR). pose proof (read_all_length _ _ _ HR) as HL. rewrite HL in Hi, Hj.
  rewrite (blocks_splice 6 6) by (assumption || reflexivity).
  replace (c93_star ++ concat (mend i j mid) ++ c93_star ++ [1]) with (concat (c93_star :: mend i j mid ++ [c93_star]) ++ [1])
    by (cbn [concat]; rewrite concat_app; cbn [concat]; now rewrite app_nil_r, <- !app_assoc).
  unfold read_c93_raw. rewrite rev_app_distr. cbn [rev app firstn skipn widths_eqb Nat.eqb andb guard]. rewrite rev_involutive.
  rewrite chop_concat; [|lia|]. 2:{ constructor; [reflexivity|]. apply Forall_app. split; [now apply mend_Forall | repeat constructor]. }
  cbn [obind]. rewrite strip_ends_ok. cbn [obind]. rewrite !widths_eqb_refl. cbn [andb guard]. now apply read_all_mend.
Qed.
Lemma stf_splice ws t i j : read_stf ws = Some t -> i <= length t -> j <= length t ->
  read_stf (mend (6 + 10 * i) (6 + 10 * j) ws) = Some (mend i j t).
Proof.
  intros H Hi Hj. destruct (stf_form _ _ H) as (a & bs & z & -> & Ha & Hz & HF & HR). pose proof (read_all_length _ _ _ HR) as HL. rewrite HL in Hi, Hj.
  rewrite (blocks_splice 6 10) by (assumption || exact (squash_length _ _ Ha)).
  unfold read_stf. rewrite trim_ends_ok by (exact (squash_length _ _ Ha) || exact (squash_length _ _ Hz)).
  rewrite Ha, Hz, !widths_eqb_refl. cbn [andb guard]. rewrite chop_concat; [|lia | now apply mend_Forall]. cbn [obind].
  now apply (read_all_mend stf_block).
Qed.
Lemma itf_full ws r : read_itf ws = Some r -> exists bs z ds, ws = [1;1;1;1] ++ concat bs ++ z /\ squash z = [2;1;1] /\
  Forall (fun b => length b = 10) bs /\ read_all itf_block bs = Some ds /\ r = concat ds.
Proof.
  unfold read_itf. destruct (trim_ends 4 3 ws) as [[a body] z] eqn:ET. apply trim_ends_whole in ET. destruct ET as [HW _].
  intros H. apply guard_Some in H. destruct H as [H HR]. apply andb_prop in H. destruct H as [Ha Hz].
  apply widths_eqb_eq in Ha, Hz. apply obind_Some in HR. destruct HR as [bs [HC HR]]. apply obind_Some in HR. destruct HR as [ds [HR E]].
  injection E as <-. apply chop_sound in HC. destruct HC as [HC HF]. exists bs, z, ds. split; [now rewrite HW, Ha, HC|]. auto.
Qed.
Lemma itf_twos bs ds : read_all itf_block bs = Some ds -> Forall (fun d => length d = 2) ds.
Proof.
  revert ds. induction bs as [|b bs IH]; intros ds H; [apply read_all_nil in H; subst; constructor|].
  apply read_all_cons in H. destruct H as (d & ds' & Hd & H & ->). constructor; [now apply itf_block_two in Hd | now apply IH].
Qed.
Lemma itf_splice ws t i j : read_itf ws = Some t -> i <= Nat.div2 (length t) -> j <= Nat.div2 (length t) ->
  read_itf (mend (4 + 10 * i) (4 + 10 * j) ws) = Some (mend (2 * i) (2 * j) t).
Proof.
  intros H Hi Hj. destruct (itf_full _ _ H) as (bs & z & ds & -> & Hz & HF & HR & ->). pose proof (read_all_length _ _ _ HR) as HL.
  pose proof (itf_twos _ _ HR) as H2. rewrite (concat_length_const 2) in Hi, Hj by assumption. rewrite Nat.div2_double, HL in Hi, Hj.
  rewrite (blocks_splice 4 10) by (assumption || reflexivity).
  unfold read_itf. rewrite trim_ends_ok by (reflexivity || exact (squash_length _ _ Hz)).
  rewrite Hz, !widths_eqb_refl. cbn [andb guard]. rewrite chop_concat; [|lia | now apply mend_Forall]. cbn [obind].
  change (obind (read_all itf_block (mend i j bs)) (fun ds => Some (concat ds)) = Some (mend (2 * i) (2 * j) (concat ds))).
  rewrite (read_all_mend itf_block i j bs ds HR). cbn [obind]. f_equal. symmetry.
  pose proof (blocks_splice 0 2 [] [] ds i j eq_refl H2 ltac:(lia) ltac:(lia)) as X. cbn [app plus] in X. now rewrite !app_nil_r in X.
Qed.
Lemma c128_values_form ws vs : read_values ws = Some vs -> exists bs, ws = concat bs ++ c128_stop /\ Forall (fun c => length c = 6) bs /\
  read_all (fun b => option_map N.of_nat (which c128_table b)) bs = Some vs.
Proof.
  unfold read_values. intros H. destruct (trim_ends 0 7 ws) as [[a body] z] eqn:ET. apply trim_ends_whole in ET. destruct ET as [HW Ea].
  cbn [firstn] in Ea. subst a. cbn [app] in HW. apply guard_Some in H. destruct H as [Hz H]. apply widths_eqb_eq in Hz. subst z.
  apply obind_Some in H. destruct H as [bs [HC H]]. apply chop_sound in HC. destruct HC as [HC HF].
  exists bs. rewrite HC. auto.
Qed.
Lemma c128_splice ws vs i j : read_values ws = Some vs -> i <= length vs -> j <= length vs ->
  read_values (mend (6 * i) (6 * j) ws) = Some (mend i j vs).
Proof.
  intros H Hi Hj. destruct (c128_values_form _ _ H) as (bs & -> & HF & HR). pose proof (read_all_length _ _ _ HR) as HL. rewrite HL in Hi, Hj.
  change (read_values (mend (0 + 6 * i) (0 + 6 * j) ([] ++ concat bs ++ c128_stop)) = Some (mend i j vs)).
  rewrite (blocks_splice 0 6 [] c128_stop bs i j eq_refl HF Hi Hj). cbn [app].
  unfold read_values. rewrite trim_tail by reflexivity. change (widths_eqb c128_stop c128_stop) with true. cbn [guard].
  rewrite chop_concat; [|lia | now apply mend_Forall]. cbn [obind]. now apply read_all_mend.
Qed.

(** ** Check sums *)
Lemma mod_shift n s x : (n <> 0 -> ((s + x) mod n =? s mod n) = (x mod n =? 0))%N.
Proof.
  intros Hn. apply eq_true_iff_eq. rewrite !N.eqb_eq. split; intros H.
  - rewrite <- (N.mod_0_l n Hn). apply (add_mod_cancel n s); [assumption|]. now rewrite N.add_0_r.
  - rewrite <- N.add_mod_idemp_r, H, N.add_0_r by assumption. reflexivity.
Qed.
Lemma total_app a b : (total (a ++ b) = total a + total b)%N.
Proof. unfold total. induction a as [|x a IH]; cbn [app fold_right]; lia. Qed.
Lemma total_rev a : total (rev a) = total a.
Proof. induction a as [|x a IH]; [reflexivity|]. cbn [rev]. rewrite total_app, IH. unfold total. cbn [fold_right]. lia. Qed.
Lemma weight_at_small top k : (k < top -> weight_at top k = k + 1)%N.
Proof. 
  intros H. unfold weight_at. cbv zeta. destruct (N.eq_dec (k + 1) top) as [<-|Ht]; [now rewrite N.mod_same by lia|].
  rewrite N.mod_small by lia. destruct (N.eqb_spec (k + 1) 0); lia.
Qed.
Lemma wpos_shift top vs : forall k, (k + 1 + len vs <= top -> wpos top (k + 1) vs = wpos top k vs + total vs)%N.
Proof.
  induction vs as [|v vs IH]; intros k H; [reflexivity|]. rewrite len_cons in H. cbn [wpos]. rewrite !weight_at_small, IH by lia.
  unfold total. cbn [fold_right]. lia.
Qed.
Lemma weighted_insert top u v w : (len u + len w + 1 <= top -> weighted top (u ++ v :: w) = weighted top (u ++ w) + (total u + (len w + 1) * v))%N.
Proof.
  intros H. rewrite weighted_app by lia. rewrite (weighted_wpos top (u ++ w)) by lia. rewrite rev_app_distr, wpos_app, weight_at_small by lia.
  replace (len (rev w)) with (len w) by (unfold len; now rewrite rev_length).
  assert (E : (0 + len w = len w)%N) by lia. rewrite E.
  rewrite wpos_shift by (unfold len in *; rewrite rev_length; lia). rewrite total_rev. lia.
Qed.
Lemma check_insert l n top u c v : (n <> 0 -> len u + len v + 1 <= top ->
  (check_sum l n top (u ++ c :: v) =? check_sum l n top (u ++ v)) = ((total (map (value l) u) + (len v + 1) * value l c) mod n =? 0))%N.
Proof.
  intros Hn H. unfold check_sum. rewrite !map_app. cbn [map]. rewrite weighted_insert by (rewrite !len_map; exact H).
  rewrite len_map. now apply mod_shift.
Qed.
Lemma last_verified l n top d k : verify_last l n top (d ++ [k]) = if (value l k =? check_sum l n top d)%N then Some d else None.
Proof. unfold verify_last. rewrite rev_app_distr. cbn [rev app]. now rewrite rev_involutive. Qed.

Lemma nth_split_at {A} i (l : list A) c : nth_error l i = Some c -> exists a b, l = a ++ c :: b /\ length a = i.
Proof. intros H. apply nth_error_split in H. exact H. Qed.
Lemma mend_lost {A} (a : list A) c b : mend (length a) (S (length a)) (a ++ c :: b) = a ++ b.
Proof.
  unfold mend. rewrite firstn_app, Nat.sub_diag, firstn_all. cbn [firstn]. rewrite app_nil_r. f_equal.
  change (a ++ c :: b) with (a ++ [c] ++ b). rewrite app_assoc, skipn_app, skipn_all2 by (rewrite app_length; cbn [length]; lia).
  rewrite app_length. cbn [length]. replace (S (length a) - (length a + 1)) with 0 by lia. reflexivity.
Qed.
Lemma mend_twice {A} (a : list A) c b : mend (S (length a)) (length a) (a ++ c :: b) = a ++ c :: c :: b.
Proof.
  unfold mend. change (a ++ c :: b) with (a ++ [c] ++ b) at 1. rewrite app_assoc, firstn_app, firstn_all2 by (rewrite app_length; cbn [length]; lia).
  rewrite app_length. cbn [length]. replace (S (length a) - (length a + 1)) with 0 by lia. cbn [firstn]. rewrite app_nil_r, <- app_assoc. cbn [app].
  now rewrite skipn_app, Nat.sub_diag, skipn_all.
Qed.
Lemma firstn_front {A} (a b : list A) : firstn (length a) (a ++ b) = a.
Proof. rewrite firstn_app, Nat.sub_diag, firstn_all. apply app_nil_r. Qed.

Lemma zero_char l z c : In c (z :: l) -> (value (z :: l) c =? 0)%N = (c =? z)%N.
Proof.
  intros H. apply eq_true_iff_eq. rewrite !N.eqb_eq. assert (Z : value (z :: l) z = 0%N) by (unfold value; cbn [value_in]; now rewrite N.eqb_refl).
  split; [|now intros ->]. intros E. apply (value_inj (z :: l)); [assumption | now left | now rewrite Z].
Qed.

(** ** Code 93 *)
Lemma c93_verified d c k : c93_verify (d ++ [c; k]) =
  if ((c93_value k =? check_sum c93_chars 47 15 (d ++ [c])) && (c93_value c =? check_sum c93_chars 47 20 d))%N then Some d else None.
Proof.
  unfold c93_verify. change (d ++ [c; k]) with (d ++ [c] ++ [k]). rewrite app_assoc, last_verified. unfold c93_value.
  destruct (value c93_chars k =? _)%N; cbn [obind andb]; [|reflexivity]. apply last_verified.
Qed.
Lemma c93_split raw t : c93_verify raw = Some t -> exists c k, raw = t ++ [c; k] /\
  c93_value k = check_sum c93_chars 47 15 (t ++ [c]) /\ c93_value c = check_sum c93_chars 47 20 t.
Proof.
  intros H. destruct raw as [|k raw _] using rev_ind; [discriminate H|].
  destruct raw as [|c raw _] using rev_ind.
  { unfold c93_verify in H. rewrite last_verified in H. destruct (value c93_chars k =? _)%N; discriminate H. }
  rewrite <- app_assoc in H. cbn [app] in H. rewrite c93_verified in H.
  destruct ((c93_value k =? check_sum c93_chars 47 15 (raw ++ [c]))%N && (c93_value c =? check_sum c93_chars 47 20 raw)%N) eqn:E; [|discriminate H]. injection H as ->. apply andb_prop in E. rewrite !N.eqb_eq in E.
  exists c, k. split; [now rewrite <- app_assoc|]. exact E.
Qed.
(** The two conditions on weights [w] and [w + 1] *)
Lemma two_weights s w v : (v < 47 -> ((s + (w + 1) * v) mod 47 =? 0) && ((s + w * v) mod 47 =? 0) = (v =? 0) && (s mod 47 =? 0))%N.
Proof.
  intros Hv. apply eq_true_iff_eq. rewrite !andb_true_iff, !N.eqb_eq. split.
  - intros [H1 H2]. assert (E : (v = 0)%N).
    { replace (s + (w + 1) * v)%N with (s + w * v + v)%N in H1 by lia. rewrite <- N.add_mod_idemp_l, H2, N.add_0_l, N.mod_small in H1 by lia. exact H1. }
    subst v. rewrite N.mul_0_r, N.add_0_r in H2. auto.
  - intros [-> H]. rewrite !N.mul_0_r, N.add_0_r. auto.
Qed.
Lemma c93_lost t c k a x b : t = a ++ x :: b -> Forall (fun c => In c c93_chars) t -> length t <= 14 ->
  c93_value k = check_sum c93_chars 47 15 (t ++ [c]) -> c93_value c = check_sum c93_chars 47 20 t ->
  c93_verify ((a ++ b) ++ [c; k]) = if ((x =? ch "0") && (total (map c93_value a) mod 47 =? 0))%N then Some (a ++ b) else None.
Proof.
  intros -> HI HL HK HC. apply Forall_elt in HI. rewrite app_length in HL. cbn [length] in HL.
  rewrite c93_verified, HK, HC. rewrite <- !app_assoc. cbn [app].
  rewrite check_insert, check_insert by (unfold len in *; rewrite ?app_length; cbn [length]; lia).
  assert (E : (len (b ++ [c]) = len b + 1)%N) by (unfold len; rewrite app_length; cbn [length]; lia). rewrite E.
  rewrite two_weights by exact (value_lt c93_chars x HI). change c93_chars with (ch "0" :: tl c93_chars) at 1.
  rewrite (zero_char (tl c93_chars) (ch "0") x HI). reflexivity.
Qed.
Lemma c93_twice t c k a x b : t = a ++ x :: b -> Forall (fun c => In c c93_chars) t -> length t <= 13 ->
  c93_value k = check_sum c93_chars 47 15 (t ++ [c]) -> c93_value c = check_sum c93_chars 47 20 t ->
  c93_verify ((a ++ x :: x :: b) ++ [c; k]) = if ((x =? ch "0") && (total (map c93_value a) mod 47 =? 0))%N then Some (a ++ x :: x :: b) else None.
Proof.
  intros -> HI HL HK HC. apply Forall_elt in HI. rewrite app_length in HL. cbn [length] in HL.
  rewrite c93_verified, HK, HC. rewrite <- !app_assoc. cbn [app]. rewrite (N.eqb_sym (check_sum c93_chars 47 20 (a ++ x :: b))), (N.eqb_sym (check_sum c93_chars 47 15 (a ++ x :: b ++ [c]))).
  rewrite (check_insert c93_chars 47 15 a x (x :: b ++ [c])), (check_insert c93_chars 47 20 a x (x :: b)) by (unfold len in *; cbn [length]; rewrite ?app_length; cbn [length]; lia).
  assert (E : (len (x :: b ++ [c]) = len (x :: b) + 1)%N) by (unfold len; cbn [length]; rewrite app_length; cbn [length]; lia). rewrite E.
  rewrite two_weights by exact (value_lt c93_chars x HI). change c93_chars with (ch "0" :: tl c93_chars) at 1.
  rewrite (zero_char (tl c93_chars) (ch "0") x HI). reflexivity.
Qed.
Lemma code93_skip p s m : (str_len s < 2 ^ 48)%N -> barcode SCode93 p s = Ret (Ok m) ->
  exists ws, m = render ws /\ read_as SCode93 ws = Some (Text s) /\ forall i c, nth_error s i = Some c ->
    let blind := ((c =? ch "0") && (total (map c93_value (firstn i s)) mod 47 =? 0))%N in
    (length s <= 14 -> read_as SCode93 (splice SCode93 i (S i) ws) = if blind then Some (Text (mend i (S i) s)) else None) /\
    (length s <= 13 -> read_as SCode93 (splice SCode93 (S i) i ws) = if blind then Some (Text (mend (S i) i s)) else None).
Proof.
  intros Hs H. cbn [barcode] in H. apply run_Ok in H. destruct H as (b & HN & HE). injection HN as HN.
  destruct (code93_accepted p s b Hs HN) as [m' [E [Em _]]]. rewrite HE in E. injection E as <-. subst m.
  apply code93_new_Ok in HN. destruct HN as [HD _]. pose proof (c93_message_in s HD) as HM.
  eexists. split; [reflexivity|]. pose proof (c93_symbol_read_raw _ HM) as HR. pose proof (c93_verify_message s) as HV.
  split; [cbn [read_as]; unfold read_c93; unfold c93_message in *; now rewrite HR; cbn [obind]; rewrite HV|].
  change (s ++ [c93_C s; c93_K s]) with (c93_message s). set (ws := c93_symbol (c93_message s)) in *. clearbody ws.
  destruct (c93_split _ _ HV) as (kc & kk & EQ & HK & HC). rewrite EQ in HR.
  intros i c Hc. destruct (nth_split_at _ _ _ Hc) as (u & v & ES & <-). cbv zeta.
  assert (LS : length s = length u + S (length v)) by (rewrite ES, app_length; reflexivity).
  assert (ML : mend (length u) (S (length u)) s = u ++ v) by (rewrite ES; apply mend_lost).
  assert (MT : mend (S (length u)) (length u) s = u ++ c :: c :: v) by (rewrite ES; apply mend_twice).
  assert (FF : firstn (length u) s = u) by (rewrite ES; apply firstn_front).
  split; intros HL; cbn [read_as]; unfold read_c93, splice; cbn [lead stride].
  - rewrite (c93_splice _ _ (length u) (S (length u)) HR) by (rewrite app_length; lia). cbn [obind].
    rewrite mend_app by lia. rewrite ML, FF.
    rewrite (c93_lost s kc kk u c v) by assumption. destruct (_ && _)%bool; reflexivity.
  - rewrite (c93_splice _ _ (S (length u)) (length u) HR) by (rewrite app_length; lia). cbn [obind].
    rewrite mend_app by lia. rewrite MT, FF.
    rewrite (c93_twice s kc kk u c v) by assumption. destruct (_ && _)%bool; reflexivity.
Qed.

(** ** Code 11 *)
Lemma code11_skip p s m : (str_len s < 2 ^ 48)%N -> barcode SCode11 p s = Ret (Ok m) ->
  exists ws, m = render ws /\ read_as SCode11 ws = Some (Text s) /\ forall i c, nth_error s i = Some c ->
    let w := N.of_nat (length s - i) in let front := total (map c11_value (firstn i s)) in
    (length s <= 10 -> read_as SCode11 (splice SCode11 i (S i) ws) =
       if ((front + w * c11_value c) mod 11 =? 0)%N then Some (Text (mend i (S i) s)) else None) /\
    (length s <= 9 -> read_as SCode11 (splice SCode11 (S i) i ws) =
       if ((front + (w + 1) * c11_value c) mod 11 =? 0)%N then Some (Text (mend (S i) i s)) else None).
Proof.
  intros Hs H. cbn [barcode] in H. apply run_Ok in H. destruct H as (b & HN & HE). injection HN as HN.
  pose proof (code11_accepted p s b Hs HN) as E. rewrite HE in E. injection E as ->.
  apply code11_new_Ok in HN. destruct HN as [HD _].
  pose proof (c11_symbol_read_raw _ (c11_checked_in s HD)) as HR.
  exists (c11_symbol (c11_checked s)). split; [reflexivity|].
  split; [cbn [read_as]; now rewrite c11_symbol_read|].
  intros i c Hc. destruct (nth_split_at _ _ _ Hc) as (u & v & ES & <-). cbv zeta.
  assert (LS : length s = length u + S (length v)) by (rewrite ES, app_length; reflexivity).
  assert (ML : mend (length u) (S (length u)) s = u ++ v) by (rewrite ES; apply mend_lost).
  assert (MT : mend (S (length u)) (length u) s = u ++ c :: c :: v) by (rewrite ES; apply mend_twice).
  assert (FF : firstn (length u) s = u) by (rewrite ES; apply firstn_front).
  assert (EC : length s <= 10 -> c11_checked s = s ++ [c11_C s]).
  { intros L. unfold c11_checked. destruct (Nat.ltb_spec 10 (length s)); [lia | reflexivity]. }
  assert (VC : value c11_chars (c11_C s) = check_sum c11_chars 11 10 s).
  { unfold c11_C, c11_sum. apply value_char_of; [exact c11_nodup|]. apply N.mod_lt. discriminate. }
  split; intros HL; cbn [read_as]; unfold read_c11, splice; cbn [lead stride]; rewrite EC in HR |- * by lia.
  - rewrite (c11_splice _ _ (length u) (S (length u)) HR) by (rewrite app_length; lia). cbn [obind].
    rewrite mend_app by lia. rewrite ML, FF. unfold c11_verify.
    rewrite app_length. cbn [length]. rewrite app_length. destruct (Nat.ltb_spec 11 (length u + length v + 1)); [lia|]. cbn [obind].
    rewrite last_verified, VC. rewrite ES at 1. rewrite check_insert by (unfold len in *; lia).
    replace (N.of_nat (length s - length u)) with (len v + 1)%N by (unfold len; lia). unfold c11_value. destruct (_ =? 0)%N; reflexivity.
  - rewrite (c11_splice _ _ (S (length u)) (length u) HR) by (rewrite app_length; lia). cbn [obind].
    rewrite mend_app by lia. rewrite MT, FF. unfold c11_verify.
    rewrite app_length. cbn [length]. rewrite app_length. cbn [length]. destruct (Nat.ltb_spec 11 (length u + S (S (length v)) + 1)); [lia|]. cbn [obind].
    rewrite last_verified, VC. rewrite ES at 1. rewrite N.eqb_sym, (check_insert c11_chars 11 10 u c (c :: v)) by (unfold len in *; cbn [length]; lia).
    replace (N.of_nat (length s - length u) + 1)%N with (len (c :: v) + 1)%N by (unfold len; cbn [length]; lia). unfold c11_value. destruct (_ =? 0)%N; reflexivity.
Qed.

(** ** Code 39 with its check character *)
Lemma c39_valid_iff d k : c39_valid (d ++ [k]) <-> c39_value k = (c39_sum d mod 43)%N.
Proof.
  split; [|intros H; exists d, k; auto]. intros (d' & k' & E & H). apply app_inj_tail in E. destruct E as [<- <-]. exact H.
Qed.
Lemma c39_sum_app a b : (c39_sum (a ++ b) = c39_sum a + c39_sum b)%N.
Proof. unfold c39_sum. rewrite map_app. apply total_app. Qed.
Lemma code39_skip p s m : (str_len s < 2 ^ 48)%N -> barcode SCode39Checked p s = Ret (Ok m) ->
  exists ws, m = render ws /\ read_as SCode39Checked ws = Some (Text (s ++ [c39_check s])) /\ forall i c, nth_error s i = Some c ->
    exists t t', read_as SCode39Checked (splice SCode39Checked i (S i) ws) = Some (Text t) /\ (c39_valid t <-> c = ch "0") /\
      read_as SCode39Checked (splice SCode39Checked (S i) i ws) = Some (Text t') /\ (c39_valid t' <-> c = ch "0").
Proof.
  intros Hs H. cbn [barcode] in H. apply run_Ok in H. destruct H as (b & HN & HE). injection HN as HN.
  destruct (code39_accepted p s b true Hs (or_intror HN)) as [m' [E [Em _]]].
  apply code39_init_Ok in HN. destruct HN as [HD [Hd Hb]]. subst b.
  cbn [c39_data] in E. rewrite HE in E. injection E as <-. subst m.
  pose proof (c39_symbol_read _ (c39_message_in s true HD)) as HR. unfold c39_message in HR. cbv iota in HR.
  eexists. split; [reflexivity|]. split; [cbn [read_as]; now rewrite HR|].
  intros i c Hc. destruct (nth_split_at _ _ _ Hc) as (u & v & ES & <-).
  assert (LS : length s = length u + S (length v)) by (rewrite ES, app_length; reflexivity).
  assert (ML : mend (length u) (S (length u)) s = u ++ v) by (rewrite ES; apply mend_lost).
  assert (MT : mend (S (length u)) (length u) s = u ++ c :: c :: v) by (rewrite ES; apply mend_twice).
  assert (FF : firstn (length u) s = u) by (rewrite ES; apply firstn_front).
  assert (HI : In c c39_chars) by (rewrite ES in HD; apply Forall_elt in HD; exact HD).
  pose proof (c39_value_le _ HI) as HL.
  assert (Z : c = ch "0" <-> (c39_value c = 0)%N).
  { pose proof (zero_char (tl c39_chars) (ch "0") c HI) as Z. change (ch "0" :: tl c39_chars) with c39_chars in Z.
    split; [intros E; apply N.eqb_eq in E; rewrite <- Z in E; now apply N.eqb_eq in E | intros E; apply N.eqb_eq; rewrite <- Z; now apply N.eqb_eq]. }
  assert (G : forall x, ((x + c39_value c) mod 43 = x mod 43 <-> c = ch "0")%N).
  { intros x. rewrite Z. rewrite <- N.eqb_eq, mod_shift, N.eqb_eq by discriminate. rewrite N.mod_small by lia. reflexivity. }
  exists (mend (length u) (S (length u)) s ++ [c39_check s]), (mend (S (length u)) (length u) s ++ [c39_check s]).
  unfold splice. cbn [lead stride read_as].
  rewrite !(c39_splice _ _ _ _ HR) by (rewrite app_length; lia). cbn [option_map]. rewrite !mend_app by lia.
  split; [reflexivity|]. split; [|split; [reflexivity|]]; rewrite c39_valid_iff, c39_check_value, <- (G (c39_sum (u ++ v))).
  - rewrite ML, ES. change (u ++ c :: v) with (u ++ [c] ++ v). rewrite !c39_sum_app.
    assert (E1 : c39_sum [c] = c39_value c) by (unfold c39_sum; cbn [map fold_right]; lia). rewrite E1.
    replace (c39_sum u + (c39_value c + c39_sum v))%N with (c39_sum u + c39_sum v + c39_value c)%N by lia. reflexivity.
  - rewrite MT, ES. change (u ++ c :: v) with (u ++ [c] ++ v). change (u ++ c :: c :: v) with (u ++ [c] ++ [c] ++ v). rewrite !c39_sum_app.
    assert (E1 : c39_sum [c] = c39_value c) by (unfold c39_sum; cbn [map fold_right]; lia). rewrite E1.
    rewrite (G (c39_sum u + c39_sum v)%N), <- (G (c39_sum u + (c39_value c + c39_sum v))%N).
    replace (c39_sum u + (c39_value c + (c39_value c + c39_sum v)))%N with (c39_sum u + (c39_value c + c39_sum v) + c39_value c)%N by lia. split; congruence.
Qed.

(** ** Code 128 *)
Lemma position_shift vs : forall k, (position_sum (k + 1) vs = position_sum k vs + total vs)%N.
Proof. induction vs as [|v vs IH]; intros k; [reflexivity|]. cbn [position_sum]. rewrite IH. unfold total. cbn [fold_right]. lia. Qed.
Lemma position_insert a c b : forall k, (position_sum k (a ++ c :: b) = position_sum k (a ++ b) + ((k + len a) * c + total b))%N.
Proof.
  induction a as [|x a IH]; intros k; cbn [app position_sum].
  - rewrite position_shift. change (len (@nil N)) with 0%N. lia.
  - rewrite IH, len_cons. lia.
Qed.
Lemma decode_start_checked st d k : decode_checked (st :: d ++ [k]) = if (k =? c128_check (st :: d))%N then decode_start st d else None.
Proof.
  unfold decode_checked. change (st :: d ++ [k]) with ((st :: d) ++ [k]). rewrite rev_app_distr. cbn [rev app].
  rewrite rev_app_distr. cbn [rev app]. rewrite rev_involutive. reflexivity.
Qed.
Lemma code128_skip p s m : barcode SCode128 p s = Ret (Ok m) -> read_modules SCode128 m <> None ->
  exists segs st data ws, message_ok segs /\ s = spell segs /\ message_values segs = st :: data /\ m = render ws /\
    forall i v, nth_error data i = Some v ->
      let after := total (skipn (S i) data) in
      read_as SCode128 (splice SCode128 i (S i) ws) =
        (if ((N.of_nat i + 1) * v + after) mod 103 =? 0 then option_map Tokens (decode_start st (mend i (S i) data)) else None)%N /\
      read_as SCode128 (splice SCode128 (S i) i ws) =
        (if ((N.of_nat i + 2) * v + after) mod 103 =? 0 then option_map Tokens (decode_start st (mend (S i) i data)) else None)%N.
Proof.
  intros H HX. cbn [barcode] in H. apply run_Ok in H. destruct H as (b & HN & HE). injection HN as HN.
  destruct (code128_new_Ok s b HN) as [segs [HM [Es ->]]].
  destruct (encode_returns_form p _ m (message_units_idx _ HM) HE) as [chk [HC Em]]. rewrite message_units_values in Em.
  assert (HL : Forall (fun v => (v < 106)%N) (message_values segs ++ [chk])) by (apply Forall_snoc; [now apply message_values_lt | assumption]).
  pose proof (read_values_symbol _ _ HL) as HR.
  assert (HD : decode_checked (message_values segs ++ [chk]) <> None).
  { intros E. apply HX. unfold read_modules. rewrite Em, symbol_with_scan by assumption. cbn [obind read_as]. unfold read_c128. now rewrite HR; cbn [obind]; rewrite E. }
  destruct (decode_checked_form _ HD) as (st & data & EV & Hst & Hd). apply app_inj_tail in EV. destruct EV as [EV ->].
  exists segs, st, data. eexists. split; [assumption|]. split; [assumption|]. split; [assumption|]. split; [exact Em|].
  intros i v Hv. destruct (nth_split_at _ _ _ Hv) as (a & w & ES & <-). cbv zeta.
  assert (LS : length data = length a + S (length w)) by (rewrite ES, app_length; reflexivity).
  rewrite EV in HR |- *. set (ws := symbol_with (st :: data) (c128_check (st :: data))) in *.
  assert (SK : skipn (S (length a)) data = w).
  { rewrite ES. change (a ++ v :: w) with (a ++ [v] ++ w). rewrite app_assoc, skipn_app, skipn_all2 by (rewrite app_length; cbn [length]; lia).
    rewrite app_length. cbn [length]. replace (S (length a) - (length a + 1)) with 0 by lia. reflexivity. }
  rewrite SK. clear SK.
  assert (P : forall i j, i <= length data -> j <= length data -> read_as SCode128 (splice SCode128 i j ws) =
    option_map Tokens (if (c128_check (st :: data) =? c128_check (st :: mend i j data))%N then decode_start st (mend i j data) else None)).
  { intros i j Hi Hj. unfold splice. cbn [lead stride read_as]. unfold read_c128.
    replace (6 + 6 * i) with (6 * S i) by lia. replace (6 + 6 * j) with (6 * S j) by lia.
    rewrite (c128_splice _ _ (S i) (S j) HR) by (rewrite app_length; cbn [length]; lia). cbn [obind app].
    change (mend (S i) (S j) (st :: data ++ [c128_check (st :: data)])) with (st :: mend i j (data ++ [c128_check (st :: data)])).
    rewrite mend_app by assumption. now rewrite decode_start_checked. }
  rewrite !P by lia. clear P. clearbody ws.
  assert (ML : mend (length a) (S (length a)) data = a ++ w) by (rewrite ES; apply mend_lost).
  assert (MT : mend (S (length a)) (length a) data = a ++ v :: v :: w) by (rewrite ES; apply mend_twice).
  rewrite ML, MT, ES.
  unfold c128_check, c128_sum.
  rewrite (N.eqb_sym ((st + position_sum 1 (a ++ v :: w)) mod 103) ((st + position_sum 1 (a ++ v :: v :: w)) mod 103)).
  rewrite (position_insert a v (v :: w) 1). set (S1 := position_sum 1 (a ++ v :: w)). rewrite (N.add_assoc st S1), mod_shift by discriminate.
  unfold S1. rewrite (position_insert a v w 1), (N.add_assoc st (position_sum 1 (a ++ w))), mod_shift by discriminate. clear S1.
  split.
  - replace (N.of_nat (length a) + 1)%N with (1 + len a)%N by (unfold len; lia). destruct (_ =? 0)%N; reflexivity.
  - replace ((N.of_nat (length a) + 2) * v + total w)%N with ((1 + len a) * v + total (v :: w))%N by (unfold len, total; cbn [fold_right]; lia).
    destruct (_ =? 0)%N; reflexivity.
Qed.

(** ** No check character *)
Lemma plain_skip y p s m r : (str_len s < 2 ^ 48)%N -> barcode y p s = Ret (Ok m) -> read_modules y m = Some r ->
  y = SCode39 \/ y = SCodabar \/ y = SItf \/ y = SStf ->
  exists ws, m = render ws ++ tail y /\ read_as y ws = Some r /\ forall i j, i <= characters y r -> j <= characters y r ->
    read_as y (splice y i j ws) = Some (spliced y i j r).
Proof.
  intros Hs H HR HY. destruct (shape_scan y m (barcode_shape y p s m Hs H)) as (ws & ES & Em & _).
  unfold read_modules in HR. rewrite ES in HR. cbn [obind] in HR. exists ws. split; [assumption|]. split; [assumption|].
  intros i j Hi Hj. unfold splice. destruct HY as [->|[->|[->| ->]]]; cbn [read_as lead stride] in *.
  - destruct (read_c39 ws) as [t|] eqn:E; [|discriminate HR]. injection HR as <-. now rewrite (c39_splice ws t).
  - destruct (read_cod ws) as [t|] eqn:E; [|discriminate HR]. injection HR as <-. now rewrite (cod_splice ws t).
  - destruct (read_itf ws) as [t|] eqn:E; [|discriminate HR]. injection HR as <-. now rewrite (itf_splice ws t).
  - destruct (read_stf ws) as [t|] eqn:E; [|discriminate HR]. injection HR as <-. now rewrite (stf_splice ws t).
Qed.

(** ** Fixed lengths *)
Definition retail_size (y : symbology) (k : nat) : Prop :=
  match y with SEan13 | SUpca => k = 59 | SEan8 => k = 43 | SSupp => k = 13 \/ k = 31 | _ => True end.
Lemma halves_size n ws x : read_halves n ws = Some x -> length ws = 8 * n + 11.
Proof.
  intros H. unfold read_halves in H. apply guard_Some in H. destruct H as [H _].
  apply andb_prop in H. destruct H as [H _]. apply andb_prop in H. destruct H as [H _]. apply andb_prop in H. destruct H as [H _].
  apply Nat.eqb_eq in H. lia.
Qed.
Lemma retail_read_size y ws r : read_as y ws = Some r -> retail_size y (length ws).
Proof.
  intros H. destruct y; try exact I.
  - destruct (read_halves_of SEan13 ws r) as [x E]; auto. apply halves_size in E. exact E.
  - destruct (read_halves_of SEan8 ws r) as [x E]; auto. apply halves_size in E. exact E.
  - destruct (read_halves_of SUpca ws r) as [x E]; auto. apply halves_size in E. exact E.
  - cbn [read_as] in H. destruct (read_ean2 ws) as [l|] eqn:E2; [apply ean2_form in E2; left; lia|].
    destruct (read_ean5 ws) as [l|] eqn:E5; [|discriminate H]. apply ean5_form in E5. right. lia.
Qed.
Lemma retail_skip y p s m : (str_len s < 2 ^ 48)%N -> barcode y p s = Ret (Ok m) -> y = SEan13 \/ y = SEan8 \/ y = SUpca \/ y = SSupp ->
  exists ws r, m = render ws /\ read_as y ws = Some r /\ forall k n, 1 <= n <= 17 -> k + n <= length ws ->
    read_as y (mend k (k + n) ws) = None /\ read_as y (mend (k + n) k ws) = None.
Proof.
  intros Hs H HY. destruct (shape_scan y m (barcode_shape y p s m Hs H)) as (ws & ES & Em & _).
  assert (G : exists r, read_modules y m = Some r).
  { pose proof (barcode_meant y p s m Hs H) as HM. destruct HY as [->|[->|[->| ->]]]; cbn [meant] in HM; try (destruct HM as (c & _ & HM)); eauto. }
  destruct G as [r HR]. unfold read_modules in HR. rewrite ES in HR. cbn [obind] in HR. exists ws, r.
  split; [rewrite Em; destruct HY as [->|[->|[->| ->]]]; now rewrite app_nil_r|]. split; [assumption|].
  intros k n Hn Hk. pose proof (retail_read_size y ws r HR) as HS.
  assert (L1 : length (mend k (k + n) ws) = length ws - n) by (rewrite mend_length; lia).
  assert (L2 : length (mend (k + n) k ws) = length ws + n) by (rewrite mend_length; lia).
  split.
  - destruct (read_as y (mend k (k + n) ws)) as [r'|] eqn:E; [exfalso|reflexivity]. apply retail_read_size in E. rewrite L1 in E.
    destruct HY as [->|[->|[->| ->]]]; cbn [retail_size] in *; lia.
  - destruct (read_as y (mend (k + n) k ws)) as [r'|] eqn:E; [exfalso|reflexivity]. apply retail_read_size in E. rewrite L2 in E.
    destruct HY as [->|[->|[->| ->]]]; cbn [retail_size] in *; lia.
Qed.
