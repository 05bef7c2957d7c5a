(** * Proofs: ink added or lost all over a 2 of 5 symbol *)
From Verif Require Import Rust M_Error Symbology M_Tf M_Use S_Barcode S_Ean S_Text S_Linear S_Codabar S_Tf S_Code128 S_All S_Damage S_Ink
  P_Rust P_Barcode P_Tf P_All P_Apart P_Damage P_Cell P_Cut P_Wrong P_Part P_Ink.
Local Open Scope nat_scope.

Lemma squash_wide x : Forall (fun q => q = 1 \/ q = 2) (squash x) -> Forall (fun w => 1 <= w <= 3) x /\ list_sum (map wide x) + length x = list_sum (squash x).
Proof.
  induction x as [|w x IH]; intros H; [split; [constructor | reflexivity]|]. cbn [squash map] in H. inversion H as [|? ? H1 H2]; subst. destruct (IH H2) as [A B].
  assert (W : 1 <= w <= 3) by (destruct w as [|[|[|[|w]]]]; cbn in H1; lia). split; [now constructor|].
  cbn [map length squash]. fold (squash x). change (list_sum (?a :: ?b)) with (a + list_sum b). unfold list_sum in *. cbn [fold_right] in *.
  destruct w as [|[|[|[|w]]]]; try lia; cbn [wide Nat.leb]; lia.
Qed.
Lemma digit_wide x d : read_tf_digit x = Some d -> length x = 5 /\ Forall (fun w => 1 <= w <= 3) x /\ list_sum (map wide x) = 2.
Proof.
  unfold read_tf_digit. intros H. apply option_map_Some in H. destruct H as (i & H & _). apply which_sound, nth_error_In in H.
  assert (T : forallb (fun r => (length r =? 5) && (list_sum r =? 7) && forallb (fun q => (q =? 1) || (q =? 2)) r) tf_table = true) by (vm_compute; reflexivity).
  pose proof (proj1 (forallb_forall _ _) T _ H) as T1. cbv beta in T1. apply andb_prop in T1. destruct T1 as [T1 T2]. apply andb_prop in T1. destruct T1 as [T0 T1].
  apply Nat.eqb_eq in T0, T1. assert (L : length (squash x) = length x) by apply map_length.
  assert (F : Forall (fun q => q = 1 \/ q = 2) (squash x)).
  { apply Forall_forall. intros q Hq. pose proof (proj1 (forallb_forall _ _) T2 q Hq) as E. cbv beta in E. apply orb_prop in E. destruct E as [E|E]; apply Nat.eqb_eq in E; auto. }
  destruct (squash_wide x F) as [A B]. split; [lia|]. split; [assumption | lia].
Qed.
Lemma unweave_alt b x y : length b = 10 -> unweave b = (x, y) -> (forall f, alt f true b = list_sum (map f x) /\ alt f false b = list_sum (map f y)) /\
  (forall P : nat -> Prop, Forall P x -> Forall P y -> Forall P b).
Proof.
  intros L. do 10 (destruct b as [|? b]; [discriminate L|]). destruct b; [|discriminate L]. cbn [unweave]. intros E. injection E as <- <-. split.
  - intros f. unfold list_sum. cbn [alt map fold_right negb]. lia.
  - intros P A B. repeat match goal with H : Forall P (_ :: _) |- _ => inversion H; clear H; subst end. repeat constructor; assumption.
Qed.
Lemma alt_concat f on v bs : Forall (fun b => length b = 10) bs -> Forall (fun b => alt f on b = v) bs -> alt f on (concat bs) = v * length bs.
Proof.
  intros F V. induction F as [|b bs Lb F IH]; [cbn [concat alt length]; lia|]. inversion V; subst. cbn [concat length]. rewrite alt_app_even by (now rewrite Lb). rewrite IH by assumption. lia.
Qed.
Lemma alt_bounds ws : Forall (fun w => 1 <= w <= 3) ws -> forall on, alt (fun _ => 1) on ws + alt wide on ws <= alt (fun w => w) on ws <= alt (fun _ => 1) on ws + 2 * alt wide on ws.
Proof.
  induction 1 as [|w ws Hw _ IH]; intros on; [cbn [alt]; lia|]. specialize (IH (negb on)). cbn [alt]. destruct on; [|lia]. unfold wide at 1 3. destruct (Nat.leb_spec 2 w); lia.
Qed.
Lemma alt_thirds ws : Forall (fun w => w = 1 \/ w = 3) ws -> forall on, alt (fun w => w) on ws = alt (fun _ => 1) on ws + 2 * alt wide on ws.
Proof.
  induction 1 as [|w ws Hw _ IH]; intros on; [reflexivity|]. specialize (IH (negb on)). cbn [alt]. destruct on; [|lia]. unfold wide at 1. destruct Hw as [-> | ->]; cbn [Nat.leb]; lia.
Qed.
Lemma alt_one b : length b = 10 -> forall on, alt (fun _ => 1) on b = 5.
Proof. intros L on. do 10 (destruct b as [|? b]; [discriminate L|]). destruct b; [|discriminate L]. destruct on; reflexivity. Qed.

(** ** Interleaved *)
Lemma itf_blocks bs ds : Forall (fun b => length b = 10) bs -> read_all itf_block bs = Some ds ->
  Forall (fun w => 1 <= w <= 3) (concat bs) /\ (forall on, alt wide on (concat bs) = 2 * length bs) /\ (forall on, alt (fun _ => 1) on (concat bs) = 5 * length bs).
Proof.
  intros F R.
  assert (G : Forall (fun b => Forall (fun w => 1 <= w <= 3) b /\ forall on, alt wide on b = 2) bs).
  { revert ds R. induction F as [|b bs Lb F IH]; intros ds R; [constructor|]. apply read_all_cons in R. destruct R as (d & ds' & Hd & R & ->). constructor; [|now apply (IH ds')].
    unfold itf_block in Hd. destruct (unweave b) as [x y] eqn:U. apply obind_Some in Hd. destruct Hd as (d1 & H1 & Hd). apply obind_Some in Hd. destruct Hd as (d2 & H2 & _).
    apply digit_wide in H1, H2. destruct H1 as (_ & F1 & W1), H2 as (_ & F2 & W2). destruct (unweave_alt b x y Lb U) as [UA UF]. split; [now apply UF|]. intros on. destruct (UA wide), on; lia. }
  split; [|split; intros on].
  - apply Forall_concat. revert G. apply Forall_impl. tauto.
  - apply alt_concat; [assumption|]. revert G. apply Forall_impl. intros b [_ H]. apply H.
  - apply alt_concat; [assumption|]. revert F. apply Forall_impl. intros b H. now apply alt_one.
Qed.
Lemma itf_stop_bar ws r : read_itf ws = Some r -> exists bs g ds, ws = [1;1;1;1] ++ concat bs ++ [g;1;1] /\
  Forall (fun b => length b = 10) bs /\ read_all itf_block bs = Some ds /\ r = concat ds /\ 2 <= g <= 3.
Proof.
  intros H. destruct (itf_form ws r H) as (bs & g & ds & E & F & R & Er). exists bs, g, ds. repeat (split; [assumption|]). clear - H E.
  unfold read_itf in H. destruct (trim_ends 4 3 ws) as [[a body] z] eqn:ET. apply trim_ends_whole in ET. destruct ET as [HW _].
  apply guard_Some in H. destruct H as [H _]. apply andb_prop in H. destruct H as [Ha Hz]. apply widths_eqb_eq in Ha, Hz.
  destruct z as [|g' [|z1 [|z2 [|? ?]]]]; try discriminate.
  assert (g' = g).
  { rewrite HW in E. change [g; 1; 1] with ([g; 1] ++ [1]) in E. change [g; 1] with ([g] ++ [1]) in E. change [g'; z1; z2] with (([g'] ++ [z1]) ++ [z2]) in E. rewrite !app_assoc in E.
    apply app_inj_tail in E. destruct E as [E _]. apply app_inj_tail in E. destruct E as [E _]. now apply app_inj_tail in E. }
  subst g'. cbn [squash map] in Hz. injection Hz as Hz _. destruct g as [|[|[|[|g]]]]; try discriminate; lia.
Qed.
Lemma itf_measure zs r : read_itf zs = Some r -> exists n g D L, length zs = 10 * n + 7 /\ 2 <= g <= 3 /\ Forall (fun w => 1 <= w <= 3) zs /\
  alt (fun w => w) true zs = D + 3 + g /\ alt (fun w => w) false zs = L + 3 /\ 7 * n <= D <= 9 * n /\ 7 * n <= L <= 9 * n /\
  alt wide true zs = 2 * n + 1 /\ alt wide false zs = 2 * n.
Proof.
  intros H. destruct (itf_stop_bar zs r H) as (bs & g & ds & -> & F & R & _ & Hg). destruct (itf_blocks bs ds F R) as (B1 & B2 & B3).
  exists (length bs), g, (alt (fun w => w) true (concat bs)), (alt (fun w => w) false (concat bs)).
  assert (EV : Nat.even (length (concat bs)) = true) by (rewrite (concat_length_const 10) by assumption; now rewrite Nat.even_mul).
  pose proof (alt_bounds _ B1 true) as T. pose proof (alt_bounds _ B1 false) as T'. rewrite B2, B3 in T, T'.
  assert (W : wide g = 1) by (unfold wide; destruct (Nat.leb_spec 2 g); lia).
  split; [rewrite !app_length, (concat_length_const 10) by assumption; cbn [length]; lia|]. split; [assumption|].
  split.
  { apply Forall_app. split; [repeat constructor|]. apply Forall_app. split; [assumption|]. repeat (apply Forall_cons; [lia|]). apply Forall_nil. }
  rewrite !(alt_app_even _ [1;1;1;1]), !(alt_app_even _ (concat bs)), !B2 by (assumption || reflexivity). cbn [alt negb]. rewrite W. change (wide 1) with 0. repeat split; lia.
Qed.
(** Added ink *)
Lemma itf_inked ws zs r r' : read_itf ws = Some r -> (exists data, ws = [1;1;1;1] ++ data ++ [2;1;1] /\ Forall (fun w => w = 1 \/ w = 3) data) ->
  read_itf zs = Some r' -> inked (render ws) (render zs) -> render zs = render ws \/ one_wrong (render ws) (render zs).
Proof.
  intros H (data & E & FD) H' HI.
  destruct (itf_measure _ _ H) as (n & g & D & L & L1 & Hg & F & A & A0 & _ & _ & W1 & W0). destruct (itf_measure _ _ H') as (n' & g' & D' & L' & L1' & Hg' & F' & A' & A0' & BD & BL & W1' & W0').
  assert (EX : D + g = 9 * n + 2 /\ L = 9 * n).
  { destruct (itf_stop_bar _ _ H) as (bs & g0 & ds & E0 & F0 & R0 & _). rewrite E in E0. apply app_inv_head in E0.
    assert (LD : length data + 7 = length ws) by (rewrite E, !app_length; cbn [length]; lia).
    assert (LB : length (concat bs) + 3 = length data + 3) by (apply (f_equal (@length _)) in E0; rewrite !app_length in E0; cbn [length] in E0; lia).
    apply split_same in E0; [|lia]. destruct E0 as [E0 _]. destruct (itf_blocks bs ds F0 R0) as (B1 & B2 & B3). rewrite <- E0 in *.
    assert (LN : length bs = n) by (rewrite E0, (concat_length_const 10) in LD by assumption; lia). rewrite LN in *.
    pose proof (alt_thirds _ FD true) as T. pose proof (alt_thirds _ FD false) as T'. rewrite B2, B3 in T, T'.
    assert (EV : Nat.even (length data) = true) by (replace (length data) with (10 * n) by lia; now rewrite Nat.even_mul).
    rewrite E in A, A0. rewrite !(alt_app_even _ [1;1;1;1]), !(alt_app_even _ data) in A, A0 by (assumption || reflexivity). cbn [alt negb] in A, A0. lia. }
  assert (P : Forall (fun w => 1 <= w) zs) by (revert F'; apply Forall_impl; lia).
  pose proof (wides_le 0 zs ws ltac:(now left) (inked_light _ _ HI) P F) as WL. change (1 =? 0)%N with false in WL.
  pose proof (inked_length _ _ HI) as LE. unfold render in LE. rewrite !render_from_length, <- !alt_both in LE.
  destruct (inked_dk _ _ HI) as (K1 & K2 & K3). rewrite !dk_render in K1, K2, K3.
  assert (NN : n' = n) by lia. subst n'.
  destruct (Nat.eq_dec (alt (fun w => w) true zs) (alt (fun w => w) true ws)) as [EQ|NE]; [left; symmetry; now apply K2|].
  right. destruct K3 as (l & t & El & Er); [lia|]. exists l, 0%N, 1%N, t. repeat split; [assumption | assumption | discriminate].
Qed.
(** Lost ink *)
Lemma itf_faded ws zs r r' : read_itf ws = Some r -> (exists data, ws = [1;1;1;1] ++ data ++ [2;1;1] /\ Forall (fun w => w = 1 \/ w = 3) data) ->
  read_itf zs = Some r' -> inked (render zs) (render ws) -> render zs = render ws.
Proof.
  intros H (data & E & FD) H' HI.
  destruct (itf_measure _ _ H) as (n & g & D & L & L1 & Hg & F & A & A0 & _ & _ & W1 & W0). destruct (itf_measure _ _ H') as (n' & g' & D' & L' & L1' & Hg' & F' & A' & A0' & BD & BL & W1' & W0').
  assert (EX : D + g = 9 * n + 2 /\ L = 9 * n).
  { destruct (itf_stop_bar _ _ H) as (bs & g0 & ds & E0 & F0 & R0 & _). rewrite E in E0. apply app_inv_head in E0.
    assert (LD : length data + 7 = length ws) by (rewrite E, !app_length; cbn [length]; lia).
    assert (LB : length (concat bs) + 3 = length data + 3) by (apply (f_equal (@length _)) in E0; rewrite !app_length in E0; cbn [length] in E0; lia).
    apply split_same in E0; [|lia]. destruct E0 as [E0 _]. destruct (itf_blocks bs ds F0 R0) as (B1 & B2 & B3). rewrite <- E0 in *.
    assert (LN : length bs = n) by (rewrite E0, (concat_length_const 10) in LD by assumption; lia). rewrite LN in *.
    pose proof (alt_thirds _ FD true) as T. pose proof (alt_thirds _ FD false) as T'. rewrite B2, B3 in T, T'.
    assert (EV : Nat.even (length data) = true) by (replace (length data) with (10 * n) by lia; now rewrite Nat.even_mul).
    rewrite E in A, A0. rewrite !(alt_app_even _ [1;1;1;1]), !(alt_app_even _ data) in A, A0 by (assumption || reflexivity). cbn [alt negb] in A, A0. lia. }
  assert (P : Forall (fun w => 1 <= w) zs) by (revert F'; apply Forall_impl; lia).
  pose proof (wides_le 1 zs ws ltac:(now right) (inked_dark _ _ HI) P F) as WL. change (1 =? 1)%N with true in WL.
  pose proof (inked_length _ _ HI) as LE. unfold render in LE. rewrite !render_from_length, <- !alt_both in LE.
  destruct (inked_dk _ _ HI) as (K1 & K2 & _). rewrite !dk_render in K1, K2. apply K2. lia.
Qed.

(** ** Standard *)
Lemma stf_measure zs r : read_stf zs = Some r -> exists n, length r = n /\ length zs = 10 * n + 11 /\ Forall (fun w => 1 <= w <= 3) zs /\
  alt (fun w => w) false zs = 5 * n + 5 /\ alt wide true zs = 2 * n + 4.
Proof.
  intros H. destruct (stf_form zs r H) as (a & bs & z & -> & Ha & Hz & F & R). exists (length bs).
  assert (LB : length (concat bs) = 10 * length bs) by now apply (concat_length_const 10).
  assert (LA : length a = 6) by (rewrite <- (map_length (fun x => match x with 1 => 1 | 2 | 3 => 2 | _ => 0 end) a); change (length (squash a) = 6); now rewrite Ha).
  assert (LZ : length z = 5) by (rewrite <- (map_length (fun x => match x with 1 => 1 | 2 | 3 => 2 | _ => 0 end) z); change (length (squash z) = 5); now rewrite Hz).
  assert (G : Forall (fun b => Forall (fun w => 1 <= w <= 3) b /\ alt wide true b = 2 /\ alt (fun w => w) false b = 5) bs).
  { clear - F R. revert r R. induction F as [|b bs Lb F IH]; intros r R; [constructor|]. apply read_all_cons in R. destruct R as (d & ds' & Hd & R & ->). constructor; [|now apply (IH ds')].
    unfold stf_block in Hd. destruct (unweave b) as [x y] eqn:U. apply guard_Some in Hd. destruct Hd as [Hy Hd]. apply widths_eqb_eq in Hy. subst y.
    apply digit_wide in Hd. destruct Hd as (_ & F1 & W1). destruct (unweave_alt b x _ Lb U) as [UA UF]. split; [apply UF; [assumption | repeat constructor]|].
    split; [now rewrite (proj1 (UA wide)) | now rewrite (proj2 (UA (fun w => w)))]. }
  split; [symmetry; now apply read_all_length in R|]. split; [rewrite !app_length; lia|].
  assert (SA : Forall (fun w => 1 <= w <= 3) a) by (apply squash_wide; rewrite Ha; repeat constructor).
  assert (SZ : Forall (fun w => 1 <= w <= 3) z) by (apply squash_wide; rewrite Hz; repeat constructor).
  split; [apply Forall_app; split; [assumption|]; apply Forall_app; split; [|assumption]; apply Forall_concat; revert G; apply Forall_impl; tauto|].
  assert (EB : Nat.even (length (concat bs)) = true) by (rewrite LB; now rewrite Nat.even_mul).
  rewrite !(alt_app_even _ a), !(alt_app_even _ (concat bs)) by (assumption || now rewrite LA).
  rewrite (alt_concat (fun w => w) false 5 bs), (alt_concat wide true 2 bs) by (assumption || (revert G; apply Forall_impl; tauto)).
  do 6 (destruct a as [|? a]; [discriminate LA|]). destruct a; [|discriminate LA]. do 5 (destruct z as [|? z]; [discriminate LZ|]). destruct z; [|discriminate LZ].
  cbn [squash map] in Ha, Hz. injection Ha as. injection Hz as. cbn [alt negb]. unfold wide.
  repeat match goal with H : match ?n with _ => _ end = _ |- _ => destruct n as [|[|[|[|?]]]]; try discriminate H; clear H end; cbn [Nat.leb]; lia.
Qed.
Lemma stf_inked ws zs r r' x : read_stf ws = Some r -> read_stf zs = Some r' -> inked (render ws ++ [0%N]) x ->
  (x = render zs ++ [0%N] \/ x = render zs) -> length r' = length r /\ (x = render ws ++ [0%N] \/ x = render ws ++ [1%N]).
Proof.
  intros H H' HI HX. destruct (stf_measure _ _ H) as (n & Ln & L & F & A & W). destruct (stf_measure _ _ H') as (n' & Ln' & L' & F' & A' & W').
  assert (P : Forall (fun w => 1 <= w) ws) by (revert F; apply Forall_impl; lia).
  assert (HD : exists x0 b, x = x0 ++ [b] /\ inked (render ws) x0 /\ (b = 0%N \/ b = 1%N)).
  { apply Forall2_app_inv_l in HI. destruct HI as (x0 & x1 & I0 & I1 & ->). inversion I1 as [|? b ? ? Hb I2]; subst. inversion I2; subst. exists x0, b. split; [reflexivity|]. split; [assumption|]. destruct Hb as [<-|[_ ->]]; auto. }
  destruct HD as (x0 & b & -> & I0 & Hb).
  assert (WD : forall l k, wd 1 k (l ++ [0%N]) = wd 1 k l).
  { induction l as [|y l IH]; intros k; [reflexivity|]. cbn [app wd]. now rewrite !IH. }
  assert (NL : n <= n').
  { destruct HX as [HX|HX].
    - apply app_inj_tail in HX. destruct HX as [-> _]. pose proof (wides_le 1 ws zs ltac:(now right) (inked_dark _ _ I0) P F') as WL. change (1 =? 1)%N with true in WL. lia.
    - rewrite HX in HI. pose proof (inked_dark _ _ HI) as I1.
      pose proof (wd_le 1 _ _ 0 0 I1 ltac:(lia) (short_render 1 ltac:(now right) zs 1%N (or_intror eq_refl) F' 0 (fun _ => eq_refl))) as WL. rewrite WD in WL.
      unfold render in WL. assert (P' : Forall (fun w => 1 <= w) zs) by (revert F'; apply Forall_impl; lia).
      rewrite (wd_render 1 ltac:(now right) ws 1%N (or_intror eq_refl) P 0 (fun _ => eq_refl)), (wd_render 1 ltac:(now right) zs 1%N (or_intror eq_refl) P' 0 (fun _ => eq_refl)) in WL.
      change (1 =? 1)%N with true in WL. cbn [Nat.eqb andb] in WL. lia. }
  assert (LI : length (render ws) = length x0) by now apply inked_length.
  assert (LL : length (render ws) = alt (fun w => w) true ws + alt (fun w => w) false ws) by (unfold render; now rewrite render_from_length, alt_both).
  assert (LR : length (render zs) = alt (fun w => w) true zs + alt (fun w => w) false zs) by (unfold render; now rewrite render_from_length, alt_both).
  destruct (inked_dk _ _ I0) as (K1 & K2 & _). rewrite dk_render in K1, K2.
  assert (DX : dk x0 + (5 * n' + 5) = length x0).
  { destruct HX as [HX|HX].
    - apply app_inj_tail in HX. destruct HX as [-> _]. rewrite dk_render. lia.
    - assert (DD : dk (x0 ++ [b]) = alt (fun w => w) true zs) by (rewrite HX; apply dk_render). assert (DL : length (x0 ++ [b]) = length (render zs)) by now rewrite HX.
      rewrite dk_app in DD. rewrite app_length in DL. cbn [length] in DL.
      assert (LB : b = 1%N).
      { destruct Hb as [->|]; [exfalso|assumption]. assert (OD : Nat.even (length zs) = false) by (rewrite L', Nat.even_add, Nat.even_mul; reflexivity).
        destruct zs as [|w zs0 _] using rev_ind; [discriminate|]. rewrite app_length, Nat.add_1_r, Nat.even_succ, <- Nat.negb_even, Bool.negb_false_iff in OD.
        unfold render in HX. rewrite render_from_app_even in HX by (assumption || now right). cbn [render_from] in HX. rewrite app_nil_r in HX. apply Forall_app in F'. destruct F' as [_ F']. inversion F'; subst.
        destruct w as [|w]; [lia|]. rewrite <- (Nat.add_1_r w), repeat_app, app_assoc in HX. apply app_inj_tail in HX. destruct HX as [_ HX]. discriminate. }
      subst b. change (dk [1%N]) with 1 in DD. lia. }
  assert (x0 = render ws) by (symmetry; apply K2; lia). subst x0. split; [lia|]. destruct Hb as [-> | ->]; auto.
Qed.
Lemma stf_faded ws zs r r' : read_stf ws = Some r -> read_stf zs = Some r' -> inked (render zs) (render ws) -> render zs = render ws.
Proof.
  intros H H' HI. destruct (stf_measure _ _ H) as (n & Ln & L & F & A & W). destruct (stf_measure _ _ H') as (n' & Ln' & L' & F' & A' & W').
  assert (P : Forall (fun w => 1 <= w) zs) by (revert F'; apply Forall_impl; lia).
  pose proof (wides_le 1 zs ws ltac:(now right) (inked_dark _ _ HI) P F) as WL. change (1 =? 1)%N with true in WL.
  pose proof (inked_length _ _ HI) as LE. unfold render in LE. rewrite !render_from_length, <- !alt_both in LE.
  destruct (inked_dk _ _ HI) as (K1 & K2 & _). rewrite !dk_render in K1, K2. apply K2. lia.
Qed.
