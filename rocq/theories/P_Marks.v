(** * Proofs: marks on the line of a symbol *)
From Verif Require Import Rust M_Error Symbology M_Use S_Barcode S_Ean S_Text S_Linear S_Codabar S_Tf S_Code128 S_All S_Cut
  P_Rust P_Barcode P_All P_Apart P_Damage P_Cell P_Cut P_Wrong P_Part P_Line P_Stretch P_Part2 P_Side P_Check128 P_Ink4.
Local Open Scope nat_scope.

Lemma line_form a m b t zs : m = 1%N :: t -> scan (a ++ m ++ b) = Some zs ->
  exists a' j k, a = repeat 0%N j ++ a' /\ render zs ++ repeat 0%N k = a' ++ m ++ b.
Proof.
  intros Em HS. destruct (scan_form _ _ HS) as (j & k & E).
  assert (HJ : j <= length a).
  { destruct (Nat.le_gt_cases j (length a)) as [|HJ]; [assumption|]. exfalso.
    assert (N1 : nth_error (a ++ m ++ b) (length a) = Some 1%N) by (rewrite nth_error_app2, Nat.sub_diag, Em by lia; reflexivity).
    rewrite E, nth_error_app1 in N1 by (rewrite repeat_length; lia). apply nth_error_In, repeat_spec in N1. discriminate. }
  exists (skipn j a), j, k. assert (EA : a = firstn j a ++ skipn j a) by (symmetry; apply firstn_skipn).
  assert (LF : length (repeat 0%N j) = length (firstn j a)) by (rewrite repeat_length, firstn_length; lia).
  rewrite EA, <- app_assoc in E. symmetry in E. apply (split_same _ _ _ _ LF) in E. destruct E as [EF E]. split; [rewrite EF; exact EA | exact E].
Qed.
Lemma printed_dark y p s m : (str_len s < 2 ^ 48)%N -> barcode y p s = Ret (Ok m) -> exists t, m = 1%N :: t.
Proof.
  intros Hs H. destruct (printed_elements y p s m Hs H) as (ws & _ & E & HO & HP). destruct (render_ends ws HO HP) as [[t Et] _]. rewrite E, Et. now eexists.
Qed.

Lemma stf_right ws ws' r r' : read_stf ws = Some r -> read_stf ws' = Some r' -> short_right ws ws' -> exists e, r = r' ++ e.
Proof.
  intros H H' (u & w & w' & v & -> & E2 & _ & Hw & HV). apply stf_form in H, H'.
  destruct H as (a & bs & z & E & Ha & Hz & HF & HR). destruct H' as (a' & bs' & z' & E' & Ha' & Hz' & HF' & HR').
  pose proof (squash_length _ _ Ha) as La. pose proof (squash_length _ _ Ha') as La'.
  pose proof (squash_length _ _ Hz) as Lz. pose proof (squash_length _ _ Hz') as Lz'.
  destruct z' as [|g' [|z1 [|z2 [|z3 [|z4 [|? ?]]]]]]; try discriminate. rewrite E2 in E'.
  change [g';z1;z2;z3;z4] with ([g';z1;z2;z3] ++ [z4]) in E'. rewrite !app_assoc in E'. apply app_inj_tail in E'. destruct E' as [-> ->].
  rewrite <- !app_assoc in E. change ([g';z1;z2;z3] ++ w :: v) with ([g';z1;z2;z3;w] ++ v) in E.
  destruct (framed_right 10 a a' z [g';z1;z2;z3;w] v bs bs' ltac:(lia) ltac:(rewrite La, La'; reflexivity) ltac:(rewrite Lz; reflexivity) HF HF' E) as (x & -> & EX).
  apply read_all_app in HR. destruct HR as (rx & ry & HX & HY & ->). rewrite HX in HR'. injection HR' as ->. now exists ry.
Qed.
Lemma stf_left ws ws' r r' : read_stf ws = Some r -> read_stf ws' = Some r' -> short_left ws ws' -> exists e, r = e ++ r'.
Proof.
  intros H H' (v & w & w' & u & -> & E2 & _ & Hw & HV). apply stf_form in H, H'.
  destruct H as (a & bs & z & E & Ha & Hz & HF & HR). destruct H' as (a' & bs' & z' & E' & Ha' & Hz' & HF' & HR').
  pose proof (squash_length _ _ Ha) as La. pose proof (squash_length _ _ Ha') as La'.
  pose proof (squash_length _ _ Hz) as Lz. pose proof (squash_length _ _ Hz') as Lz'.
  destruct a' as [|a0 a']; [discriminate|]. rewrite E2 in E'. cbn [app] in E'. injection E' as <- ->.
  change (w :: a' ++ concat bs' ++ z') with ((w :: a') ++ concat bs' ++ z') in E.
  destruct (framed_left 10 a (w :: a') z z' v bs bs' ltac:(lia) ltac:(cbn [length] in *; lia) ltac:(rewrite Lz, Lz'; reflexivity) HF HF' E) as (x & -> & EX).
  apply read_all_app in HR. destruct HR as (rx & ry & HX & HY & ->). rewrite HY in HR'. injection HR' as ->. now exists rx.
Qed.

(** ** On one side *)
Lemma marks_after y p s m b r r' : (str_len s < 2 ^ 48)%N -> barcode y p s = Ret (Ok m) -> read_modules y m = Some r -> accepts y r -> In 1%N b ->
  read_modules y (m ++ b) = Some r' -> accepts y r' -> lost_right y r' r.
Proof.
  intros Hs H HR HA HB HR' HA'. destruct (printed_dark y p s m Hs H) as [t Et]. destruct (read_inv _ _ _ HR') as (zs & SZ & RZ). destruct (read_inv _ _ _ HR) as (ws & SW & RW).
  destruct (line_form [] m b t zs Et SZ) as (a' & j & k & Ea & E). symmetry in Ea. apply app_eq_nil in Ea. destruct Ea as [_ ->]. cbn [app] in E.
  assert (HX : short_right zs ws).
  { destruct (cut_right_scan zs k m (scan_pos _ _ SZ) (scan_odd _ _ SZ)) as [C|(ws2 & C & HX)]; [exists b; now split | congruence |]. rewrite SW in C. injection C as <-. assumption. }
  destruct (cut_read_as y zs ws r' r RZ HA' RW HA (or_introl HX)) as [->|[->| ->]]; cbn [lost_right].
  - apply option_map_Some in RZ, RW. destruct RZ as (l & RZ & ->), RW as (l' & RW & ->). destruct (itf_cut_right _ _ _ _ RZ RW HX) as (e & -> & He & Hev). exists l', e. auto.
  - apply option_map_Some in RZ, RW. destruct RZ as (l & RZ & ->), RW as (l' & RW & ->).
    destruct (printed_elements SStf p s m Hs H) as (ws1 & S1 & Em & O1 & P1). assert (ws1 = ws) by congruence. subst ws1. cbn [tail] in Em.
    destruct (stf_right _ _ _ _ RZ RW HX) as [e ->]. exists l', e. split; [reflexivity|]. split; [reflexivity|]. intros ->. rewrite app_nil_r in RZ.
    pose proof (P_Part2.stf_size _ _ RZ) as LZ. pose proof (P_Part2.stf_size _ _ RW) as LW. destruct HX as (u & w & w' & v & EZ & EW & EV & Hw & HV).
    assert (v = []) by (rewrite EZ, EW, !app_length in *; cbn [length] in *; destruct v; [reflexivity | cbn [length] in *; lia]). subst v. destruct HV as [HV|HV]; [|congruence].
    rewrite EZ, Em, EW in E. unfold render in E. rewrite !render_from_app_even, <- !app_assoc in E by (assumption || now right). apply app_inv_head in E. cbn [render_from] in E. rewrite !app_nil_r in E.
    assert (W : w = w' + S (w - w' - 1)) by lia. rewrite W, repeat_app, <- app_assoc in E. apply app_inv_head in E. discriminate E.
  - destruct (supp_cut _ _ _ _ RZ RW true HX) as (l & -> & HL & ->). now exists l.
Qed.

Lemma marks_before y p s m b r r' : (str_len s < 2 ^ 48)%N -> barcode y p s = Ret (Ok m) -> read_modules y m = Some r -> accepts y r -> In 1%N b ->
  read_modules y (b ++ m) = Some r' -> accepts y r' -> match y with SStf => exists ds e, r' = Digits (e ++ ds) /\ r = Digits ds | _ => lost_left y r' r end.
Proof.
  intros Hs H HR HA HB HR' HA'. destruct (printed_dark y p s m Hs H) as [t Et]. destruct (read_inv _ _ _ HR') as (zs & SZ & RZ). destruct (read_inv _ _ _ HR) as (ws & SW & RW).
  assert (SZ' : scan (b ++ m ++ []) = Some zs) by now rewrite app_nil_r.
  destruct (line_form b m [] t zs Et SZ') as (a' & j & k & Ea & E). rewrite app_nil_r in E.
  assert (HA1 : In 1%N a') by (rewrite Ea in HB; apply in_app_or in HB; destruct HB as [HB|HB]; [apply repeat_spec in HB; discriminate | assumption]).
  assert (HX : short_left zs ws).
  { destruct (cut_left_scan zs k m (scan_pos _ _ SZ) (scan_odd _ _ SZ)) as [C|(ws2 & C & HX)]; [exists a'; now split | congruence |]. rewrite SW in C. injection C as <-. assumption. }
  destruct (cut_read_as y zs ws r' r RZ HA' RW HA (or_intror HX)) as [->|[->| ->]]; cbn [lost_left].
  - apply option_map_Some in RZ, RW. destruct RZ as (l & RZ & ->), RW as (l' & RW & ->). destruct (itf_cut_left _ _ _ _ RZ RW HX) as (e & -> & He & Hev). exists l', e. auto.
  - apply option_map_Some in RZ, RW. destruct RZ as (l & RZ & ->), RW as (l' & RW & ->). destruct (stf_left _ _ _ _ RZ RW HX) as [e ->]. now exists l', e.
  - exact (supp_cut _ _ _ _ RZ RW false HX).
Qed.

(** ** On both sides *)
Definition no_inner (y : symbology) : bool := match y with SEan13 | SEan8 | SUpca | SCode93 | SCode128 => true | _ => false end.
Lemma c128_inside zs ws r r' : read_c128 zs = Some r -> read_c128 ws = Some r' -> inside zs ws -> False.
Proof.
  intros H H' HI. destruct (c128_form _ _ H) as (bs & vs & E & F & RV & HD). assert (D : decode_checked vs <> None) by congruence. apply decode_checked_form in D.
  destruct D as (st & data & -> & Hst & FD). refine (c128_part zs ws bs st (data ++ [c128_check (st :: data)]) r' E F RV _ H' HI).
  apply Forall_app. split; [assumption|]. constructor; [|constructor]. unfold c128_check. pose proof (N.mod_lt (c128_sum (st :: data)) 103 ltac:(discriminate)) as L. revert L. generalize (c128_sum (st :: data) mod 103)%N. lia.
Qed.
Lemma marks_around y p s m a b r r' : no_inner y = true -> (str_len s < 2 ^ 48)%N -> barcode y p s = Ret (Ok m) -> read_modules y m = Some r -> In 1%N (a ++ b) ->
  read_modules y (a ++ m ++ b) = Some r' -> False.
Proof.
  intros HY Hs H HR HB HR'. destruct (printed_dark y p s m Hs H) as [t Et]. destruct (read_inv _ _ _ HR') as (zs & SZ & RZ). destruct (read_inv _ _ _ HR) as (ws & SW & RW).
  destruct (line_form a m b t zs Et SZ) as (a' & j & k & Ea & E).
  assert (HA1 : In 1%N (a' ++ b)) by (rewrite Ea, <- app_assoc in HB; apply in_app_or in HB; destruct HB as [HB|HB]; [apply repeat_spec in HB; discriminate | assumption]).
  destruct (part_inside zs k a' m b ws (scan_pos _ _ SZ) (scan_odd _ _ SZ) E HA1 SW) as [L1|IN].
  - destruct y; try discriminate HY.
    + destruct (read_halves_of SEan13 ws r ltac:(auto) RW) as [x Hx]. apply halves_sig in Hx. lia.
    + destruct (read_halves_of SEan8 ws r ltac:(auto) RW) as [x Hx]. apply halves_sig in Hx. lia.
    + destruct (read_halves_of SUpca ws r ltac:(auto) RW) as [x Hx]. apply halves_sig in Hx. lia.
    + cbn [read_as] in RW. apply option_map_Some in RW. destruct RW as (l & RW & _). destruct (c93_form' _ _ RW) as (mid & -> & _). rewrite app_length in L1. cbn [concat] in L1. rewrite app_length in L1. change (length c93_star) with 6 in L1. lia.
    + cbn [read_as] in RW. apply option_map_Some in RW. destruct RW as (l & RW & _). destruct (c128_form _ _ RW) as (bs & vs & -> & _). rewrite app_length in L1. change (length c128_stop) with 7 in L1. lia.
  - destruct y; try discriminate HY.
    + destruct (read_halves_of SEan13 ws r ltac:(auto) RW) as [x Hx]. destruct (read_halves_of SEan13 zs r' ltac:(auto) RZ) as [x' Hx']. exact (halves_part _ _ _ _ _ Hx' Hx IN).
    + destruct (read_halves_of SEan8 ws r ltac:(auto) RW) as [x Hx]. destruct (read_halves_of SEan8 zs r' ltac:(auto) RZ) as [x' Hx']. exact (halves_part _ _ _ _ _ Hx' Hx IN).
    + destruct (read_halves_of SUpca ws r ltac:(auto) RW) as [x Hx]. destruct (read_halves_of SUpca zs r' ltac:(auto) RZ) as [x' Hx']. exact (halves_part _ _ _ _ _ Hx' Hx IN).
    + cbn [read_as] in RW, RZ. apply option_map_Some in RW, RZ. destruct RW as (l & RW & _), RZ as (l' & RZ & _). exact (c93_part _ _ _ _ RZ RW IN).
    + cbn [read_as] in RW, RZ. apply option_map_Some in RW, RZ. destruct RW as (l & RW & _), RZ as (l' & RZ & _). exact (c128_inside _ _ _ _ RZ RW IN).
Qed.
