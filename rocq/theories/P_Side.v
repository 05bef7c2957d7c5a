(** * Proofs: two symbols side by side *)
From Verif Require Import Rust M_Error Symbology M_Use S_Barcode S_Ean S_Text S_Linear S_Codabar S_Tf S_Code128 S_All
  P_Rust P_Barcode P_All P_Apart P_Damage P_Cell P_Cut P_Stretch P_Part P_Part2.
Local Open Scope nat_scope.

(** The elements of two symbols next to each other: a space between them, or two bars that become one *)
Definition beside (g : nat) (ws ws' zs : list nat) : Prop :=
  (1 <= g /\ zs = ws ++ g :: ws') \/ (g = 0 /\ exists a x y b, ws = a ++ [x] /\ ws' = y :: b /\ zs = a ++ (x + y) :: b).
Lemma beside_scan ws ws' k k' g zs : Forall (fun w => 1 <= w) ws -> Nat.even (length ws) = false -> Forall (fun w => 1 <= w) ws' -> Nat.even (length ws') = false ->
  scan ((render ws ++ repeat 0%N k) ++ repeat 0%N g ++ render ws' ++ repeat 0%N k') = Some zs -> beside (k + g) ws ws' zs.
Proof.
  intros P1 O1 P2 O2 HS. rewrite <- app_assoc, (app_assoc (repeat 0%N k)), <- repeat_app in HS. set (n := k + g) in *. clearbody n.
  destruct n as [|n].
  - right. split; [reflexivity|]. destruct ws as [|x a _] using rev_ind; [discriminate|]. destruct ws' as [|y b]; [discriminate|].
    exists a, x, y, b. split; [reflexivity|]. split; [reflexivity|]. cbn [repeat app] in HS.
    rewrite app_length in O1. cbn [length] in O1. rewrite Nat.add_1_r, Nat.even_succ, <- Nat.negb_even, Bool.negb_false_iff in O1.
    apply Forall_app in P1. destruct P1 as [P1 P1']. inversion P1'; subst. inversion P2; subst.
    assert (E : render (a ++ [x]) ++ render (y :: b) = render (a ++ (x + y) :: b)).
    { unfold render. rewrite !render_from_app_even by (assumption || now right). cbn [render_from]. rewrite app_nil_r, repeat_app, <- !app_assoc. reflexivity. }
    rewrite app_assoc, E, scan_render_tail in HS; [now injection HS| |].
    + apply Forall_app. split; [assumption|]. constructor; [lia | assumption].
    + rewrite app_length. cbn [length]. cbn [length] in O2. rewrite Nat.even_add, O1. now destruct (Nat.even (S (length b))).
  - left. split; [lia|]. assert (E : render ws ++ repeat 0%N (S n) ++ render ws' = render (ws ++ S n :: ws')).
    { unfold render. rewrite render_from_app_odd by (assumption || now right). reflexivity. }
    rewrite (app_assoc (repeat _ _)), app_assoc, E, scan_render_tail in HS; [now injection HS| |].
    + apply Forall_app. split; [assumption|]. constructor; [lia | assumption].
    + rewrite app_length. cbn [length]. rewrite Nat.even_add, O1, Nat.even_succ, <- Nat.negb_even, O2. reflexivity.
Qed.
Lemma beside_length g ws ws' zs : beside g ws ws' zs -> (1 <= g -> length zs = length ws + length ws' + 1) /\ (g = 0 -> length zs + 1 = length ws + length ws').
Proof.
  intros [[Hg ->]|[-> (a & x & y & b & -> & -> & ->)]]; split; intros G; try lia; rewrite !app_length; cbn [length]; lia.
Qed.
Lemma beside_sum g ws ws' zs : beside g ws ws' zs -> list_sum zs = list_sum ws + g + list_sum ws'.
Proof. intros [[Hg ->]|[-> (a & x & y & b & -> & -> & ->)]]; rewrite !list_sum_app; cbn [list_sum fold_right]; rewrite ?list_sum_app; unfold list_sum; cbn [fold_right]; lia. Qed.

(** Blocks of one size: the same list of elements has the same blocks *)
Lemma blocks_begin K (A B : list (list nat)) t t' : 0 < K -> Forall (fun b => length b = K) A -> Forall (fun b => length b = K) B ->
  concat A ++ t = concat B ++ t' -> length A <= length B -> exists C, B = A ++ C.
Proof.
  intros HK HA. revert B. induction HA as [|a A Ha HA IH]; intros B HB E HL; [now exists B|].
  destruct B as [|b B]; [cbn [length] in HL; lia|]. inversion HB; subst. cbn [concat] in E. rewrite <- !app_assoc in E.
  apply split_same in E; [|lia]. destruct E as [-> E]. destruct (IH B) as [C ->]; [assumption | assumption | cbn [length] in HL; lia|]. now exists C.
Qed.

(** Code 39 and Code 11: the stop character of the first symbol would be read as data. *)
Lemma gapped_side k (star : list nat) (T : list (list nat)) ws ws' zs mid mid' c g : length star = k -> ~ In star T -> 2 <= k ->
  ws ++ [1] = concat (map (fun c => c ++ [1]) (star :: mid ++ [star])) -> Forall (fun c => length c = k) mid ->
  length ws' + 1 = S k * (2 + mid') ->
  zs ++ [1] = concat (map (fun c => c ++ [1]) (star :: c ++ [star])) -> Forall (fun c => length c = k) c -> Forall (fun c => In c T) c ->
  beside g ws ws' zs -> False.
Proof.
  intros Lk NT K2 E F L' Ez Fz Tz B.
  assert (SZ : forall l, Forall (fun c => length c = k) l -> Forall (fun b => length b = S k) (map (fun c => c ++ [1]) l)).
  { intros l Fl. apply Forall_map. revert Fl. apply Forall_impl. intros x Hx. rewrite app_length, Hx. cbn [length]. lia. }
  assert (FR : forall l, Forall (fun c => length c = k) l -> Forall (fun c => length c = k) (star :: l ++ [star])).
  { intros l Fl. constructor; [assumption|]. apply Forall_app. split; [assumption | repeat constructor; assumption]. }
  assert (LW : length ws + 1 = S k * (2 + length mid)).
  { apply (f_equal (@length _)) in E. rewrite (concat_length_const (S k)) in E by auto. rewrite map_length, app_length in E. cbn [length] in E. rewrite app_length in E. cbn [length] in E. lia. }
  assert (LZ : length zs + 1 = S k * (2 + length c)).
  { apply (f_equal (@length _)) in Ez. rewrite (concat_length_const (S k)) in Ez by auto. rewrite map_length, app_length in Ez. cbn [length] in Ez. rewrite app_length in Ez. cbn [length] in Ez. lia. }
  destruct (beside_length _ _ _ _ B) as [B1 B2]. destruct B as [[Hg EB]|[Hg _]].
  - specialize (B1 Hg). assert (LC : length c = 2 + length mid + mid') by nia.
    assert (W : ws = concat (map (fun c => c ++ [1]) (star :: mid)) ++ star).
    { rewrite app_comm_cons, map_app, concat_app in E. cbn [map concat] in E. rewrite app_nil_r, app_assoc in E. now apply app_inj_tail in E. }
    rewrite EB, W, <- !app_assoc in Ez. cbn [app] in Ez.
    assert (Ez' : concat (map (fun c => c ++ [1]) (star :: mid)) ++ (star ++ g :: ws' ++ [1]) = concat (map (fun c => c ++ [1]) (star :: c ++ [star])) ++ []) by (rewrite app_nil_r; exact Ez).
    destruct (blocks_begin (S k) _ _ _ _ ltac:(lia) (SZ (star :: mid) ltac:(constructor; assumption)) (SZ _ (FR c Fz)) Ez') as [C EC].
    { rewrite !map_length. cbn [length]. rewrite app_length. lia. }
    rewrite EC, concat_app, <- app_assoc in Ez'. apply app_inv_head in Ez'. rewrite app_nil_r in Ez'.
    assert (LCC : length C = length c - length mid + 1). { apply (f_equal (@length _)) in EC. rewrite app_length, !map_length in EC. cbn [length] in EC. rewrite app_length in EC. cbn [length] in EC. lia. }
    destruct C as [|b C]; [cbn [length] in LCC; lia|].
    assert (HIN : In b (map (fun c => c ++ [1]) c)).
    { cbn [map] in EC. injection EC as EC. rewrite map_app in EC. cbn [map] in EC.
      destruct C as [|b' C] using rev_ind; [cbn [length] in LCC; lia|]. rewrite app_comm_cons, app_assoc in EC. apply app_inj_tail in EC. destruct EC as [EC _]. rewrite EC. apply in_or_app. right. now left. }
    apply in_map_iff in HIN. destruct HIN as (d & <- & Hd). cbn [concat] in Ez'. rewrite <- app_assoc in Ez'.
    pose proof (proj1 (Forall_forall _ _) Fz d Hd) as Ld. pose proof (proj1 (Forall_forall _ _) Tz d Hd) as Td. cbv beta in Ld.
    apply split_same in Ez'; [|congruence]. destruct Ez' as [-> _]. contradiction.
  - specialize (B2 Hg). assert (E2 : S k * (2 + length c) + 2 = S k * (4 + length mid + mid')) by nia.
    destruct (Nat.le_gt_cases (4 + length mid + mid') (2 + length c)) as [G|G]; nia.
Qed.
(** Code 93 and Code 128: the same, when the last bar of the first symbol becomes the first bar of the second one *)
Lemma closed_side A x ws ws' n' zs C x' g : ws = concat A ++ [x] -> Forall (fun b => length b = 6) A -> length ws' = 6 * n' + 1 ->
  zs = concat C ++ [x'] -> Forall (fun b => length b = 6) C -> beside g ws ws' zs -> exists D, C = A ++ D /\ length D = n'.
Proof.
  intros E FA L' Ez FC B. destruct (beside_length _ _ _ _ B) as [B1 B2].
  assert (LW : length ws = 6 * length A + 1) by (rewrite E, app_length, (concat_length_const 6) by assumption; reflexivity).
  assert (LZ : length zs = 6 * length C + 1) by (rewrite Ez, app_length, (concat_length_const 6) by assumption; reflexivity).
  destruct B as [[Hg _]|[Hg (a & u & v & b & E1 & E2 & E3)]]; [specialize (B1 Hg); lia|]. specialize (B2 Hg).
  rewrite E in E1. apply app_inj_tail in E1. destruct E1 as [<- <-]. rewrite E3 in Ez.
  destruct (blocks_begin 6 A C _ _ ltac:(lia) FA FC Ez ltac:(lia)) as [D HD]. exists D. split; [assumption|].
  rewrite HD, app_length in LZ. lia.
Qed.
Lemma inner_end {A} (st : A) (c : list A) pre D : c ++ [st] = pre ++ [st] ++ D -> D <> [] -> In st c.
Proof.
  intros E HD. destruct (exists_last HD) as (D' & z & ->). rewrite !app_assoc in E. apply app_inj_tail in E. destruct E as [-> _]. rewrite <- app_assoc. apply in_or_app. right. apply in_or_app. left. now left.
Qed.

Lemma table_In l t bs r : read_all (read_char l t) bs = Some r -> Forall (fun b => In b t) bs.
Proof. intros H. refine (read_all_Forall _ _ _ _ _ H). intros x y E. apply read_char_sound in E. destruct E as (v & E & _). now apply nth_error_In in E. Qed.
Lemma not_among b t : existsb (widths_eqb b) t = false -> ~ In b t.
Proof. intros H HI. apply existsb_In in HI. congruence. Qed.
Lemma side_elements y p p' s s' m m' g zs r r' r1 : (str_len s < 2 ^ 48)%N -> (str_len s' < 2 ^ 48)%N -> barcode y p s = Ret (Ok m) -> barcode y p' s' = Ret (Ok m') ->
  read_modules y m = Some r -> read_modules y m' = Some r' -> y <> SCodabar ->
  scan (m ++ repeat 0%N g ++ m') = Some zs -> read_as y zs = Some r1 -> False.
Proof.
  intros Hs Hs' HB HB' HR HR' HY HS H1.
  destruct (shape_scan _ m (barcode_shape _ p s m Hs HB)) as (ws & HW & Em & HD). destruct (shape_scan _ m' (barcode_shape _ p' s' m' Hs' HB')) as (ws' & HW' & Em' & HD').
  destruct (tail_repeat y) as [k Hk]. rewrite Em, Em', Hk in HS.
  pose proof (beside_scan ws ws' k k g zs (shape_pos y ws HD) (proj1 HD) (shape_pos y ws' HD') (proj1 HD') HS) as B.
  unfold read_modules in HR, HR'. rewrite HW in HR. rewrite HW' in HR'. cbn [obind] in HR, HR'. clear Em Em' HS HB HB' HW HW' HD HD'.
  pose proof (beside_length _ _ _ _ B) as [B1 B2]. pose proof (beside_sum _ _ _ _ B) as BS.
  destruct y; try congruence.
  - destruct (read_halves_of SEan13 ws _ ltac:(auto) HR) as [x Hx]. destruct (read_halves_of SEan13 ws' _ ltac:(auto) HR') as [x' Hx']. destruct (read_halves_of SEan13 zs _ ltac:(auto) H1) as [x1 Hx1].
    apply halves_sum in Hx, Hx', Hx1. lia.
  - destruct (read_halves_of SEan8 ws _ ltac:(auto) HR) as [x Hx]. destruct (read_halves_of SEan8 ws' _ ltac:(auto) HR') as [x' Hx']. destruct (read_halves_of SEan8 zs _ ltac:(auto) H1) as [x1 Hx1].
    apply halves_sum in Hx, Hx', Hx1. lia.
  - destruct (read_halves_of SUpca ws _ ltac:(auto) HR) as [x Hx]. destruct (read_halves_of SUpca ws' _ ltac:(auto) HR') as [x' Hx']. destruct (read_halves_of SUpca zs _ ltac:(auto) H1) as [x1 Hx1].
    apply halves_sum in Hx, Hx', Hx1. lia.
  - apply supp_sum in HR, HR', H1. lia.
  - cbn [read_as] in HR, HR', H1. apply option_map_Some in HR, HR', H1. destruct HR as (t & HR & _), HR' as (t' & HR' & _), H1 as (t1 & H1 & _).
    destruct (c39_form _ _ HR) as (mid & E & _ & F & _). destruct (c39_form _ _ HR') as (mid' & _ & L' & _). destruct (c39_form _ _ H1) as (c & Ez & _ & Fz & Rz).
    exact (gapped_side 9 c39_star c39_table ws ws' zs mid (length mid') c (k + g) eq_refl (not_among c39_star c39_table eq_refl) ltac:(lia) E F L' Ez Fz (table_In _ _ _ _ Rz) B).
  - cbn [read_as] in HR, HR', H1. apply option_map_Some in HR, HR', H1. destruct HR as (t & HR & _), HR' as (t' & HR' & _), H1 as (t1 & H1 & _).
    destruct (c39_form _ _ HR) as (mid & E & _ & F & _). destruct (c39_form _ _ HR') as (mid' & _ & L' & _). destruct (c39_form _ _ H1) as (c & Ez & _ & Fz & Rz).
    exact (gapped_side 9 c39_star c39_table ws ws' zs mid (length mid') c (k + g) eq_refl (not_among c39_star c39_table eq_refl) ltac:(lia) E F L' Ez Fz (table_In _ _ _ _ Rz) B).
  - cbn [read_as] in HR, HR', H1. apply option_map_Some in HR, HR', H1. destruct HR as (t & HR & _), HR' as (t' & HR' & _), H1 as (t1 & H1 & _).
    destruct (c93_form' _ _ HR) as (mid & E & F & _). destruct (c93_sum _ _ HR') as (n' & L' & _). destruct (c93_form' _ _ HR') as (mid' & E' & F' & _). destruct (c93_form' _ _ H1) as (c & Ez & Fz & Tz).
    assert (N : n' = 2 + length mid'). { rewrite E', app_length, (concat_length_const 6) in L' by assumption. cbn [length] in L'. rewrite app_length in L'. cbn [length] in L'. lia. }
    destruct (closed_side _ _ _ _ _ _ _ _ _ E F L' Ez Fz B) as (D & ED & LD). cbn [app] in ED. injection ED as ED. rewrite <- app_assoc in ED.
    apply inner_end in ED; [|intros ->; cbn [length] in LD; lia]. apply (not_among c93_star c93_table); [reflexivity|]. exact (proj1 (Forall_forall _ _) Tz _ ED).
  - cbn [read_as] in HR, HR', H1. apply option_map_Some in HR, HR', H1. destruct HR as (t & HR & _), HR' as (t' & HR' & _), H1 as (t1 & H1 & _).
    destruct (c11_form _ _ HR) as (mid & raw & E & _ & F & _). destruct (c11_form _ _ HR') as (mid' & raw' & _ & L' & _). destruct (c11_form _ _ H1) as (c & raw1 & Ez & _ & Fz & Rz & _).
    exact (gapped_side 5 c11_guard c11_table ws ws' zs mid (length mid') c (k + g) eq_refl (not_among c11_guard c11_table eq_refl) ltac:(lia) E F L' Ez Fz (table_In _ _ _ _ Rz) B).
  - cbn [read_as] in HR, HR', H1. apply option_map_Some in HR, HR', H1. destruct HR as (t & HR & _), HR' as (t' & HR' & _), H1 as (t1 & H1 & _).
    destruct (c128_form _ _ HR) as (bs & vs & E & F & RV & _). destruct (c128_form _ _ HR') as (bs' & vs' & E' & F' & _). destruct (c128_form _ _ H1) as (c & vs1 & Ez & Fz & Rz & _).
    assert (L' : length ws' = 6 * (length bs' + 1) + 1) by (rewrite E', app_length, (concat_length_const 6) by assumption; change (length c128_stop) with 7; lia).
    assert (SP : forall l, concat l ++ c128_stop = concat (l ++ [[2;3;3;1;1;1]]) ++ [2]) by (intros l; rewrite concat_app, <- app_assoc; reflexivity).
    rewrite SP in E, Ez.
    assert (SQ : forall l, Forall (fun b : list nat => length b = 6) l -> Forall (fun b => length b = 6) (l ++ [[2;3;3;1;1;1]])) by (intros l Fl; apply Forall_app; split; [assumption | repeat constructor]).
    destruct (closed_side _ _ _ _ _ _ _ _ _ E (SQ _ F) L' Ez (SQ _ Fz) B) as (D & ED & LD). rewrite <- app_assoc in ED.
    apply inner_end in ED; [|intros ->; cbn [length] in LD; lia]. apply (not_among [2;3;3;1;1;1] c128_table); [reflexivity|]. exact (proj1 (Forall_forall _ _) (c128_values_In _ _ Rz) _ ED).
  - cbn [read_as] in HR, HR', H1. apply option_map_Some in HR, HR', H1. destruct HR as (t & HR & _), HR' as (t' & HR' & _), H1 as (t1 & H1 & _).
    apply itf_size in HR, HR', H1. destruct (k + g); lia.
  - cbn [read_as] in HR, HR', H1. apply option_map_Some in HR, HR', H1. destruct HR as (t & HR & _), HR' as (t' & HR' & _), H1 as (t1 & H1 & _).
    apply stf_size in HR, HR', H1. assert (1 <= k) by (destruct k; [discriminate Hk | lia]). specialize (B1 ltac:(lia)). lia.
Qed.
Lemma side_read y p p' s s' m m' g : (str_len s < 2 ^ 48)%N -> (str_len s' < 2 ^ 48)%N -> barcode y p s = Ret (Ok m) -> barcode y p' s' = Ret (Ok m') ->
  read_modules y m <> None -> read_modules y m' <> None -> y <> SCodabar -> read_modules y (m ++ repeat 0%N g ++ m') = None.
Proof.
  intros Hs Hs' HB HB' HR HR' HY. destruct (read_modules y m) as [r|] eqn:R; [|congruence]. destruct (read_modules y m') as [r'|] eqn:R'; [|congruence].
  destruct (read_modules y (m ++ repeat 0%N g ++ m')) as [r1|] eqn:R1; [exfalso | reflexivity]. unfold read_modules in R1. apply obind_Some in R1. destruct R1 as (zs & HS & R1).
  exact (side_elements y p p' s s' m m' g zs r r' r1 Hs Hs' HB HB' R R' HY HS R1).
Qed.
