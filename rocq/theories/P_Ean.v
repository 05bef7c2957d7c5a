(** * EAN-13, EAN-8, UPC-A: encoding and reading *)
From Verif Require Import Rust M_Error M_Parse M_Helpers M_Tables M_Ean13 M_Ean8 M_Upca
  S_Barcode S_Ean S_Text P_Rust P_Parse P_Barcode P_Gs1.
Local Arguments N.add : simpl never.
Local Arguments N.mul : simpl never.
Local Arguments N.sub : simpl never.
Local Arguments N.modulo : simpl never.

Lemma digit_cases d : is_digit d ->
  d = 0 \/ d = 1 \/ d = 2 \/ d = 3 \/ d = 4 \/ d = 5 \/ d = 6 \/ d = 7 \/ d = 8 \/ d = 9.
Proof. unfold is_digit. lia. Qed.
Ltac by_digit H :=
  let D := fresh in
  pose proof (digit_cases _ H) as D;
  repeat (destruct D as [->|D]; [|]); [.. | subst].

Lemma Forall_firstn {A} (P : A -> Prop) n l : Forall P l -> Forall P (firstn n l).
Proof. rewrite !Forall_forall. intros H x Hx. apply H. rewrite <- (firstn_skipn n l). apply in_app_iff. now left. Qed.
Lemma Forall_skipn {A} (P : A -> Prop) n l : Forall P l -> Forall P (skipn n l).
Proof. rewrite !Forall_forall. intros H x Hx. apply H. rewrite <- (firstn_skipn n l). apply in_app_iff. now right. Qed.

(** ** Symbol characters *)
Definition side (p : parity) : N := match p with PA => 0 | PB => 1 end.

Lemma enc_left p d : is_digit d ->
  ean_char_encoding (side p) d = Ret (render_from 0 (widths (set_table p) d)).
Proof. intros H. destruct p; by_digit H; reflexivity. Qed.
Lemma enc_A d : is_digit d ->
  ean_char_encoding 0 d = Ret (render_from 0 (widths (set_table PA) d)).
Proof. apply (enc_left PA). Qed.
Lemma enc_right d : is_digit d ->
  ean_char_encoding 2 d = Ret (render_from 1 (widths setC_table d)).
Proof. intros H. by_digit H; reflexivity. Qed.
Lemma upca_left d : is_digit d ->
  upca_char_encoding 0 d = Ret (render_from 0 (widths (set_table PA) d)).
Proof. intros H. by_digit H; reflexivity. Qed.
Lemma upca_right d : is_digit d ->
  upca_char_encoding 1 d = Ret (render_from 1 (widths setC_table d)).
Proof. intros H. by_digit H; reflexivity. Qed.

Lemma left_length p d : is_digit d -> length (widths (set_table p) d) = 4%nat.
Proof. intros H. destruct p; by_digit H; reflexivity. Qed.
Lemma right_length d : is_digit d -> length (widths setC_table d) = 4%nat.
Proof. intros H. by_digit H; reflexivity. Qed.

Lemma left_positive p d : is_digit d ->
  Forall (fun w => (1 <= w <= 4)%nat) (widths (set_table p) d).
Proof. intros H. destruct p; by_digit H; repeat constructor. Qed.
Lemma right_positive d : is_digit d ->
  Forall (fun w => (1 <= w <= 4)%nat) (widths setC_table d).
Proof. intros H. by_digit H; repeat constructor. Qed.

Lemma read_left p d : is_digit d -> read_AB (widths (set_table p) d) = Some (p, d).
Proof. intros H. destruct p; by_digit H; reflexivity. Qed.
Lemma read_right d : is_digit d -> read_C (widths setC_table d) = Some d.
Proof. intros H. by_digit H; reflexivity. Qed.

(** A right digit seen from the other end looks like an even-parity left digit. *)
Lemma rev_right d : is_digit d -> rev (widths setC_table d) = widths (set_table PB) d.
Proof. intros H. by_digit H; reflexivity. Qed.

(** ** Payloads *)
Lemma left_payload_gen ps ds :
  Forall is_digit ds ->
  mapM (fun x => let '(d, s) := x in ean_char_encoding s d) (combine ds (map side ps)) =
  Ret (map (fun x => render_from 0 (widths (set_table (fst x)) (snd x))) (combine ps ds)).
Proof.
  intros H. revert ps. induction H as [|d ds Hd _ IH]; intros ps; [now destruct ps|].
  destruct ps as [|p ps]; [reflexivity|].
  cbn [map combine mapM]. rewrite enc_left by assumption. cbn [bind].
  rewrite IH. reflexivity.
Qed.

Lemma Forall_combine_r {A B} (P : B -> Prop) (l : list A) (l' : list B) :
  Forall P l' -> Forall (fun x => P (snd x)) (combine l l').
Proof.
  intros H. rewrite Forall_forall in *. intros [a b] Hin.
  apply in_combine_r in Hin. simpl. auto.
Qed.

Lemma render_draw_left ps ds :
  Forall is_digit ds ->
  render_from 0 (draw_left ps ds) =
  concat (map (fun x => render_from 0 (widths (set_table (fst x)) (snd x))) (combine ps ds)).
Proof.
  intros H. unfold draw_left. rewrite render_from_concat_even; auto.
  - now rewrite map_map.
  - apply Forall_map. eapply Forall_impl; [|apply (Forall_combine_r is_digit ps ds H)].
    intros [p d] Hd. simpl in *. now rewrite left_length.
Qed.

Lemma render_draw_right ds :
  Forall is_digit ds ->
  render_from 1 (draw_right ds) = concat (map (fun d => render_from 1 (widths setC_table d)) ds).
Proof.
  intros H. unfold draw_right. rewrite render_from_concat_even; auto.
  - now rewrite map_map.
  - apply Forall_map. revert H. apply Forall_impl. intros d Hd. now rewrite right_length.
Qed.

Lemma draw_left_even ps ds : Forall is_digit ds -> Nat.even (length (draw_left ps ds)) = true.
Proof.
  intros H. unfold draw_left.
  pose proof (Forall_combine_r is_digit ps ds H) as H'.
  induction H' as [|[p d] l Hd _ IH]; [reflexivity|].
  simpl in *. now rewrite app_length, left_length, Nat.even_add, IH.
Qed.

Lemma draw_right_even ds : Forall is_digit ds -> Nat.even (length (draw_right ds)) = true.
Proof.
  unfold draw_right. induction 1 as [|d l Hd _ IH]; [reflexivity|].
  simpl. now rewrite app_length, right_length, Nat.even_add, IH.
Qed.

(** A retail symbol: guards around two halves. *)
Lemma render_retail L R :
  Nat.even (length L) = true -> Nat.even (length R) = true ->
  render (normal_guard ++ L ++ centre_guard ++ R ++ normal_guard) =
  [1;0;1] ++ render_from 0 L ++ [0;1;0;1;0] ++ render_from 1 R ++ [1;0;1].
Proof.
  intros HL HR. unfold render.
  rewrite render_from_app_odd by auto. f_equal. change (1 - 1) with 0.
  rewrite render_from_app_even by auto. f_equal.
  rewrite render_from_app_odd by auto. f_equal. change (1 - 0) with 1.
  rewrite render_from_app_even by auto. reflexivity.
Qed.

Lemma retail_odd L R :
  Nat.even (length L) = true -> Nat.even (length R) = true ->
  Nat.even (length (normal_guard ++ L ++ centre_guard ++ R ++ normal_guard)) = false.
Proof.
  intros HL HR. rewrite !app_length, !Nat.even_add, HL, HR. reflexivity.
Qed.

Definition width14 (w : nat) : Prop := (1 <= w <= 4)%nat.

Lemma draw_left_width ps ds : Forall is_digit ds -> Forall width14 (draw_left ps ds).
Proof.
  intros H. unfold draw_left. apply Forall_concat, Forall_map.
  eapply Forall_impl; [|apply (Forall_combine_r is_digit ps ds H)].
  intros [p d] Hd. now apply left_positive.
Qed.
Lemma draw_right_width ds : Forall is_digit ds -> Forall width14 (draw_right ds).
Proof.
  intros H. unfold draw_right. apply Forall_concat, Forall_map.
  revert H. apply Forall_impl. intros d Hd. now apply right_positive.
Qed.

Lemma retail_width ps l r :
  Forall is_digit l -> Forall is_digit r ->
  Forall width14 (normal_guard ++ draw_left ps l ++ centre_guard ++ draw_right r ++ normal_guard).
Proof.
  intros Hl Hr. repeat (apply Forall_app; split);
    try (apply draw_left_width; assumption); try (apply draw_right_width; assumption);
    repeat constructor.
Qed.

Lemma width14_pos ws : Forall width14 ws -> Forall (fun w => (1 <= w)%nat) ws.
Proof. apply Forall_impl. unfold width14. lia. Qed.

(** ** Reading the two halves *)
Lemma skipn_skipn' {A} m n (l : list A) : skipn m (skipn n l) = skipn (m + n) l.
Proof.
  revert l. induction n as [|n IH]; intros l.
  - now rewrite Nat.add_0_r.
  - destruct l; [now rewrite !skipn_nil|]. rewrite Nat.add_succ_r. apply IH.
Qed.

Lemma length_concat_4 {A} (bs : list (list A)) k :
  Forall (fun b => length b = k) bs -> length (concat bs) = (k * length bs)%nat.
Proof.
  induction 1 as [|b bs Hb _ IH]; simpl; [lia|]. rewrite app_length, IH. lia.
Qed.

Lemma read_halves_ok n (lb rb : list (list nat)) l r :
  length lb = n -> length rb = n ->
  Forall (fun b => length b = 4%nat) lb -> Forall (fun b => length b = 4%nat) rb ->
  read_all read_AB lb = Some l -> read_all read_C rb = Some r ->
  read_halves n (normal_guard ++ concat lb ++ centre_guard ++ concat rb ++ normal_guard)
  = Some (l, r).
Proof.
  intros Hl Hr H4l H4r Rl Rr. unfold read_halves.
  pose proof (length_concat_4 lb 4 H4l) as Ll. rewrite Hl in Ll.
  pose proof (length_concat_4 rb 4 H4r) as Lr. rewrite Hr in Lr.
  set (L := concat lb) in *. set (R := concat rb) in *.
  assert (E1 : skipn (3 + 4 * n) (normal_guard ++ L ++ centre_guard ++ R ++ normal_guard)
               = centre_guard ++ R ++ normal_guard).
  { rewrite app_assoc, skipn_app. rewrite skipn_all2.
    2:{ rewrite app_length, Ll. simpl length. lia. }
    rewrite app_length, Ll. simpl length. replace (3 + 4 * n - (3 + 4 * n))%nat with 0%nat by lia.
    reflexivity. }
  assert (E2 : skipn (3 + 4 * n + 5) (normal_guard ++ L ++ centre_guard ++ R ++ normal_guard)
               = R ++ normal_guard).
  { replace (3 + 4 * n + 5)%nat with (5 + (3 + 4 * n))%nat by lia.
    rewrite <- skipn_skipn', E1. reflexivity. }
  assert (E3 : skipn (3 + 4 * n + 5 + 4 * n) (normal_guard ++ L ++ centre_guard ++ R ++ normal_guard)
               = normal_guard).
  { replace (3 + 4 * n + 5 + 4 * n)%nat with (4 * n + (3 + 4 * n + 5))%nat by lia.
    rewrite <- skipn_skipn', E2. rewrite <- Lr, skipn_app, skipn_all, Nat.sub_diag. reflexivity. }
  rewrite E1, E2, E3.
  replace (Nat.eqb (length (normal_guard ++ L ++ centre_guard ++ R ++ normal_guard))
             (3 + 4 * n + 5 + 4 * n + 3)) with true.
  2:{ symmetry. apply Nat.eqb_eq. rewrite !app_length, Ll, Lr. simpl length. lia. }
  cbn [normal_guard app firstn skipn centre_guard widths_eqb andb Nat.eqb guard].
  rewrite firstn_app, <- Ll, Nat.sub_diag, firstn_all. cbn [firstn]. rewrite app_nil_r.
  rewrite Ll, <- Lr, firstn_app, Nat.sub_diag, firstn_all. cbn [firstn]. rewrite app_nil_r.
  unfold L, R. rewrite !chop_concat by (assumption || lia).
  cbn [obind]. rewrite Rl. cbn [obind]. rewrite Rr. reflexivity.
Qed.

Lemma read_retail n ps l r :
  length ps = n -> length l = n -> length r = n ->
  Forall is_digit l -> Forall is_digit r ->
  read_halves n (normal_guard ++ draw_left ps l ++ centre_guard ++ draw_right r ++ normal_guard)
  = Some (combine ps l, r).
Proof.
  intros Hp Hl Hr Dl Dr. unfold draw_left, draw_right. apply read_halves_ok.
  - rewrite map_length, combine_length. lia.
  - now rewrite map_length.
  - apply Forall_map. eapply Forall_impl; [|apply (Forall_combine_r is_digit ps l Dl)].
    intros [p d] Hd. now apply left_length.
  - apply Forall_map. revert Dr. apply Forall_impl. intros d Hd. now apply right_length.
  - apply read_all_map_id. intros [p d] Hin. simpl. apply read_left.
    apply in_combine_r in Hin. rewrite Forall_forall in Dl. auto.
  - apply read_all_map_id. intros d Hin. apply read_right. rewrite Forall_forall in Dr. auto.
Qed.

Lemma map_snd_combine {A B} (a : list A) (b : list B) :
  length a = length b -> map snd (combine a b) = b.
Proof.
  revert b. induction a; destruct b; simpl; intros H; try discriminate; [reflexivity|].
  f_equal. apply IHa. lia.
Qed.
Lemma map_fst_combine {A B} (a : list A) (b : list B) :
  length a = length b -> map fst (combine a b) = a.
Proof.
  revert b. induction a; destruct b; simpl; intros H; try discriminate; [reflexivity|].
  f_equal. apply IHa. lia.
Qed.

(** ** EAN-13 *)
Lemma parity_row d : is_digit d ->
  index ean13_PARITY d = Ret (map side (tl (nth (N.to_nat d) ean13_parities []))).
Proof. intros H. by_digit H; reflexivity. Qed.
Lemma parity_row_shape d : is_digit d ->
  exists t, nth (N.to_nat d) ean13_parities [] = PA :: t /\ length t = 5%nat.
Proof. intros H. by_digit H; eexists; split; reflexivity. Qed.
Lemma which_parity_row d : is_digit d ->
  which_parity ean13_parities (nth (N.to_nat d) ean13_parities []) = Some (N.to_nat d).
Proof. intros H. by_digit H; reflexivity. Qed.

Ltac split_digits H :=
  repeat match type of H with
         | Forall _ (_ :: _) => let H' := fresh "D" in
             apply Forall_cons_iff in H; destruct H as [H' H]
         end.

Ltac destruct_list l H :=
  repeat (destruct l as [|? l]; [try discriminate H; try (simpl in H; lia)|]);
  try (exfalso; simpl in H; lia).

Lemma list12 {A} (l : list A) : length l = 12%nat ->
  exists a b c d e f g h i j k m, l = [a;b;c;d;e;f;g;h;i;j;k;m].
Proof.
  intros H.
  do 12 (destruct l as [|? l]; [discriminate H|]).
  destruct l; [|discriminate H]. repeat eexists.
Qed.

Theorem ean13_encode_spec p ds :
  length ds = 12%nat -> Forall is_digit ds ->
  ean13_encode p (mkEAN13 ds) = Ret (render (ean13_symbol (ds ++ [gs1_check ds]))).
Proof.
  intros Hl Hd.
  pose proof (modulo_10_checksum_short p ds true) as Hc. rewrite Hl in Hc.
  specialize (Hc eq_refl (le_S _ _ (le_n 12)) Hd).
  pose proof (gs1_check_digit ds) as Dc. fold (is_digit (gs1_check ds)) in Dc.
  unfold ean13_encode, ean13_checksum_encoding, ean13_checksum_digit. cbn [ean13_0].
  rewrite Hc. cbn [bind]. rewrite (enc_right _ Dc).
  set (c := gs1_check ds) in *. clearbody c. clear Hc.
  destruct (list12 ds Hl) as (d0&d1&d2&d3&d4&d5&d6&d7&d8&d9&d10&d11&->).
  split_digits Hd.
  destruct (parity_row_shape d0 D) as [t [Ht Lt]].
  unfold ean13_symbol. cbn [app hd skipn firstn]. rewrite Ht.
  rewrite render_retail.
  2:{ apply draw_left_even. repeat constructor; assumption. }
  2:{ apply draw_right_even. repeat constructor; assumption. }
  rewrite render_draw_left by (repeat constructor; assumption).
  rewrite render_draw_right by (repeat constructor; assumption).
  unfold ean13_number_system_encoding, ean13_number_system_digit, ean13_left_payload,
    ean13_right_payload, ean13_left_digits, ean13_right_digits, ean13_parity_mapping.
  cbn [ean13_0].
  change (index [d0; d1; d2; d3; d4; d5; d6; d7; d8; d9; d10; d11] 1) with (Ret d1).
  change (index [d0; d1; d2; d3; d4; d5; d6; d7; d8; d9; d10; d11] 0) with (Ret d0).
  change (slice [d0; d1; d2; d3; d4; d5; d6; d7; d8; d9; d10; d11] 2 7)
    with (Ret [d2; d3; d4; d5; d6]).
  change (slice_from [d0; d1; d2; d3; d4; d5; d6; d7; d8; d9; d10; d11] 7)
    with (Ret [d7; d8; d9; d10; d11]).
  cbn [bind]. rewrite (parity_row d0 D), Ht. cbn [bind tl].
  rewrite left_payload_gen by (repeat constructor; assumption). cbn [bind].
  change 0 with (side PA) at 1. rewrite (enc_left PA d1 D0). cbn [bind].
  rewrite (mapM_Forall_Ret is_digit _ (fun d => render_from 1 (widths setC_table d)));
    [|intros; now apply enc_right | repeat constructor; assumption].
  cbn [bind]. f_equal. unfold join_slices, join_iters.
  cbn [map combine concat fst snd]. rewrite <- !app_assoc, !app_nil_r. reflexivity.
Qed.

Lemma ean13_symbol_read ds :
  length ds = 13%nat -> Forall is_digit ds -> gs1_valid ds ->
  read_ean13 (ean13_symbol ds) = Some ds.
Proof.
  intros Hl Hd Hv. unfold read_ean13, ean13_symbol.
  destruct ds as [|d0 ds]; [discriminate|]. cbn [hd].
  change (skipn 1 (d0 :: ds)) with ds. change (skipn 7 (d0 :: ds)) with (skipn 6 ds).
  apply Forall_cons_iff in Hd as Hd'. destruct Hd' as [D0 Dr].
  destruct (parity_row_shape d0 D0) as [t [Ht Lt]].
  simpl in Hl.
  rewrite read_retail.
  2:{ rewrite Ht. simpl. lia. }
  2:{ rewrite firstn_length. lia. }
  2:{ rewrite skipn_length. lia. }
  2:{ now apply Forall_firstn. }
  2:{ now apply Forall_skipn. }
  cbn [obind]. rewrite map_fst_combine, map_snd_combine.
  2,3: rewrite Ht, firstn_length; cbn [length]; lia.
  rewrite which_parity_row by assumption. cbn [obind].
  rewrite N2Nat.id.
  replace (firstn 6 ds ++ skipn 6 ds) with ds by (symmetry; apply firstn_skipn).
  apply gs1_validb_spec in Hv. rewrite Hv. reflexivity.
Qed.

Lemma ean13_symbol_width ds : Forall is_digit ds -> Forall width14 (ean13_symbol ds).
Proof.
  intros H. unfold ean13_symbol. apply retail_width.
  - now apply Forall_firstn, Forall_skipn.
  - now apply Forall_skipn.
Qed.
Lemma ean13_symbol_odd ds : Forall is_digit ds -> Nat.even (length (ean13_symbol ds)) = false.
Proof.
  intros H. unfold ean13_symbol. apply retail_odd.
  - apply draw_left_even. now apply Forall_firstn, Forall_skipn.
  - apply draw_right_even. now apply Forall_skipn.
Qed.

(** ** EAN-8 *)
Theorem ean8_encode_spec p ds :
  length ds = 7%nat -> Forall is_digit ds ->
  ean8_encode p (mkEAN8 ds) = Ret (render (ean8_symbol (ds ++ [gs1_check ds]))).
Proof.
  intros Hl Hd.
  pose proof (modulo_10_checksum_short p ds false) as Hc. rewrite Hl in Hc.
  specialize (Hc eq_refl ltac:(lia) Hd).
  pose proof (gs1_check_digit ds) as Dc. fold (is_digit (gs1_check ds)) in Dc.
  unfold ean8_encode, ean8_checksum_encoding, ean8_checksum_digit. cbn [ean8_0].
  rewrite Hc. cbn [bind]. rewrite (enc_right _ Dc).
  set (c := gs1_check ds) in *. clearbody c. clear Hc.
  do 7 (destruct ds as [|? ds]; [discriminate Hl|]). destruct ds; [|discriminate Hl].
  split_digits Hd.
  unfold ean8_symbol. cbn [app skipn firstn].
  rewrite render_retail.
  2:{ apply draw_left_even. repeat constructor; assumption. }
  2:{ apply draw_right_even. repeat constructor; assumption. }
  rewrite render_draw_left by (repeat constructor; assumption).
  rewrite render_draw_right by (repeat constructor; assumption).
  unfold ean8_number_system_encoding, ean8_number_system_digits, ean8_left_payload,
    ean8_right_payload, ean8_left_digits, ean8_right_digits.
  cbn [ean8_0].
  change (slice [n; n0; n1; n2; n3; n4; n5] 0 2) with (Ret [n; n0]).
  change (slice [n; n0; n1; n2; n3; n4; n5] 2 4) with (Ret [n1; n2]).
  change (slice_from [n; n0; n1; n2; n3; n4; n5] 4) with (Ret [n3; n4; n5]).
  cbn [bind foldM].
  rewrite !enc_A by assumption. cbn [bind].
  rewrite (mapM_Forall_Ret is_digit _ (fun d => render_from 0 (widths (set_table PA) d)));
    [|intros; now apply enc_A | repeat constructor; assumption].
  cbn [bind].
  rewrite (mapM_Forall_Ret is_digit _ (fun d => render_from 1 (widths setC_table d)));
    [|intros; now apply enc_right | repeat constructor; assumption].
  cbn [bind]. f_equal. unfold join_slices, join_iters.
  cbn [map combine concat fst snd app]. rewrite <- !app_assoc, !app_nil_r. reflexivity.
Qed.

Lemma ean8_symbol_read ds :
  length ds = 8%nat -> Forall is_digit ds -> gs1_valid ds ->
  read_ean8 (ean8_symbol ds) = Some ds.
Proof.
  intros Hl Hd Hv. unfold read_ean8, ean8_symbol.
  rewrite read_retail.
  2:{ reflexivity. }
  2:{ rewrite firstn_length. lia. }
  2:{ rewrite skipn_length. lia. }
  2:{ now apply Forall_firstn. }
  2:{ now apply Forall_skipn. }
  cbn [obind]. rewrite map_fst_combine, map_snd_combine.
  2,3: rewrite firstn_length; cbn [length]; lia.
  replace (firstn 4 ds ++ skipn 4 ds) with ds by (symmetry; apply firstn_skipn).
  apply gs1_validb_spec in Hv. rewrite Hv. reflexivity.
Qed.

Lemma ean8_symbol_width ds : Forall is_digit ds -> Forall width14 (ean8_symbol ds).
Proof.
  intros H. unfold ean8_symbol. apply retail_width.
  - now apply Forall_firstn.
  - now apply Forall_skipn.
Qed.
Lemma ean8_symbol_odd ds : Forall is_digit ds -> Nat.even (length (ean8_symbol ds)) = false.
Proof.
  intros H. unfold ean8_symbol. apply retail_odd.
  - apply draw_left_even. now apply Forall_firstn.
  - apply draw_right_even. now apply Forall_skipn.
Qed.

(** ** UPC-A *)
Theorem upca_encode_spec p ds :
  length ds = 11%nat -> Forall is_digit ds ->
  upca_encode p (mkUPCA ds) = Ret (render (upca_symbol (ds ++ [gs1_check ds]))).
Proof.
  intros Hl Hd.
  pose proof (modulo_10_checksum_short p ds false) as Hc. rewrite Hl in Hc.
  specialize (Hc eq_refl ltac:(lia) Hd).
  pose proof (gs1_check_digit ds) as Dc. fold (is_digit (gs1_check ds)) in Dc.
  unfold upca_encode, upca_checksum_encoding, upca_checksum_digit. cbn [upca_0].
  rewrite Hc. cbn [bind]. rewrite (upca_right _ Dc).
  set (c := gs1_check ds) in *. clearbody c. clear Hc.
  do 11 (destruct ds as [|? ds]; [discriminate Hl|]). destruct ds; [|discriminate Hl].
  split_digits Hd.
  unfold upca_symbol. cbn [app skipn firstn].
  rewrite render_retail.
  2:{ apply draw_left_even. repeat constructor; assumption. }
  2:{ apply draw_right_even. repeat constructor; assumption. }
  rewrite render_draw_left by (repeat constructor; assumption).
  rewrite render_draw_right by (repeat constructor; assumption).
  unfold upca_left_payload, upca_right_payload, upca_left_digits, upca_right_digits.
  cbn [upca_0].
  change (slice [n; n0; n1; n2; n3; n4; n5; n6; n7; n8; n9] 0 6) with (Ret [n; n0; n1; n2; n3; n4]).
  change (slice_from [n; n0; n1; n2; n3; n4; n5; n6; n7; n8; n9] 6) with (Ret [n5; n6; n7; n8; n9]).
  cbn [bind].
  rewrite (mapM_Forall_Ret is_digit _ (fun d => render_from 0 (widths (set_table PA) d)));
    [|intros; now apply upca_left | repeat constructor; assumption].
  cbn [bind].
  rewrite (mapM_Forall_Ret is_digit _ (fun d => render_from 1 (widths setC_table d)));
    [|intros; now apply upca_right | repeat constructor; assumption].
  cbn [bind]. f_equal. unfold join_slices, join_iters.
  cbn [map combine concat fst snd app]. rewrite <- !app_assoc, !app_nil_r. reflexivity.
Qed.

Lemma upca_symbol_read ds :
  length ds = 12%nat -> Forall is_digit ds -> gs1_valid ds ->
  read_upca (upca_symbol ds) = Some ds.
Proof.
  intros Hl Hd Hv. unfold read_upca, upca_symbol.
  rewrite read_retail.
  2:{ reflexivity. }
  2:{ rewrite firstn_length. lia. }
  2:{ rewrite skipn_length. lia. }
  2:{ now apply Forall_firstn. }
  2:{ now apply Forall_skipn. }
  cbn [obind]. rewrite map_fst_combine, map_snd_combine.
  2,3: rewrite firstn_length; cbn [length]; lia.
  replace (firstn 6 ds ++ skipn 6 ds) with ds by (symmetry; apply firstn_skipn).
  apply gs1_validb_spec in Hv. rewrite Hv. reflexivity.
Qed.

Lemma upca_symbol_width ds : Forall is_digit ds -> Forall width14 (upca_symbol ds).
Proof.
  intros H. unfold upca_symbol. apply retail_width.
  - now apply Forall_firstn.
  - now apply Forall_skipn.
Qed.
Lemma upca_symbol_odd ds : Forall is_digit ds -> Nat.even (length (upca_symbol ds)) = false.
Proof.
  intros H. unfold upca_symbol. apply retail_odd.
  - apply draw_left_even. now apply Forall_firstn.
  - apply draw_right_even. now apply Forall_skipn.
Qed.
