(** * Proofs: exactly what is read from the symbol of every accepted string *)
From Verif Require Import Rust M_Error M_Helpers M_Parse M_Ean13 M_Ean8 M_Upca M_EanSupp M_Code39 M_Code93 M_Code11
  M_Codabar M_Code128 M_Tf Symbology M_Use S_Barcode S_Ean S_Text S_Linear S_Codabar S_Tf S_Code128 S_All S_Heard S_Exact
  P_Rust P_Barcode P_Parse P_Gs1 P_Ean P_Retail P_Retail2 P_Retail3 P_Supp P_Code39 P_Code93 P_Code11
  P_Codabar P_Tf P_Code128 P_Code128b P_Heard P_All P_Stretch.

(** ** Code 128 sums that wrap around *)
Lemma wrap_wraps sum : wrap_i32 (Z.of_N sum) = (Z.of_N sum - Z.of_N (wraps sum) * 2 ^ 32)%Z.
Proof.
  unfold wrap_i32, wraps. rewrite N2Z.inj_div, N2Z.inj_add, !N2Z.inj_pow.
  change (Z.of_N 2) with 2%Z. change (Z.of_N 31) with 31%Z. change (Z.of_N 32) with 32%Z.
  rewrite Z.mod_eq by discriminate. lia.
Qed.
Lemma wraps_right sum k w : w = (Z.of_N sum - Z.of_N k * 2 ^ 32)%Z ->
  Z.to_N (w mod 103) = sum mod 103 <-> k mod 103 = 0.
Proof.
  intros ->. assert (B : (0 <= (Z.of_N sum - Z.of_N k * 2 ^ 32) mod 103 < 103)%Z) by (apply Z.mod_pos_bound; reflexivity).
  assert (E : Z.to_N ((Z.of_N sum - Z.of_N k * 2 ^ 32) mod 103) = sum mod 103 <->
              ((Z.of_N sum - Z.of_N k * 2 ^ 32) mod 103 = Z.of_N sum mod 103)%Z).
  { split; intros H.
    - apply (f_equal Z.of_N) in H. rewrite Z2N.id in H by lia. now rewrite N2Z.inj_mod in H.
    - rewrite H. change 103%Z with (Z.of_N 103). now rewrite <- N2Z.inj_mod, N2Z.id. }
  rewrite E. clear E B.
  assert (K : (k mod 103 = 0) <-> (103 | Z.of_N k)%Z).
  { rewrite <- Z.mod_divide by discriminate. change 103%Z with (Z.of_N 103). rewrite <- N2Z.inj_mod. lia. }
  rewrite K. split; intros H.
  - assert (D : (103 | Z.of_N k * 2 ^ 32)%Z).
    { apply Z.mod_divide; [discriminate|].
      replace (Z.of_N k * 2 ^ 32)%Z with (Z.of_N sum - (Z.of_N sum - Z.of_N k * 2 ^ 32))%Z by lia.
      rewrite Zminus_mod, H, Z.sub_diag. reflexivity. }
    apply Z.gauss with (m := (2 ^ 32)%Z); [now rewrite Z.mul_comm | reflexivity].
  - destruct H as [q Hq]. rewrite Hq.
    replace (Z.of_N sum - q * 103 * 2 ^ 32)%Z with (Z.of_N sum + (- q * 2 ^ 32) * 103)%Z by lia.
    now rewrite Z.mod_add by discriminate.
Qed.

Lemma wrong_check_unread segs chk : message_ok segs -> chk < 106 -> chk <> c128_check (message_values segs) ->
  read_modules SCode128 (render (symbol_with (message_values segs) chk)) = None.
Proof.
  intros HM HC HN. assert (HL : Forall (fun v => v < 106) (message_values segs ++ [chk])).
  { apply Forall_app. split; [now apply message_values_lt | now constructor]. }
  unfold read_modules. rewrite symbol_with_scan by assumption. cbn [obind read_as]. unfold read_c128.
  rewrite read_values_symbol by assumption. cbn [obind]. unfold decode_checked. rewrite rev_app_distr. cbn [rev app].
  rewrite rev_involutive. destruct (message_values segs) as [|st data] eqn:E; [reflexivity|].
  apply N.eqb_neq in HN. now rewrite HN.
Qed.
Lemma code128_exact p segs m : message_ok segs -> len (message_values segs) < 2 ^ 31 ->
  code128_encode p (mkCode128 (message_units segs)) = Ret m ->
  read_modules SCode128 m = if wraps (c128_sum (message_values segs)) mod 103 =? 0 then Some (Tokens (hear segs)) else None.
Proof.
  intros HM HL HE. set (vs := message_values segs) in *. set (sum := c128_sum vs).
  assert (G : exists k w, w = (Z.of_N sum - Z.of_N k * 2 ^ 32)%Z /\ k = wraps sum /\ m = render (symbol_with vs (Z.to_N (w mod 103)))).
  { rewrite code128_encode_exact in HE by assumption. cbv zeta in HE. fold vs in HE. rewrite counted_sum_small in HE by assumption.
    fold sum in HE. destruct p.
    - exists 0, (Z.of_N sum). destruct (2 ^ 31 <=? Z.of_N sum)%Z eqn:E; [discriminate|]. apply Z.leb_gt in E.
      replace (0 <=? Z.of_N sum)%Z with true in HE by (symmetry; apply Z.leb_le; lia). injection HE as <-.
      split; [lia|]. split; [|reflexivity]. unfold wraps. symmetry. apply N.div_small.
      change (2 ^ 31) with 2147483648. change (2 ^ 32) with 4294967296. change (2 ^ 31)%Z with 2147483648%Z in E. lia.
    - exists (wraps sum), (wrap_i32 (Z.of_N sum)). split; [apply wrap_wraps|]. split; [reflexivity|].
      destruct (_ <=? _)%Z; [discriminate|]. destruct (_ <=? _)%Z; [now injection HE as <-|].
      destruct (Z.rem _ _ =? 0)%Z eqn:E; [|discriminate]. injection HE as <-. apply Z.eqb_eq in E.
      apply Z.rem_mod_eq_0 in E; [|discriminate]. now rewrite E. }
  destruct G as (k & w & Hw & Hk & ->). pose proof (wraps_right sum k w Hw) as HR. rewrite <- Hk.
  destruct (k mod 103 =? 0) eqn:E.
  - apply N.eqb_eq in E. apply HR in E. rewrite E. change (sum mod 103) with (c128_check vs). rewrite <- c128_symbol_with.
    unfold read_modules. pose proof (code128_hears segs HM) as X. fold vs in X. destruct (scan _); [|discriminate]. cbn [obind read_as] in *. now rewrite X.
  - apply N.eqb_neq in E. apply wrong_check_unread; [assumption| |].
    + pose proof (Z.mod_pos_bound w 103 eq_refl). lia.
    + intros X. apply E, HR. exact X.
Qed.

Lemma byte_check_small ds : alt_sum 3 1 (rev ds) < 256 -> byte_check ds = gs1_check ds.
Proof. intros H. unfold byte_check, gs1_check. now rewrite (N.mod_small _ 256). Qed.
Lemma itf_exact p s b : tf_interleaved p s = Ret (Ok b) ->
  tf_raw_data b = if Nat.even (length s) then digits_of s else digits_of s ++ [byte_check (digits_of s)].
Proof.
  intros H. destruct (tf_interleaved_spec p s) as (TL & TC & TO). cbv zeta in *.
  assert (D : 1 <= str_len s mod 2 ^ 32 <= 256 \/ ~ (1 <= str_len s mod 2 ^ 32 <= 256)) by lia.
  destruct D as [D|D]; [|rewrite (TL D) in H; discriminate].
  assert (K : {Forall digit_char s} + {~ Forall digit_char s}).
  { apply Forall_dec. intros c. unfold digit_char. destruct (N.ltb c 48) eqn:E1; [right; apply N.ltb_lt in E1; lia|].
    destruct (N.ltb 57 c) eqn:E2; [right; apply N.ltb_lt in E2; lia|]. left. apply N.ltb_ge in E1, E2. lia. }
  destruct K as [K|K]; [|rewrite (TC D K) in H; discriminate]. rewrite (TO D K) in H.
  destruct (Nat.even (length s)); [now injection H as <-|].
  destruct (alt_sum 3 1 (rev (digits_of s)) <? 256) eqn:E.
  - apply N.ltb_lt in E. injection H as <-. cbn [tf_raw_data]. now rewrite byte_check_small.
  - destruct p; [discriminate|]. now injection H as <-.
Qed.

Lemma barcode_exact y p s m : str_len s < 2 ^ 48 -> (y = SCode128 -> len s < 2 ^ 31) ->
  barcode y p s = Ret (Ok m) -> reads_back y s (read_modules y m).
Proof.
  intros Hs H128 H. pose proof (barcode_meant y p s m Hs H) as HM. destruct y; cbn [barcode] in H; (apply run_Ret in H || apply run_Ok in H);
    destruct H as [b [HN HE]]; cbn [meant reads_back] in *; try exact HM.
  - destruct (ean13_conform p p s b HN) as [E _]. destruct (ean13_accepted p s b HN) as (_ & L & D).
    destruct (with_check_ok (firstn 12 (digits_of s)) 12 L D) as (L1 & D1 & V1). rewrite HE in E. injection E as ->.
    unfold read_modules. rewrite ean13_scan by assumption. cbn [obind read_as]. rewrite ean13_symbol_read by assumption. reflexivity.
  - destruct (ean8_conform p p s b HN) as [E _]. destruct (ean8_accepted p s b HN) as (_ & L & D).
    destruct (with_check_ok (firstn 7 (digits_of s)) 7 L D) as (L1 & D1 & V1). rewrite HE in E. injection E as ->.
    unfold read_modules. rewrite ean8_scan by assumption. cbn [obind read_as]. rewrite ean8_symbol_read by assumption. reflexivity.
  - destruct (upca_conform p p s b HN) as [E _]. destruct (upca_accepted p s b HN) as (_ & L & D).
    destruct (with_check_ok (firstn 11 (digits_of s)) 11 L D) as (L1 & D1 & V1). rewrite HE in E. injection E as ->.
    unfold read_modules. rewrite upca_scan by assumption. cbn [obind read_as]. rewrite upca_symbol_read by assumption. reflexivity.
  - destruct (code39_scan_back p s b true Hs (or_intror HN)) as [m' [E HR]].
    apply code39_init_Ok in HN. destruct HN as [HD [Hd Hb]]. subst b. cbn [c39_data] in E. rewrite HE in E. injection E as <-.
    unfold read_modules. destruct (scan m) as [ws|]; [|discriminate]. cbn [obind read_as] in *. now rewrite HR.
  - destruct (code128_new_Ok s b HN) as [segs [HO [-> ->]]]. exists segs. split; [assumption|]. split; [reflexivity|].
    apply code128_exact with (p := p); try assumption. specialize (H128 eq_refl).
    unfold len in *. pose proof (message_values_length segs). lia.
  - destruct (itf_accepted p s b HN) as [ds [_ [_ [HC [E [_ HR]]]]]]. rewrite HE in E. injection E as ->.
    rewrite <- (itf_exact p s b HN), HC. unfold read_modules. destruct (scan _) as [ws|]; [|discriminate].
    cbn [obind read_as] in *. now rewrite HR.
Qed.
