(** * Proofs: runs of printed characters missing or printed twice in symbols with check characters *)
From Verif Require Import Rust M_Error Symbology M_Code39 M_Code128 M_Use S_Barcode S_Text S_Linear S_Code128 S_All S_Skip
  P_Rust P_Barcode P_Alphabet P_Weighted P_Code39 P_Code93 P_Code11 P_Code128 P_Code128b P_Check128 P_Ean P_All P_Skip.
Local Open Scope nat_scope.

Lemma mend_length {A} i j (l : list A) : i <= length l -> j <= length l -> length (mend i j l) = i + (length l - j).
Proof. intros Hi Hj. unfold mend. rewrite app_length, firstn_length, skipn_length. lia. Qed.

Lemma code93_runs p s m : (str_len s < 2 ^ 48)%N -> barcode SCode93 p s = Ret (Ok m) ->
  exists ws, m = render ws /\ read_as SCode93 ws = Some (Text s) /\ forall i j, i <= length s -> j <= length s ->
    let t := mend i j s in
    read_as SCode93 (splice SCode93 i j ws) =
      if ((c93_sum 20 t =? c93_sum 20 s) && (c93_sum 15 (t ++ [c93_C s]) =? c93_sum 15 (s ++ [c93_C s])))%N then Some (Text t) else None.
Proof.
  intros Hs H. cbn [barcode] in H. apply run_Ok in H. destruct H as (b & HN & HE). injection HN as HN.
  destruct (code93_accepted p s b Hs HN) as [m' [E [Em _]]]. rewrite HE in E. injection E as <-. subst m.
  apply code93_new_Ok in HN. destruct HN as [HD _]. pose proof (c93_message_in s HD) as HM.
  eexists. split; [reflexivity|]. pose proof (c93_symbol_read_raw _ HM) as HR. pose proof (c93_verify_message s) as HV.
  split; [cbn [read_as]; unfold read_c93; unfold c93_message in *; now rewrite HR; cbn [obind]; rewrite HV|].
  change (s ++ [c93_C s; c93_K s]) with (c93_message s). set (ws := c93_symbol (c93_message s)) in *. clearbody ws.
  assert (VC : value c93_chars (c93_C s) = c93_sum 20 s).
  { unfold c93_C, c93_sum. apply value_char_of; [exact c93_nodup_c|]. apply N.mod_lt. discriminate. }
  assert (VK : value c93_chars (c93_K s) = c93_sum 15 (s ++ [c93_C s])).
  { unfold c93_K. apply value_char_of; [exact c93_nodup_c|]. apply N.mod_lt. discriminate. }
  intros i j Hi Hj. cbv zeta. cbn [read_as]. unfold read_c93, splice. cbn [lead stride].
  assert (EM : c93_message s = s ++ [c93_C s; c93_K s]) by reflexivity. rewrite EM in HR.
  rewrite (c93_splice _ _ i j HR) by (rewrite app_length; lia). cbn [obind]. rewrite mend_app by assumption.
  rewrite c93_verified. unfold c93_value. rewrite VC, VK. unfold c93_sum at 1 3.
  rewrite (N.eqb_sym (check_sum c93_chars 47 15 _)), (N.eqb_sym (c93_sum 20 s)), andb_comm. fold (c93_sum 15 (s ++ [c93_C s])).
  unfold c93_sum. destruct (_ && _)%bool; reflexivity.
Qed.

Lemma code11_runs p s m : (str_len s < 2 ^ 48)%N -> barcode SCode11 p s = Ret (Ok m) ->
  exists ws, m = render ws /\ read_as SCode11 ws = Some (Text s) /\ forall i j, i <= length s -> j <= length s ->
    let t := mend i j s in let c := c11_C s in let r := read_as SCode11 (splice SCode11 i j ws) in
    (10 < length s -> 10 <= length t ->
       r = if ((c11_sum 10 t =? c11_sum 10 s) && (c11_sum 9 (t ++ [c]) =? c11_sum 9 (s ++ [c])))%N then Some (Text t) else None) /\
    (10 < length s -> length t < 10 ->
       r = if (c11_sum 10 (t ++ [c]) =? c11_sum 9 (s ++ [c]))%N then Some (Text (t ++ [c])) else None) /\
    (length s <= 10 -> length t <= 10 -> r = if (c11_sum 10 t =? c11_sum 10 s)%N then Some (Text t) else None) /\
    (length s <= 10 -> 10 < length t -> forall t' x, t = t' ++ [x] ->
       r = if ((c11_sum 10 t' =? c11_value x) && (c11_sum 9 t =? c11_sum 10 s))%N then Some (Text t') else None).
Proof.
  intros Hs H. cbn [barcode] in H. apply run_Ok in H. destruct H as (b & HN & HE). injection HN as HN.
  pose proof (code11_accepted p s b Hs HN) as E. rewrite HE in E. injection E as ->.
  apply code11_new_Ok in HN. destruct HN as [HD _].
  pose proof (c11_symbol_read_raw _ (c11_checked_in s HD)) as HR.
  exists (c11_symbol (c11_checked s)). split; [reflexivity|].
  split; [cbn [read_as]; now rewrite c11_symbol_read|].
  intros i j Hi Hj. cbv zeta.
  assert (VC : value c11_chars (c11_C s) = check_sum c11_chars 11 10 s).
  { unfold c11_C, c11_sum. apply value_char_of; [exact c11_nodup_c|]. apply N.mod_lt. discriminate. }
  assert (VK : value c11_chars (c11_K s) = check_sum c11_chars 11 9 (s ++ [c11_C s])).
  { unfold c11_K, c11_sum. apply value_char_of; [exact c11_nodup_c|]. apply N.mod_lt. discriminate. }
  set (t := mend i j s).
  assert (R : read_as SCode11 (splice SCode11 i j (c11_symbol (c11_checked s))) =
    option_map Text (c11_verify (t ++ [c11_C s] ++ (if Nat.ltb 10 (length s) then [c11_K s] else [])))).
  { cbn [read_as]. unfold read_c11, splice. cbn [lead stride]. unfold c11_checked in HR |- *.
    rewrite (c11_splice _ _ i j HR) by (rewrite app_length; lia). cbn [obind]. now rewrite mend_app by assumption. }
  rewrite R. clear R HR. unfold c11_verify. rewrite !app_length. cbn [length].
  destruct (Nat.ltb_spec 10 (length s)) as [L|L]; cbn [length].
  - repeat split; intros L1 L2; try lia.
    + destruct (Nat.ltb_spec 11 (length t + (1 + 1))); [|lia]. rewrite app_assoc, last_verified, VK. unfold c11_sum.
      rewrite (N.eqb_sym (check_sum c11_chars 11 9 (t ++ _))), andb_comm. destruct (_ =? _)%N; cbn [obind andb]; [|reflexivity].
      rewrite last_verified, VC, N.eqb_sym. destruct (_ =? _)%N; reflexivity.
    + destruct (Nat.ltb_spec 11 (length t + (1 + 1))); [lia|]. cbn [obind]. rewrite app_assoc, last_verified, VK. unfold c11_sum.
      rewrite N.eqb_sym. destruct (_ =? _)%N; reflexivity.
  - repeat split; intros L1 L2; try lia.
    + destruct (Nat.ltb_spec 11 (length t + (1 + 0))); [lia|]. cbn [obind app]. rewrite last_verified, VC. unfold c11_sum.
      rewrite N.eqb_sym. destruct (_ =? _)%N; reflexivity.
    + intros t' x Et. destruct (Nat.ltb_spec 11 (length t + (1 + 0))); [|lia]. cbn [app]. rewrite last_verified, VC. unfold c11_sum.
      rewrite (N.eqb_sym (check_sum c11_chars 11 9 t)), andb_comm. destruct (_ =? _)%N; cbn [obind andb]; [|reflexivity].
      rewrite Et, last_verified. unfold c11_value. rewrite N.eqb_sym. destruct (_ =? _)%N; reflexivity.
Qed.

Lemma sum_split a b : (a <= b)%nat -> forall s : str, (c39_sum (skipn a s) = c39_sum (firstn (b - a) (skipn a s)) + c39_sum (skipn b s))%N.
Proof.
  intros H s. rewrite <- c39_sum_app. f_equal. replace (skipn b s) with (skipn (b - a) (skipn a s)); [now rewrite firstn_skipn|].
  rewrite skipn_skipn'. f_equal. lia.
Qed.
Lemma code39_runs p s m : (str_len s < 2 ^ 48)%N -> barcode SCode39Checked p s = Ret (Ok m) ->
  exists ws, m = render ws /\ read_as SCode39Checked ws = Some (Text (s ++ [c39_check s])) /\
    forall i j, i <= length s -> j <= length s ->
      exists t, read_as SCode39Checked (splice SCode39Checked i j ws) = Some (Text t) /\
        (c39_valid t <-> (total (map c39_value (firstn (Nat.max i j - Nat.min i j) (skipn (Nat.min i j) s))) mod 43 = 0)%N).
Proof.
  intros Hs H. cbn [barcode] in H. apply run_Ok in H. destruct H as (b & HN & HE). injection HN as HN.
  destruct (code39_accepted p s b true Hs (or_intror HN)) as [m' [E [Em _]]].
  apply code39_init_Ok in HN. destruct HN as [HD [Hd Hb]]. subst b.
  cbn [c39_data] in E. rewrite HE in E. injection E as <-. subst m.
  pose proof (c39_symbol_read _ (c39_message_in s true HD)) as HR. unfold c39_message in HR. cbv iota in HR.
  eexists. split; [reflexivity|]. split; [cbn [read_as]; now rewrite HR|].
  intros i j Hi Hj. exists (mend i j s ++ [c39_check s]). unfold splice. cbn [lead stride read_as].
  rewrite (c39_splice _ _ _ _ HR) by (rewrite app_length; lia). cbn [option_map]. rewrite mend_app by assumption.
  split; [reflexivity|]. rewrite c39_valid_iff, c39_check_value. unfold mend. rewrite c39_sum_app.
  change (total (map c39_value ?x)) with (c39_sum x).
  assert (ES : forall k, (c39_sum s = c39_sum (firstn k s) + c39_sum (skipn k s))%N) by (intros k; now rewrite <- c39_sum_app, firstn_skipn).
  destruct (Nat.le_ge_cases i j) as [L|L].
  - rewrite Nat.max_r, Nat.min_l by assumption. rewrite (ES i), (sum_split i j L s).
    rewrite (N.add_comm (c39_sum (firstn (j - i) _))), N.add_assoc. rewrite <- !N.eqb_eq, mod_shift by discriminate. reflexivity.
  - rewrite Nat.max_l, Nat.min_r by assumption. rewrite (ES i), (sum_split j i L s).
    rewrite (N.add_comm (c39_sum (firstn (i - j) _))), N.add_assoc. rewrite <- !N.eqb_eq, N.eqb_sym, mod_shift by discriminate. reflexivity.
Qed.

Lemma code128_runs p s m : barcode SCode128 p s = Ret (Ok m) -> read_modules SCode128 m <> None ->
  exists segs st data ws, message_ok segs /\ s = spell segs /\ message_values segs = st :: data /\ m = render ws /\
    forall i j, i <= length data -> j <= length data ->
      read_as SCode128 (splice SCode128 i j ws) =
        if (c128_check (st :: mend i j data) =? c128_check (st :: data))%N then option_map Tokens (decode_start st (mend i j data)) else None.
Proof.
  intros H HX. cbn [barcode] in H. apply run_Ok in H. destruct H as (b & HN & HE). injection HN as HN.
  destruct (code128_new_Ok s b HN) as [segs [HM [Es ->]]].
  destruct (encode_returns_form p _ m (message_units_idx _ HM) HE) as [chk [HC Em]]. rewrite message_units_values in Em.
  assert (HL : Forall (fun v => (v < 106)%N) (message_values segs ++ [chk])) by (apply Forall_snoc; [now apply message_values_lt | assumption]).
  pose proof (read_values_symbol _ _ HL) as HR.
  assert (HD : decode_checked (message_values segs ++ [chk]) <> None).
  { intros E. apply HX. unfold read_modules. rewrite Em, symbol_with_scan by assumption. cbn [obind read_as]. unfold read_c128. now rewrite HR; cbn [obind]; rewrite E. }
  destruct (decode_checked_form _ HD) as (st & data & EV & Hst & Hd). apply app_inj_tail in EV. destruct EV as [EV ->].
  exists segs, st, data. eexists. split; [assumption|]. split; [assumption|]. split; [assumption|]. split; [exact Em|].
  intros i j Hi Hj. rewrite EV in HR |- *. set (ws := symbol_with (st :: data) (c128_check (st :: data))) in *.
  unfold splice. cbn [lead stride read_as]. unfold read_c128.
  replace (6 + 6 * i) with (6 * S i) by lia. replace (6 + 6 * j) with (6 * S j) by lia.
  rewrite (c128_splice _ _ (S i) (S j) HR) by (rewrite app_length; cbn [length]; lia). cbn [obind app].
  change (mend (S i) (S j) (st :: data ++ [c128_check (st :: data)])) with (st :: mend i j (data ++ [c128_check (st :: data)])).
  rewrite mend_app by assumption. rewrite decode_start_checked, N.eqb_sym. destruct (_ =? _)%N; reflexivity.
Qed.
