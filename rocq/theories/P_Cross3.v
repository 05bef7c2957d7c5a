(** * Proofs: accepted data and scan lines across two symbols *)
From Verif Require Import Rust M_Error Symbology M_Code39 M_Code93 M_Code11 M_Codabar M_Tf M_Code128 M_Use S_Barcode S_Ean S_Text S_Linear S_Codabar S_Tf S_Code128 S_All S_Size S_Skip S_Place S_Cross
  P_Rust P_Barcode P_Parse P_Alphabet P_Gap P_Weighted P_Gs1 P_Ean P_Retail P_Retail3 P_Supp P_Code39 P_Code93 P_Code11 P_Codabar P_Tf P_Code128 P_Code128b P_Check128 P_All P_Width P_Pattern P_Damage P_Place P_Skip P_Cross P_Cross2.
From Verif Require P_Apart P_Stretch P_Wrong.
Local Open Scope nat_scope.

Lemma plain_across y p p' s s' m m' : (str_len s < 2 ^ 48)%N -> (str_len s' < 2 ^ 48)%N -> barcode y p s = Ret (Ok m) -> barcode y p' s' = Ret (Ok m') ->
  y = SCode39 \/ y = SCodabar \/ y = SItf \/ y = SStf ->
  exists t t', shown y s t /\ shown y s' t' /\ forall i j, between y t i -> between y t' j ->
    read_modules y (crossing (place y t i) (place y t' j) m m') = report y (crossing i j t t').
Proof.
  intros Hs Hs' H H' HY. destruct HY as [->|[->|[->| ->]]]; cbn [barcode] in H, H'; apply run_Ok in H, H'; destruct H as (b & HN & HE); destruct H' as (b' & HN' & HE').
  - injection HN as HN. injection HN' as HN'.
    destruct (code39_accepted p s b false Hs (or_introl HN)) as [m1 [E [Em _]]]. apply code39_init_Ok in HN. destruct HN as [HD [Hd Hb]]. subst b.
    cbn [c39_data] in E. rewrite HE in E. injection E as <-. subst m.
    destruct (code39_accepted p' s' b' false Hs' (or_introl HN')) as [m1 [E [Em _]]]. apply code39_init_Ok in HN'. destruct HN' as [HD' [Hd' Hb']]. subst b'.
    cbn [c39_data] in E. rewrite HE' in E. injection E as <-. subst m'.
    exists s, s'. split; [reflexivity|]. split; [reflexivity|]. intros i j Hi Hj. cbn [between] in Hi, Hj.
    assert (HU : Forall c39_in (crossing i j s s')) by now apply crossing_Forall.
    unfold c39_message. cbv iota. rewrite c39_crossing by (assumption || now left). unfold read_modules. rewrite c39_symbol_scan by assumption. cbn [obind read_as]. now rewrite c39_symbol_read.
  - pose proof (codabar_encode_lib p s b HN) as E. rewrite HE in E. injection E as ->. apply codabar_new_Ok in HN. destruct HN as [HF [Hn _]].
    pose proof (codabar_encode_lib p' s' b' HN') as E. rewrite HE' in E. injection E as ->. apply codabar_new_Ok in HN'. destruct HN' as [HF' [Hn' _]].
    exists s, s'. split; [reflexivity|]. split; [reflexivity|]. intros i j Hi Hj. cbn [between] in Hi, Hj. rewrite cod_crossing by assumption.
    assert (HU : Forall cod_in (crossing i j s s')) by now apply crossing_Forall.
    assert (NU : crossing i j s s' <> []). { intros E. apply (f_equal (@length _)) in E. unfold str, char in *. rewrite (crossing_length i j s s') in E by (apply Nat.lt_le_incl; exact Hi). cbn [length] in E. lia. }
    unfold read_modules. rewrite lib_symbol_scan by assumption. cbn [obind read_as]. unfold read_cod.
    rewrite sep_chop by (exact lib_pattern_length || assumption). cbn [obind].
    rewrite sep_blocks_read by (exact lib_pattern_length || assumption). cbn [obind]. rewrite read_all_lib by assumption. cbn [report].
    match goal with |- option_map _ (if ?b then _ else _) = _ => change (option_map Text (if b then None else Some (map exchange (crossing i j s s'))) = if b then None else Some (Text (map exchange (crossing i j s s')))); destruct b; reflexivity end.
  - assert (HV : forall p s b m, tf_interleaved p s = Ret (Ok b) -> tf_encode b = Ret m -> exists ds, Forall is_digit ds /\ Nat.even (length ds) = true /\ itf_carries s ds /\ m = render (itf_symbol 3 2 ds)).
    { clear. intros p s b m HN HE. pose proof (itf_carried p s b HN) as HO. apply tf_interleaved_Ok in HN. destruct HN as [_ [_ [ds [-> [HD [HV _]]]]]]. cbn in HO. exists ds. split; [assumption|]. split; [assumption|]. split; [assumption|].
      rewrite tf_encode_interleaved in HE by assumption. now injection HE. }
    destruct (HV p s b m HN HE) as (ds & HD & HE1 & HC & ->). destruct (HV p' s' b' m' HN' HE') as (ds' & HD' & HE1' & HC' & ->).
    exists ds, ds'. split; [assumption|]. split; [assumption|]. intros i j [Ei Hi] [Ej Hj]. rewrite itf_crossing by assumption.
    assert (HU : Forall is_digit (crossing i j ds ds')) by now apply crossing_Forall.
    unfold read_modules. rewrite itf_scan by assumption. cbn [obind read_as]. rewrite read_itf_symbol; [reflexivity | assumption|].
    rewrite crossing_length, Nat.even_add, Nat.even_sub, Ei, Ej, HE1' by assumption. reflexivity.
  - destruct (stf_accepted s b HN) as [m1 [E [-> _]]]. rewrite HE in E. injection E as ->. apply tf_standard_Ok in HN. destruct HN as [HD _]. apply digits_of_digits in HD.
    destruct (stf_accepted s' b' HN') as [m1 [E [-> _]]]. rewrite HE' in E. injection E as ->. apply tf_standard_Ok in HN'. destruct HN' as [HD' _]. apply digits_of_digits in HD'.
    eexists. eexists. split; [reflexivity|]. split; [reflexivity|]. intros i j Hi Hj. cbn [between] in Hi, Hj. rewrite stf_crossing by assumption.
    assert (HU : Forall is_digit (crossing i j (digits_of s) (digits_of s'))) by now apply crossing_Forall.
    unfold read_modules. rewrite stf_scan by assumption. cbn [obind read_as]. now rewrite read_stf_symbol.
Qed.

Lemma code39_across p p' s s' m m' i j : (str_len s < 2 ^ 48)%N -> (str_len s' < 2 ^ 48)%N ->
  barcode SCode39Checked p s = Ret (Ok m) -> barcode SCode39Checked p' s' = Ret (Ok m') -> i <= length s -> j <= length s' ->
  exists t, read_modules SCode39Checked (crossing (13 * i + 13) (13 * j + 13) m m') = Some (Text t) /\ t = crossing i j s s' ++ [c39_check s'] /\
    (c39_valid t <-> (total (map c39_value (firstn i s)) mod 43 = total (map c39_value (firstn j s')) mod 43)%N).
Proof.
  intros Hs Hs' H H' Hi Hj. cbn [barcode] in H, H'. apply run_Ok in H, H'. destruct H as (b & HN & HE). destruct H' as (b' & HN' & HE'). injection HN as HN. injection HN' as HN'.
  destruct (code39_accepted p s b true Hs (or_intror HN)) as [m1 [E [Em _]]]. apply code39_init_Ok in HN. destruct HN as [HD [Hd Hb]]. subst b.
  cbn [c39_data] in E. rewrite HE in E. injection E as <-. subst m.
  destruct (code39_accepted p' s' b' true Hs' (or_intror HN')) as [m1 [E [Em _]]]. apply code39_init_Ok in HN'. destruct HN' as [HD' [Hd' Hb']]. subst b'.
  cbn [c39_data] in E. rewrite HE' in E. injection E as <-. subst m'.
  pose proof (c39_message_in s true HD) as HM. pose proof (c39_message_in s' true HD') as HM'. unfold c39_message in *. cbv iota in *.
  set (t := s ++ [c39_check s]) in *. set (t' := s' ++ [c39_check s']) in *.
  change (13 * i + 13) with (place SCode39Checked t i). change (13 * j + 13) with (place SCode39Checked t' j).
  assert (Li : i <= length t) by (unfold t; rewrite app_length; lia). assert (Lj : j <= length t') by (unfold t'; rewrite app_length; lia).
  rewrite c39_crossing by (assumption || now right). assert (HU : Forall c39_in (crossing i j t t')) by now apply crossing_Forall.
  exists (crossing i j t t'). unfold read_modules. rewrite c39_symbol_scan by assumption. cbn [obind read_as]. rewrite c39_symbol_read by assumption. split; [reflexivity|].
  assert (EU : crossing i j t t' = crossing i j s s' ++ [c39_check s']) by now apply crossing_snoc. split; [assumption|].
  rewrite EU, c39_valid_iff, c39_check_value. unfold crossing. rewrite c39_sum_app. change (total (map c39_value ?x)) with (c39_sum x).
  assert (ES : (c39_sum s' = c39_sum (firstn j s') + c39_sum (skipn j s'))%N) by now rewrite <- c39_sum_app, firstn_skipn.
  rewrite ES. generalize (c39_sum (firstn i s)) as a, (c39_sum (firstn j s')) as c, (c39_sum (skipn j s')) as d. clear. intros a c d. split; intros E.
  - pose proof (N.div_mod a 43 ltac:(discriminate)) as A1. pose proof (N.div_mod c 43 ltac:(discriminate)) as A2.
    pose proof (N.div_mod (a + d) 43 ltac:(discriminate)) as A3. pose proof (N.div_mod (c + d) 43 ltac:(discriminate)) as A4.
    pose proof (N.mod_lt a 43 ltac:(discriminate)) as B1. pose proof (N.mod_lt c 43 ltac:(discriminate)) as B2. rewrite E in A4. clear E.
    generalize dependent ((a + d) mod 43)%N.
    generalize dependent (a mod 43)%N. generalize dependent (c mod 43)%N. generalize dependent (a / 43)%N. generalize dependent (c / 43)%N.
    generalize dependent ((a + d) / 43)%N. generalize dependent ((c + d) / 43)%N. intros. lia.
  - rewrite (N.add_mod a), (N.add_mod c), E by discriminate. reflexivity.
Qed.

Lemma code93_across p p' s s' m m' i j : (str_len s < 2 ^ 48)%N -> (str_len s' < 2 ^ 48)%N ->
  barcode SCode93 p s = Ret (Ok m) -> barcode SCode93 p' s' = Ret (Ok m') -> i <= length s -> j <= length s' ->
  let u := crossing i j s s' in let c := c93_C s' in
  read_modules SCode93 (crossing (9 * i + 9) (9 * j + 9) m m') =
    if ((c93_sum 20 u =? c93_sum 20 s') && (c93_sum 15 (u ++ [c]) =? c93_sum 15 (s' ++ [c])))%N then Some (Text u) else None.
Proof.
  intros Hs Hs' H H' Hi Hj. cbv zeta. cbn [barcode] in H, H'. apply run_Ok in H, H'. destruct H as (b & HN & HE). destruct H' as (b' & HN' & HE'). injection HN as HN. injection HN' as HN'.
  destruct (code93_accepted p s b Hs HN) as [m1 [E [Em _]]]. rewrite HE in E. injection E as <-. subst m. apply code93_new_Ok in HN. destruct HN as [HD _]. pose proof (c93_message_in s HD) as HM.
  destruct (code93_accepted p' s' b' Hs' HN') as [m1 [E [Em _]]]. rewrite HE' in E. injection E as <-. subst m'. apply code93_new_Ok in HN'. destruct HN' as [HD' _]. pose proof (c93_message_in s' HD') as HM'.
  change (s ++ [c93_C s; c93_K s]) with (c93_message s). change (s' ++ [c93_C s'; c93_K s']) with (c93_message s').
  assert (Li : i <= length (c93_message s)) by (unfold c93_message; rewrite app_length; lia). assert (Lj : j <= length (c93_message s')) by (unfold c93_message; rewrite app_length; lia).
  change (9 * i + 9) with (place SCode93 (c93_message s) i). change (9 * j + 9) with (place SCode93 (c93_message s') j).
  rewrite c93_crossing by assumption. assert (HU : Forall c93_in (crossing i j (c93_message s) (c93_message s'))) by now apply crossing_Forall.
  unfold read_modules. rewrite c93_symbol_scan by assumption. cbn [obind read_as]. unfold read_c93. rewrite c93_symbol_read_raw by assumption. cbn [obind].
  unfold c93_message. rewrite crossing_snoc by assumption.
  assert (VC : value c93_chars (c93_C s') = c93_sum 20 s').
  { unfold c93_C, c93_sum. apply value_char_of; [exact c93_nodup_c|]. apply N.mod_lt. discriminate. }
  assert (VK : value c93_chars (c93_K s') = c93_sum 15 (s' ++ [c93_C s'])).
  { unfold c93_K. apply value_char_of; [exact c93_nodup_c|]. apply N.mod_lt. discriminate. }
  rewrite c93_verified. unfold c93_value. rewrite VC, VK. unfold c93_sum at 1 3.
  rewrite (N.eqb_sym (check_sum c93_chars 47 15 _)), (N.eqb_sym (c93_sum 20 s')), andb_comm. fold (c93_sum 15 (s' ++ [c93_C s'])).
  unfold c93_sum. destruct (_ && _)%bool; reflexivity.
Qed.

Lemma code11_across p p' s s' m m' i j : (str_len s < 2 ^ 48)%N -> (str_len s' < 2 ^ 48)%N ->
  barcode SCode11 p s = Ret (Ok m) -> barcode SCode11 p' s' = Ret (Ok m') -> i <= length s -> j <= length s' ->
  let u := crossing i j s s' in let c := c11_C s' in let r := read_modules SCode11 (crossing (place SCode11 s i) (place SCode11 s' j) m m') in
  (10 < length s' -> 10 <= length u ->
     r = if ((c11_sum 10 u =? c11_sum 10 s') && (c11_sum 9 (u ++ [c]) =? c11_sum 9 (s' ++ [c])))%N then Some (Text u) else None) /\
  (10 < length s' -> length u < 10 ->
     r = if (c11_sum 10 (u ++ [c]) =? c11_sum 9 (s' ++ [c]))%N then Some (Text (u ++ [c])) else None) /\
  (length s' <= 10 -> length u <= 10 -> r = if (c11_sum 10 u =? c11_sum 10 s')%N then Some (Text u) else None) /\
  (length s' <= 10 -> 10 < length u -> forall u' x, u = u' ++ [x] ->
     r = if ((c11_sum 10 u' =? c11_value x) && (c11_sum 9 u =? c11_sum 10 s'))%N then Some (Text u') else None).
Proof.
  intros Hs Hs' H H' Hi Hj. cbv zeta. cbn [barcode] in H, H'. apply run_Ok in H, H'. destruct H as (b & HN & HE). destruct H' as (b' & HN' & HE'). injection HN as HN. injection HN' as HN'.
  pose proof (code11_accepted p s b Hs HN) as E. rewrite HE in E. injection E as ->. apply code11_new_Ok in HN. destruct HN as [HD _]. pose proof (c11_checked_in s HD) as HM.
  pose proof (code11_accepted p' s' b' Hs' HN') as E. rewrite HE' in E. injection E as ->. apply code11_new_Ok in HN'. destruct HN' as [HD' _]. pose proof (c11_checked_in s' HD') as HM'.
  assert (LE : forall s : str, length s <= length (c11_checked s)) by (intros v; unfold c11_checked; rewrite app_length; lia).
  assert (EP : forall (s : str) i, i <= length s -> place SCode11 s i = place SCode11 (c11_checked s) i).
  { intros v k Hk. cbn [place]. unfold c11_checked. rewrite firstn_app. replace (k - length v) with 0 by lia. cbn [firstn]. now rewrite app_nil_r. }
  change (s ++ [c11_C s] ++ _) with (c11_checked s). change (s' ++ [c11_C s'] ++ _) with (c11_checked s').
  rewrite (EP s i Hi), (EP s' j Hj). rewrite c11_crossing by (assumption || (eapply Nat.le_trans; [eassumption | apply LE])).
  assert (HU : Forall c11_in (crossing i j (c11_checked s) (c11_checked s'))) by now apply crossing_Forall.
  assert (VC : value c11_chars (c11_C s') = check_sum c11_chars 11 10 s').
  { unfold c11_C, c11_sum. apply value_char_of; [exact c11_nodup_c|]. apply N.mod_lt. discriminate. }
  assert (VK : value c11_chars (c11_K s') = check_sum c11_chars 11 9 (s' ++ [c11_C s'])).
  { unfold c11_K, c11_sum. apply value_char_of; [exact c11_nodup_c|]. apply N.mod_lt. discriminate. }
  set (t := crossing i j s s').
  assert (R : read_modules SCode11 (render (c11_symbol (crossing i j (c11_checked s) (c11_checked s')))) =
    option_map Text (c11_verify (t ++ [c11_C s'] ++ (if Nat.ltb 10 (length s') then [c11_K s'] else [])))).
  { unfold read_modules. rewrite c11_symbol_scan by assumption. cbn [obind read_as]. unfold read_c11. rewrite c11_symbol_read_raw by assumption. cbn [obind].
    unfold c11_checked. now rewrite crossing_snoc by assumption. }
  match type of R with _ = ?v => match goal with |- context [read_modules SCode11 ?x] => replace (read_modules SCode11 x) with v by (symmetry; exact R) end end. clear R HU. unfold c11_verify. rewrite !app_length. cbn [length].
  destruct (Nat.ltb_spec 10 (length s')) as [L|L]; cbn [length].
  - repeat split; intros L1 L2; try lia.
    + destruct (Nat.ltb_spec 11 (length t + (1 + 1))); [|lia]. rewrite app_assoc, last_verified, VK. unfold c11_sum.
      rewrite (N.eqb_sym (check_sum c11_chars 11 9 (t ++ _))), andb_comm. destruct (_ =? _)%N; cbn [obind andb]; [|reflexivity].
      rewrite last_verified, VC, N.eqb_sym. destruct (_ =? _)%N; reflexivity.
    + destruct (Nat.ltb_spec 11 (length t + (1 + 1))); [lia|]. cbn [obind]. rewrite app_assoc, last_verified, VK. unfold c11_sum.
      rewrite N.eqb_sym. destruct (_ =? _)%N; reflexivity.
  - repeat split; intros L1 L2; try lia.
    + destruct (Nat.ltb_spec 11 (length t + (1 + 0))); [lia|]. cbn [obind app]. rewrite last_verified, VC. unfold c11_sum.
      rewrite N.eqb_sym. destruct (_ =? _)%N; reflexivity.
    + intros t' x Et. destruct (Nat.ltb_spec 11 (length t + (1 + 0))); [|lia]. cbn [app]. rewrite last_verified, VC. unfold c11_sum.
      rewrite (N.eqb_sym (check_sum c11_chars 11 9 t)), andb_comm. destruct (_ =? _)%N; cbn [obind andb]; [|reflexivity].
      rewrite Et, last_verified. unfold c11_value. rewrite N.eqb_sym. destruct (_ =? _)%N; reflexivity.
Qed.

Lemma code128_sees p s m : barcode SCode128 p s = Ret (Ok m) -> read_modules SCode128 m <> None ->
  exists segs st data, message_ok segs /\ s = spell segs /\ message_values segs = st :: data /\ m = render (symbol_with (st :: data) (c128_check (st :: data))) /\
    Forall (fun v => (v < 106)%N) ((st :: data) ++ [c128_check (st :: data)]).
Proof.
  intros H HX. cbn [barcode] in H. apply run_Ok in H. destruct H as (b & HN & HE). injection HN as HN.
  destruct (code128_new_Ok s b HN) as [segs [HM [Es ->]]].
  destruct (encode_returns_form p _ m (message_units_idx _ HM) HE) as [chk [HC Em]]. rewrite message_units_values in Em.
  assert (HL : Forall (fun v => (v < 106)%N) (message_values segs ++ [chk])) by (apply Forall_snoc; [now apply message_values_lt | assumption]).
  pose proof (read_values_symbol _ _ HL) as HR.
  assert (HD : decode_checked (message_values segs ++ [chk]) <> None).
  { intros E. apply HX. unfold read_modules. rewrite Em, symbol_with_scan by assumption. cbn [obind read_as]. unfold read_c128. now rewrite HR; cbn [obind]; rewrite E. }
  destruct (decode_checked_form _ HD) as (st & data & EV & Hst & Hd). apply app_inj_tail in EV. destruct EV as [EV ->].
  exists segs, st, data. split; [assumption|]. split; [assumption|]. split; [assumption|]. rewrite EV in Em, HL. now split.
Qed.
Lemma code128_across p p' s s' m m' : barcode SCode128 p s = Ret (Ok m) -> barcode SCode128 p' s' = Ret (Ok m') ->
  read_modules SCode128 m <> None -> read_modules SCode128 m' <> None ->
  exists segs segs' st st' data data', message_ok segs /\ s = spell segs /\ message_values segs = st :: data /\
    message_ok segs' /\ s' = spell segs' /\ message_values segs' = st' :: data' /\
    forall i j, i <= length data -> j <= length data' ->
      read_modules SCode128 (crossing (11 * i + 11) (11 * j + 11) m m') =
        if (c128_check (st :: crossing i j data data') =? c128_check (st' :: data'))%N then option_map Tokens (decode_start st (crossing i j data data')) else None.
Proof.
  intros H H' HX HX'. destruct (code128_sees p s m H HX) as (segs & st & data & HM & Es & EV & -> & HL).
  destruct (code128_sees p' s' m' H' HX') as (segs' & st' & data' & HM' & Es' & EV' & -> & HL').
  exists segs, segs', st, st', data, data'. do 6 (split; [assumption|]). intros i j Hi Hj.
  replace (11 * i + 11) with (place SCode128 ((st :: data) ++ [c128_check (st :: data)]) (S i)) by (cbn [place]; lia).
  replace (11 * j + 11) with (place SCode128 ((st' :: data') ++ [c128_check (st' :: data')]) (S j)) by (cbn [place]; lia).
  rewrite c128_crossing by (assumption || (cbn [length]; lia)).
  change (crossing (S i) (S j) (st :: data) (st' :: data')) with (st :: crossing i j data data').
  assert (HU : Forall (fun v => (v < 106)%N) ((st :: crossing i j data data') ++ [c128_check (st' :: data')])).
  { apply Forall_app in HL, HL'. destruct HL as [HL _]. destruct HL' as [HL' HK]. apply Forall_app. split; [|assumption].
    inversion HL; subst. inversion HL'; subst. constructor; [assumption | now apply crossing_Forall]. }
  unfold read_modules. rewrite symbol_with_scan by assumption. cbn [obind read_as]. unfold read_c128. rewrite read_values_symbol by assumption. cbn [obind app].
  rewrite decode_start_checked, N.eqb_sym. destruct (_ =? _)%N; reflexivity.
Qed.

Lemma retail_across y p p' s s' m m' : barcode y p s = Ret (Ok m) -> barcode y p' s' = Ret (Ok m') -> y = SEan8 \/ y = SUpca ->
  exists t t', shown y s t /\ shown y s' t' /\ forall k, k <= length t ->
    read_modules y (crossing (place y t k) (place y t' k) m m') =
      if (alt_sum 3 1 (firstn k t) mod 10 =? alt_sum 3 1 (firstn k t') mod 10)%N then Some (Digits (crossing k k t t')) else None.
Proof.
  intros H H' [->| ->]; cbn [barcode] in H, H'; apply run_Ok in H, H'; destruct H as (b & HN & HE); destruct H' as (b' & HN' & HE').
  - destruct (ean8_conform p p s b HN) as [E _]. destruct (ean8_accepted p s b HN) as (_ & HL & D). rewrite HE in E. injection E as ->.
    destruct (ean8_conform p' p' s' b' HN') as [E _]. destruct (ean8_accepted p' s' b' HN') as (_ & HL' & D'). rewrite HE' in E. injection E as ->.
    eexists. eexists. split; [apply (check_shown 7 s _ eq_refl)|]. split; [apply (check_shown 7 s' _ eq_refl)|].
    rewrite app_length, HL. intros k Hk. apply (fixed_crossing SEan8 4); auto using gs1_check_valid; try (apply Forall_snoc; [assumption | apply gs1_check_digit]); rewrite app_length; cbn [length]; lia.
  - destruct (upca_conform p p s b HN) as [E _]. destruct (upca_accepted p s b HN) as (_ & HL & D). rewrite HE in E. injection E as ->.
    destruct (upca_conform p' p' s' b' HN') as [E _]. destruct (upca_accepted p' s' b' HN') as (_ & HL' & D'). rewrite HE' in E. injection E as ->.
    eexists. eexists. split; [apply (check_shown 11 s _ eq_refl)|]. split; [apply (check_shown 11 s' _ eq_refl)|].
    rewrite app_length, HL. intros k Hk. apply (fixed_crossing SUpca 6); auto using gs1_check_valid; try (apply Forall_snoc; [assumption | apply gs1_check_digit]); rewrite app_length; cbn [length]; lia.
Qed.
Lemma ean13_across p p' s s' m m' : barcode SEan13 p s = Ret (Ok m) -> barcode SEan13 p' s' = Ret (Ok m') ->
  exists t t', shown SEan13 s t /\ shown SEan13 s' t' /\
    let sets t := nth (N.to_nat (hd 0%N t)) ean13_parities [] in
    forall k, 1 <= k <= 13 -> let r := read_modules SEan13 (crossing (place SEan13 t k) (place SEan13 t' k) m m') in
      (forall l, r = Some (Digits l) <-> exists f, is_digit f /\ sets [f] = crossing (k - 1) (k - 1) (sets t) (sets t') /\
         l = f :: crossing (k - 1) (k - 1) (tl t) (tl t') /\ gs1_valid l) /\
      (7 <= k \/ hd 0%N t = hd 0%N t' ->
         r = if (alt_sum 1 3 (firstn k t) mod 10 =? alt_sum 1 3 (firstn k t') mod 10)%N then Some (Digits (crossing k k t t')) else None).
Proof.
  intros H H'; cbn [barcode] in H, H'; apply run_Ok in H, H'; destruct H as (b & HN & HE); destruct H' as (b' & HN' & HE').
  destruct (ean13_conform p p s b HN) as [E _]. destruct (ean13_accepted p s b HN) as (_ & HL & D). rewrite HE in E. injection E as ->.
  destruct (ean13_conform p' p' s' b' HN') as [E _]. destruct (ean13_accepted p' s' b' HN') as (_ & HL' & D'). rewrite HE' in E. injection E as ->.
  eexists. eexists. split; [apply (check_shown 12 s _ eq_refl)|]. split; [apply (check_shown 12 s' _ eq_refl)|]. cbv zeta. intros k Hk.
  assert (F : forall ds, Forall is_digit ds -> length ds = 12 -> Forall is_digit (ds ++ [gs1_check ds]) /\ length (ds ++ [gs1_check ds]) = 13).
  { intros ds Hd Hl. split; [apply Forall_snoc; [assumption | apply gs1_check_digit] | rewrite app_length; cbn [length]; lia]. }
  destruct (F _ D HL) as [F1 F2]. destruct (F _ D' HL') as [F3 F4]. split.
  - intros l. rewrite ean13_crossing by assumption. reflexivity.
  - intros HK. apply ean13_crossing_same; auto using gs1_check_valid.
Qed.
Lemma addon_across p p' s s' m m' i j r : barcode SSupp p s = Ret (Ok m) -> barcode SSupp p' s' = Ret (Ok m') -> i < length s -> j < length s' ->
  let u := crossing i j (digits_of s) (digits_of s') in
  read_modules SSupp (crossing (9 * i + 4) (9 * j + 4) m m') = Some r <->
    crossing i j (addon_sets (digits_of s)) (addon_sets (digits_of s')) = addon_sets u /\ r = Digits u.
Proof.
  intros H H' Hi Hj. cbv zeta.
  assert (F : forall p s m, barcode SSupp p s = Ret (Ok m) -> Forall is_digit (digits_of s) /\ length (addon_sets (digits_of s)) = length (digits_of s) /\
    m = render (addon_guard ++ draw_addon true (addon_sets (digits_of s)) (digits_of s))).
  { clear. intros p s m H. cbn [barcode] in H. apply run_Ok in H. destruct H as (b & HN & HE).
    destruct (eansupp_accepted p s b HN) as [m' [E HC]]. rewrite HE in E. injection E as <-.
    destruct (eansupp_new_spec s) as [r [ER [_ [_ [_ HO]]]]]. rewrite HN in ER. injection ER as <-.
    specialize (HO b). destruct HO as [HO _]. destruct (HO eq_refl) as [HD _]. apply digits_of_digits in HD. split; [assumption|].
    assert (HL : length (digits_of s) = length s) by (unfold digits_of; apply map_length).
    destruct HC as [[HC [_ [-> _]]]|[HC [_ [-> _]]]]; rewrite HC in HL.
    - destruct (addon_two _ HD HL) as [E1 E2]. split; [assumption | now rewrite E2].
    - destruct (addon_five _ HD HL) as [E1 E2]. split; [assumption | now rewrite E2]. }
  destruct (F p s m H) as (HD & HL & ->). destruct (F p' s' m' H') as (HD' & HL' & ->).
  assert (Li : i < length (digits_of s)) by (unfold digits_of; now rewrite map_length). assert (Lj : j < length (digits_of s')) by (unfold digits_of; now rewrite map_length).
  change (9 * i + 4) with (place SSupp (digits_of s) i). change (9 * j + 4) with (place SSupp (digits_of s') j). rewrite addon_crossing by assumption.
  apply addon_read; [|rewrite !crossing_length by lia; lia | now apply crossing_Forall].
  intros E. apply (f_equal (@length _)) in E. rewrite crossing_length in E by lia. cbn [length] in E. lia.
Qed.

(** Lines that cross between different places see another number of modules. *)
Lemma ends_dark m ws : scan m = Some ws -> (exists x, m = 1%N :: x) -> (exists x, m = x ++ [1%N]) -> list_sum ws = length m.
Proof.
  intros HS [x Ex] [z Ez]. destruct (P_Wrong.scan_form m ws HS) as (j & k & E).
  assert (j = 0). { destruct j; [reflexivity|]. rewrite Ex in E. discriminate E. } subst j.
  assert (k = 0). { destruct k; [reflexivity|]. rewrite Ez in E. cbn [repeat] in E. rewrite repeat_cons in E. cbn [app] in E. rewrite app_assoc in E. apply app_inj_tail in E. destruct E as [_ E]. discriminate E. }
  subst k. rewrite E. cbn [repeat app]. rewrite app_nil_r. symmetry. apply render_from_length.
Qed.
Lemma retail_modules y ws r : y = SEan13 \/ y = SEan8 \/ y = SUpca -> read_as y ws = Some r -> list_sum ws = match y with SEan8 => 67 | _ => 95 end.
Proof.
  intros [->|[->| ->]] HR; cbn [read_as] in HR; apply P_Apart.option_map_Some in HR; destruct HR as (l & HR & _); apply P_Apart.obind_Some in HR; destruct HR as (x & HR & _); now apply P_Stretch.halves_sum in HR.
Qed.
Lemma retail_ends y p s m : (str_len s < 2 ^ 48)%N -> barcode y p s = Ret (Ok m) -> y = SEan13 \/ y = SEan8 \/ y = SUpca ->
  length m = match y with SEan8 => 67 | _ => 95 end /\ (exists x, m = 1%N :: x) /\ (exists x, m = x ++ [1%N]).
Proof.
  intros Hs H HY. pose proof (barcode_length y p s m Hs H) as HL. split; [destruct HY as [->|[->| ->]]; exact HL|].
  destruct (barcode_shape y p s m Hs H) as (ws & Em & HO & HF).
  assert (HT : tail y = []) by (destruct HY as [->|[->| ->]]; reflexivity). rewrite HT, app_nil_r in Em. subst m. clear - HO HF.
  assert (NE : ws <> []) by (intros ->; discriminate HO). split.
  - destruct ws as [|w ws]; [contradiction|]. inversion HF as [|? ? Hw _]; subst. destruct w; [lia|]. cbn [render render_from repeat app]. eexists. reflexivity.
  - destruct (exists_last NE) as (v & w & ->). apply Forall_app in HF. destruct HF as [_ Hw]. inversion Hw as [|? ? Hw' _]; subst. destruct w; [lia|].
    rewrite app_length in HO. cbn [length] in HO. rewrite Nat.add_1_r, Nat.even_succ, <- Nat.negb_even, Bool.negb_false_iff in HO.
    unfold render. rewrite render_from_app_even by (assumption || now right). cbn [render_from]. rewrite app_nil_r. change (S w) with (1 + w). rewrite Nat.add_comm, repeat_app. cbn [repeat]. rewrite app_assoc. eexists. reflexivity.
Qed.
Lemma retail_uneven y p p' s s' m m' k k' : (str_len s < 2 ^ 48)%N -> (str_len s' < 2 ^ 48)%N -> barcode y p s = Ret (Ok m) -> barcode y p' s' = Ret (Ok m') ->
  y = SEan13 \/ y = SEan8 \/ y = SUpca -> k <> k' -> k <= length m -> k' <= length m' -> read_modules y (crossing k k' m m') = None.
Proof.
  intros Hs Hs' H H' HY Hk L L'.
  destruct (retail_ends y p s m Hs H HY) as (HL & [x Ex] & _). destruct (retail_ends y p' s' m' Hs' H' HY) as (HL' & _ & [z Ez]).
  destruct (read_modules y (crossing k k' m m')) as [r|] eqn:HR; [exfalso | reflexivity].
  unfold read_modules in HR. destruct (scan (crossing k k' m m')) as [ws|] eqn:HS; [|discriminate HR]. cbn [obind] in HR. apply retail_modules in HR; [|assumption].
  pose proof (crossing_length k k' m m' L) as LC.
  destruct (Nat.lt_ge_cases k k') as [D|D].
  - destruct (P_Wrong.scan_form _ ws HS) as (a & b & E). apply (f_equal (@length _)) in E. rewrite LC, !app_length in E. unfold render in E. rewrite render_from_length in E. lia.
  - assert (list_sum ws = length (crossing k k' m m')); [|lia]. apply ends_dark; [assumption| |].
    + rewrite Ex. destruct k; [lia|]. unfold crossing. cbn [firstn app]. eexists. reflexivity.
    + rewrite Ez in L' |- *. rewrite app_length in L'. cbn [length] in L'. assert (k' < length m') by lia. rewrite Ez, app_length in H0. cbn [length] in H0. unfold crossing. rewrite skipn_app. replace (k' - length z) with 0 by lia. cbn [skipn]. rewrite app_assoc. eexists. reflexivity.
Qed.
