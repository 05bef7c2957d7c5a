(** * Proofs for C84 and C85: item numbers *)
From Verif Require Import Rust M_Error M_Ean13 M_Ean8 M_Upca M_Tf Symbology M_Use S_Barcode S_Ean S_Text S_All S_Exact S_Item
  P_Rust P_Parse P_Gs1 P_Ean P_Retail P_Retail2 P_Retail3 P_Tf P_All P_Exact.

Lemma in_digits_length n l : (length l <= n)%nat -> length (in_digits n l) = n.
Proof. intros H. unfold in_digits. rewrite app_length, repeat_length. lia. Qed.

Lemma gs1_check_zeros k ds : gs1_check (repeat 0 k ++ ds) = gs1_check ds.
Proof. induction k as [|k IH]; [reflexivity|]. cbn [repeat app]. now rewrite gs1_check_zero. Qed.
Lemma gs1_valid_zeros k ds : gs1_valid (repeat 0 k ++ ds) <-> gs1_valid ds.
Proof. induction k as [|k IH]; [reflexivity|]. cbn [repeat app]. now rewrite gs1_valid_zero. Qed.
Lemma gs1_check_padded n ds : gs1_check (in_digits n ds) = gs1_check ds.
Proof. apply gs1_check_zeros. Qed.
Lemma gs1_valid_padded n ds : gs1_valid (in_digits n ds) <-> gs1_valid ds.
Proof. apply gs1_valid_zeros. Qed.
Lemma in_digits_snoc n ds c : (length ds < n)%nat -> in_digits n (ds ++ [c]) = in_digits (n - 1) ds ++ [c].
Proof.
  intros H. unfold in_digits. rewrite app_length. cbn [length]. rewrite app_assoc.
  f_equal. f_equal. f_equal. lia.
Qed.

Lemma digits_of_length s : length (digits_of s) = length s.
Proof. unfold digits_of. now rewrite map_length. Qed.

(** What is printed for an item number without its check digit *)
Lemma item_printed y p s : carrier y -> unchecked_item y s ->
  exists m, barcode y p s = Ret (Ok m) /\
    read_modules y m = Some (Digits (digits_of s ++ [gs1_check (digits_of s)])).
Proof.
  intros HC [HD HL].
  destruct (digit_text s HD) as (ds & Dd & ->). rewrite digits_of_text_of.
  assert (HL' : S (length ds) = item_digits y) by (rewrite <- HL; unfold text_of; now rewrite map_length).
  destruct y; try destruct HC; cbn [item_digits] in HL'; cbn [barcode]; unfold read_modules.
  - assert (HN : ean13_new p (text_of ds) = Ret (Ok (mkEAN13 ds))) by (rewrite ean13_new_retail; apply retail_new_bare; (assumption || lia)).
    destruct (ean13_conform p p _ _ HN) as [E _]. rewrite HN. cbn [run bind]. cbv zeta in E. rewrite E. cbn [bind].
    rewrite digits_of_text_of, firstn_all2 by lia. destruct (with_check_ok ds 12 ltac:(lia) Dd) as (L & D & V).
    eexists. split; [reflexivity|]. rewrite ean13_scan by assumption. cbn [obind read_as]. now rewrite ean13_symbol_read.
  - assert (HN : ean8_new p (text_of ds) = Ret (Ok (mkEAN8 ds))) by (rewrite ean8_new_retail; apply retail_new_bare; (assumption || lia)).
    destruct (ean8_conform p p _ _ HN) as [E _]. rewrite HN. cbn [run bind]. cbv zeta in E. rewrite E. cbn [bind].
    rewrite digits_of_text_of, firstn_all2 by lia. destruct (with_check_ok ds 7 ltac:(lia) Dd) as (L & D & V).
    eexists. split; [reflexivity|]. rewrite ean8_scan by assumption. cbn [obind read_as]. now rewrite ean8_symbol_read.
  - assert (HN : upca_new p (text_of ds) = Ret (Ok (mkUPCA ds))) by (rewrite upca_new_retail; apply retail_new_bare; (assumption || lia)).
    destruct (upca_conform p p _ _ HN) as [E _]. rewrite HN. cbn [run bind]. cbv zeta in E. rewrite E. cbn [bind].
    rewrite digits_of_text_of, firstn_all2 by lia. destruct (with_check_ok ds 11 ltac:(lia) Dd) as (L & D & V).
    eexists. split; [reflexivity|]. rewrite upca_scan by assumption. cbn [obind read_as]. now rewrite upca_symbol_read.
  - destruct (itf_check_short p (text_of ds) HD) as (d & E & HE).
    { unfold text_of. rewrite map_length. lia. }
    unfold text_of at 1 in HE. rewrite map_length in HE. replace (length ds) with 13%nat in HE by lia. cbn [Nat.even] in HE.
    rewrite digits_of_text_of in HE. destruct HE as [-> _].
    destruct (itf_accepted p (text_of ds) _ E) as (d' & _ & _ & ET & E' & _ & R). cbn [tf_raw_data] in ET. subst d'.
    rewrite E. cbn [run bind]. rewrite E'. cbn [bind]. eexists. split; [reflexivity|].
    destruct (scan _) as [ws|]; [|discriminate]. cbn [obind read_as] in *. now rewrite R.
Qed.

(** One item number in two carriers *)
Lemma item_number_once y y' p p' s s' : carrier y -> carrier y' -> unchecked_item y s -> unchecked_item y' s' ->
  in_digits 13 (digits_of s) = in_digits 13 (digits_of s') ->
  exists m m' l l', barcode y p s = Ret (Ok m) /\ barcode y' p' s' = Ret (Ok m') /\
    read_modules y m = Some (Digits l) /\ read_modules y' m' = Some (Digits l') /\
    in_digits 14 l = in_digits 14 l' /\ gs1_valid (in_digits 14 l).
Proof.
  intros HC HC' HU HU' E. destruct (item_printed y p s HC HU) as (m & HB & HR). destruct (item_printed y' p' s' HC' HU') as (m' & HB' & HR').
  exists m, m'. do 2 eexists. split; [exact HB|]. split; [exact HB'|]. split; [exact HR|]. split; [exact HR'|].
  assert (B : forall y s, carrier y -> unchecked_item y s -> (length (digits_of s) < 14)%nat).
  { intros z t Hz [_ Ht]. rewrite digits_of_length. destruct z; try destruct Hz; cbn [item_digits] in Ht; lia. }
  split; [|apply gs1_valid_padded, gs1_check_valid].
  rewrite !in_digits_snoc by eauto. cbn [Nat.sub]. rewrite E. f_equal. f_equal.
  rewrite <- (gs1_check_padded 13 (digits_of s)), E. apply gs1_check_padded.
Qed.

(** Numbers with a check digit written by the caller *)
Lemma full_accepted y p s : verifying y -> full_item y s ->
  (gs1_valid (digits_of s) -> exists m, barcode y p s = Ret (Ok m)) /\
  (~ gs1_valid (digits_of s) -> barcode y p s = Ret (Err EChecksum)).
Proof.
  intros HV [HD HL].
  destruct (digit_text s HD) as (ds & Dd & ->). rewrite digits_of_text_of.
  unfold text_of in HL. rewrite map_length in HL.
  destruct y; try destruct HV; cbn [item_digits] in HL; cbn [barcode].
  - destruct (retail_full mkEAN13 12 ltac:(lia) p ds HL Dd) as [[_ H1] [_ H2]]. rewrite <- !ean13_new_retail in *. split.
    + intros V. destruct (H1 V) as [b HN]. destruct (ean13_conform p p _ _ HN) as [E _]. rewrite HN. cbn [run bind]. rewrite E. cbn [bind]. eauto.
    + intros V. now rewrite (H2 V).
  - destruct (retail_full mkEAN8 7 ltac:(lia) p ds HL Dd) as [[_ H1] [_ H2]]. rewrite <- !ean8_new_retail in *. split.
    + intros V. destruct (H1 V) as [b HN]. destruct (ean8_conform p p _ _ HN) as [E _]. rewrite HN. cbn [run bind]. rewrite E. cbn [bind]. eauto.
    + intros V. now rewrite (H2 V).
  - destruct (retail_full mkUPCA 11 ltac:(lia) p ds HL Dd) as [[_ H1] [_ H2]]. rewrite <- !upca_new_retail in *. split.
    + intros V. destruct (H1 V) as [b HN]. destruct (upca_conform p p _ _ HN) as [E _]. rewrite HN. cbn [run bind]. rewrite E. cbn [bind]. eauto.
    + intros V. now rewrite (H2 V).
Qed.
Lemma gs1_valid_dec l : gs1_valid l \/ ~ gs1_valid l.
Proof. unfold gs1_valid. destruct (N.eq_dec (gs1_sum l mod 10) 0); auto. Qed.
Lemma item_accepted_once y y' p p' s s' : verifying y -> verifying y' -> full_item y s -> full_item y' s' ->
  in_digits 14 (digits_of s) = in_digits 14 (digits_of s') ->
  (exists m m', barcode y p s = Ret (Ok m) /\ barcode y' p' s' = Ret (Ok m')) \/
  (barcode y p s = Ret (Err EChecksum) /\ barcode y' p' s' = Ret (Err EChecksum)).
Proof.
  intros HV HV' HU HU' E.
  assert (V : gs1_valid (digits_of s) <-> gs1_valid (digits_of s')).
  { rewrite <- (gs1_valid_padded 14 (digits_of s)), E. apply gs1_valid_padded. }
  destruct (full_accepted y p s HV HU) as [A1 A2]. destruct (full_accepted y' p' s' HV' HU') as [B1 B2].
  destruct (gs1_valid_dec (digits_of s)) as [D|D]; [left|right].
  - destruct (A1 D) as [m Hm]. destruct (B1 (proj1 V D)) as [m' Hm']. eauto.
  - split; [auto|]. apply B2. tauto.
Qed.
(** ITF prints fourteen digits as they are *)
Lemma itf_trusts p s : full_item SItf s ->
  exists m, barcode SItf p s = Ret (Ok m) /\ read_modules SItf m = Some (Digits (digits_of s)).
Proof.
  intros [HD HL]. cbn [item_digits] in HL.
  assert (HN : tf_interleaved p s = Ret (Ok (Interleaved (digits_of s)))).
  { destruct (tf_interleaved_spec p s) as [_ [_ H3]]. rewrite str_len_digits in H3 by assumption.
    assert (Hn : len s mod 2 ^ 32 = 14) by (unfold len; unfold str, char in *; rewrite HL; reflexivity).
    rewrite Hn in H3. specialize (H3 ltac:(lia) HD). cbv zeta in H3. rewrite H3. unfold str, char in *. now rewrite HL. }
  destruct (itf_accepted p s _ HN) as (d' & _ & _ & ET & E' & _ & R). cbn [tf_raw_data] in ET. subst d'.
  cbn [barcode]. rewrite HN. cbn [run bind]. rewrite E'. cbn [bind]. eexists. split; [reflexivity|].
  unfold read_modules. destruct (scan _) as [ws|]; [|discriminate]. cbn [obind read_as] in *. now rewrite R.
Qed.

(** ** Two wrong digits *)
Lemma gs1_sum_two a x b z c : gs1_sum (a ++ x :: b ++ z :: c) =
  gs1_sum (a ++ 0 :: b ++ 0 :: c) + item_weight (length b + 1 + length c) * x + item_weight (length c) * z.
Proof.
  unfold gs1_sum, item_weight. rewrite !rev_app_distr. cbn [rev]. rewrite !rev_app_distr. cbn [rev]. rewrite <- !app_assoc. cbn [app].
  rewrite !alt_sum_app, !rev_length. cbn [alt_sum app]. rewrite !alt_sum_app, !rev_length. cbn [alt_sum app].
  rewrite !Nat.even_add. cbn [Nat.even].
  destruct (Nat.even (length b)), (Nat.even (length c)); cbn [eqb Bool.eqb]; lia.
Qed.
Lemma mod10_shift k a b : (k + a) mod 10 = 0 -> ((k + b) mod 10 = 0 <-> b mod 10 = a mod 10).
Proof.
  intros H. pose proof (N.div_mod k 10 ltac:(lia)) as Ek. pose proof (N.div_mod a 10 ltac:(lia)) as Ea. pose proof (N.div_mod b 10 ltac:(lia)) as Eb.
  pose proof (N.mod_lt a 10 ltac:(lia)) as Ba. pose proof (N.mod_lt b 10 ltac:(lia)) as Bb. pose proof (N.mod_lt k 10 ltac:(lia)) as Bk.
  rewrite N.add_mod in H by lia. rewrite (N.add_mod k b) by lia.
  set (x := k mod 10) in *. set (y := a mod 10) in *. set (z := b mod 10) in *. clearbody x y z. clear Ek Ea Eb.
  assert (S1 : x + y = 0 \/ x + y = 10).
  { apply N.mod_divide in H; [|lia]. destruct H as [q Hq]. lia. }
  assert (S2 : (x + z) mod 10 = 0 <-> x + z = 0 \/ x + z = 10).
  { split; [intros G; apply N.mod_divide in G; [|lia]; destruct G as [q Hq]; lia | intros [->| ->]; reflexivity]. }
  rewrite S2. lia.
Qed.
Lemma two_wrong y p u c v d w c' d' m : verifying y -> full_item y (u ++ c :: v ++ d :: w) ->
  barcode y p (u ++ c :: v ++ d :: w) = Ret (Ok m) -> digit_char c' -> digit_char d' ->
  let change a b := item_weight (length v + 1 + length w) * (a - 48) + item_weight (length w) * (b - 48) in
  (change c' d' mod 10 = change c d mod 10 -> exists m', barcode y p (u ++ c' :: v ++ d' :: w) = Ret (Ok m')) /\
  (change c' d' mod 10 <> change c d mod 10 -> barcode y p (u ++ c' :: v ++ d' :: w) = Ret (Err EChecksum)).
Proof.
  intros HV HF HB Hc Hd change.
  assert (HF' : full_item y (u ++ c' :: v ++ d' :: w)).
  { destruct HF as [H1 H2]. split.
    - apply Forall_app in H1. destruct H1 as [Hu H1]. apply Forall_cons_iff in H1. destruct H1 as [_ H1].
      apply Forall_app in H1. destruct H1 as [Hv H1]. apply Forall_cons_iff in H1. destruct H1 as [_ Hw].
      apply Forall_app. split; [assumption|]. constructor; [assumption|]. apply Forall_app. split; [assumption|]. now constructor.
    - rewrite <- H2. rewrite !app_length. cbn [length]. rewrite !app_length. reflexivity. }
  assert (V : gs1_valid (digits_of (u ++ c :: v ++ d :: w))).
  { destruct (gs1_valid_dec (digits_of (u ++ c :: v ++ d :: w))) as [V|V]; [assumption|].
    apply (proj2 (full_accepted y p _ HV HF)) in V. rewrite HB in V. discriminate. }
  assert (X : gs1_valid (digits_of (u ++ c' :: v ++ d' :: w)) <-> change c' d' mod 10 = change c d mod 10).
  { unfold gs1_valid, digits_of, change in *. rewrite !map_app in *. cbn [map] in *. rewrite !map_app in *. cbn [map] in *.
    rewrite gs1_sum_two in V. rewrite gs1_sum_two. rewrite !map_length in *. rewrite <- N.add_assoc in *. now apply mod10_shift. }
  rewrite <- X. apply (full_accepted y p _ HV HF').
Qed.
