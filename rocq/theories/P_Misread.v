(** * Misread digits of Interleaved 2 of 5 and of two-digit add-ons *)
From Verif Require Import Rust M_Error M_Tf M_EanSupp Symbology M_Use S_Barcode S_Ean S_Text S_Linear S_Codabar S_Tf S_Code128 S_All
  P_Rust P_Barcode P_Gs1 P_Ean P_Supp P_Tf P_All P_Damage.

Lemma itf_read ds : Forall is_digit ds -> Nat.even (length ds) = true ->
  read_modules SItf (render (itf_symbol 3 2 ds)) = Some (Digits ds).
Proof.
  intros H He. unfold read_modules. rewrite itf_scan by assumption. cbn [obind read_as]. now rewrite read_itf_symbol.
Qed.
Lemma itf_misread p s m : barcode SItf p s = Ret (Ok m) -> Nat.even (length s) = false ->
  alt_sum 3 1 (rev (digits_of s)) < 256 ->
  exists ds, m = render (itf_symbol 3 2 ds) /\ ds = digits_of s ++ [gs1_check (digits_of s)] /\ gs1_valid ds /\
    (forall x d d' y, ds = x ++ d :: y -> d' < 10 -> d' <> d ->
       read_modules SItf (render (itf_symbol 3 2 (x ++ d' :: y))) = Some (Digits (x ++ d' :: y)) /\ ~ gs1_valid (x ++ d' :: y)) /\
    (forall x d d' y, ds = x ++ d :: d' :: y -> d' <> d ->
       read_modules SItf (render (itf_symbol 3 2 (x ++ d' :: d :: y))) = Some (Digits (x ++ d' :: d :: y)) /\
       (gs1_valid (x ++ d' :: d :: y) <-> differ_by_5 d d')).
Proof.
  intros H HO HW. apply run_Ok in H. destruct H as [b [HN HE]].
  pose proof (itf_accepted p s b HN) as [ds [HD [_ [HR [E _]]]]].
  pose proof (tf_interleaved_Ok _ _ _ HN) as HOk.
  destruct (tf_interleaved_spec p s) as [S1 [S2 S3]]. cbv zeta in *.
  assert (Hn : 1 <= str_len s mod 2 ^ 32 <= 256).
  { destruct (N.lt_ge_cases (str_len s mod 2 ^ 32) 1) as [L|L].
    - rewrite S1 in HN by lia. discriminate.
    - destruct (N.lt_ge_cases 256 (str_len s mod 2 ^ 32)) as [L'|L']; [rewrite S1 in HN by lia; discriminate | lia]. }
  assert (HDg : Forall digit_char s) by (destruct HOk as [HX _]; exact HX).
  specialize (S3 Hn HDg). rewrite HO in S3. apply N.ltb_lt in HW. rewrite HW in S3. rewrite S3 in HN.
  injection HN as <-. cbn [tf_raw_data] in HR. subst ds. rewrite E in HE. injection HE as <-.
  pose proof (gs1_check_valid (digits_of s)) as HV.
  assert (HEv : Nat.even (length (digits_of s ++ [gs1_check (digits_of s)])) = true).
  { rewrite app_length. unfold digits_of at 1. rewrite map_length. cbn [length]. rewrite Nat.add_1_r, Nat.even_succ, <- Nat.negb_even. unfold str, char in *. rewrite HO. reflexivity. }
  remember (digits_of s ++ [gs1_check (digits_of s)]) as ds eqn:Eds.
  exists ds. split; [reflexivity|]. split; [reflexivity|]. split; [assumption|]. clear Eds. split.
  - intros x d d' y -> Hd' Hne. apply Forall_app in HD. destruct HD as [D1 D2].
    pose proof (Forall_inv D2) as Hd. apply Forall_inv_tail in D2. split.
    + apply itf_read; [apply Forall_app; split; [assumption | now constructor]|]. rewrite app_length in *. exact HEv.
    + apply (gs1_substitution x d d' y); auto.
  - intros x d d' y -> Hne. apply Forall_app in HD. destruct HD as [D1 D2].
    pose proof (Forall_inv D2) as Hd. apply Forall_inv_tail in D2. pose proof (Forall_inv D2) as Hd'. apply Forall_inv_tail in D2. split.
    + apply itf_read; [apply Forall_app; split; [assumption | constructor; [assumption | now constructor]]|]. rewrite app_length in *. exact HEv.
    + apply gs1_transposition; auto.
Qed.

Lemma ean2_misread p s m : length s = 2%nat -> barcode SSupp p s = Ret (Ok m) ->
  exists ps, m = render (addon_guard ++ draw_addon true ps (digits_of s)) /\ length ps = 2%nat /\
    forall a b, is_digit a -> is_digit b ->
    read_modules SSupp (render (addon_guard ++ draw_addon true ps [a; b])) =
      if ean2_variant [a; b] =? ean2_variant (digits_of s) then Some (Digits [a; b]) else None.
Proof.
  intros HL H. apply run_Ok in H. destruct H as [b0 [HN HE]].
  destruct (eansupp_accepted p s b0 HN) as [m' [E HC]]. rewrite HE in E. injection E as <-.
  destruct HC as [[_ [_ [Em _]]]|[L _]]; [|lia].
  assert (LD : length (digits_of s) = 2%nat) by (unfold digits_of; now rewrite map_length).
  remember (digits_of s) as ds eqn:Eds. clear Eds.
  assert (HV : ean2_variant ds < 4).
  { destruct ds as [|x [|y [|z t]]]; try discriminate LD. unfold ean2_variant. apply N.mod_lt. discriminate. }
  exists (nth (N.to_nat (ean2_variant ds)) ean2_parities []).
  split; [exact Em|].
  destruct (ean2_parity_shape _ HV) as (q & t & EP & Lt). rewrite EP. split; [cbn [length]; lia|].
  destruct t as [|q2 [|? ?]]; try discriminate Lt.
  intros a b Ha Hb. unfold read_modules.
  assert (HS : scan (render (addon_guard ++ draw_addon true [q; q2] [a; b])) = Some (addon_guard ++ draw_addon true [q; q2] [a; b])).
  { apply addon_scan. constructor; [assumption|]. constructor; [assumption | constructor]. }
  rewrite HS. cbn [obind read_as]. unfold read_ean2, read_ean5.
  rewrite read_addon_ok by (constructor; [assumption|]; constructor; [assumption | constructor]).
  cbn [combine obind map fst snd].
  assert (HW : which_parity ean2_parities [q; q2] = Some (N.to_nat (ean2_variant ds))).
  { rewrite <- EP. remember (ean2_variant ds) as v. clear - HV.
    assert (C : v = 0 \/ v = 1 \/ v = 2 \/ v = 3) by lia. destruct C as [->|[->|[->| ->]]]; reflexivity. }
  rewrite HW. cbn [obind length Nat.eqb andb]. rewrite N2Nat.id. rewrite (N.eqb_sym (ean2_variant ds)).
  destruct (ean2_variant [a; b] =? ean2_variant ds); cbn [guard]; [reflexivity|].
  destruct (which_parity ean5_parities [q; q2]); reflexivity.
Qed.
