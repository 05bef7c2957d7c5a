(** * Symbols determine their data *)
From Verif Require Import Rust M_Error M_Helpers M_Parse M_Ean13 M_Ean8 M_Upca M_EanSupp M_Code39 M_Code93 M_Code11
  M_Codabar M_Code128 M_Tf Symbology M_Use S_Barcode S_Ean S_Text S_Linear S_Codabar S_Tf S_Code128 S_All S_Inject
  P_Rust P_Parse P_Barcode P_Gs1 P_Ean P_Retail P_Retail2 P_Retail3 P_Supp P_Code39 P_Tf P_Codabar P_All.

Lemma retail_chars {B} (mk : list N -> B) n p s b : (1 <= n <= 13)%nat -> retail_new mk n p s = Ret (Ok b) -> Forall digit_char s.
Proof.
  intros Hn H. destruct (N.lt_ge_cases (str_len s) (2 ^ 32)) as [L|G].
  - destruct (retail_new_Ok mk n Hn p s b L H) as (ds & Ld & Dd & _ & [-> | ->]); apply text_of_digit_char; [assumption|].
    apply Forall_snoc; [assumption | apply gs1_check_digit].
  - destruct (retail_new_huge mk n Hn p s G) as (r & E & _ & _ & HO).
    rewrite H in E. injection E as <-. apply (HO b). reflexivity.
Qed.

Definition numeric (y : symbology) : bool :=
  match y with SEan13 | SEan8 | SUpca | SSupp | SItf | SStf => true | _ => false end.
Lemma barcode_digits y p s m : numeric y = true -> barcode y p s = Ret (Ok m) -> Forall digit_char s.
Proof.
  intros Hy H. destruct y; try discriminate Hy; clear Hy; cbn [barcode] in H; apply run_Ok in H; destruct H as (b & HN & _).
  - now apply (retail_chars mkEAN13 12 p s b ltac:(lia)).
  - now apply (retail_chars mkEAN8 7 p s b ltac:(lia)).
  - now apply (retail_chars mkUPCA 11 p s b ltac:(lia)).
  - apply eansupp_new_Ok in HN. destruct HN as (ds & HD & -> & _). now apply text_of_digit_char.
  - now apply tf_interleaved_Ok in HN.
  - now apply tf_standard_Ok in HN.
Qed.
Lemma digits_of_app s t : digits_of (s ++ t) = digits_of s ++ digits_of t. Proof. apply map_app. Qed.
Lemma digits_of_inj s s' : Forall digit_char s -> Forall digit_char s' -> digits_of s = digits_of s' -> s = s'.
Proof. intros H H' E. rewrite <- (text_of_digits_of s H), E. now apply text_of_digits_of. Qed.
Lemma firstn_digits n s s' : Forall digit_char s -> Forall digit_char s' -> firstn n (digits_of s) = firstn n (digits_of s') -> firstn n s = firstn n s'.
Proof.
  intros H H' E. apply digits_of_inj; [now apply Forall_firstn | now apply Forall_firstn |].
  unfold digits_of in *. now rewrite <- !firstn_map.
Qed.
Lemma itf_either s ds : itf_carries s ds -> ds = digits_of s \/ exists c, ds = digits_of s ++ [c].
Proof. unfold itf_carries. destruct (Nat.even (length s)); [auto | intros (c & _ & H & _); eauto]. Qed.
Lemma snoc_or (s s' : str) l : Forall digit_char s -> Forall digit_char s' ->
  (l = digits_of s \/ exists c, l = digits_of s ++ [c]) -> (l = digits_of s' \/ exists c, l = digits_of s' ++ [c]) ->
  s = s' \/ (exists c, s' = s ++ [c]) \/ (exists c, s = s' ++ [c]).
Proof.
  intros H H' [->|[c ->]] [E|[c' E]].
  - left. now apply digits_of_inj.
  - right; right. exists (last s 0). assert (Hn : s <> []) by (intros ->; destruct (digits_of s'); discriminate E).
    rewrite (app_removelast_last 0 Hn) in E at 1. rewrite digits_of_app in E. apply app_inj_tail in E. destruct E as [E _].
    rewrite (app_removelast_last 0 Hn) at 1. f_equal. apply digits_of_inj; [|assumption|assumption].
    rewrite (app_removelast_last 0 Hn) in H. apply Forall_app in H. tauto.
  - right; left. exists (last s' 0). assert (Hn : s' <> []) by (intros ->; destruct (digits_of s); discriminate E).
    rewrite (app_removelast_last 0 Hn) in E at 1. rewrite digits_of_app in E. apply app_inj_tail in E. destruct E as [E _].
    rewrite (app_removelast_last 0 Hn) at 1. f_equal. symmetry. apply digits_of_inj; [assumption| |assumption].
    rewrite (app_removelast_last 0 Hn) in H'. apply Forall_app in H'. tauto.
  - apply app_inj_tail in E. destruct E as [E _]. left. now apply digits_of_inj.
Qed.

Lemma same_symbol_same_data y p p' s s' m : y <> SCode128 -> str_len s < 2 ^ 48 -> str_len s' < 2 ^ 48 ->
  barcode y p s = Ret (Ok m) -> barcode y p' s' = Ret (Ok m) -> same_data y s s'.
Proof.
  intros Hy Hs Hs' H H'. pose proof (barcode_meant y p s m Hs H) as HM. pose proof (barcode_meant y p' s' m Hs' H') as HM'.
  pose proof (fun e => barcode_digits y p s m e H) as D. pose proof (fun e => barcode_digits y p' s' m e H') as D'.
  destruct y; cbn [meant same_data numeric] in *; try congruence;
    try (specialize (D eq_refl)); try (specialize (D' eq_refl)).
  - destruct HM as (c & _ & HM). destruct HM' as (c' & _ & HM'). rewrite HM in HM'. injection HM' as E.
    apply app_inj_tail in E. destruct E as [E _]. now apply firstn_digits.
  - destruct HM as (c & _ & HM). destruct HM' as (c' & _ & HM'). rewrite HM in HM'. injection HM' as E.
    apply app_inj_tail in E. destruct E as [E _]. now apply firstn_digits.
  - destruct HM as (c & _ & HM). destruct HM' as (c' & _ & HM'). rewrite HM in HM'. injection HM' as E.
    apply app_inj_tail in E. destruct E as [E _]. now apply firstn_digits.
  - rewrite HM in HM'. injection HM' as E. now apply digits_of_inj.
  - destruct HM as (c & _ & HM). destruct HM' as (c' & _ & HM'). rewrite HM in HM'. injection HM' as E.
    apply app_inj_tail in E. tauto.
  - cbn [barcode] in H, H'. apply run_Ok in H, H'. destruct H as (b & HN & HE). destruct H' as (b' & HN' & HE').
    apply (codabar_injective p s s' b b' m HN HN' HE).
    rewrite (codabar_encode_lib p' s' b' HN') in HE'. rewrite (codabar_encode_lib p s' b' HN'). exact HE'.
  - destruct HM as (l & HL & HM). destruct HM' as (l' & HL' & HM'). rewrite HM in HM'. injection HM' as <-. apply itf_either in HL, HL'. now apply (snoc_or s s' l).
  - rewrite HM in HM'. injection HM' as E. now apply digits_of_inj.
Qed.

(** Conversely *)
Lemma itf_explicit_check p p' s m : str_len s < 2 ^ 32 -> barcode SItf p s = Ret (Ok m) -> Nat.even (length s) = false ->
  exists c, digit_char c /\ barcode SItf p' (s ++ [c]) = Ret (Ok m).
Proof.
  intros Hs H HO. cbn [barcode] in H |- *. apply run_Ok in H. destruct H as (b & HN & HE).
  pose proof (tf_interleaved_Ok p s b HN) as (HD & _ & ds & -> & Dd & Ev & _ & HC).
  assert (Ld : length (digits_of s) = length s) by (unfold digits_of; now rewrite map_length).
  destruct HC as [->|[c ->]]; [rewrite Ld in Ev; congruence|].
  apply Forall_app in Dd. destruct Dd as [Dd Dc]. assert (Hc : c < 10) by exact (Forall_inv Dc).
  exists (c + 48). split; [unfold digit_char; lia|].
  assert (ES : s ++ [c + 48] = text_of (digits_of s ++ [c])).
  { unfold text_of. rewrite map_app. fold (text_of (digits_of s)). now rewrite text_of_digits_of. }
  unfold str, char in *. rewrite ES. assert (HL : 1 <= len (digits_of s ++ [c]) <= 256).
  { destruct (tf_interleaved_spec p s) as [H1 _]. assert (Hn : 1 <= str_len s mod 2 ^ 32 <= 256).
    { destruct (N.le_gt_cases 1 (str_len s mod 2 ^ 32)), (N.le_gt_cases (str_len s mod 2 ^ 32) 256); try lia;
        rewrite H1 in HN by lia; discriminate. }
    rewrite N.mod_small in Hn by assumption. rewrite str_len_digits in Hn by assumption.
    unfold len in *. rewrite app_length, Ld. cbn [length].
    assert (length s <> 256)%nat by (intros E; rewrite E in HO; discriminate).
    change (@length char s) with (@length N s) in *. lia. }
  destruct (tf_hand_built p' (digits_of s ++ [c])) as [_ HB]; [now apply Forall_snoc | assumption |].
  rewrite (HB Ev). unfold run. cbn [bind]. rewrite HE. reflexivity.
Qed.
Lemma same_data_same_symbol y p p' s s' m m' : match y with SEan13 | SEan8 | SUpca => True | _ => False end ->
  barcode y p s = Ret (Ok m) -> barcode y p' s' = Ret (Ok m') -> same_data y s s' -> m = m'.
Proof.
  intros Hy H H' HD. destruct y; try contradiction; cbn [barcode same_data] in *; apply run_Ok in H, H';
    destruct H as (b & HN & HE); destruct H' as (b' & HN' & HE').
  - destruct (ean13_conform p p s b HN) as [E _]. destruct (ean13_conform p' p' s' b' HN') as [E' _].
    rewrite HE in E. rewrite HE' in E'. cbv zeta in E, E'. assert (ED : firstn 12 (digits_of s) = firstn 12 (digits_of s')) by (unfold digits_of; rewrite !firstn_map; exact (f_equal _ HD)). rewrite ED in E. rewrite <- E in E'. now injection E'.
  - destruct (ean8_conform p p s b HN) as [E _]. destruct (ean8_conform p' p' s' b' HN') as [E' _].
    rewrite HE in E. rewrite HE' in E'. cbv zeta in E, E'. assert (ED : firstn 7 (digits_of s) = firstn 7 (digits_of s')) by (unfold digits_of; rewrite !firstn_map; exact (f_equal _ HD)). rewrite ED in E. rewrite <- E in E'. now injection E'.
  - destruct (upca_conform p p s b HN) as [E _]. destruct (upca_conform p' p' s' b' HN') as [E' _].
    rewrite HE in E. rewrite HE' in E'. cbv zeta in E, E'. assert (ED : firstn 11 (digits_of s) = firstn 11 (digits_of s')) by (unfold digits_of; rewrite !firstn_map; exact (f_equal _ HD)). rewrite ED in E. rewrite <- E in E'. now injection E'.
Qed.

Lemma retail_same_length {B} (mk : list N -> B) n p p' s s' b b' : (1 <= n <= 13)%nat -> str_len s < 2 ^ 32 -> str_len s' < 2 ^ 32 ->
  retail_new mk n p s = Ret (Ok b) -> retail_new mk n p' s' = Ret (Ok b') -> length s = length s' -> firstn n s = firstn n s' -> s = s'.
Proof.
  intros Hn Hs Hs' H H' HL HF.
  destruct (retail_new_Ok mk n Hn p s b Hs H) as (ds & Ld & _ & _ & E). destruct (retail_new_Ok mk n Hn p' s' b' Hs' H') as (ds' & Ld' & _ & _ & E').
  assert (T : forall (l : list N) x, text_of (l ++ [x]) = text_of l ++ [x + 48]) by (intros; unfold text_of; now rewrite map_app).
  assert (TL : forall l : list N, length (text_of l) = length l) by (intros; unfold text_of; now rewrite map_length).
  assert (F : forall s (l : list N), length l = n -> s = text_of l \/ s = text_of (l ++ [gs1_check l]) -> firstn n s = text_of l).
  { intros s0 l L [->| ->].
    - rewrite <- L, <- (TL l). apply firstn_all.
    - rewrite T, firstn_app, TL, L, Nat.sub_diag. cbn [firstn]. rewrite app_nil_r, <- L, <- (TL l). apply firstn_all. }
  assert (ED : ds = ds').
  { rewrite (F s ds Ld E), (F s' ds' Ld' E') in HF. rewrite <- (digits_of_text_of ds), HF. apply digits_of_text_of. }
  subst ds'. destruct E as [->| ->], E' as [->| ->]; try reflexivity; exfalso; rewrite !TL, app_length in HL; cbn [length] in HL; lia.
Qed.
Lemma same_length_same_string y p p' s s' m : y <> SCode128 -> str_len s < 2 ^ 32 -> str_len s' < 2 ^ 32 -> length s = length s' ->
  barcode y p s = Ret (Ok m) -> barcode y p' s' = Ret (Ok m) -> s = s'.
Proof.
  intros Hy Hs Hs' HL H H'.
  assert (L48 : forall x, x < 2 ^ 32 -> x < 2 ^ 48) by (intros x; change (2 ^ 32) with 4294967296; change (2 ^ 48) with 281474976710656; lia).
  pose proof (same_symbol_same_data y p p' s s' m Hy (L48 _ Hs) (L48 _ Hs') H H') as HD.
  destruct y; cbn [same_data] in HD; try assumption; try (cbn [barcode] in H, H'; apply run_Ok in H, H'; destruct H as (b & HN & _); destruct H' as (b' & HN' & _)).
  - exact (retail_same_length mkEAN13 12 p p' s s' b b' ltac:(lia) Hs Hs' HN HN' HL HD).
  - exact (retail_same_length mkEAN8 7 p p' s s' b b' ltac:(lia) Hs Hs' HN HN' HL HD).
  - exact (retail_same_length mkUPCA 11 p p' s s' b b' ltac:(lia) Hs Hs' HN HN' HL HD).
  - destruct HD as [HD|[[c ->]|[c ->]]]; [assumption | exfalso | exfalso]; rewrite app_length in HL; cbn [length] in HL; lia.
Qed.
Lemma c39_ascii s : Forall c39_in s -> str_len s = len s.
Proof.
  intros H. apply str_len_ascii. revert H. apply Forall_impl. intros c Hc.
  assert (E : forallb (fun c => c <? 128) c39_chars = true) by reflexivity. rewrite forallb_forall in E. apply N.ltb_lt. now apply E.
Qed.
Lemma code39_explicit_check p p' s m : str_len s < 2 ^ 48 -> barcode SCode39Checked p s = Ret (Ok m) -> (length s <= 255)%nat ->
  barcode SCode39 p' (s ++ [c39_check s]) = Ret (Ok m).
Proof.
  intros Hs H HL. cbn [barcode] in H. apply run_Ret in H. destruct H as [b [HN HE]].
  destruct (code39_accepted p s b true Hs (or_intror HN)) as [m' [E [Em _]]].
  apply code39_init_Ok in HN. destruct HN as [HD [Hd Hb]]. subst b. cbn [c39_data] in E. rewrite HE in E. injection E as <-. subst m.
  set (t := s ++ [c39_check s]).
  assert (HT : Forall c39_in t) by (apply Forall_app; split; [assumption|]; constructor; [apply c39_check_In | constructor]).
  assert (HK : len t <= 256 /\ 1 <= len t) by (unfold t, len; rewrite app_length; cbn [length]; lia).
  assert (HN : code39_new t = Ok (mkCode39 t false)).
  { apply (code39_init_spec false t). rewrite c39_ascii by assumption. rewrite N.mod_small; [now split|].
    apply N.le_lt_trans with 256; [apply HK | reflexivity]. }
  assert (Ht : str_len t < 2 ^ 48) by (rewrite c39_ascii by assumption; apply N.le_lt_trans with 256; [apply HK | reflexivity]).
  destruct (code39_accepted p' t _ false Ht (or_introl HN)) as [m' [E' [Em' _]]]. cbn [c39_data] in E'.
  cbn [barcode]. unfold run. rewrite HN. cbn [bind]. rewrite E'. cbn [bind]. now rewrite Em'.
Qed.
