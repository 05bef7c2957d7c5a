(** * Proofs: a missing character of a Code 39 text with check character *)
From Verif Require Import Rust M_Error M_Code39 Symbology M_Use S_Barcode S_Ean S_Text S_Linear S_Codabar S_Tf S_Code128 S_All P_Rust P_Alphabet P_Code39 P_Inject P_All P_Reprint.

Lemma c39_sum_hole u c v : c39_sum (u ++ c :: v) = c39_sum (u ++ v) + c39_value c.
Proof. unfold c39_sum. induction u as [|x u IH]; cbn [app map fold_right]; [lia|]. rewrite IH. lia. Qed.
Lemma c39_printed p s : Forall (fun c => In c c39_chars) s -> (1 <= length s <= 256)%nat ->
  exists m, barcode SCode39Checked p s = Ret (Ok m) /\ read_modules SCode39Checked m = Some (Text (s ++ [c39_check s])).
Proof.
  intros HF HL. assert (LS : str_len s = len s) by (apply c39_ascii; exact HF). assert (HL' : 1 <= len s <= 256) by (unfold len; lia).
  destruct (code39_init_spec true s) as (_ & _ & _ & H4). assert (EW : code39_with_checksum s = Ok (mkCode39 s true)).
  { apply H4. rewrite LS, N.mod_small by lia. split; [exact HL'|]. split; [exact HF | reflexivity]. }
  destruct (code39_scan_back p s (mkCode39 s true) true) as (m & E & R); [rewrite LS; lia | now right|]. cbn [c39_data] in E.
  exists m. split.
  - cbn [barcode]. rewrite EW. unfold run. cbn [bind]. rewrite E. reflexivity.
  - unfold read_modules. destruct (scan m) as [ws|]; [|discriminate R]. cbn [obind] in R. cbn [obind read_as]. now rewrite R.
Qed.
Lemma c39_hole u v k : Forall (fun c => In c c39_chars) u -> Forall (fun c => In c c39_chars) v -> In k c39_chars -> (length u + length v <= 255)%nat ->
  exists c, In c c39_chars /\ forall p c', In c' c39_chars ->
    ((exists m, barcode SCode39Checked p (u ++ c' :: v) = Ret (Ok m) /\ read_modules SCode39Checked m = Some (Text (u ++ c' :: v ++ [k]))) <-> c' = c).
Proof.
  intros HU HV HK HL. assert (L43 : len c39_chars = 43) by reflexivity.
  pose proof (value_lt c39_chars k HK) as VK. rewrite L43 in VK. fold c39_value in VK. set (q := c39_sum (u ++ v)). assert (HQ : q mod 43 < 43) by (apply N.mod_lt; lia).
  set (d := (c39_value k + 43 - q mod 43) mod 43). assert (HD : d < 43) by (apply N.mod_lt; lia).
  exists (char_of c39_chars d). split; [apply nth_In; change (length c39_chars) with 43%nat; lia|]. intros p c' Hc.
  set (s := u ++ c' :: v). assert (HF : Forall (fun c => In c c39_chars) s) by (apply Forall_app; split; [exact HU | now apply Forall_cons]).
  destruct (c39_printed p s HF) as (m & E & R); [unfold s; rewrite app_length; cbn [length]; lia|].
  replace (u ++ c' :: v ++ [k]) with (s ++ [k]) by (unfold s; rewrite <- app_assoc; reflexivity).
  pose proof (value_lt c39_chars c' Hc) as VC. rewrite L43 in VC. fold c39_value in VC.
  assert (HV1 : c39_value (c39_check s) = (q mod 43 + c39_value c') mod 43).
  { rewrite c39_check_value. unfold s. rewrite c39_sum_hole. fold q. now rewrite N.add_mod_idemp_l by lia. }
  assert (HE : c39_check s = k <-> c39_value c' = d).
  { split.
    - intros EK. rewrite EK in HV1. unfold d. destruct (N.lt_ge_cases (q mod 43 + c39_value c') 43) as [G|G].
      + rewrite N.mod_small in HV1 by exact G. rewrite HV1. replace (q mod 43 + c39_value c' + 43 - q mod 43) with (c39_value c' + 1 * 43) by lia. rewrite N.mod_add, N.mod_small by lia. reflexivity.
      + assert (HV2 : c39_value k = q mod 43 + c39_value c' - 43) by (rewrite HV1; symmetry; apply (N.mod_unique _ _ 1); lia).
        rewrite HV2. replace (q mod 43 + c39_value c' - 43 + 43 - q mod 43) with (c39_value c') by lia. now rewrite N.mod_small by lia.
    - intros ED. unfold c39_check. symmetry. apply char_back; [exact HK|]. change (c39_value k = c39_sum s mod 43). rewrite c39_check_value in HV1. rewrite HV1, ED. unfold d.
      rewrite N.add_mod_idemp_r by lia. replace (q mod 43 + (c39_value k + 43 - q mod 43)) with (c39_value k + 1 * 43) by lia. rewrite N.mod_add, N.mod_small by lia. reflexivity. }
  split.
  - intros (m' & E' & R'). rewrite E in E'. injection E' as <-. rewrite R in R'. assert (EK : s ++ [c39_check s] = s ++ [k]) by congruence. apply app_inj_tail in EK. destruct EK as [_ EK].
    apply HE in EK. now apply char_back.
  - intros EC. exists m. split; [exact E|]. rewrite R. do 3 f_equal. f_equal. apply HE. rewrite EC. unfold c39_value. apply value_char_of; [exact c39_nodup_c | rewrite L43; exact HD].
Qed.
