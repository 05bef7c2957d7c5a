(** * Proofs: a missing character of a Code 93 or Code 11 text *)
From Coq Require Import ZArith Znumtheory.
From Verif Require Import Rust M_Error M_Code93 M_Code11 Symbology M_Use S_Barcode S_Ean S_Text S_Linear S_Codabar S_Tf S_Code128 S_All P_Rust P_Alphabet P_Code93 P_Code11 P_Inject P_Reprint.

(** [w * i = 1 + 47 * q]: the inverse of a weight. *)
Definition inv47 (w : N) : N := nth (N.to_nat w) [0; 1; 24; 16; 12; 19; 8; 27; 6; 21; 33; 30; 4; 29; 37; 22; 3; 36; 34; 5; 40] 0.
Lemma inv47_ok w : 1 <= w <= 20 -> exists q, w * inv47 w = 1 + 47 * q.
Proof.
  intros H. exists (w * inv47 w / 47). assert (HM : w * inv47 w mod 47 = 1).
  { assert (HA : forallb (fun w => w * inv47 w mod 47 =? 1) [1; 2; 3; 4; 5; 6; 7; 8; 9; 10; 11; 12; 13; 14; 15; 16; 17; 18; 19; 20] = true) by reflexivity.
    rewrite forallb_forall in HA. apply N.eqb_eq, HA. cbn [In]. lia. }
  rewrite (N.div_mod (w * inv47 w) 47) at 1 by lia. rewrite HM. lia.
Qed.
Lemma solve47 w r k : 1 <= w <= 20 -> k < 47 -> exists d, d < 47 /\ forall x, x < 47 -> ((r + w * x) mod 47 = k <-> x = d).
Proof.
  intros HW HK. destruct (inv47_ok w HW) as (q & Q). set (i := inv47 w) in Q. exists (i * (k + 46 * r) mod 47). split; [apply N.mod_lt; lia|].
  intros x HX. split.
  - intros E. pose proof (N.div_mod (r + w * x) 47 ltac:(lia)) as D. rewrite E in D. set (a := (r + w * x) / 47) in D.
    apply (N.add_cancel_r _ _ 0). rewrite !N.add_0_r. rewrite <- (N.mod_small x 47) at 1 by exact HX.
    rewrite <- (N.mod_add (i * (k + 46 * r)) (i * a) 47) by lia. replace (i * (k + 46 * r) + i * a * 47) with (i * (47 * a + k) + 46 * (i * r)) by lia.
    rewrite <- D. replace (i * (r + w * x) + 46 * (i * r)) with (x * (w * i) + (i * r) * 47) by lia. rewrite N.mod_add by lia. rewrite Q.
    replace (x * (1 + 47 * q)) with (x + (x * q) * 47) by lia. now rewrite N.mod_add by lia.
  - intros ->. rewrite <- N.add_mod_idemp_r by lia. rewrite N.mul_mod_idemp_r by lia. rewrite N.add_mod_idemp_r by lia.
    replace (w * (i * (k + 46 * r))) with ((w * i) * (k + 46 * r)) by lia. rewrite Q.
    replace (r + (1 + 47 * q) * (k + 46 * r)) with (k + (r + q * (k + 46 * r)) * 47) by lia. rewrite N.mod_add by lia. apply N.mod_small, HK.
Qed.
Lemma c93_ascii3 s : Forall c93_in s -> str_len s = len s.
Proof.
  intros H. apply str_len_ascii. revert H. apply Forall_impl. intros c Hc.
  assert (HA : forallb (fun c => c <? 128) c93_chars = true) by reflexivity.
  rewrite forallb_forall in HA. apply N.ltb_lt. now apply HA.
Qed.
Lemma c93_printed p s : Forall (fun c => In c c93_chars) s -> (1 <= length s <= 256)%nat ->
  exists m, barcode SCode93 p s = Ret (Ok m) /\ obind (scan m) read_c93_raw = Some (s ++ [c93_C s; c93_K s]).
Proof.
  intros HF HL. assert (HL' : 1 <= len s <= 256) by (unfold len; lia).
  exists (render (c93_symbol (c93_message s))). split.
  - cbn [barcode]. assert (EN : code93_new s = Ok (mkCode93 s)).
    { destruct (code93_new_spec s) as (_ & _ & _ & H4). apply H4. rewrite c93_ascii3 by exact HF. rewrite N.mod_small by lia. split; [exact HL'|]. split; [exact HF | reflexivity]. }
    rewrite EN. unfold run. cbn [bind]. rewrite code93_encode_ok by (try exact HF; lia). reflexivity.
  - rewrite c93_symbol_scan by (now apply c93_message_in). cbn [obind]. apply c93_symbol_read_raw. now apply c93_message_in.
Qed.
Lemma c93_hole u v k : Forall (fun c => In c c93_chars) u -> Forall (fun c => In c c93_chars) v -> In k c93_chars -> (length u + length v <= 255)%nat ->
  exists c, In c c93_chars /\ forall p c', In c' c93_chars ->
    ((exists m j, barcode SCode93 p (u ++ c' :: v) = Ret (Ok m) /\ obind (scan m) read_c93_raw = Some (u ++ c' :: v ++ [k; j])) <-> c' = c).
Proof.
  intros HU HV HK HL. pose proof (value_lt c93_chars k HK) as VK. rewrite c93_size in VK.
  set (vu := map (value c93_chars) u). set (vv := map (value c93_chars) v).
  destruct (solve47 (weight_at 20 (len vv)) (wpos 20 0 (rev vv) + wpos 20 (len vv + 1) (rev vu)) (value c93_chars k)) as (d & HD & SD); [apply weight_at_range; lia | exact VK|].
  exists (char_of c93_chars d). split; [apply c93_char_In, HD|]. intros p c' Hc.
  set (s := u ++ c' :: v). assert (HF : Forall (fun c => In c c93_chars) s) by (apply Forall_app; split; [exact HU | now apply Forall_cons]).
  destruct (c93_printed p s HF) as (m & E & R); [unfold s; rewrite app_length; cbn [length]; lia|].
  pose proof (value_lt c93_chars c' Hc) as VC. rewrite c93_size in VC.
  assert (HS : c93_sum 20 s = value c93_chars k <-> value c93_chars c' = d).
  { rewrite <- (SD _ VC). unfold c93_sum, check_sum, s. rewrite map_app. cbn [map]. fold vu vv. rewrite weighted_app by lia.
    replace (wpos 20 0 (rev vv) + (weight_at 20 (len vv) * value c93_chars c' + wpos 20 (len vv + 1) (rev vu))) with (wpos 20 0 (rev vv) + wpos 20 (len vv + 1) (rev vu) + weight_at 20 (len vv) * value c93_chars c') by lia.
    reflexivity. }
  split.
  - intros (m' & j & E' & R'). rewrite E in E'. injection E' as <-. rewrite R in R'.
    replace (u ++ c' :: v ++ [k; j]) with (s ++ [k; j]) in R' by (unfold s; rewrite <- app_assoc; reflexivity). assert (EK : s ++ [c93_C s; c93_K s] = s ++ [k; j]) by congruence.
    apply app_inv_head in EK. assert (EC : c93_C s = k) by congruence. apply char_back; [exact Hc|]. apply HS. rewrite <- EC. symmetry. apply c93_value_char, c93_sum_lt.
  - intros EC. exists m, (c93_K s). split; [exact E|]. rewrite R. replace (u ++ c' :: v ++ [k; c93_K s]) with (s ++ [k; c93_K s]) by (unfold s at 1; rewrite <- app_assoc; reflexivity).
    assert (EK : c93_C s = k); [|now rewrite EK]. symmetry. apply char_back; [exact HK|]. symmetry. apply HS. rewrite EC. apply c93_value_char, HD.
Qed.

(** ** Code 11 *)
Definition inv11 (w : N) : N := nth (N.to_nat w) [0; 1; 6; 4; 3; 9; 2; 8; 7; 5; 10] 0.
Lemma inv11_ok w : 1 <= w <= 10 -> exists q, w * inv11 w = 1 + 11 * q.
Proof.
  intros H. exists (w * inv11 w / 11). assert (HM : w * inv11 w mod 11 = 1).
  { assert (HA : forallb (fun w => w * inv11 w mod 11 =? 1) [1; 2; 3; 4; 5; 6; 7; 8; 9; 10] = true) by reflexivity.
    rewrite forallb_forall in HA. apply N.eqb_eq, HA. cbn [In]. lia. }
  rewrite (N.div_mod (w * inv11 w) 11) at 1 by lia. rewrite HM. lia.
Qed.
Lemma solve11 w r k : 1 <= w <= 10 -> k < 11 -> exists d, d < 11 /\ forall x, x < 11 -> ((r + w * x) mod 11 = k <-> x = d).
Proof.
  intros HW HK. destruct (inv11_ok w HW) as (q & Q). set (i := inv11 w) in Q. exists (i * (k + 10 * r) mod 11). split; [apply N.mod_lt; lia|].
  intros x HX. split.
  - intros E. pose proof (N.div_mod (r + w * x) 11 ltac:(lia)) as D. rewrite E in D. set (a := (r + w * x) / 11) in D.
    apply (N.add_cancel_r _ _ 0). rewrite !N.add_0_r. rewrite <- (N.mod_small x 11) at 1 by exact HX.
    rewrite <- (N.mod_add (i * (k + 10 * r)) (i * a) 11) by lia. replace (i * (k + 10 * r) + i * a * 11) with (i * (11 * a + k) + 10 * (i * r)) by lia.
    rewrite <- D. replace (i * (r + w * x) + 10 * (i * r)) with (x * (w * i) + (i * r) * 11) by lia. rewrite N.mod_add by lia. rewrite Q.
    replace (x * (1 + 11 * q)) with (x + (x * q) * 11) by lia. now rewrite N.mod_add by lia.
  - intros ->. rewrite <- N.add_mod_idemp_r by lia. rewrite N.mul_mod_idemp_r by lia. rewrite N.add_mod_idemp_r by lia.
    replace (w * (i * (k + 10 * r))) with ((w * i) * (k + 10 * r)) by lia. rewrite Q.
    replace (r + (1 + 11 * q) * (k + 10 * r)) with (k + (r + q * (k + 10 * r)) * 11) by lia. rewrite N.mod_add by lia. apply N.mod_small, HK.
Qed.
Lemma c11_ascii4 s : Forall c11_in s -> str_len s = len s.
Proof.
  intros H. apply str_len_ascii. revert H. apply Forall_impl. intros c Hc.
  assert (HA : forallb (fun c => c <? 128) c11_chars = true) by reflexivity.
  rewrite forallb_forall in HA. apply N.ltb_lt. now apply HA.
Qed.
Lemma c11_printed p s : Forall (fun c => In c c11_chars) s -> (1 <= length s <= 256)%nat ->
  exists m, barcode SCode11 p s = Ret (Ok m) /\ obind (scan m) read_c11_raw = Some (c11_checked s).
Proof.
  intros HF HL. assert (HL' : 1 <= len s <= 256) by (unfold len; lia).
  exists (render (c11_symbol (c11_checked s))). split.
  - cbn [barcode]. assert (EN : code11_new s = Ok (mkCode11 s)).
    { destruct (code11_new_spec s) as (_ & _ & _ & H4). apply H4. rewrite c11_ascii4 by exact HF. rewrite N.mod_small by lia. split; [exact HL'|]. split; [exact HF | reflexivity]. }
    rewrite EN. unfold run. cbn [bind]. rewrite code11_encode_ok by (try exact HF; lia). reflexivity.
  - rewrite c11_symbol_scan by (now apply c11_checked_in). cbn [obind]. apply c11_symbol_read_raw. now apply c11_checked_in.
Qed.
Lemma c11_hole u v k : Forall (fun c => In c c11_chars) u -> Forall (fun c => In c c11_chars) v -> In k c11_chars -> (length u + length v <= 255)%nat ->
  exists c, In c c11_chars /\ forall p c', In c' c11_chars ->
    ((exists m j, barcode SCode11 p (u ++ c' :: v) = Ret (Ok m) /\ obind (scan m) read_c11_raw = Some (u ++ c' :: v ++ k :: j)) <-> c' = c).
Proof.
  intros HU HV HK HL. pose proof (value_lt c11_chars k HK) as VK. rewrite c11_size in VK.
  set (vu := map (value c11_chars) u). set (vv := map (value c11_chars) v).
  destruct (solve11 (weight_at 10 (len vv)) (wpos 10 0 (rev vv) + wpos 10 (len vv + 1) (rev vu)) (value c11_chars k)) as (d & HD & SD); [apply weight_at_range; lia | exact VK|].
  exists (char_of c11_chars d). split; [apply c11_char_In, HD|]. intros p c' Hc.
  set (s := u ++ c' :: v). assert (HF : Forall (fun c => In c c11_chars) s) by (apply Forall_app; split; [exact HU | now apply Forall_cons]).
  destruct (c11_printed p s HF) as (m & E & R); [unfold s; rewrite app_length; cbn [length]; lia|].
  pose proof (value_lt c11_chars c' Hc) as VC. rewrite c11_size in VC.
  assert (HS : c11_sum 10 s = value c11_chars k <-> value c11_chars c' = d).
  { rewrite <- (SD _ VC). unfold c11_sum, check_sum, s. rewrite map_app. cbn [map]. fold vu vv. rewrite weighted_app by lia.
    replace (wpos 10 0 (rev vv) + (weight_at 10 (len vv) * value c11_chars c' + wpos 10 (len vv + 1) (rev vu))) with (wpos 10 0 (rev vv) + wpos 10 (len vv + 1) (rev vu) + weight_at 10 (len vv) * value c11_chars c') by lia.
    reflexivity. }
  split.
  - intros (m' & j & E' & R'). rewrite E in E'. injection E' as <-. rewrite R in R'.
    replace (u ++ c' :: v ++ k :: j) with (s ++ k :: j) in R' by (unfold s; rewrite <- app_assoc; reflexivity). assert (EK : s ++ [c11_C s] ++ (if Nat.ltb 10 (length s) then [c11_K s] else []) = s ++ k :: j) by (unfold c11_checked in R'; congruence).
    apply app_inv_head in EK. assert (EC : c11_C s = k) by (cbn [app] in EK; congruence). apply char_back; [exact Hc|]. apply HS. rewrite <- EC. symmetry. apply c11_value_char, c11_sum_lt.
  - intros EC. exists m, (if Nat.ltb 10 (length s) then [c11_K s] else []). split; [exact E|]. rewrite R. replace (u ++ c' :: v ++ k :: (if Nat.ltb 10 (length s) then [c11_K s] else [])) with (s ++ k :: (if Nat.ltb 10 (length s) then [c11_K s] else [])) by (unfold s at 1; rewrite <- app_assoc; reflexivity).
    assert (EK : c11_C s = k); [|unfold c11_checked; now rewrite EK]. symmetry. apply char_back; [exact HK|]. symmetry. apply HS. rewrite EC. apply c11_value_char, HD.
Qed.
