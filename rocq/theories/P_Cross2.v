(** * Proofs: what readers make of a scan line across two symbols *)
From Verif Require Import Rust M_Error Symbology M_Code39 M_Code93 M_Code11 M_Codabar M_Tf M_Code128 M_Use S_Barcode S_Ean S_Text S_Linear S_Codabar S_Tf S_Code128 S_All S_Size S_Skip S_Place S_Cross
  P_Rust P_Barcode P_Parse P_Alphabet P_Gap P_Weighted P_Gs1 P_Ean P_Retail P_Retail3 P_Supp P_Code39 P_Code93 P_Code11 P_Codabar P_Tf P_Code128 P_Code128b P_Check128 P_All P_Width P_Pattern P_Damage P_Place P_Skip P_Stretch P_Cross.
Local Open Scope nat_scope.

(** ** EAN-13 *)
Lemma row_length f : is_digit f -> length (nth (N.to_nat f) ean13_parities []) = 6.
Proof. intros H. destruct (parity_row_shape f H) as (t & -> & <-). reflexivity. Qed.
Definition row (t : list N) : list parity := nth (N.to_nat (hd 0%N t)) ean13_parities [].
Lemma which_parity_iff ps v : which_parity ean13_parities ps = Some v <-> v < 10 /\ nth v ean13_parities [] = ps.
Proof.
  split.
  - intros H. apply which_parity_sound in H. split; [change 10 with (length ean13_parities); apply nth_error_Some; congruence | now apply nth_error_nth].
  - intros [Hv <-]. pose proof (which_parity_row (N.of_nat v)) as E. rewrite Nat2N.id in E. apply E. unfold is_digit. lia.
Qed.
Lemma halves_read_13 ps t l : length ps = 6 -> length t = 12 -> Forall is_digit t ->
  read_modules SEan13 (render (halves_symbol 6 ps t)) = Some (Digits l) <->
  exists f, is_digit f /\ nth (N.to_nat f) ean13_parities [] = ps /\ l = f :: t /\ gs1_valid l.
Proof.
  intros HP HL HD. assert (ES : forall f, nth (N.to_nat f) ean13_parities [] = ps -> halves_symbol 6 ps t = ean13_symbol (f :: t)) by (intros f <-; reflexivity).
  assert (SC : scan (render (halves_symbol 6 ps t)) = Some (halves_symbol 6 ps t)).
  { pose proof (read_retail 6 ps (firstn 6 t) (skipn 6 t) HP ltac:(rewrite firstn_length; lia) ltac:(rewrite skipn_length; lia)
      ltac:(now apply Forall_firstn') ltac:(now apply Forall_skipn')) as R.
    apply scan_render.
    - unfold halves_symbol. apply width14_pos. repeat (apply Forall_app; split); try (repeat constructor; unfold width14; lia).
      + apply draw_left_width. now apply Forall_firstn'.
      + apply draw_right_width. now apply Forall_skipn'.
    - apply halves_size in R. unfold halves_symbol. now rewrite R. }
  unfold read_modules. rewrite SC. cbn [obind read_as]. unfold read_ean13. unfold halves_symbol at 1.
  rewrite read_retail by (assumption || (rewrite ?firstn_length, ?skipn_length; lia) || now (apply Forall_firstn' || apply Forall_skipn')).
  cbn [obind]. rewrite map_fst_combine, map_snd_combine by (rewrite firstn_length; lia). rewrite firstn_skipn. split.
  - destruct (which_parity ean13_parities ps) as [v|] eqn:EW; [|discriminate]. cbn [obind]. apply which_parity_iff in EW. destruct EW as [Hv EV].
    destruct (gs1_validb _) eqn:EG; [|discriminate]. cbn [guard option_map]. intros E. injection E as <-.
    exists (N.of_nat v). split; [unfold is_digit; lia|]. split; [now rewrite Nat2N.id|]. split; [reflexivity|]. now apply gs1_validb_spec.
  - intros (f & Hf & EF & -> & HV). rewrite <- EF, (which_parity_row f Hf). cbn [obind]. rewrite N2Nat.id. apply gs1_validb_spec in HV. rewrite HV. reflexivity.
Qed.
Lemma ean13_crossing t t' k l : Forall is_digit t -> Forall is_digit t' -> length t = 13 -> length t' = 13 -> 1 <= k <= 13 ->
  read_modules SEan13 (crossing (place SEan13 t k) (place SEan13 t' k) (render (ean13_symbol t)) (render (ean13_symbol t'))) = Some (Digits l) <->
  exists f, is_digit f /\ nth (N.to_nat f) ean13_parities [] = crossing (k - 1) (k - 1) (row t) (row t') /\
    l = f :: crossing (k - 1) (k - 1) (tl t) (tl t') /\ gs1_valid l.
Proof.
  intros HD HD' HL HL' Hk. destruct t as [|a t]; [discriminate|]. destruct t' as [|a' t']; [discriminate|].
  injection HL as HL. injection HL' as HL'. apply Forall_cons_iff in HD, HD'. destruct HD as [Ha HD]. destruct HD' as [Ha' HD'].
  unfold row. cbn [hd tl].
  change (ean13_symbol (a :: t)) with (halves_symbol 6 (nth (N.to_nat a) ean13_parities []) t).
  change (ean13_symbol (a' :: t')) with (halves_symbol 6 (nth (N.to_nat a') ean13_parities []) t').
  assert (ES : forall u, place SEan13 u k = seam 6 (k - 1)).
  { intros u. cbn [place]. unfold seam. destruct k as [|k]; [lia|]. change (Nat.leb (S k) 6) with (Nat.ltb k 6). replace (S k - 1) with k by lia. destruct (Nat.ltb k 6); lia. }
  rewrite !ES. pose proof (row_length a Ha) as R1. pose proof (row_length a' Ha') as R2.
  rewrite halves_crossing by (assumption || lia).
  apply halves_read_13; [|rewrite crossing_length; lia | now apply crossing_Forall].
  destruct (Nat.leb_spec (k - 1) 6) as [L|L]; [rewrite crossing_length by lia; lia|].
  unfold crossing. rewrite firstn_all2, skipn_all2, app_nil_r by lia. assumption.
Qed.
(** No first digit is lost when the line crosses behind the left half, or between symbols of one first digit. *)
Lemma ean13_crossing_same t t' k : Forall is_digit t -> Forall is_digit t' -> length t = 13 -> length t' = 13 -> gs1_valid t -> gs1_valid t' -> 1 <= k <= 13 ->
  (7 <= k \/ hd 0%N t = hd 0%N t') ->
  read_modules SEan13 (crossing (place SEan13 t k) (place SEan13 t' k) (render (ean13_symbol t)) (render (ean13_symbol t'))) =
    if (alt_sum 1 3 (firstn k t) mod 10 =? alt_sum 1 3 (firstn k t') mod 10)%N then Some (Digits (crossing k k t t')) else None.
Proof.
  intros HD HD' HL HL' HV HV' Hk HC.
  pose proof (valid_crossing t t' k ltac:(lia) ltac:(lia) HV HV') as VC. unfold front_sum in VC. rewrite HL in VC. cbn [Nat.even] in VC. rewrite <- VC. clear VC.
  assert (ER : crossing (k - 1) (k - 1) (row t) (row t') = row t).
  { assert (Ht : is_digit (hd 0%N t)) by (destruct t; [discriminate|]; now apply Forall_cons_iff in HD).
    assert (Ht' : is_digit (hd 0%N t')) by (destruct t'; [discriminate|]; now apply Forall_cons_iff in HD').
    pose proof (row_length _ Ht) as R1. pose proof (row_length _ Ht') as R2. unfold row in *.
    destruct HC as [HC|HC]; [|rewrite <- HC; apply firstn_skipn]. unfold crossing. rewrite firstn_all2, skipn_all2, app_nil_r by lia. reflexivity. }
  assert (EU : hd 0%N t :: crossing (k - 1) (k - 1) (tl t) (tl t') = crossing k k t t').
  { destruct t as [|a t]; [discriminate|]. destruct t' as [|a' t']; [discriminate|]. destruct k as [|k]; [lia|]. cbn [hd tl]. replace (S k - 1) with k by lia. reflexivity. }
  pose proof (fun l => ean13_crossing t t' k l HD HD' HL HL' Hk) as R. rewrite ER in R. set (X := read_modules _ _) in *.
  assert (XD : forall r, X = Some r -> exists l, r = Digits l).
  { intros r. unfold X, read_modules. destruct (scan _) as [w|]; [|discriminate]. cbn [obind read_as]. destruct (read_ean13 w) as [l|]; [|discriminate]. intros E. injection E as <-. now exists l. }
  clearbody X.
  assert (HF : is_digit (hd 0%N t)) by (destruct t; [discriminate|]; now apply Forall_cons_iff in HD).
  destruct (gs1_validb (crossing k k t t')) eqn:EG.
  - apply R. exists (hd 0%N t). split; [assumption|]. split; [reflexivity|]. split; [now symmetry | now apply gs1_validb_spec].
  - destruct X as [r|] eqn:EX; [exfalso|reflexivity]. destruct (XD r eq_refl) as [l ->]. destruct (R l) as [R1 _]. destruct (R1 eq_refl) as (f & Hf & EF & -> & HG).
    assert (f = hd 0%N t). { pose proof (which_parity_row f Hf) as W1. pose proof (which_parity_row _ HF) as W2. unfold row in EF. rewrite EF, W2 in W1. injection W1 as W1. now apply N2Nat.inj in W1. }
    subst f. rewrite EU in HG. apply gs1_validb_spec in HG. congruence.
Qed.

(** ** Add-ons *)
Lemma addon_split ps : forall ds k, length ps = length ds -> k < length ds ->
  draw_addon true ps ds = concat (map (fun x => widths (set_table (fst x)) (snd x) ++ addon_separator) (firstn k (combine ps ds))) ++ draw_addon true (skipn k ps) (skipn k ds).
Proof.
  induction ps as [|p ps IH]; intros [|d ds] k HL Hk; cbn [length] in *; try lia. destruct k as [|k]; [reflexivity|].
  cbn [combine firstn map concat fst snd skipn]. rewrite <- app_assoc, <- app_assoc. cbn [draw_addon app]. f_equal.
  injection HL as HL. rewrite <- (IH ds k HL) by lia. destruct ps as [|q ps], ds as [|e ds]; cbn [length] in *; try lia. reflexivity.
Qed.
Lemma crossing_combine {A B} (a a' : list A) (b b' : list B) i j : length a = length b -> length a' = length b' -> i <= length a ->
  combine (crossing i j a a') (crossing i j b b') = firstn i (combine a b) ++ skipn j (combine a' b').
Proof.
  intros H H' Hi. unfold crossing. rewrite combine_split by (rewrite !firstn_length; lia).
  f_equal; [now rewrite combine_firstn | ]. clear - H'. revert a' b' H'. induction j as [|j IH]; intros [|x a] [|y b] H; try discriminate; try reflexivity.
  cbn [skipn combine]. apply IH. now injection H.
Qed.
Lemma addon_crossing ps ps' t t' i j : length ps = length t -> length ps' = length t' -> Forall is_digit t -> Forall is_digit t' -> i < length t -> j < length t' ->
  crossing (place SSupp t i) (place SSupp t' j) (render (addon_guard ++ draw_addon true ps t)) (render (addon_guard ++ draw_addon true ps' t')) =
  render (addon_guard ++ draw_addon true (crossing i j ps ps') (crossing i j t t')).
Proof.
  intros HP HP' HD HD' Hi Hj.
  assert (LU : length (crossing i j t t') = i + (length t' - j)) by (apply crossing_length; lia).
  assert (LQ : length (crossing i j ps ps') = i + (length ps' - j)) by (apply crossing_length; lia).
  rewrite (addon_split ps t i HP Hi), (addon_split ps' t' j HP' Hj), (addon_split (crossing i j ps ps') (crossing i j t t') i) by lia.
  rewrite !crossing_back by lia. rewrite crossing_combine by (assumption || lia).
  rewrite firstn_app, firstn_firstn, Nat.min_id. rewrite firstn_length_le by (rewrite combine_length; lia). rewrite Nat.sub_diag. cbn [firstn]. rewrite app_nil_r.
  destruct (addon_sum ps t i HD) as [S1 L1]; [rewrite combine_length; lia|]. destruct (addon_sum ps' t' j HD') as [S2 L2]; [rewrite combine_length; lia|]. cbv zeta in *.
  cbn [place]. rewrite !app_assoc.
  set (A := concat (map _ (firstn i _))) in *. set (A' := concat (map _ (firstn j _))) in *.
  replace (9 * i + 4) with (list_sum (addon_guard ++ A)) by (rewrite list_sum_app, S1; cbn; lia).
  replace (9 * j + 4) with (list_sum (addon_guard ++ A')) by (rewrite list_sum_app, S2; cbn; lia).
  apply render_crossing. rewrite !app_length, L1, L2, !Nat.even_add, !Nat.even_mul. reflexivity.
Qed.
Lemma which_parity_self T : NoDup T -> forall v ps, nth_error T v = Some ps -> which_parity T ps = Some v.
Proof.
  induction 1 as [|p T HN HD IH]; intros [|v] ps E; try discriminate; cbn [nth_error which_parity] in *.
  - injection E as ->. assert (R : parities_eqb ps ps = true) by (clear; induction ps as [|[] ps IHp]; cbn; auto). now rewrite R.
  - destruct (parities_eqb p ps) eqn:EE; [apply parities_eqb_sound in EE; subst p; apply nth_error_In in E; contradiction|]. now rewrite (IH v ps E).
Qed.
Lemma ean2_nodup : NoDup ean2_parities. Proof. repeat constructor; cbn; intuition discriminate. Qed.
Lemma ean5_nodup : NoDup ean5_parities. Proof. repeat constructor; cbn; intuition discriminate. Qed.
Lemma addon_read ps u r : u <> [] -> length ps = length u -> Forall is_digit u ->
  read_modules SSupp (render (addon_guard ++ draw_addon true ps u)) = Some r <-> ps = addon_sets u /\ r = Digits u.
Proof.
  intros HN HP HD. unfold read_modules. rewrite addon_scan by assumption. cbn [obind read_as].
  assert (RB : read_addon_blocks (addon_guard ++ draw_addon true ps u) = Some (combine ps u)).
  { destruct u as [|d u]; [congruence|]. destruct ps as [|p ps]; [discriminate|]. now apply read_addon_ok. }
  unfold read_ean2, read_ean5. rewrite RB. cbn [obind]. rewrite map_fst_combine, map_snd_combine by assumption.
  assert (V2 : forall a b, exists q, nth_error ean2_parities (N.to_nat (ean2_variant [a; b])) = Some q).
  { intros a b. destruct (nth_error ean2_parities (N.to_nat (ean2_variant [a; b]))) as [q|] eqn:E; [eauto|]. apply nth_error_None in E. change (length ean2_parities) with 4 in E.
    unfold ean2_variant in E. pose proof (N.mod_lt (10 * a + b) 4 ltac:(discriminate)). lia. }
  assert (V5 : forall a b c d e, exists q, nth_error ean5_parities (N.to_nat (ean5_variant [a; b; c; d; e])) = Some q).
  { intros a b c d e. destruct (nth_error ean5_parities (N.to_nat (ean5_variant [a; b; c; d; e]))) as [q|] eqn:E; [eauto|]. apply nth_error_None in E. change (length ean5_parities) with 10 in E.
    unfold ean5_variant in E. pose proof (N.mod_lt (3 * (a + c + e) + 9 * (b + d)) 10 ltac:(discriminate)). lia. }
  split.
  - destruct (which_parity ean2_parities ps) as [v|] eqn:E2; cbn [obind].
    + apply which_parity_sound in E2. destruct (_ && _)%bool eqn:EC; cbn [guard].
      * intros E. injection E as <-. split; [|reflexivity]. apply andb_prop in EC. destruct EC as [EL EV]. apply Nat.eqb_eq in EL. apply N.eqb_eq in EV.
        destruct u as [|a [|b [|? ?]]]; try discriminate. unfold addon_sets. rewrite <- EV, Nat2N.id. symmetry. now apply nth_error_nth.
      * assert (L2 : length ps = 2). { assert (F : Forall (fun l => length l = 2) ean2_parities) by repeat constructor. rewrite Forall_forall in F. apply F. now apply nth_error_In in E2. }
        destruct (which_parity ean5_parities ps) as [w|] eqn:E5; cbn [obind option_map]; [|discriminate]. apply which_parity_sound, nth_error_In in E5.
        assert (F : Forall (fun l => length l = 5) ean5_parities) by repeat constructor. rewrite Forall_forall in F. apply F in E5. lia.
    + destruct (which_parity ean5_parities ps) as [w|] eqn:E5; cbn [obind option_map]; [|discriminate]. apply which_parity_sound in E5.
      destruct (_ && _)%bool eqn:EC; cbn [guard option_map]; [|discriminate]. intros E. injection E as <-. split; [|reflexivity].
      apply andb_prop in EC. destruct EC as [EL EV]. apply Nat.eqb_eq in EL. apply N.eqb_eq in EV.
      destruct u as [|a [|b [|c [|d [|e [|? ?]]]]]]; try discriminate. unfold addon_sets. rewrite <- EV, Nat2N.id. symmetry. now apply nth_error_nth.
  - intros [EP ->]. assert (HL : length u = 2 \/ length u = 5).
    { rewrite EP in HP. destruct u as [|a [|b [|c u]]]; [congruence | | now left | right].
      - exfalso. unfold addon_sets, ean5_variant in HP. cbn in HP. discriminate.
      - rewrite <- HP. unfold addon_sets. assert (F : Forall (fun l => length l = 5) ean5_parities) by repeat constructor. rewrite Forall_forall in F. apply F, nth_In.
        change (length ean5_parities) with 10. unfold ean5_variant. destruct u as [|d [|e [|? ?]]]; try lia. pose proof (N.mod_lt (3 * (a + c + e) + 9 * (b + d)) 10 ltac:(discriminate)). lia. }
    destruct HL as [HL|HL].
    + destruct u as [|a [|b [|? ?]]]; try discriminate. destruct (V2 a b) as [q Eq]. unfold addon_sets in EP. rewrite (nth_error_nth _ _ [] Eq) in EP. subst q.
      rewrite (which_parity_self _ ean2_nodup _ _ Eq). cbn [obind length Nat.eqb andb]. now rewrite N2Nat.id, N.eqb_refl.
    + destruct u as [|a [|b [|c [|d [|e [|? ?]]]]]]; try discriminate. destruct (V5 a b c d e) as [q Eq]. unfold addon_sets in EP. rewrite (nth_error_nth _ _ [] Eq) in EP. subst q.
      destruct (which_parity ean2_parities ps) as [v|] eqn:E2; cbn [obind].
      { apply which_parity_sound, nth_error_In in E2. assert (F : Forall (fun l => length l = 2) ean2_parities) by repeat constructor. rewrite Forall_forall in F. apply F in E2. cbn in HP. lia. }
      rewrite (which_parity_self _ ean5_nodup _ _ Eq). cbn [obind length Nat.eqb andb]. now rewrite N2Nat.id, N.eqb_refl.
Qed.
