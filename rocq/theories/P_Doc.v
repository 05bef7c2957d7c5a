(** * Proofs: what the documentation says about densities and number systems *)
From Verif Require Import Rust M_Error M_Helpers M_Parse M_Ean13 M_Code39 M_Code93 M_Code128 M_Tf Symbology M_Use
  S_Barcode S_Ean S_Text S_Linear S_Tf S_Code128 S_All S_Heard S_Exact S_Doc
  P_Rust P_Barcode P_Parse P_Gs1 P_Ean P_Retail P_Retail2 P_Retail3 P_Code39 P_Code93 P_Code128 P_Code128b P_All P_Exact.

Lemma c39_in_c93 c : In c c39_chars -> In c c93_chars.
Proof.
  assert (E : forallb (fun c => existsb (N.eqb c) c93_chars) c39_chars = true) by reflexivity.
  rewrite forallb_forall in E. intros H. apply E in H. apply existsb_exists in H. destruct H as [x [Hx Ex]].
  apply N.eqb_eq in Ex. now subst.
Qed.
Lemma code39_in_code93 p p' s m : str_len s < 2 ^ 48 -> barcode SCode39 p s = Ret (Ok m) -> exists m', barcode SCode93 p' s = Ret (Ok m').
Proof.
  intros Hs H. cbn [barcode] in H. apply run_Ret in H. destruct H as [b [HN _]].
  apply (code39_init_spec false s) in HN. destruct HN as (Hn & HD & _).
  assert (HN : code93_new s = Ok (mkCode93 s)).
  { apply (code93_new_spec s). split; [assumption|]. split; [|reflexivity]. revert HD. apply Forall_impl. exact c39_in_c93. }
  destruct (code93_accepted p' s _ Hs HN) as [m' [E _]]. exists m'. cbn [barcode]. unfold run. rewrite HN. cbn [bind]. now rewrite E.
Qed.

(** ** Digits in code set C *)
Lemma pair_values_length s : Forall digit_char s -> forall f, length (pair_values f s) = ((length s + match f with None => 0 | Some _ => 1 end) / 2)%nat.
Proof.
  intros H. induction H as [|c s Hc H IH]; intros f; cbn [pair_values length].
  - destruct f; reflexivity.
  - assert (E : digit c = true) by (unfold digit; unfold digit_char in Hc; apply andb_true_intro; split; apply N.leb_le; lia).
    rewrite E. destruct f as [x|].
    + cbn [length]. rewrite IH. replace (S (length s) + 1)%nat with (length s + 0 + 1 * 2)%nat by lia. rewrite Nat.div_add by discriminate. lia.
    + rewrite IH. f_equal. lia.
Qed.
Lemma digits_legal k s : Forall digit_char s -> Forall (legal k) s.
Proof.
  apply Forall_impl. intros c Hc. unfold digit_char in Hc. destruct k; cbn [legal]; try (left; lia).
  left. unfold digit. apply andb_true_intro. split; apply N.leb_le; lia.
Qed.
Lemma digits_in_all s : Forall digit_char s -> digits_in s = length s.
Proof.
  unfold digits_in. intros H. induction H as [|c s Hc H IH]; [reflexivity|]. cbn [filter].
  assert (E : digit c = true) by (unfold digit; unfold digit_char in Hc; apply andb_true_intro; split; apply N.leb_le; lia).
  rewrite E. cbn [length]. now rewrite IH.
Qed.
Lemma one_segment_ok k s : Forall digit_char s -> Nat.even (length s) = true -> message_ok [(k, s)].
Proof.
  intros H E. split; [discriminate|]. split; [|exact I]. constructor; [|constructor]. split; cbn [fst snd].
  - now apply digits_legal.
  - intros _. now rewrite digits_in_all.
Qed.
Lemma one_segment_barcode k p s : Forall digit_char s -> Nat.even (length s) = true -> len s <= 6488 ->
  exists m, barcode SCode128 p (set_char k :: s) = Ret (Ok m) /\
    length m = (11 * (match k with CC => length s / 2 | _ => length s end) + 35)%nat.
Proof.
  intros H E HL. pose proof (one_segment_ok k s H E) as HM.
  assert (HV : length (message_values [(k, s)]) = (1 + match k with CC => length s / 2 | _ => length s end)%nat).
  { cbn [message_values map concat]. rewrite app_nil_r. cbn [length]. cbn [Nat.add]. apply f_equal. destruct k; cbn [body_values]; [apply map_length | apply map_length |].
    rewrite pair_values_length by assumption. now rewrite Nat.add_0_r. }
  assert (HS : set_char k :: s = spell [(k, s)]) by (unfold spell; cbn [map concat fst snd]; now rewrite app_nil_r).
  assert (HE : barcode SCode128 p (set_char k :: s) = Ret (Ok (render (c128_symbol (message_values [(k, s)]))))).
  { cbn [barcode]. unfold run. rewrite HS, code128_new_spell by assumption. cbn [bind]. rewrite code128_encode_ok; [reflexivity | assumption |].
    unfold len in *. rewrite HV. pose proof (Nat.div_le_upper_bound (length s) 2 (length s) ltac:(discriminate) ltac:(lia)). destruct k; lia. }
  eexists. split; [exact HE|].
  assert (B : str_len (set_char k :: s) < 2 ^ 48).
  { cbn [str_len fold_right]. change (fold_right _ 0 s) with (str_len s). rewrite str_len_digits by assumption. unfold str, char in *.
    assert (utf8_len (set_char k) <= 4) by (destruct k; vm_compute; discriminate). change (2 ^ 48) with 281474976710656. lia. }
  pose proof (barcode_length SCode128 p _ _ B HE) as HX. cbn [modules_spec] in HX. destruct HX as (segs & HO & ES & HK).
  rewrite HS in ES. apply spell_inj in ES; [|apply HM | apply HO]. subst segs. rewrite HK, HV. destruct k; lia.
Qed.

(** ** Book numbers *)
Lemma falling_app a : forall w l, falling_sum w (a ++ l) = falling_sum w a + falling_sum (w - len a) l.
Proof.
  induction a as [|d a IH]; intros w l.
  - cbn [app falling_sum]. unfold len. cbn [length N.of_nat]. now rewrite N.sub_0_r.
  - cbn [app falling_sum]. rewrite IH, len_cons. replace (w - 1 - len a) with (w - (1 + len a)) by lia. lia.
Qed.
Lemma isbn10_split l : isbn10 l -> exists x, l = firstn 9 l ++ [x] /\ length (firstn 9 l) = 9%nat /\ x <= 10 /\
  (falling_sum 10 (firstn 9 l) + x) mod 11 = 0.
Proof.
  intros (HL & HD & H10 & HS). assert (L9 : length (firstn 9 l) = 9%nat) by (rewrite firstn_length; lia).
  pose proof (firstn_skipn 9 l) as E. assert (LS : length (skipn 9 l) = 1%nat) by (rewrite skipn_length; lia).
  destruct (skipn 9 l) as [|x [|y r]] eqn:ES; try discriminate. exists x. split; [now rewrite E|]. split; [assumption|]. split.
  - rewrite Forall_forall in H10. apply H10. rewrite <- E. apply in_or_app. right. now left.
  - rewrite <- E in HS at 1. rewrite falling_app in HS. unfold len in HS. rewrite L9 in HS. cbn [falling_sum] in HS.
    replace (10 - N.of_nat 9) with 1 in HS by reflexivity. now rewrite N.mul_1_l, N.add_0_r in HS.
Qed.
Lemma isbn10_core l l' : isbn10 l -> isbn10 l' -> firstn 9 l = firstn 9 l' -> l = l'.
Proof.
  intros H H' E. destruct (isbn10_split l H) as (x & El & _ & Hx & S). destruct (isbn10_split l' H') as (y & El' & _ & Hy & S').
  rewrite El, El', <- E. f_equal. f_equal. rewrite <- E in S'. set (a := falling_sum 10 (firstn 9 l)) in *.
  apply N.mod_divide in S; [|discriminate]. apply N.mod_divide in S'; [|discriminate]. destruct S as [k S], S' as [k' S']. lia.
Qed.
Lemma book_digits l : isbn10 l -> length ([9; 7; 8] ++ firstn 9 l) = 12%nat /\ Forall is_digit ([9; 7; 8] ++ firstn 9 l).
Proof.
  intros H. destruct (isbn10_split l H) as (x & _ & L9 & _). split; [rewrite app_length, L9; reflexivity|].
  apply Forall_app. split; [repeat constructor | apply H].
Qed.
Lemma book_barcode p l : isbn10 l -> exists m n, barcode SEan13 p (text_of ([9; 7; 8] ++ firstn 9 l)) = Ret (Ok m) /\
  isbn13_of l n /\ read_modules SEan13 m = Some (Digits n).
Proof.
  intros H. destruct (book_digits l H) as [L D]. set (ds := [9; 7; 8] ++ firstn 9 l) in *.
  pose proof (retail_new_bare mkEAN13 12 ltac:(lia) p ds L D) as HN. rewrite <- ean13_new_retail in HN.
  destruct (ean13_conform p p _ _ HN) as [E _].
  assert (HB : barcode SEan13 p (text_of ds) = Ret (Ok (render (ean13_symbol (with_check (firstn 12 (digits_of (text_of ds)))))))).
  { cbn [barcode]. unfold run. rewrite HN. cbn [bind]. now rewrite E. }
  assert (B : str_len (text_of ds) < 2 ^ 48).
  { rewrite str_len_text_of by assumption. unfold len. rewrite L. reflexivity. }
  pose proof (barcode_exact SEan13 p _ _ B ltac:(discriminate) HB) as HR. cbn [reads_back] in HR.
  rewrite digits_of_text_of in HB, HR by assumption.
  eexists. exists (full_number 12 ds). split; [exact HB|]. split; [|exact HR].
  unfold full_number. replace (firstn 12 ds) with ds by (symmetry; apply firstn_all2; lia).
  destruct (with_check_ok ds 12 L D) as (_ & D1 & V1). exists (gs1_check ds). split; [apply Forall_app in D1; exact (Forall_inv (proj2 D1))|].
  split; [unfold ds; now rewrite <- !app_assoc | exact V1].
Qed.
Lemma number_system_kept p s m n : str_len s < 2 ^ 48 -> barcode SEan13 p s = Ret (Ok m) -> read_modules SEan13 m = Some (Digits n) ->
  forall l, (length l <= 12)%nat -> starts_with l n <-> starts_with l (digits_of s).
Proof.
  intros Hs H HR l HL. pose proof (barcode_exact SEan13 p s m Hs ltac:(discriminate) H) as E. cbn [reads_back] in E. rewrite HR in E.
  injection E as ->. cbn [barcode] in H. apply run_Ok in H. destruct H as [b [HN _]].
  destruct (ean13_accepted p s b HN) as (_ & L & _). unfold starts_with, full_number.
  rewrite firstn_app, L. replace (length l - 12)%nat with 0%nat by lia. rewrite firstn_O, app_nil_r, firstn_firstn.
  now replace (Nat.min (length l) 12) with (length l) by lia.
Qed.
