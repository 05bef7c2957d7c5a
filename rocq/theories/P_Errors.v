(** * Proofs about the errors of the constructors *)
From Verif Require Import Rust M_Error M_Helpers M_Parse M_Ean13 M_Ean8 M_Upca M_EanSupp M_Code39 M_Code93 M_Code11
  M_Codabar M_Code128 M_Tf Symbology M_Use S_Barcode S_Ean S_Text S_Linear S_Codabar S_Tf S_Code128 S_Errors
  P_Rust P_Barcode P_Parse P_Gs1 P_Ean P_Retail P_Retail2 P_Retail3 P_Supp P_Code39 P_Code93 P_Code11
  P_Codabar P_Tf P_Code128 P_Code128b P_All.

Lemma run_Err {B} (new : M (result B)) enc e : run new enc = Ret (Err e) <-> new = Ret (Err e).
Proof.
  unfold run. destruct new as [[b|x]|r]; cbn [bind].
  - split; [|discriminate]. destruct (enc b); cbn [bind]; discriminate.
  - split; intros H; injection H as ->; reflexivity.
  - split; discriminate.
Qed.
Lemma digit_char_alphabet c : digit_char c <-> In c (lit "0123456789").
Proof.
  unfold digit_char. split.
  - intros H. assert (E : exists k, (k < 10)%nat /\ c = 48 + N.of_nat k).
    { exists (N.to_nat (c - 48)). lia. }
    destruct E as [k [Hk ->]]. do 10 (destruct k as [|k]; [cbn; tauto|]). lia.
  - cbn. intros H. repeat destruct H as [<-|H]; try (cbv; split; discriminate). destruct H.
Qed.

Definition known (y : symbology) (s : str) : Prop := Forall (fun c => In c (alphabet y)) s.
Lemma alphabet_ascii y c : In c (alphabet y) -> c < 128.
Proof.
  assert (H : forallb (fun c => c <? 128) (alphabet y) = true) by (destruct y; vm_compute; reflexivity).
  rewrite forallb_forall in H. intros I. apply N.ltb_lt. now apply H.
Qed.
Lemma known_len y s : known y s -> str_len s = N.of_nat (length s).
Proof. intros H. apply str_len_ascii. revert H. apply Forall_impl. intros c. apply alphabet_ascii. Qed.
Lemma known_digits s : Forall digit_char s <-> Forall (fun c => In c (lit "0123456789")) s.
Proof. split; apply Forall_impl; intros c; apply digit_char_alphabet. Qed.
Lemma known_dec y s : {known y s} + {~ known y s}.
Proof. apply Forall_dec. intros c. apply in_dec. apply N.eq_dec. Qed.

(** The verdicts of a constructor *)
Record Verdict (y : symbology) (p : profile) (s : str) : Prop := mkVerdict {
  v_length : known y s -> (barcode y p s = Ret (Err ELength) <-> ~ fits y (length s));
  v_check : known y s -> (barcode y p s = Ret (Err EChecksum) <-> with_check_digit y (length s) /\ ~ gs1_valid (digits_of s));
  v_known : known y s -> barcode y p s <> Ret (Err ECharacter);
  v_foreign : ~ known y s -> Forall (fun c => c < 128) s -> fits y (length s) -> barcode y p s = Ret (Err ECharacter);
  v_other : ~ known y s -> barcode y p s = Ret (Err ECharacter) \/ barcode y p s = Ret (Err ELength);
  v_kinds : forall e, barcode y p s = Ret (Err e) -> e <> EGenerate }.

Lemma ret_iff {A} (x : M A) r v : x = Ret r -> (x = Ret v <-> r = v).
Proof. intros ->. split; [intros H; now injection H | now intros ->]. Qed.
Definition bounds (y : symbology) : N * N :=
  match y with SEan13 => (12, 13) | SEan8 => (7, 8) | SUpca => (11, 12) | SSupp => (2, 5) | _ => (1, 256) end.
(** All of it follows from the decision table with byte counts. *)
Lemma verdict_table y p s : y <> SCode128 -> str_len s < 2 ^ 32 ->
  let n := str_len s in
  let '(lo, hi) := bounds y in
  (barcode y p s = Ret (Err ELength) <-> ~ (lo <= n <= hi) \/ known y s /\ ~ fits y (length s)) ->
  (barcode y p s = Ret (Err ECharacter) <-> lo <= n <= hi /\ ~ known y s) ->
  (barcode y p s = Ret (Err EChecksum) <-> known y s /\ with_check_digit y (length s) /\ ~ gs1_valid (digits_of s)) ->
  (barcode y p s <> Ret (Err EGenerate)) -> Verdict y p s.
Proof.
  intros HY Hs n. destruct (bounds y) as [lo hi] eqn:ER. intros HL HC HK HG.
  assert (R : fits y (length s) -> lo <= N.of_nat (length s) <= hi).
  { destruct y; cbn in ER |- *; injection ER as <- <-; lia. }
  split.
  - intros K. rewrite HL. split; [|tauto]. intros [A|[_ A]]; [|assumption]. unfold n in A.
    rewrite (known_len y s K) in A. tauto.
  - intros K. rewrite HK. tauto.
  - intros K. rewrite HC. tauto.
  - intros K A RL. apply HC. split; [|assumption]. unfold n. rewrite str_len_ascii by assumption. now apply R.
  - intros K. rewrite HC, HL. assert (lo <= n <= hi \/ ~ (lo <= n <= hi)) by lia. tauto.
  - intros e H ->. contradiction.
Qed.

Lemma err_run {B} (new : M (result B)) enc r : new = Ret r ->
  forall e, run new enc = Ret (Err e) <-> r = Err e.
Proof. intros ->. intros e. rewrite run_Err. split; [intros H; now injection H | now intros ->]. Qed.
Lemma retail_verdict {B} y p s n (mk : list N -> B) (r : result B) : y <> SCode128 -> (1 <= n)%nat ->
  alphabet y = lit "0123456789" -> bounds y = (N.of_nat n, N.of_nat (S n)) ->
  (forall k, fits y k <-> k = n \/ k = S n) -> (forall k, with_check_digit y k <-> k = S n) ->
  (forall e, barcode y p s = Ret (Err e) <-> r = Err e) ->
  str_len s < 2 ^ 32 ->
    (r = Err ELength <-> str_len s <> N.of_nat n /\ str_len s <> N.of_nat (S n)) /\
    (r = Err ECharacter <-> (str_len s = N.of_nat n \/ str_len s = N.of_nat (S n)) /\ ~ Forall digit_char s) /\
    (r = Err EChecksum <-> length s = S n /\ Forall digit_char s /\ ~ gs1_valid (digits_of s)) /\
    (forall b, r = Ok b <->
       Forall digit_char s /\ b = mk (firstn n (digits_of s)) /\
       (length s = n \/ (length s = S n /\ gs1_valid (digits_of s)))) -> Verdict y p s.
Proof.
  intros HY Hn HA HB HF HW HR Hs (TL & TC & TK & TO).
  pose proof (verdict_table y p s HY Hs) as V. cbv zeta in V. rewrite HB in V.
  assert (KD : known y s <-> Forall digit_char s).
  { unfold known. rewrite HA. symmetry. apply known_digits. }
  apply V; clear V.
  - rewrite HR, TL, HF. split.
    + intros H. left. lia.
    + intros [H|[K H]]; [lia|]. rewrite (known_len y s K). lia.
  - rewrite HR, TC, KD. split; intros [A G]; (split; [lia | assumption]).
  - rewrite HR, TK, KD, HW. tauto.
  - rewrite HR. intros G. destruct (known_dec y s) as [K|K].
    + pose proof (known_len y s K) as EL. rewrite KD in K.
      assert (D : str_len s <> N.of_nat n /\ str_len s <> N.of_nat (S n) \/ length s = n \/ length s = S n) by lia.
      destruct D as [D|[D|D]].
      * apply TL in D. congruence.
      * assert (r = Ok (mk (firstn n (digits_of s)))) by (apply TO; auto). congruence.
      * destruct (N.eq_dec (gs1_sum (digits_of s) mod 10) 0) as [Z|Z].
        -- assert (r = Ok (mk (firstn n (digits_of s)))) by (apply TO; auto). congruence.
        -- assert (r = Err EChecksum) by (apply TK; auto). congruence.
    + rewrite KD in K.
      assert (D : str_len s <> N.of_nat n /\ str_len s <> N.of_nat (S n) \/ (str_len s = N.of_nat n \/ str_len s = N.of_nat (S n))) by lia.
      destruct D as [D|D]; [apply TL in D; congruence|].
      assert (r = Err ECharacter) by (apply TC; auto). congruence.
Qed.

Lemma plain_verdict {B} y p s (r : result B) : y <> SCode128 -> bounds y = (1, 256) ->
  (forall k, fits y k <-> (1 <= k <= 256)%nat) -> (forall k, ~ with_check_digit y k) ->
  (forall e, barcode y p s = Ret (Err e) <-> r = Err e) ->
  str_len s < 2 ^ 32 -> let n := str_len s mod 2 ^ 32 in
  (r = Err ELength <-> ~ (1 <= n <= 256)) -> (r = Err ECharacter <-> 1 <= n <= 256 /\ ~ known y s) ->
  r <> Err EChecksum -> (1 <= n <= 256 -> known y s -> r <> Err EGenerate) -> Verdict y p s.
Proof.
  intros HY HB HF HW HR Hs n HL HC HK HG. unfold n in *. rewrite N.mod_small in * by assumption.
  pose proof (verdict_table y p s HY Hs) as V. cbv zeta in V. rewrite HB in V. apply V; clear V.
  - rewrite HR, HL, HF. split; [now left|]. intros [H|[K H]]; [assumption|]. rewrite (known_len y s K). lia.
  - now rewrite HR, HC.
  - rewrite HR. split; [contradiction|]. intros (_ & H & _). now apply HW in H.
  - rewrite HR. intros G. assert (D : 1 <= str_len s <= 256 \/ ~ (1 <= str_len s <= 256)) by lia.
    destruct D as [D|D]; [|apply HL in D; congruence].
    destruct (known_dec y s) as [K|K]; [now apply HG in K|]. assert (r = Err ECharacter) by (apply HC; auto). congruence.
Qed.

Lemma verdict y p s : y <> SCode128 -> str_len s < 2 ^ 32 -> Verdict y p s.
Proof.
  intros HY Hs. destruct y; try contradiction.
  - destruct (retail_new_spec mkEAN13 12 ltac:(lia) p s Hs) as [r [E T]].
    apply (retail_verdict _ _ _ 12 mkEAN13 r); try discriminate; try reflexivity; try assumption; try lia.
    intros e. now apply err_run.
  - destruct (retail_new_spec mkEAN8 7 ltac:(lia) p s Hs) as [r [E T]].
    apply (retail_verdict _ _ _ 7 mkEAN8 r); try discriminate; try reflexivity; try assumption; try lia.
    intros e. now apply err_run.
  - destruct (retail_new_spec mkUPCA 11 ltac:(lia) p s Hs) as [r [E T]].
    apply (retail_verdict _ _ _ 11 mkUPCA r); try discriminate; try reflexivity; try assumption; try lia.
    intros e. now apply err_run.
  - destruct (eansupp_new_spec s) as [r [E (TL & TC & TK & TO)]]. rewrite N.mod_small in * by assumption.
    assert (KD : known SSupp s <-> Forall digit_char s) by (symmetry; apply known_digits).
    pose proof (verdict_table SSupp p s HY Hs) as V. cbn [bounds] in V. cbv zeta in V.
    assert (HR : forall e, barcode SSupp p s = Ret (Err e) <-> r = Err e) by (intros e; now apply err_run).
    apply V; clear V.
    + rewrite HR, TL, KD. cbn [fits]. intuition lia.
    + now rewrite HR, TC, KD.
    + rewrite HR. cbn [with_check_digit]. tauto.
    + rewrite HR. intros G. assert (D : 2 <= str_len s <= 5 \/ ~ (2 <= str_len s <= 5)) by lia.
      destruct D as [D|D]; [|assert (r = Err ELength) by (apply TL; auto); congruence].
      destruct (known_dec SSupp s) as [K|K]; rewrite KD in K; [|assert (r = Err ECharacter) by (apply TC; auto); congruence].
      assert (X : length s = 2%nat \/ length s = 5%nat \/ length s <> 2%nat /\ length s <> 5%nat) by lia.
      destruct X as [X|[X|X]].
      * assert (r = Ok (EAN2 (digits_of s))) by (apply TO; auto). congruence.
      * assert (r = Ok (EAN5 (digits_of s))) by (apply TO; auto). congruence.
      * assert (r = Err ELength) by (apply TL; auto). congruence.
  - destruct (code39_init_spec false s) as (TL & TC & TK & TO).
    apply (plain_verdict SCode39 p s (code39_new s)); try assumption; try reflexivity; try (intros; cbn; tauto).
    + intros e. now apply err_run.
    + intros D K. assert (X : code39_init s false = Ok (mkCode39 s false)) by (apply TO; auto). unfold code39_new. congruence.
  - destruct (code39_init_spec true s) as (TL & TC & TK & TO).
    apply (plain_verdict SCode39Checked p s (code39_with_checksum s)); try assumption; try reflexivity; try (intros; cbn; tauto).
    + intros e. now apply err_run.
    + intros D K. assert (X : code39_init s true = Ok (mkCode39 s true)) by (apply TO; auto). unfold code39_with_checksum. congruence.
  - destruct (code93_new_spec s) as (TL & TC & TK & TO).
    apply (plain_verdict SCode93 p s (code93_new s)); try assumption; try reflexivity; try (intros; cbn; tauto).
    + intros e. now apply err_run.
    + intros D K. assert (X : code93_new s = Ok (mkCode93 s)) by (apply TO; auto). congruence.
  - destruct (code11_new_spec s) as (TL & TC & TK & TO).
    apply (plain_verdict SCode11 p s (code11_new s)); try assumption; try reflexivity; try (intros; cbn; tauto).
    + intros e. now apply err_run.
    + intros D K. assert (X : code11_new s = Ok (mkCode11 s)) by (apply TO; auto). congruence.
  - destruct (codabar_new_spec s) as [r [E (TL & TC & TK & TO)]].
    apply (plain_verdict SCodabar p s r); try assumption; try reflexivity; try (intros; cbn; tauto).
    + intros e. now apply err_run.
    + intros D K. assert (X : exists b, r = Ok b) by (apply TO; auto). destruct X as [b X]. congruence.
  - destruct (tf_interleaved_spec p s) as (TL & TC & TO). cbv zeta in *.
    assert (KD : known SItf s <-> Forall digit_char s) by (symmetry; apply known_digits).
    assert (HR : forall e, barcode SItf p s = Ret (Err e) <-> tf_interleaved p s = Ret (Err e)) by (intros e; apply run_Err).
    rewrite N.mod_small in * by assumption.
    assert (D : 1 <= str_len s <= 256 \/ ~ (1 <= str_len s <= 256)) by lia.
    pose proof (verdict_table SItf p s HY Hs) as V. cbn [bounds] in V. cbv zeta in V.
    assert (NE : 1 <= str_len s <= 256 -> known SItf s -> forall e, tf_interleaved p s <> Ret (Err e)).
    { intros D1 K e. rewrite KD in K. rewrite (TO D1 K). destruct (Nat.even (length s)); [discriminate|].
      destruct (_ <? 256); [discriminate|]. destruct p; discriminate. }
    apply V; clear V; rewrite HR.
    + split.
      * intros H. destruct D as [D|D]; [|now left]. destruct (known_dec SItf s) as [K|K]; [now apply NE in H|].
        rewrite KD in K. rewrite (TC D K) in H. discriminate.
      * intros [H|[K H]]; [now apply TL|]. apply TL. rewrite (known_len SItf s K). cbn [fits] in H. lia.
    + split.
      * intros H. destruct D as [D|D]; [|rewrite (TL D) in H; discriminate]. split; [assumption|].
        intros K. now apply NE in H.
      * intros [D1 K]. rewrite KD in K. now apply TC.
    + cbn [with_check_digit]. split; [|tauto]. intros H. destruct D as [D|D]; [|rewrite (TL D) in H; discriminate].
      destruct (known_dec SItf s) as [K|K]; [now apply NE in H|]. rewrite KD in K. rewrite (TC D K) in H. discriminate.
    + intros H. destruct D as [D|D]; [|rewrite (TL D) in H; discriminate].
      destruct (known_dec SItf s) as [K|K]; [now apply NE in H|]. rewrite KD in K. rewrite (TC D K) in H. discriminate.
  - destruct (tf_standard_spec s) as [r [E (TL & TC & TK & TO)]].
    assert (KD : known SStf s <-> Forall digit_char s) by (symmetry; apply known_digits).
    apply (plain_verdict SStf p s r); try assumption; try reflexivity; try (intros; cbn; tauto).
    + intros e. now apply err_run.
    + intros D K. rewrite KD in K. assert (X : r = Ok (Standard (digits_of s))) by (apply TO; auto). congruence.
Qed.
