(** * Proofs: the width of usize *)
From Verif Require Import Rust M_Error M_Parse M_Helpers M_Tables M_Ean13 M_Ean8 M_Upca M_EanSupp M_Code39 M_Code93 M_Code11
  M_Codabar M_Code128 M_Tf M_Ascii M_Image Symbology M_Use M_Target S_Barcode S_Linear S_All
  P_Rust P_Barcode P_Parse P_Alphabet P_Weighted P_Code39 P_Code93 P_Code11 P_Codabar P_Image P_Image2 P_All.

Lemma target_64 :
  (forall y p s, barcode_at 64 y p s = barcode y p s) /\
  (forall p g b, ascii_generate_at 64 p g b = ascii_generate p g b) /\
  (forall p g b, image_generate_buffer_at 64 p g b = image_generate_buffer p g b).
Proof. split; [intros []; reflexivity | split; reflexivity]. Qed.

(** ** Sums in a type of any width *)
Lemma fit_u_add w p a b c :
  (x <- fit_u w p (a + b) ;; fit_u w p (x + c)) = fit_u w p (a + b + c).
Proof.
  unfold fit_u. destruct (a + b <? 2 ^ w) eqn:E; [reflexivity|]. apply N.ltb_ge in E.
  assert (E2 : (a + b + c <? 2 ^ w) = false) by (apply N.ltb_ge; lia). rewrite E2. destruct p; [reflexivity|]. cbn [bind].
  destruct ((a + b) mod 2 ^ w + c <? 2 ^ w) eqn:E3.
  - apply N.ltb_lt in E3. rewrite <- (N.mod_small ((a + b) mod 2 ^ w + c) (2 ^ w)) by assumption.
    f_equal. apply N.add_mod_idemp_l. apply N.pow_nonzero. discriminate.
  - f_equal. apply N.add_mod_idemp_l. apply N.pow_nonzero. discriminate.
Qed.
Lemma foldM_add_at {A} w p (step : N -> A -> M N) (g : A -> N) l : forall acc,
  (forall acc x, In x l -> step acc x = add_u w p acc (g x)) -> acc < 2 ^ w ->
  foldM step l acc = fit_u w p (acc + sum_N (map g l)).
Proof.
  unfold sum_N. induction l as [|x l IH]; cbn [map fold_right foldM]; intros acc H Ha.
  - rewrite N.add_0_r. now rewrite fit_u_ok.
  - rewrite H by (left; reflexivity). unfold add_u at 1. rewrite N.add_assoc, <- fit_u_add.
    destruct (fit_u w p (acc + g x)) as [z|] eqn:E; [|reflexivity]. cbn [bind].
    apply IH; [intros; apply H; now right|]. unfold fit_u in E. destruct (acc + g x <? 2 ^ w) eqn:E'.
    + injection E as <-. now apply N.ltb_lt.
    + destruct p; [discriminate|]. injection E as <-. apply N.mod_lt, N.pow_nonzero. discriminate.
Qed.

(** ** Weighted sums of bounded values *)
Lemma weigh_le top m vs : forall w, Forall (fun v => v <= m) vs -> weigh top w vs <= weigh top w (repeat m (length vs)).
Proof.
  induction vs as [|v vs IH]; intros w H; cbn [weigh length repeat]; [lia|]. inversion H as [|? ? H1 H2]; subst.
  specialize (IH (if w =? top then 1 else w + 1) H2). assert (w * v <= w * m) by (apply N.mul_le_mono_l; assumption). lia.
Qed.
Lemma weigh_longer top m n k : forall w, (n <= k)%nat -> weigh top w (repeat m n) <= weigh top w (repeat m k).
Proof.
  revert k. induction n as [|n IH]; intros k w H; cbn [repeat weigh]; [lia|]. destruct k as [|k]; [lia|]. cbn [repeat weigh].
  specialize (IH k (if w =? top then 1 else w + 1) ltac:(lia)). lia.
Qed.
Lemma weighted_le top m vs n : Forall (fun v => v <= m) vs -> (length vs <= n)%nat ->
  weighted top vs <= weigh top 1 (repeat m n).
Proof.
  intros H Hn. unfold weighted. etransitivity; [apply (weigh_le top m); now apply Forall_rev|]. apply weigh_longer. now rewrite rev_length.
Qed.

(** ** Code 39 *)
Lemma accepted_256 vc lo s d : str_len s < 2 ^ 32 -> parse vc lo 256 s = Ok d -> d = s /\ Forall (fun c => In c vc) s /\ len s <= 256.
Proof.
  intros Hs H. destruct (parse_cases vc lo 256 s) as [[_ E]|[[_ [_ E]]|[HL [HF E]]]]; rewrite H in E; try discriminate.
  injection E as ->. rewrite N.mod_small in HL by assumption. pose proof (str_len_ge s). repeat split; [assumption | lia].
Qed.
Lemma code39_checksum_char_at_eq w p s f : 16 <= w -> Forall (fun c => In c c39_chars) s -> len s <= 256 ->
  code39_checksum_char_at w p (mkCode39 s f) = code39_checksum_char p (mkCode39 s f).
Proof.
  intros Hw H Hl. assert (H16 : 2 ^ 16 <= 2 ^ w) by (apply N.pow_le_mono_r; [discriminate | assumption]).
  change (2 ^ 16) with 65536 in H16.
  rewrite code39_checksum_char_ok by (assumption || (change (2 ^ 48) with 281474976710656; lia)).
  unfold code39_checksum_char_at. cbn [c39_data].
  rewrite (foldM_add_at w p _ c39_value).
  - rewrite fit_u_ok.
    + cbn [bind]. rewrite N.add_0_l. rewrite code39_CHARS_eq, (mtable_len _ _ c39_len).
      change (len c39_chars) with 43. rewrite rem_u_ok by discriminate. cbn [bind].
      rewrite <- c39_sum_eq. rewrite mtable_nth; [reflexivity | exact c39_len |]. apply N.mod_lt. discriminate.
    + assert (E : sum_N (map c39_value s) <= len (map c39_value s) * 42).
      { apply sum_N_bound. apply Forall_map. revert H. apply Forall_impl. exact c39_value_le. }
      rewrite len_map in E. change (@len char s) with (@len N s) in *. lia.
  - intros acc c Hc. rewrite code39_char_pos_ok; [reflexivity|]. rewrite Forall_forall in H. auto.
  - lia.
Qed.
Lemma code39_at w p s f : 16 <= w -> str_len s < 2 ^ 32 ->
  run (Ret (code39_init s f)) (code39_encode_at w p) = run (Ret (code39_init s f)) (code39_encode p).
Proof.
  intros Hw Hs. unfold code39_init. destruct (parse code39_valid_chars 1 256 s) as [d|e] eqn:E; [|reflexivity].
  cbn [result_map run bind]. apply accepted_256 in E; [|assumption]. destruct E as (-> & HF & HL).
  rewrite code39_valid_chars_eq in HF.
  unfold code39_encode_at, code39_encode, code39_payload_at, code39_payload, code39_checksum_encoding_at, code39_checksum_encoding.
  now rewrite code39_checksum_char_at_eq.
Qed.

(** ** Code 11 *)
Lemma code11_checksum_char_at_eq w p s top : 16 <= w -> 0 < top -> top <= 10 -> Forall (fun c => In c c11_chars) s -> len s <= 257 ->
  code11_checksum_char_at w p s top = code11_checksum_char p s top.
Proof.
  intros Hw Ht Ht2 H Hl. assert (H16 : 2 ^ 16 <= 2 ^ w) by (apply N.pow_le_mono_r; [discriminate | assumption]).
  change (2 ^ 16) with 65536 in H16.
  rewrite code11_checksum_char_ok by (assumption || (change (2 ^ 49) with 562949953421312; lia)).
  unfold code11_checksum_char_at.
  assert (Es : sum_N (map (c11_term top) (enumerate (rev s))) = weighted top (map c11_value s)).
  { unfold enumerate. rewrite c11_terms_sum, weighted_wpos by assumption. now rewrite map_rev. }
  rewrite (foldM_add_at w p _ (c11_term top)).
  - rewrite Es, fit_u_ok.
    + cbn [bind]. rewrite N.add_0_l. rewrite code11_CHARS_eq, (mtable_len _ _ c11_len), c11_size.
      rewrite rem_u_ok by discriminate. cbn [bind]. rewrite mtable_nth; [reflexivity | exact c11_len |].
      rewrite c11_size. apply N.mod_lt. discriminate.
    + assert (E : weigh top 1 (rev (map c11_value s)) <= len (rev (map c11_value s)) * (top * 10)).
      { apply weigh_bound; [lia|]. apply Forall_rev. apply Forall_map. revert H. apply Forall_impl. exact c11_value_le. }
      assert (E2 : len (rev (map c11_value s)) = len s) by (unfold len; now rewrite rev_length, map_length).
      rewrite E2 in E. unfold weighted. change (@len char s) with (@len N s) in *. nia.
  - intros acc [i c] Hin. apply enumerate_from_In in Hin. destruct Hin as [Hi Hc].
    apply nth_error_In in Hc. apply in_rev in Hc. rewrite Forall_forall in H. specialize (H _ Hc).
    rewrite code11_char_pos_ok by assumption. cbn [bind].
    unfold add_u at 1. rewrite fit_u_ok by (assert (E : len (rev s) = len s) by (unfold len; now rewrite rev_length); lia).
    cbn [bind]. rewrite code11_weight_ok by assumption. cbn [bind].
    unfold mul_u. rewrite fit_u_ok; [reflexivity|].
    pose proof (c11_value_le c H). pose proof (weight_at_range top i Ht). nia.
  - lia.
Qed.
Lemma code11_at w p s : 16 <= w -> str_len s < 2 ^ 32 ->
  run (Ret (code11_new s)) (code11_encode_at w p) = run (Ret (code11_new s)) (code11_encode p).
Proof.
  intros Hw Hs. unfold code11_new. destruct (parse code11_valid_chars 1 256 s) as [d|e] eqn:E; [|reflexivity].
  cbn [result_map run bind]. apply accepted_256 in E; [|assumption]. destruct E as (-> & HF & HL).
  rewrite code11_valid_chars_eq in HF.
  unfold code11_encode_at, code11_encode, code11_payload_at, code11_payload, code11_c_checksum_char, code11_k_checksum_char. cbn [c11_0].
  rewrite code11_checksum_char_at_eq by (assumption || lia).
  rewrite code11_checksum_char_ok by (lia || assumption || (change (2 ^ 49) with 562949953421312; lia)).
  cbn [bind unwrap]. fold (c11_C s). rewrite code11_checksum_char_at_eq; [reflexivity | assumption | lia | lia | |].
  - apply Forall_app. split; [assumption|]. constructor; [apply c11_C_In | constructor].
  - rewrite len_app. change (len [c11_C s]) with 1. lia.
Qed.

(** ** Codabar and ASCII: the only operation is a subtraction that never underflows *)
Lemma foldM_ext {A B} (f g : B -> A -> M B) l : forall acc, (forall acc x, In x l -> f acc x = g acc x) -> foldM f l acc = foldM g l acc.
Proof.
  induction l as [|x l IH]; intros acc H; [reflexivity|]. cbn [foldM]. rewrite H by (left; reflexivity).
  destruct (g acc x); [|reflexivity]. cbn [bind]. apply IH. intros. apply H. now right.
Qed.
Lemma codabar_encode_at_eq w p b : codabar_encode_at w p b = codabar_encode p b.
Proof.
  unfold codabar_encode_at, codabar_encode. apply foldM_ext. intros acc [i u] Hin.
  destruct (codabar_0 b) as [|v us]; [destruct Hin|]. rewrite !sub_u_ok by (rewrite len_cons; lia). reflexivity.
Qed.
Lemma ascii_at w p g b : ascii_generate_at w p g b = ascii_generate p g b.
Proof.
  unfold ascii_generate_at, ascii_generate. destruct (ascii_generate_row g b); [|reflexivity]. cbn [bind].
  rewrite (foldM_ext _ (fun output x => let '(i, _) := x in
              let output := output ++ a in
              last <- sub_u usize_bits p (ascii_height g) 1 ;; Ret (if i <? last then output ++ [10] else output))); [reflexivity|].
  intros acc [i y] Hin. assert (H : 1 <= ascii_height g).
  { destruct (N.eq_dec (ascii_height g) 0) as [E|E]; [|lia]. rewrite E in Hin. destruct Hin. }
  now rewrite !sub_u_ok by assumption.
Qed.

(** ** Code 93 *)
Lemma code93_checksum_char_at_ok w p s top : 10 <= w -> 0 < top -> top <= 20 -> Forall (fun c => In c c93_chars) s ->
  code93_checksum_char_at w p s top =
  (x <- fit_u w p (weighted top (map c93_value s)) ;; Ret (Some (char_of c93_chars (x mod 47)))).
Proof.
  intros Hw Ht Ht2 H. assert (H10 : 2 ^ 10 <= 2 ^ w) by (apply N.pow_le_mono_r; [discriminate | assumption]).
  change (2 ^ 10) with 1024 in H10. unfold code93_checksum_char_at.
  pose proof (c93_terms_sum top s Ht 0 (len s) (eq_sym (N.add_0_l _))) as Es.
  rewrite (foldM_add_at w p _ (c93_term (len s) top)).
  - unfold enumerate. rewrite Es, N.add_0_l. destruct (fit_u w p (weighted top (map c93_value s))) as [x|]; [|reflexivity]. cbn [bind].
    rewrite code93_CHARS_eq, (mtable_len _ _ c93_len), c93_size. rewrite rem_u_ok by discriminate. cbn [bind].
    rewrite mtable_nth; [reflexivity | exact c93_len |]. rewrite c93_size. apply N.mod_lt. discriminate.
  - intros acc [i c] Hin. apply enumerate_from_In in Hin. destruct Hin as [Hi Hc].
    apply nth_error_In in Hc. rewrite Forall_forall in H. specialize (H _ Hc).
    rewrite code93_char_pos_ok by assumption. cbn [bind].
    unfold code93_weight_at. rewrite sub_u_ok by lia. cbn [bind]. rewrite rem_u_ok by lia. cbn [bind].
    unfold mul_u. unfold c93_term. cbn [fst snd].
    assert (EW : (if (len s - i) mod top =? 0 then top else (len s - i) mod top) = weight_at top (len s - i - 1)).
    { unfold weight_at. replace (len s - i - 1 + 1) with (len s - i) by lia. reflexivity. }
    rewrite EW, fit_u_ok; [reflexivity|].
    pose proof (c93_value_le c H). pose proof (weight_at_range top (len s - i - 1) Ht). nia.
  - lia.
Qed.
Lemma c93_values_le s : Forall (fun c => In c c93_chars) s -> Forall (fun v => v <= 46) (map c93_value s).
Proof. intros H. apply Forall_map. revert H. apply Forall_impl. exact c93_value_le. Qed.

(** The two check characters as computed in [w] bits *)
Lemma code93_payload_at_ok w p s : 10 <= w -> Forall (fun c => In c c93_chars) s ->
  code93_payload_at w p (mkCode93 s) =
  (x <- fit_u w p (weighted 20 (map c93_value s)) ;;
   let c := char_of c93_chars (x mod 47) in
   x <- fit_u w p (weighted 15 (map c93_value (s ++ [c]))) ;;
   Ret (concat (map (fun c => render (c93_pattern c)) (s ++ [c; char_of c93_chars (x mod 47)])))).
Proof.
  intros Hw H. unfold code93_payload_at. cbn [c93_0]. rewrite code93_checksum_char_at_ok by (assumption || lia).
  destruct (fit_u w p (weighted 20 (map c93_value s))) as [x|]; [|reflexivity]. cbn [bind unwrap]. cbv zeta.
  assert (HI : forall z, In (char_of c93_chars (z mod 47)) c93_chars) by (intros; apply c93_char_In, N.mod_lt; discriminate).
  set (c := char_of c93_chars (x mod 47)) in *. assert (Hc : In c c93_chars) by apply HI.
  rewrite code93_checksum_char_at_ok; [|assumption|lia|lia|].
  2:{ apply Forall_app. split; [assumption|]. now constructor. }
  destruct (fit_u w p (weighted 15 (map c93_value (s ++ [c])))) as [z|]; [|reflexivity]. cbn [bind unwrap].
  rewrite (foldM_Ret _ (fun enc c => enc ++ render (c93_pattern c))).
  - cbn [bind]. rewrite fold_left_app_concat. cbn [app].
    rewrite !code93_char_encoding_ok by (apply Hc || apply HI). cbn [bind].
    unfold code93_push_encoding. rewrite map_app, concat_app. cbn [map concat].
    rewrite app_nil_r, <- !app_assoc. reflexivity.
  - intros acc d Hd. rewrite code93_char_encoding_ok; [reflexivity|]. rewrite Forall_forall in H. auto.
Qed.

Lemma c93_in_two s c k : Forall (fun c => In c c93_chars) s -> In c c93_chars -> In k c93_chars -> Forall (fun c => In c c93_chars) (s ++ [c; k]).
Proof. intros H Hc Hk. apply Forall_app. split; [assumption|]. apply Forall_cons; [assumption|]. apply Forall_cons; [assumption | apply Forall_nil]. Qed.
Lemma c93_in_one s c : Forall (fun c => In c c93_chars) s -> In c c93_chars -> Forall (fun c => In c c93_chars) (s ++ [c]).
Proof. intros H Hc. apply Forall_app. split; [assumption|]. apply Forall_cons; [assumption | apply Forall_nil]. Qed.
Lemma code93_encode_at_ok w p s : 10 <= w -> Forall (fun c => In c c93_chars) s ->
  code93_encode_at w p (mkCode93 s) =
  (x <- fit_u w p (weighted 20 (map c93_value s)) ;;
   let c := char_of c93_chars (x mod 47) in
   x <- fit_u w p (weighted 15 (map c93_value (s ++ [c]))) ;;
   Ret (render (c93_symbol (s ++ [c; char_of c93_chars (x mod 47)])))).
Proof.
  intros Hw H. unfold code93_encode_at. rewrite code93_payload_at_ok by assumption.
  destruct (fit_u w p (weighted 20 (map c93_value s))) as [x|]; [|reflexivity]. cbn [bind]. cbv zeta.
  assert (HI : forall z, In (char_of c93_chars (z mod 47)) c93_chars) by (intros; apply c93_char_In, N.mod_lt; discriminate).
  set (c := char_of c93_chars (x mod 47)) in *.
  destruct (fit_u w p (weighted 15 (map c93_value (s ++ [c])))) as [z|]; [|reflexivity]. cbn [bind]. f_equal.
  rewrite render_c93_symbol.
  - unfold join_slices. cbn [concat]. rewrite app_nil_r. change code93_GUARD with (render c93_star). reflexivity.
  - apply c93_in_two; [assumption | apply HI | apply HI].
Qed.
Lemma code93_at_fits w p s : 10 <= w -> Forall (fun c => In c c93_chars) s -> len s < 2 ^ 48 ->
  weighted 20 (map c93_value s) < 2 ^ w -> weighted 15 (map c93_value (s ++ [c93_C s])) < 2 ^ w ->
  code93_encode_at w p (mkCode93 s) = code93_encode p (mkCode93 s).
Proof.
  intros Hw H Hl HC HK. rewrite code93_encode_at_ok, code93_encode_ok by assumption. rewrite fit_u_ok by assumption. cbn [bind]. cbv zeta.
  change (char_of c93_chars (weighted 20 (map c93_value s) mod 47)) with (c93_C s). rewrite fit_u_ok by assumption. reflexivity.
Qed.
Lemma code93_run s : str_len s < 2 ^ 32 -> (exists m, barcode SCode93 Debug s = Ret (Ok m)) ->
  code93_new s = Ok (mkCode93 s) /\ Forall (fun c => In c c93_chars) s /\ len s <= 256.
Proof.
  intros Hs [m H]. cbn [barcode] in H. unfold code93_new in *.
  destruct (parse code93_valid_chars 1 256 s) as [d|e] eqn:E; [|discriminate].
  apply accepted_256 in E; [|assumption]. destruct E as (-> & HF & HL). rewrite code93_valid_chars_eq in HF. repeat split; assumption.
Qed.
Lemma code93_at_wide w p s : 17 <= w -> str_len s < 2 ^ 32 -> barcode_at w SCode93 p s = barcode SCode93 p s.
Proof.
  intros Hw Hs. assert (H17 : 2 ^ 17 <= 2 ^ w) by (apply N.pow_le_mono_r; [discriminate | assumption]). change (2 ^ 17) with 131072 in H17.
  cbn [barcode barcode_at]. unfold code93_new. destruct (parse code93_valid_chars 1 256 s) as [d|e] eqn:E; [|reflexivity].
  apply accepted_256 in E; [|assumption]. destruct E as (-> & HF & HL). rewrite code93_valid_chars_eq in HF. cbn [result_map run bind].
  assert (HN : (length s <= 256)%nat) by (unfold len in HL; lia).
  rewrite code93_at_fits; [reflexivity | lia | assumption | change (2 ^ 48) with 281474976710656; lia | |].
  - eapply N.le_lt_trans; [apply (weighted_le 20 46 _ 256); [now apply c93_values_le | now rewrite map_length]|].
    eapply N.lt_le_trans; [|exact H17]. vm_compute. reflexivity.
  - eapply N.le_lt_trans; [apply (weighted_le 15 46 _ 257)|].
    + apply c93_values_le, c93_in_one; [assumption | apply c93_C_In].
    + rewrite map_length, app_length. cbn [length]. lia.
    + eapply N.lt_le_trans; [|exact H17]. vm_compute. reflexivity.
Qed.
Lemma barcode_at_same w y p s : 16 <= w -> str_len s < 2 ^ 32 -> (y = SCode93 -> 17 <= w) -> barcode_at w y p s = barcode y p s.
Proof.
  intros Hw Hs H93. destruct y; try reflexivity.
  - cbn [barcode_at barcode]. unfold code39_new. now apply code39_at.
  - cbn [barcode_at barcode]. unfold code39_with_checksum. now apply code39_at.
  - apply code93_at_wide; [now apply H93 | assumption].
  - cbn [barcode_at barcode]. now apply code11_at.
  - cbn [barcode_at barcode]. unfold run. destruct (codabar_new s) as [[b|e]|]; [|reflexivity|reflexivity]. cbn [bind].
    now rewrite codabar_encode_at_eq.
Qed.

(** ** Code 93 in 16 bits *)
Lemma c93_verify_two s c k : c93_verify (s ++ [c; k]) =
  if c93_value k =? c93_sum 15 (s ++ [c]) then if c93_value c =? c93_sum 20 s then Some s else None else None.
Proof.
  unfold c93_verify, verify_last. rewrite rev_app_distr. cbn [rev app]. rewrite rev_involutive. unfold c93_value, c93_sum.
  destruct (value c93_chars k =? check_sum c93_chars 47 15 (s ++ [c])); [|reflexivity]. cbn [guard obind].
  rewrite rev_app_distr. cbn [rev app]. rewrite rev_involutive. now destruct (value c93_chars c =? check_sum c93_chars 47 20 s).
Qed.
Lemma wrapped_mod_47 x : x < 131072 -> 65536 <= x -> (x mod 65536) mod 47 <> x mod 47.
Proof.
  intros H1 H2. replace (x mod 65536) with (x - 65536).
  - intros E. assert (H : exists q q', x - 65536 = 47 * q + (x - 65536) mod 47 /\ x = 47 * q' + x mod 47).
    { exists ((x - 65536) / 47), (x / 47). split; apply N.div_mod; discriminate. }
    destruct H as (q & q' & A & B). rewrite E in A. lia.
  - apply N.mod_unique with (q := 1); lia.
Qed.
Lemma weighted20_17 s : Forall (fun c => In c c93_chars) s -> len s <= 256 -> weighted 20 (map c93_value s) < 131072.
Proof.
  intros H Hl. eapply N.le_lt_trans; [apply (weighted_le 20 46 _ 256); [now apply c93_values_le | rewrite map_length; unfold len in Hl; lia]|].
  vm_compute. reflexivity.
Qed.
Lemma weighted15_17 s c : Forall (fun c => In c c93_chars) s -> In c c93_chars -> len s <= 256 -> weighted 15 (map c93_value (s ++ [c])) < 131072.
Proof.
  intros H Hc Hl. eapply N.le_lt_trans; [apply (weighted_le 15 46 _ 257)|].
  - apply c93_values_le. now apply c93_in_one.
  - rewrite map_length, app_length. cbn [length]. unfold len in Hl. lia.
  - vm_compute. reflexivity.
Qed.
Lemma code93_16_refused s c k : Forall (fun c => In c c93_chars) s -> In c c93_chars -> In k c93_chars ->
  c93_verify (s ++ [c; k]) = None -> read_modules SCode93 (render (c93_symbol (s ++ [c; k]))) = None.
Proof.
  intros H Hc Hk HV. unfold read_modules. assert (HF : Forall (fun c => In c c93_chars) (s ++ [c; k])).
  { now apply c93_in_two. }
  rewrite c93_symbol_scan by assumption. cbn [obind read_as]. unfold read_c93. rewrite c93_symbol_read_raw by assumption. cbn [obind].
  now rewrite HV.
Qed.
Lemma code93_16 p s m : str_len s < 2 ^ 32 -> barcode SCode93 p s = Ret (Ok m) ->
  let c := weighted 20 (map c93_value s) in
  let k := weighted 15 (map c93_value (s ++ [c93_C s])) in
  (c < 2 ^ 16 /\ k < 2 ^ 16 -> barcode_at 16 SCode93 p s = Ret (Ok m)) /\
  (2 ^ 16 <= c \/ 2 ^ 16 <= k ->
     match p with
     | Debug => barcode_at 16 SCode93 p s = Panic PanicOverflow
     | Release => exists m', barcode_at 16 SCode93 p s = Ret (Ok m') /\ length m' = length m /\ read_modules SCode93 m' = None
     end).
Proof.
  intros Hs H. cbv zeta. assert (HN : code93_new s = Ok (mkCode93 s) /\ Forall (fun c => In c c93_chars) s /\ len s <= 256).
  { cbn [barcode] in H. unfold code93_new in *. destruct (parse code93_valid_chars 1 256 s) as [d|e] eqn:E; [|discriminate].
    apply accepted_256 in E; [|assumption]. destruct E as (-> & HF & HL). rewrite code93_valid_chars_eq in HF. repeat split; assumption. }
  destruct HN as (HN & HF & HL). assert (H48 : len s < 2 ^ 48) by (change (2 ^ 48) with 281474976710656; lia).
  cbn [barcode barcode_at] in *. rewrite HN in *. cbn [run bind] in *. change (2 ^ 16) with 65536. split.
  - intros [HC HK]. rewrite code93_at_fits; try assumption. lia.
  - intros HO. rewrite code93_encode_ok in H by assumption. cbn [bind] in H. injection H as <-.
    rewrite code93_encode_at_ok by (assumption || lia). change (2 ^ 16) with 65536.
    pose proof (weighted20_17 s HF HL) as BC. set (x := weighted 20 (map c93_value s)) in *.
    assert (HI : forall z, In (char_of c93_chars (z mod 47)) c93_chars) by (intros; apply c93_char_In, N.mod_lt; discriminate).
    assert (EC : c93_C s = char_of c93_chars (x mod 47)) by reflexivity.
    destruct p.
    + destruct (N.lt_ge_cases x 65536) as [Hx|Hx]; [|now rewrite fit_u_debug].
      rewrite (fit_u_ok 16) by assumption. cbn [bind]. cbv zeta. rewrite <- EC.
      rewrite fit_u_debug; [reflexivity|]. destruct HO as [HO|HO]; [lia | exact HO].
    + unfold fit_u at 1. change (2 ^ 16) with 65536. destruct (x <? 65536) eqn:Ex.
      * apply N.ltb_lt in Ex. destruct HO as [HO|HO]; [lia|]. cbn [bind]. cbv zeta. rewrite <- EC.
        pose proof (weighted15_17 s (c93_C s) HF (c93_C_In s) HL) as BK. set (y := weighted 15 (map c93_value (s ++ [c93_C s]))) in *.
        unfold fit_u. change (2 ^ 16) with 65536. assert (Ey : (y <? 65536) = false) by now apply N.ltb_ge. rewrite Ey. cbn [bind].
        eexists. split; [reflexivity|]. split.
        { rewrite !c93_symbol_modules by (try (now apply c93_message_in); apply c93_in_two; (assumption || apply HI || apply c93_C_In)).
          unfold c93_message. now rewrite !app_length. }
        apply code93_16_refused; [assumption | apply c93_C_In | apply HI |]. rewrite c93_verify_two.
        rewrite c93_value_char by (apply N.mod_lt; discriminate).
        change (c93_sum 15 (s ++ [c93_C s])) with (y mod 47).
        assert (EN : ((y mod 65536) mod 47 =? y mod 47) = false) by (apply N.eqb_neq; now apply wrapped_mod_47). now rewrite EN.
      * apply N.ltb_ge in Ex. cbn [bind]. cbv zeta. change (2 ^ 16) with 65536.
        set (c := char_of c93_chars ((x mod 65536) mod 47)). assert (Hc : In c c93_chars) by apply HI.
        rewrite fit_u_release. cbn [bind].
        eexists. split; [reflexivity|]. split.
        { rewrite !c93_symbol_modules by (try (now apply c93_message_in); apply c93_in_two; (assumption || apply HI)).
          unfold c93_message. now rewrite !app_length. }
        apply code93_16_refused; [assumption | assumption | apply HI |]. rewrite c93_verify_two.
        assert (EN : (c93_value c =? c93_sum 20 s) = false).
        { unfold c. rewrite c93_value_char by (apply N.mod_lt; discriminate). change (c93_sum 20 s) with (x mod 47).
          apply N.eqb_neq. now apply wrapped_mod_47. }
        rewrite EN. match goal with |- (if ?b then _ else _) = _ => now destruct b end.
Qed.
Lemma code93_16_short p s : str_len s < 2 ^ 32 -> (length s <= 137)%nat -> barcode_at 16 SCode93 p s = barcode SCode93 p s.
Proof.
  intros Hs Hn. cbn [barcode barcode_at]. unfold code93_new. destruct (parse code93_valid_chars 1 256 s) as [d|e] eqn:E; [|reflexivity].
  apply accepted_256 in E; [|assumption]. destruct E as (-> & HF & HL). rewrite code93_valid_chars_eq in HF. cbn [result_map run bind].
  rewrite code93_at_fits; [reflexivity | lia | assumption | change (2 ^ 48) with 281474976710656; lia | |].
  - eapply N.le_lt_trans; [apply (weighted_le 20 46 _ 137); [now apply c93_values_le | now rewrite map_length]|].
    vm_compute. reflexivity.
  - eapply N.le_lt_trans; [apply (weighted_le 15 46 _ 138)|].
    + apply c93_values_le, c93_in_one; [assumption | apply c93_C_In].
    + rewrite map_length, app_length. cbn [length]. lia.
    + vm_compute. reflexivity.
Qed.
Lemma code93_16_long s : str_len s < 2 ^ 32 -> Forall (fun c => In c c93_chars) s -> 1 <= str_len s <= 256 ->
  2 ^ 16 <= weighted 20 (map c93_value s) ->
  (exists m, barcode SCode93 Debug s = Ret (Ok m)) /\ barcode_at 16 SCode93 Debug s = Panic PanicOverflow /\
  (exists m, barcode_at 16 SCode93 Release s = Ret (Ok m) /\ read_modules SCode93 m = None).
Proof.
  intros Hs HF HL HC. assert (HA : forall p, exists m, barcode SCode93 p s = Ret (Ok m)).
  { intros p. cbn [barcode]. unfold code93_new. rewrite parse_ok by (try rewrite code93_valid_chars_eq; assumption). cbn [result_map run bind].
    rewrite code93_encode_ok; [cbn [bind]; eexists; reflexivity | assumption |].
    pose proof (str_len_ge s). change (2 ^ 48) with 281474976710656. lia. }
  split; [apply HA|]. destruct (HA Debug) as [m E]. destruct (HA Release) as [m' E']. split.
  - apply (proj2 (code93_16 Debug s m Hs E)). left. exact HC.
  - destruct (proj2 (code93_16 Release s m' Hs E') (or_introl HC)) as (m2 & E2 & _ & E3). exists m2. split; assumption.
Qed.

(** ** Pictures *)
Lemma put_pixel_h b x y c b' : put_pixel b x y c = Ret b' -> buf_h b' = buf_h b.
Proof. unfold put_pixel. destruct ((x <? buf_w b) && (y <? buf_h b)); intros H; [|discriminate]. now injection H as <-. Qed.
Lemma place_module_h p xdim y i c buf buf' : place_module p xdim y i c buf = Ret buf' -> buf_h buf' = buf_h buf.
Proof.
  intros E. refine (foldM_keeps (fun b => buf_h b = buf_h buf) _ _ _ _ _ eq_refl E). intros acc q acc' Ha E'.
  destruct (mul_u 32 p (cast_u 32 i) xdim); [|discriminate]. cbn [bind] in E'. destruct (add_u 32 p a q); [|discriminate]. cbn [bind] in E'.
  apply put_pixel_h in E'. congruence.
Qed.
Lemma place_row_h p g b y buf buf' : place_row p g b y buf = Ret buf' -> buf_h buf' = buf_h buf.
Proof.
  intros E. refine (foldM_keeps (fun b => buf_h b = buf_h buf) _ _ _ _ _ eq_refl E). intros acc [i v] acc' Ha E'.
  apply place_module_h in E'. congruence.
Qed.
Lemma buffer_new_at_eq w a b : w <= 64 ->
  buffer_new_at w a b = if 4 * a * b <? 2 ^ (w - 1) then buffer_new a b else Panic PanicAlloc.
Proof.
  intros Hw. unfold buffer_new_at, buffer_new. destruct (4 * a * b <? 2 ^ (w - 1)) eqn:E; [|reflexivity].
  assert (H : 2 ^ (w - 1) <= 2 ^ 63) by (apply N.pow_le_mono_r; [discriminate | lia]). apply N.ltb_lt in E.
  assert (E2 : (4 * a * b <? 2 ^ 63) = true) by (apply N.ltb_lt; lia). now rewrite E2.
Qed.
Lemma rotate_with_at_eq w b w' h' f : w <= 64 -> 4 * w' * h' < 2 ^ (w - 1) -> rotate_with_at w b w' h' f = rotate_with b w' h' f.
Proof. intros Hw H. unfold rotate_with_at, rotate_with. apply N.ltb_lt in H. now rewrite buffer_new_at_eq, H. Qed.
Lemma place_pixels_at_eq w p g b : w <= 64 ->
  place_pixels_at w p g b =
  (width <- mul_u 32 p (cast_u 32 (len b)) (img_xdim g) ;;
   if 4 * width * img_height g <? 2 ^ (w - 1) then place_pixels p g b else Panic PanicAlloc).
Proof.
  intros Hw. unfold place_pixels_at, place_pixels. destruct (mul_u 32 p (cast_u 32 (len b)) (img_xdim g)) as [wd|]; [|reflexivity].
  cbn [bind]. rewrite buffer_new_at_eq by assumption. destruct (4 * wd * img_height g <? 2 ^ (w - 1)) eqn:E; [|reflexivity].
  apply N.ltb_lt in E. destruct (buffer_new_cases wd (img_height g)) as [[b0 [E0 [W0 [H0 _]]]]|E0]; rewrite E0; cbn [bind]; [|reflexivity].
  destruct (foldM (fun buf y => place_row p g b y buf) (range (img_height g)) b0) as [b1|] eqn:EF; [|reflexivity]. cbn [bind].
  assert (HW : buf_w b1 = wd /\ buf_h b1 = img_height g).
  { refine (foldM_keeps (fun a => buf_w a = wd /\ buf_h a = img_height g) _ _ _ _ _ (conj W0 H0) EF).
    intros acc y acc' [A1 A2] E'. pose proof (place_row_w _ _ _ _ _ _ E'). pose proof (place_row_h _ _ _ _ _ _ E'). split; congruence. }
  destruct HW as [HW HH]. assert (E' : 4 * img_height g * wd < 2 ^ (w - 1)) by (rewrite <- N.mul_assoc, (N.mul_comm (img_height g)), N.mul_assoc; exact E).
  destruct (img_rotation g); [reflexivity| | |]; unfold rotate90_at, rotate180_at, rotate270_at, rotate90, rotate180, rotate270;
    rewrite rotate_with_at_eq; try reflexivity; try assumption; now rewrite HW, HH.
Qed.
Lemma image_at w p g b : 1 <= w <= 64 ->
  (forall r, image_generate_buffer_at w p g b = Ret r -> image_generate_buffer p g b = Ret r) /\
  (returns (image_generate_buffer_at w p g b) <->
   returns (image_generate_buffer p g b) /\ 4 * (len b * img_xdim g) * img_height g < 2 ^ (w - 1)).
Proof.
  intros Hw.
  assert (HP : 0 < 2 ^ (w - 1)) by (apply N.neq_0_lt_0, N.pow_nonzero; discriminate).
  assert (HE : forall r, image_generate_buffer_at w p g b = Ret r -> image_generate_buffer p g b = Ret r /\
     exists wd, mul_u 32 p (cast_u 32 (len b)) (img_xdim g) = Ret wd /\ 4 * wd * img_height g < 2 ^ (w - 1)).
  { intros r H. unfold image_generate_buffer_at, image_generate_buffer in *. rewrite place_pixels_at_eq in H by lia.
    destruct (mul_u 32 p (cast_u 32 (len b)) (img_xdim g)) as [wd|]; [|discriminate]. cbn [bind] in H.
    destruct (4 * wd * img_height g <? 2 ^ (w - 1)) eqn:E; [|discriminate]. split; [exact H|]. exists wd. split; [reflexivity|]. now apply N.ltb_lt. }
  split; [intros r H; now apply HE|]. split.
  - intros [r H]. destruct (HE r H) as [H1 (wd & H2 & H3)]. split; [now exists r|].
    assert (HR : returns (image_generate_buffer p g b)) by now exists r. apply image_returns in HR. destruct HR as [[F1 F2]|[F1 _]].
    + rewrite mul_cast_fits32 in H2 by assumption. injection H2 as <-. exact H3.
    + rewrite F1, N.mul_0_r. assumption.
  - intros [HR HS]. pose proof HR as HR'. apply image_returns in HR'. unfold image_generate_buffer_at, image_generate_buffer in *.
    rewrite place_pixels_at_eq by lia. destruct HR as [r HR].
    assert (HM : exists wd, mul_u 32 p (cast_u 32 (len b)) (img_xdim g) = Ret wd /\ 4 * wd * img_height g < 2 ^ (w - 1)).
    { destruct HR' as [[F1 F2]|[F1 _]].
      - exists (len b * img_xdim g). split; [now apply mul_cast_fits32 | assumption].
      - unfold place_pixels in HR. destruct (mul_u 32 p (cast_u 32 (len b)) (img_xdim g)) as [wd|]; [|discriminate]. exists wd.
        split; [reflexivity|]. now rewrite F1, N.mul_0_r. }
    destruct HM as (wd & -> & HS'). cbn [bind]. apply N.ltb_lt in HS'. rewrite HS'. now exists r.
Qed.
