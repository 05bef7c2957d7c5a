(** * Proofs about all symbologies together *)
From Verif Require Import Rust M_Error M_Helpers M_Parse M_Ean13 M_Ean8 M_Upca M_EanSupp M_Code39 M_Code93 M_Code11
  M_Codabar M_Code128 M_Tf Symbology M_Use S_Barcode S_Ean S_Text S_Linear S_Codabar S_Tf S_Code128 S_All
  P_Rust P_Barcode P_Parse P_Gs1 P_Ean P_Retail P_Retail2 P_Retail3 P_Supp P_Code39 P_Code93 P_Code11
  P_Codabar P_Tf P_Code128 P_Code128b.

Lemma run_Ok {B} (new : M (result B)) enc m : run new enc = Ret (Ok m) ->
  exists b, new = Ret (Ok b) /\ enc b = Ret m.
Proof.
  unfold run. destruct new as [[b|e]|r]; cbn [bind]; try discriminate.
  destruct (enc b) as [x|] eqn:E; cbn [bind]; try discriminate. intros H. injection H as <-. eauto.
Qed.
Lemma run_Ret {B} (r : result B) enc m : run (Ret r) enc = Ret (Ok m) ->
  exists b, r = Ok b /\ enc b = Ret m.
Proof. intros H. apply run_Ok in H. destruct H as [b [E H]]. injection E as ->. eauto. Qed.

Definition drawn (y : symbology) (ws : list nat) : Prop :=
  Nat.even (length ws) = false /\ Forall (fun w => 1 <= w <= max_width y)%nat ws.
Definition Shape (y : symbology) (m : list N) : Prop := exists ws, m = render ws ++ tail y /\ drawn y ws.
Lemma shape_plain y ws : tail y = [] -> drawn y ws -> Shape y (render ws).
Proof. intros E H. exists ws. rewrite E, app_nil_r. now split. Qed.
Lemma gs1_check_digit ds : is_digit (gs1_check ds).
Proof. unfold gs1_check, is_digit. apply N.mod_lt. discriminate. Qed.
Lemma Forall_snoc {A} (P : A -> Prop) l x : Forall P l -> P x -> Forall P (l ++ [x]).
Proof. intros H Hx. apply Forall_app. auto. Qed.

Lemma ean2_shape ds : Forall is_digit ds -> drawn SSupp (ean2_symbol ds).
Proof.
  intros H. split.
  - unfold ean2_symbol. rewrite app_length, Nat.even_add, addon_even by assumption. reflexivity.
  - unfold ean2_symbol. apply Forall_app. split; [repeat constructor | now apply addon_width].
Qed.
Lemma ean5_shape ds : Forall is_digit ds -> drawn SSupp (ean5_symbol ds).
Proof.
  intros H. split.
  - unfold ean5_symbol. rewrite app_length, Nat.even_add, addon_even by assumption. reflexivity.
  - unfold ean5_symbol. apply Forall_app. split; [repeat constructor | now apply addon_width].
Qed.

Lemma c11_message_in s : Forall c11_in s ->
  Forall c11_in (s ++ [c11_C s] ++ (if Nat.ltb 10 (length s) then [c11_K s] else [])).
Proof.
  intros H. apply Forall_app. split; [assumption|]. cbn [app].
  constructor; [apply c11_C_In|]. destruct (Nat.ltb 10 (length s)); constructor; [apply c11_K_In | constructor].
Qed.
Lemma barcode_shape y p s m : str_len s < 2 ^ 48 -> barcode y p s = Ret (Ok m) -> Shape y m.
Proof.
  intros Hs H. destruct y; cbn [barcode] in H; (apply run_Ret in H || apply run_Ok in H);
    destruct H as [b [HN HE]].
  - destruct (ean13_conform p p s b HN) as [E _]. destruct (ean13_accepted p s b HN) as (_ & _ & D).
    rewrite HE in E. injection E as ->. apply shape_plain; [reflexivity|].
    apply Forall_snoc with (x := gs1_check (firstn 12 (digits_of s))) in D; [|apply gs1_check_digit].
    split; [now apply ean13_symbol_odd | now apply ean13_symbol_width].
  - destruct (ean8_conform p p s b HN) as [E _]. destruct (ean8_accepted p s b HN) as (_ & _ & D).
    rewrite HE in E. injection E as ->. apply shape_plain; [reflexivity|].
    apply Forall_snoc with (x := gs1_check (firstn 7 (digits_of s))) in D; [|apply gs1_check_digit].
    split; [now apply ean8_symbol_odd | now apply ean8_symbol_width].
  - destruct (upca_conform p p s b HN) as [E _]. destruct (upca_accepted p s b HN) as (_ & _ & D).
    rewrite HE in E. injection E as ->. apply shape_plain; [reflexivity|].
    apply Forall_snoc with (x := gs1_check (firstn 11 (digits_of s))) in D; [|apply gs1_check_digit].
    split; [now apply upca_symbol_odd | now apply upca_symbol_width].
  - destruct (eansupp_accepted p s b HN) as [m' [E HC]]. rewrite HE in E. injection E as <-.
    destruct (eansupp_new_spec s) as [r [ER [_ [_ [_ HO]]]]]. rewrite HN in ER. injection ER as <-.
    specialize (HO b). destruct HO as [HO _]. destruct (HO eq_refl) as [HD _].
    apply digits_of_digits in HD.
    destruct HC as [[_ [_ [-> _]]]|[_ [_ [-> _]]]]; (apply shape_plain; [reflexivity|]).
    + now apply ean2_shape.
    + now apply ean5_shape.
  - destruct (code39_accepted p s b false Hs (or_introl HN)) as [m' [E [Em _]]].
    apply code39_init_Ok in HN. destruct HN as [HD [Hd Hb]]. subst b.
    cbn [c39_data] in E. rewrite HE in E. injection E as <-. subst m. apply shape_plain; [reflexivity|].
    split; [now apply c39_symbol_odd | now apply c39_symbol_widths].
  - destruct (code39_accepted p s b true Hs (or_intror HN)) as [m' [E [Em _]]].
    apply code39_init_Ok in HN. destruct HN as [HD [Hd Hb]]. subst b.
    cbn [c39_data] in E. rewrite HE in E. injection E as <-. subst m. apply shape_plain; [reflexivity|].
    pose proof (c39_message_in s true HD) as HM.
    split; [now apply c39_symbol_odd | now apply c39_symbol_widths].
  - destruct (code93_accepted p s b Hs HN) as [m' [E [Em _]]]. rewrite HE in E. injection E as <-. subst m.
    apply shape_plain; [reflexivity|].
    apply code93_new_Ok in HN. destruct HN as [HD _]. pose proof (c93_message_in s HD) as HM.
    split; [now apply c93_symbol_odd | now apply c93_symbol_widths].
  - pose proof (code11_accepted p s b Hs HN) as E. rewrite HE in E. injection E as ->.
    apply shape_plain; [reflexivity|].
    apply code11_new_Ok in HN. destruct HN as [HD _]. pose proof (c11_message_in s HD) as HM.
    split; [now apply c11_symbol_odd | now apply c11_symbol_widths].
  - pose proof (codabar_encode_lib p s b HN) as E. rewrite HE in E. injection E as ->.
    apply codabar_new_Ok in HN. destruct HN as [HF [Hn _]].
    apply shape_plain; [reflexivity|]. split; [|now apply lib_symbol_widths].
    apply sep_odd; [exact lib_pattern_length | assumption | assumption].
  - destruct (code128_new_Ok s b HN) as [segs [HM [_ ->]]].
    destruct (encode_returns_form p _ m (message_units_idx _ HM) HE) as [chk [HC ->]].
    rewrite message_units_values. apply shape_plain; [reflexivity|].
    assert (HL : Forall (fun v => v < 106) (message_values segs ++ [chk])).
    { apply Forall_snoc; [now apply message_values_lt | assumption]. }
    split; [now apply symbol_with_odd | now apply symbol_with_widths].
  - destruct (itf_accepted p s b HN) as [ds [HD [_ [_ [E _]]]]]. rewrite HE in E. injection E as ->.
    apply shape_plain; [reflexivity|]. split; [now apply itf_symbol_odd | now apply itf_symbol_widths].
  - destruct (stf_accepted s b HN) as [m' [E [-> _]]]. rewrite HE in E. injection E as ->.
    apply tf_standard_Ok in HN. destruct HN as [HD _]. apply digits_of_digits in HD.
    exists (stf_symbol 3 2 (digits_of s)). split; [reflexivity|].
    split; [now apply stf_symbol_odd | now apply stf_symbol_widths].
Qed.

Lemma shape_pos y ws : drawn y ws -> Forall (fun w => 1 <= w)%nat ws.
Proof. intros [_ H]. revert H. apply Forall_impl. lia. Qed.
Lemma tail_repeat y : exists k, tail y = repeat 0 k.
Proof. destruct y; try (exists 0%nat; reflexivity). exists 1%nat. reflexivity. Qed.
Lemma shape_scan y m : Shape y m -> exists ws, scan m = Some ws /\ m = render ws ++ tail y /\
  drawn y ws.
Proof.
  intros [ws [-> H]]. exists ws. split; [|now split]. destruct (tail_repeat y) as [k ->].
  apply scan_render_tail; [now apply (shape_pos y) | apply H].
Qed.

(** Only 0 and 1, the ends *)
Lemma shape_modules y m : Shape y m ->
  Forall (fun x => x = 0 \/ x = 1) m /\ (exists t, m = 1 :: t) /\ (y <> SStf -> exists t, m = t ++ [1]).
Proof.
  intros [ws [E H]]. pose proof (shape_pos y ws H) as HP. destruct H as [Ho _].
  assert (Hn : ws <> []) by (intros ->; discriminate).
  assert (H1 : exists t, render ws = 1 :: t).
  { destruct ws as [|[|w] ws]; [congruence | inversion HP; lia |]. eexists. reflexivity. }
  split; [|split].
  - subst m. apply Forall_app. split.
    + apply render_from_modules. now right.
    + destruct y; cbn [tail]; repeat constructor.
  - destruct H1 as [t Ht]. subst m. rewrite Ht. eexists. reflexivity.
  - intros Hy. replace (tail y) with (@nil N) in E by (destruct y; reflexivity || congruence).
    rewrite app_nil_r in E. subst m.
    assert (R : render ws = rev (render (rev ws))).
    { rewrite render_rev by (now rewrite rev_length). now rewrite rev_involutive. }
    assert (H2 : exists t, render (rev ws) = 1 :: t).
    { apply Forall_rev in HP. destruct (rev ws) as [|[|w] l] eqn:Er.
      - apply (f_equal (@rev nat)) in Er. rewrite rev_involutive in Er. exact (False_ind _ (Hn Er)).
      - inversion HP; lia.
      - eexists. reflexivity. }
    destruct H2 as [t Ht]. exists (rev t). rewrite R, Ht. reflexivity.
Qed.

(** ** Direction *)
Lemma mirror_by y ws : y <> SStf -> drawn y ws -> read_as y (rev ws) = None ->
  read_modules y (rev (render ws)) = None.
Proof.
  intros Hy H HR. unfold read_modules. rewrite scan_rev_render; [exact HR | now apply (shape_pos y) | apply H].
Qed.
Lemma shape_unique y ws ws' m : m = render ws ++ tail y -> drawn y ws -> m = render ws' ++ tail y -> drawn y ws' -> ws = ws'.
Proof.
  intros E H E' H'. assert (S1 : scan m = Some ws) by
    (subst m; destruct (tail_repeat y) as [k ->]; apply scan_render_tail; [now apply (shape_pos y) | apply H]).
  assert (S2 : scan m = Some ws') by
    (rewrite E'; destruct (tail_repeat y) as [k ->]; apply scan_render_tail; [now apply (shape_pos y) | apply H']).
  congruence.
Qed.
Lemma barcode_mirror y p s m : str_len s < 2 ^ 48 -> directed y s -> barcode y p s = Ret (Ok m) ->
  read_modules y (rev m) = None.
Proof.
  intros Hs HY H. destruct y; cbn [barcode] in H; (apply run_Ret in H || apply run_Ok in H);
    destruct H as [b [HN HE]]; cbn [directed] in HY.
  - destruct (ean13_conform p p s b HN) as [E _]. destruct (ean13_accepted p s b HN) as (_ & HL & D).
    rewrite HE in E. injection E as ->.
    apply Forall_snoc with (x := gs1_check (firstn 12 (digits_of s))) in D; [|apply gs1_check_digit].
    apply mirror_by; [discriminate | split; [now apply ean13_symbol_odd | now apply ean13_symbol_width] |].
    cbn [read_as]. rewrite ean13_mirror; [reflexivity | | assumption]. rewrite app_length. exact (f_equal (fun k => k + 1)%nat HL).
  - destruct (ean8_conform p p s b HN) as [E _]. destruct (ean8_accepted p s b HN) as (_ & HL & D).
    rewrite HE in E. injection E as ->.
    apply Forall_snoc with (x := gs1_check (firstn 7 (digits_of s))) in D; [|apply gs1_check_digit].
    apply mirror_by; [discriminate | split; [now apply ean8_symbol_odd | now apply ean8_symbol_width] |].
    cbn [read_as]. rewrite ean8_mirror; [reflexivity | | assumption]. rewrite app_length. exact (f_equal (fun k => k + 1)%nat HL).
  - destruct (upca_conform p p s b HN) as [E _]. destruct (upca_accepted p s b HN) as (_ & HL & D).
    rewrite HE in E. injection E as ->.
    apply Forall_snoc with (x := gs1_check (firstn 11 (digits_of s))) in D; [|apply gs1_check_digit].
    apply mirror_by; [discriminate | split; [now apply upca_symbol_odd | now apply upca_symbol_width] |].
    cbn [read_as]. rewrite upca_mirror; [reflexivity | | assumption]. rewrite app_length. exact (f_equal (fun k => k + 1)%nat HL).
  - destruct (eansupp_accepted p s b HN) as [m' [E HC]]. rewrite HE in E. injection E as <-.
    destruct (eansupp_new_spec s) as [r [ER [_ [_ [_ HO]]]]]. rewrite HN in ER. injection ER as <-.
    specialize (HO b). destruct HO as [HO _]. destruct (HO eq_refl) as [HD _]. apply digits_of_digits in HD.
    destruct HC as [[HL [_ [-> _]]]|[HL [_ [-> _]]]].
    + apply mirror_by; [discriminate | now apply ean2_shape|]. cbn [read_as].
      assert (HM : read_addon_blocks (rev (ean2_symbol (digits_of s))) = None).
      { assert (L : length (digits_of s) = 2%nat) by (unfold digits_of; now rewrite map_length).
        destruct (digits_of s) as [|x [|x' [|? ?]]]; try discriminate L. rewrite !Forall_cons_iff in HD. now apply ean2_mirror. }
      apply addon_mirror in HM. destruct HM as [-> ->]. reflexivity.
    + apply mirror_by; [discriminate | now apply ean5_shape|]. cbn [read_as].
      assert (HM : read_addon_blocks (rev (ean5_symbol (digits_of s))) = None).
      { apply ean5_mirror; [unfold digits_of; now rewrite map_length | assumption]. }
      apply addon_mirror in HM. destruct HM as [-> ->]. reflexivity.
  - destruct (code39_accepted p s b false Hs (or_introl HN)) as [m' [E [Em _]]].
    apply code39_init_Ok in HN. destruct HN as [HD [Hd Hb]]. subst b.
    cbn [c39_data] in E. rewrite HE in E. injection E as <-. subst m.
    apply mirror_by; [discriminate | split; [now apply c39_symbol_odd | now apply c39_symbol_widths] |].
    cbn [read_as]. now rewrite c39_symbol_rev.
  - destruct (code39_accepted p s b true Hs (or_intror HN)) as [m' [E [Em _]]].
    apply code39_init_Ok in HN. destruct HN as [HD [Hd Hb]]. subst b.
    cbn [c39_data] in E. rewrite HE in E. injection E as <-. subst m.
    pose proof (c39_message_in s true HD) as HM.
    apply mirror_by; [discriminate | split; [now apply c39_symbol_odd | now apply c39_symbol_widths] |].
    cbn [read_as]. now rewrite c39_symbol_rev.
  - destruct (code93_accepted p s b Hs HN) as [m' [E [Em _]]]. rewrite HE in E. injection E as <-. subst m.
    apply code93_new_Ok in HN. destruct HN as [HD _]. pose proof (c93_message_in s HD) as HM.
    apply mirror_by; [discriminate | split; [now apply c93_symbol_odd | now apply c93_symbol_widths] |].
    cbn [read_as]. unfold read_c93. now rewrite c93_symbol_rev.
  - pose proof (code11_accepted p s b Hs HN) as E. rewrite HE in E. injection E as ->.
    apply code11_new_Ok in HN. destruct HN as [HD _]. pose proof (c11_message_in s HD) as HM.
    apply mirror_by; [discriminate | split; [now apply c11_symbol_odd | now apply c11_symbol_widths] |].
    cbn [read_as]. unfold read_c11. now rewrite c11_symbol_rev.
  - destruct HY as [a [mid [z [Es [_ [Hz _]]]]]].
    destruct (codabar_rev p s b HN) as [m' [E HR]].
    + exists (a :: mid), z. split; [exact Es | exact Hz].
    + rewrite HE in E. injection E as <-. unfold read_modules. cbn [read_as].
      destruct (scan (rev m)) as [ws|]; [|reflexivity]. cbn [obind read_as] in *. now rewrite HR.
  - pose proof (code128_accepted_mirror s b p m HN HE) as HR. unfold read_modules. cbn [read_as].
    destruct (scan (rev m)) as [ws|]; [|reflexivity]. cbn [obind read_as] in *. now rewrite HR.
  - destruct (itf_accepted p s b HN) as [ds [HD [_ [_ [E _]]]]]. rewrite HE in E. injection E as ->.
    pose proof (itf_mirror ds HD) as HR. unfold read_modules. cbn [read_as].
    match goal with |- obind ?x _ = None => destruct x as [ws|]; [|reflexivity] end.
    cbn [obind read_as] in *. now rewrite HR.
  - destruct (stf_accepted s b HN) as [m' [E [Em _]]]. rewrite HE in E. injection E as <-.
    apply tf_standard_Ok in HN. destruct HN as [HD _]. apply digits_of_digits in HD.
    pose proof (stf_mirror _ HD) as HR. rewrite <- Em in HR. unfold read_modules. cbn [read_as].
    match goal with |- obind ?x _ = None => destruct x as [ws|]; [|reflexivity] end.
    cbn [obind read_as] in *. now rewrite HR.
Qed.

(** ** Profiles *)
Lemma retail_new_any {B} (mk : list N -> B) n s : (1 <= n <= 13)%nat ->
  exists r, forall p, retail_new mk n p s = Ret r.
Proof.
  intros Hn. unfold retail_new.
  destruct (parse_cases digit_chars (N.of_nat n) (N.of_nat (S n)) s) as [[_ E]|[[_ [_ E]]|[HL [HF E]]]]; rewrite E.
  - eexists. reflexivity.
  - eexists. reflexivity.
  - apply Forall_In_digit_chars in HF. rewrite to_digits_ok by assumption. cbn [bind].
    assert (HLen : (n <= length (digits_of s))%nat).
    { pose proof (str_len_pow s HF) as HP. rewrite <- len_digits_of in HP. unfold len in HP. lia. }
    rewrite (retail_parts n Hn) by assumption. cbn [bind].
    destruct (len (digits_of s) =? N.of_nat (S n)) eqn:El; [|eexists; reflexivity].
    apply N.eqb_eq in El.
    assert (HD : Forall is_digit (firstn n (digits_of s))) by (now apply Forall_firstn, digits_of_digits).
    assert (HC : forall p, modulo_10_checksum p (firstn n (digits_of s)) (Nat.even n) =
                           Ret (gs1_check (firstn n (digits_of s)))).
    { intros p. apply modulo_10_checksum_short; [now rewrite firstn_length_le | | assumption].
      rewrite firstn_length_le by assumption. lia. }
    rewrite (index_nth _ _ 0) by lia.
    match goal with |- exists r, forall p, _ => eexists; intros p; rewrite HC; cbn [bind] end.
    instantiate (1 := if gs1_check (firstn n (digits_of s)) =? nth (N.to_nat (N.of_nat n)) (digits_of s) 0
                      then Ok (mk (firstn n (digits_of s))) else Err EChecksum).
    now destruct (_ =? _).
Qed.
Lemma run_any {B} (new : profile -> M (result B)) enc :
  (exists r, forall p, new p = Ret r) ->
  (forall b, new Debug = Ret (Ok b) -> exists m, forall p, enc p b = Ret m) ->
  exists r, forall p, run (new p) (enc p) = Ret r.
Proof.
  intros [r Hr] HE. destruct r as [b|e].
  - destruct (HE b (Hr Debug)) as [m Hm]. exists (Ok m). intros p. unfold run. rewrite Hr. cbn [bind].
    now rewrite Hm.
  - exists (Err e). intros p. unfold run. now rewrite Hr.
Qed.
Lemma barcode_any y s : profile_free y -> str_len s < 2 ^ 48 ->
  exists r, forall p, barcode y p s = Ret r.
Proof.
  intros HY Hs. destruct y; cbn [profile_free] in HY; try contradiction; unfold barcode.
  - apply (run_any (fun p => ean13_new p s) ean13_encode).
    + apply (retail_new_any mkEAN13 12 s). lia.
    + intros b HN. eexists. intros p. exact (proj1 (ean13_conform Debug p s b HN)).
  - apply (run_any (fun p => ean8_new p s) ean8_encode).
    + apply (retail_new_any mkEAN8 7 s). lia.
    + intros b HN. eexists. intros p. exact (proj1 (ean8_conform Debug p s b HN)).
  - apply (run_any (fun p => upca_new p s) upca_encode).
    + apply (retail_new_any mkUPCA 11 s). lia.
    + intros b HN. eexists. intros p. exact (proj1 (upca_conform Debug p s b HN)).
  - apply (run_any (fun p => eansupp_new s) eansupp_encode).
    + destruct (eansupp_new_spec s) as [r [E _]]. exists r. now intros _.
    + intros b HN. destruct (eansupp_accepted Debug s b HN) as [m [E HC]]. exists m. intros p.
      destruct (eansupp_accepted p s b HN) as [m' [E' HC']]. rewrite E'. f_equal.
      destruct HC as [[L [_ [-> _]]]|[L [_ [-> _]]]]; destruct HC' as [[L' [_ [-> _]]]|[L' [_ [-> _]]]]; congruence.
  - apply (run_any (fun p => Ret (code39_new s)) code39_encode); [eexists; now intros _|].
    intros b HN. injection HN as HN. eexists. intros p.
    destruct (code39_accepted p s b false Hs (or_introl HN)) as [m [E [Em _]]].
    apply code39_init_Ok in HN. destruct HN as [_ [Hd _]]. subst b. subst m. exact E.
  - apply (run_any (fun p => Ret (code39_with_checksum s)) code39_encode); [eexists; now intros _|].
    intros b HN. injection HN as HN. eexists. intros p.
    destruct (code39_accepted p s b true Hs (or_intror HN)) as [m [E [Em _]]].
    apply code39_init_Ok in HN. destruct HN as [_ [Hd _]]. subst b. subst m. exact E.
  - apply (run_any (fun p => Ret (code93_new s)) code93_encode); [eexists; now intros _|].
    intros b HN. injection HN as HN. eexists. intros p.
    destruct (code93_accepted p s b Hs HN) as [m [E [Em _]]]. subst m. exact E.
  - apply (run_any (fun p => Ret (code11_new s)) code11_encode); [eexists; now intros _|].
    intros b HN. injection HN as HN. eexists. intros p. exact (code11_accepted p s b Hs HN).
  - apply (run_any (fun p => codabar_new s) codabar_encode).
    + destruct (codabar_new_spec s) as [r [E _]]. exists r. now intros _.
    + intros b HN. eexists. intros p. exact (codabar_encode_lib p s b HN).
  - apply (run_any (fun p => tf_standard s) (fun _ => tf_encode)).
    + destruct (tf_standard_spec s) as [r [E _]]. exists r. now intros _.
    + intros b HN. destruct (stf_accepted s b HN) as [m [E _]]. exists m. now intros _.
Qed.

(** ** Lengths *)
Lemma itf_count n k : Nat.even k = true -> (k = n \/ k = n + 1)%nat ->
  k = (if Nat.even n then n else n + 1)%nat.
Proof.
  intros H [->| ->]; [now rewrite H|]. rewrite Nat.even_add in H.
  destruct (Nat.even n); [discriminate | reflexivity].
Qed.
Lemma barcode_length y p s m : str_len s < 2 ^ 48 -> barcode y p s = Ret (Ok m) -> modules_spec y s (length m).
Proof.
  intros Hs H. destruct y; cbn [barcode] in H; (apply run_Ret in H || apply run_Ok in H);
    destruct H as [b [HN HE]]; unfold modules_spec.
  - destruct (ean13_conform p p s b HN) as [E L]. rewrite HE in E. injection E as ->. exact L.
  - destruct (ean8_conform p p s b HN) as [E L]. rewrite HE in E. injection E as ->. exact L.
  - destruct (upca_conform p p s b HN) as [E L]. rewrite HE in E. injection E as ->. exact L.
  - destruct (eansupp_accepted p s b HN) as [m' [E HC]]. rewrite HE in E. injection E as <-.
    destruct HC as [[L [_ [_ [K _]]]]|[L [_ [_ [K _]]]]]; [left | right]; now split.
  - destruct (code39_accepted p s b false Hs (or_introl HN)) as [m' [E [_ L]]].
    apply code39_init_Ok in HN. destruct HN as [HD [Hd Hb]]. subst b.
    cbn [c39_data] in E. rewrite HE in E. injection E as <-. rewrite L. cbv zeta. lia.
  - destruct (code39_accepted p s b true Hs (or_intror HN)) as [m' [E [_ L]]].
    apply code39_init_Ok in HN. destruct HN as [HD [Hd Hb]]. subst b.
    cbn [c39_data] in E. rewrite HE in E. injection E as <-. rewrite L. cbv zeta. lia.
  - destruct (code93_accepted p s b Hs HN) as [m' [E [_ L]]]. rewrite HE in E. injection E as <-.
    rewrite L. cbv zeta. lia.
  - pose proof (code11_accepted p s b Hs HN) as E. rewrite HE in E. injection E as ->.
    apply code11_new_Ok in HN. destruct HN as [HD _]. pose proof (c11_message_in s HD) as HM.
    pose proof (c11_symbol_modules _ HM) as HB. rewrite !app_length in HB. cbn [length] in HB.
    cbv zeta. replace (length s + (if Nat.ltb 10 (length s) then 2 else 1))%nat with
      (length s + (1 + length (if Nat.ltb 10 (length s) then [c11_K s] else [])))%nat; [exact HB|].
    destruct (Nat.ltb 10 (length s)); reflexivity.
  - destruct (codabar_accepted_length p s b HN) as [m' [E L]]. rewrite HE in E. injection E as <-. exact L.
  - destruct (code128_new_Ok s b HN) as [segs [HM [Es ->]]]. exists segs. split; [assumption|].
    split; [assumption|].
    destruct (encode_returns_form p _ m (message_units_idx _ HM) HE) as [chk [HC ->]].
    rewrite message_units_values, symbol_with_modules; [lia|].
    apply Forall_snoc; [now apply message_values_lt | assumption].
  - destruct (itf_accepted p s b HN) as [ds [_ [_ [HR [E [L _]]]]]]. rewrite HE in E. injection E as ->.
    cbv zeta. rewrite L. apply tf_interleaved_Ok in HN. destruct HN as [_ [_ [ds' [-> [_ [He [_ HC]]]]]]].
    cbn [tf_raw_data] in HR. subst ds'. rewrite <- (itf_count (length s) (length ds)); [reflexivity | assumption |].
    assert (HL : length (digits_of s) = length s) by apply map_length.
    destruct HC as [->|[c ->]]; [left; exact HL | right]. rewrite app_length. exact (f_equal (fun k => k + 1)%nat HL).
  - destruct (stf_accepted s b HN) as [m' [E [_ [L _]]]]. rewrite HE in E. injection E as <-. exact L.
Qed.

(** ** What a reader reports *)
Lemma read_ean5_not_2 ws ds : read_ean5 ws = Some ds -> length ds = 5%nat -> read_ean2 ws = None.
Proof.
  unfold read_ean5, read_ean2. intros H HL. destruct (read_addon_blocks ws) as [l|]; [|reflexivity].
  cbn [obind] in *. destruct (which_parity ean5_parities (map fst l)) as [v|]; [|discriminate]. cbn [obind] in H.
  destruct (which_parity ean2_parities (map fst l)) as [v'|]; [|reflexivity]. cbn [obind].
  unfold guard in *. destruct (Nat.eqb (length (map snd l)) 5) eqn:E5; [|discriminate].
  apply Nat.eqb_eq in E5. rewrite E5. reflexivity.
Qed.
Lemma itf_carried p s b : tf_interleaved p s = Ret (Ok b) -> itf_carries s (tf_raw_data b).
Proof.
  intros H. pose proof H as H0. apply tf_interleaved_Ok in H0. destruct H0 as [HF [HNE [ds [-> [HD [HE [_ HO]]]]]]]. cbn [tf_raw_data].
  unfold itf_carries. assert (EL : length (digits_of s) = length s) by apply map_length.
  assert (HS : (length s <= 13)%nat -> if Nat.even (length s) then ds = digits_of s
    else ds = digits_of s ++ [gs1_check (digits_of s)] /\ gs1_valid ds).
  { intros HL. assert (L1 : (1 <= length s <= 13)%nat) by (destruct s; [congruence | cbn [length] in *; lia]).
    destruct (itf_check_short p s HF L1) as (ds' & E & HC). rewrite H in E. injection E as <-. exact HC. }
  destruct (Nat.even (length s)) eqn:Ev.
  - destruct HO as [-> | [c ->]]; [reflexivity|]. rewrite app_length, EL, Nat.even_add, Ev in HE. discriminate.
  - destruct HO as [-> | [c ->]]; [rewrite EL, Ev in HE; discriminate|]. exists c. apply Forall_app in HD. destruct HD as [_ HD].
    split; [now inversion HD|]. split; [reflexivity|]. intros HL. now apply HS.
Qed.
Lemma barcode_meant y p s m : str_len s < 2 ^ 48 -> barcode y p s = Ret (Ok m) -> meant y s (read_modules y m).
Proof.
  intros Hs H. destruct y; cbn [barcode] in H; (apply run_Ret in H || apply run_Ok in H);
    destruct H as [b [HN HE]]; unfold meant, read_modules.
  - destruct (ean13_round_trip p p s b HN) as [m' [c [E [HR HV]]]]. rewrite HE in E. injection E as <-.
    exists c. split; [assumption|]. destruct (scan m) as [ws|]; [|discriminate]. cbn [obind read_as] in *. now rewrite HR.
  - destruct (ean8_round_trip p p s b HN) as [m' [c [E [HR HV]]]]. rewrite HE in E. injection E as <-.
    exists c. split; [assumption|]. destruct (scan m) as [ws|]; [|discriminate]. cbn [obind read_as] in *. now rewrite HR.
  - destruct (upca_round_trip p p s b HN) as [m' [c [E [HR HV]]]]. rewrite HE in E. injection E as <-.
    exists c. split; [assumption|]. destruct (scan m) as [ws|]; [|discriminate]. cbn [obind read_as] in *. now rewrite HR.
  - destruct (eansupp_accepted p s b HN) as [m' [E HC]]. rewrite HE in E. injection E as <-.
    destruct HC as [[L [_ [Em [_ HR]]]]|[L [_ [Em [_ HR]]]]].
    + destruct (scan m) as [ws|]; [|discriminate]. cbn [obind read_as] in *. now rewrite HR.
    + destruct (scan m) as [ws|] eqn:Es; [|discriminate]. cbn [obind read_as] in *.
      assert (HN2 : read_ean2 ws = None).
      { apply read_ean5_not_2 with (ds := digits_of s); [exact HR|].
        unfold digits_of. rewrite map_length. exact L. }
      now rewrite HN2, HR.
  - destruct (code39_scan_back p s b false Hs (or_introl HN)) as [m' [E HR]].
    apply code39_init_Ok in HN. destruct HN as [HD [Hd Hb]]. subst b. cbn [c39_data] in E.
    rewrite HE in E. injection E as <-.
    destruct (scan m) as [ws|]; [|discriminate]. cbn [obind read_as] in *. now rewrite HR.
  - destruct (code39_scan_back p s b true Hs (or_intror HN)) as [m' [E HR]].
    apply code39_init_Ok in HN. destruct HN as [HD [Hd Hb]]. subst b. cbn [c39_data] in E.
    rewrite HE in E. injection E as <-. exists (c39_check s). split; [apply c39_check_valid|].
    destruct (scan m) as [ws|]; [|discriminate]. cbn [obind read_as] in *. now rewrite HR.
  - destruct (code93_scan_back p s b Hs HN) as [m' [E HR]]. rewrite HE in E. injection E as <-.
    destruct (scan m) as [ws|]; [|discriminate]. cbn [obind read_as] in *. now rewrite HR.
  - destruct (code11_scan_back p s b Hs HN) as [m' [E HR]]. rewrite HE in E. injection E as <-.
    destruct (scan m) as [ws|]; [|discriminate]. cbn [obind read_as] in *. now rewrite HR.
  - destruct (codabar_reads p s b HN) as [m' [E HR]]. rewrite HE in E. injection E as <-.
    destruct (scan m) as [ws|] eqn:Es.
    + cbn [obind read_as] in *. rewrite HR.
      match goal with |- context [existsb ?f s] => now destruct (existsb f s) end.
    + cbn [obind] in *. match goal with |- context [existsb ?f s] => now destruct (existsb f s) end.
  - intros segs HM -> HL HS. rewrite code128_new_spell in HN by assumption. injection HN as <-.
    rewrite code128_encode_ok in HE by assumption. injection HE as <-.
    pose proof (code128_reads segs HM HS) as HR.
    match goal with |- obind ?x _ = _ => destruct x as [ws|]; [|discriminate] end.
    cbn [obind read_as] in *. now rewrite HR.
  - pose proof (itf_carried p s b HN) as HC. destruct (itf_accepted p s b HN) as [ds [_ [_ [ET [E [_ HR]]]]]]. rewrite HE in E. injection E as ->.
    rewrite ET in HC. exists ds. split; [assumption|].
    match goal with |- obind ?x _ = _ => destruct x as [ws|]; [|discriminate] end.
    cbn [obind read_as] in *. now rewrite HR.
  - destruct (stf_accepted s b HN) as [m' [E [_ [_ HR]]]]. rewrite HE in E. injection E as <-.
    destruct (scan m) as [ws|]; [|discriminate]. cbn [obind read_as] in *. now rewrite HR.
Qed.

(** ** The forms stated in C_All.v *)
Lemma barcode_modules y p s m : str_len s < 2 ^ 48 -> barcode y p s = Ret (Ok m) ->
  Forall (fun x => x = 0 \/ x = 1) m /\ (exists t, m = 1 :: t) /\ (y <> SStf -> exists t, m = t ++ [1]).
Proof. intros Hs H. now apply shape_modules, barcode_shape with (p := p) (s := s). Qed.
Lemma barcode_widths y p s m : str_len s < 2 ^ 48 -> barcode y p s = Ret (Ok m) ->
  exists ws, scan m = Some ws /\ m = render ws ++ tail y /\ Forall (fun w => 1 <= w <= max_width y)%nat ws.
Proof.
  intros Hs H. destruct (shape_scan y m (barcode_shape y p s m Hs H)) as [ws [E [Em HD]]].
  exists ws. split; [assumption|]. split; [assumption|]. apply HD.
Qed.
Lemma constructors_any s :
  (exists r, forall p, ean13_new p s = Ret r) /\ (exists r, forall p, ean8_new p s = Ret r) /\
  (exists r, forall p, upca_new p s = Ret r) /\ (exists r, eansupp_new s = Ret r) /\
  (exists r, codabar_new s = Ret r) /\ (exists r, tf_standard s = Ret r).
Proof.
  split; [|split; [|split; [|split; [|split]]]].
  - apply (retail_new_any mkEAN13 12 s). lia.
  - apply (retail_new_any mkEAN8 7 s). lia.
  - apply (retail_new_any mkUPCA 11 s). lia.
  - destruct (eansupp_new_spec s) as [r [E _]]. now exists r.
  - destruct (codabar_new_spec s) as [r [E _]]. now exists r.
  - destruct (tf_standard_spec s) as [r [E _]]. now exists r.
Qed.
