(** * Proofs: the structure of symbol characters *)
From Verif Require Import Rust M_Error M_Helpers M_Parse M_Ean13 M_Ean8 M_Upca M_EanSupp M_Code39 M_Code93 M_Code11
  M_Codabar M_Code128 M_Tf Symbology M_Use S_Barcode S_Ean S_Text S_Linear S_Codabar S_Tf S_Code128 S_All S_Pattern
  P_Rust P_Barcode P_Parse P_Gs1 P_Ean P_Retail P_Retail2 P_Retail3 P_Supp P_Code39 P_Code93 P_Code11
  P_Codabar P_Tf P_Code128 P_Code128b P_All.

Lemma Forall2_map_r {A B} (P : A -> B -> Prop) (f : A -> B) l : Forall (fun x => P x (f x)) l -> Forall2 P l (map f l).
Proof. induction 1; constructor; assumption. Qed.

Ltac each_char H := repeat (destruct H as [<-|H]); [..|destruct H].
Ltac pick tac := first [tac 0%nat | tac 1%nat | tac 2%nat | tac 3%nat | tac 4%nat | tac 5%nat | tac 6%nat | tac 7%nat | tac 8%nat | tac 9%nat].
Ltac here k := exists k; split; [reflexivity|]; split; [repeat split; vm_compute; reflexivity | vm_compute; reflexivity].
Lemma c39_pattern_built c : In c c39_chars -> three_of_nine c (c39_pattern c).
Proof.
  unfold c39_chars. intros H. cbn in H. each_char H; (split; [vm_compute; reflexivity|]; split; [vm_compute; reflexivity|];
    first [left; pick here | right; left; pick here | right; right; left; pick here | right; right; right; left; pick here | right; right; right; right; pick here]).
Qed.
Lemma c39_star_built : three_of_nine (ch "*") c39_star.
Proof. split; [reflexivity|]. split; [reflexivity|]. right. right. right. left. pick here. Qed.
Lemma c11_pattern_built c : In c c11_chars -> code_11 c (c11_pattern c).
Proof.
  unfold c11_chars. intros H. cbn in H. each_char H;
    first [left; split; [split; discriminate | repeat split; vm_compute; reflexivity]
          | right; split; [reflexivity|]; split; [reflexivity|];
            let t k := (exists k; split; vm_compute; reflexivity) in pick t].
Qed.
Lemma cod_pattern_built c : In c cod_chars -> codabar_kind c (cod_pattern c).
Proof.
  unfold cod_chars. intros H. cbn in H. each_char H; (split; [reflexivity|];
    first [left; split; [cbn; tauto|]; split; vm_compute; reflexivity
          | right; left; split; [cbn; tauto|]; split; vm_compute; reflexivity
          | right; right; split; [cbn; tauto|]; split; vm_compute; reflexivity]).
Qed.
Lemma exchange_kind c ws : codabar_kind (exchange c) ws -> codabar_kind c ws.
Proof.
  unfold exchange. destruct (c =? ch "B") eqn:E; [apply N.eqb_eq in E; subst c|].
  - intros [L H]. split; [assumption|]. destruct H as [[H _]|[[H _]|[_ H]]];
      [exfalso; cbn in H; intuition discriminate | exfalso; cbn in H; intuition discriminate |]. right. right. split; [cbn; tauto | exact H].
  - destruct (c =? ch "C") eqn:E'; [apply N.eqb_eq in E'; subst c|trivial].
    intros [L H]. split; [assumption|]. destruct H as [[H _]|[[H _]|[_ H]]];
      [exfalso; cbn in H; intuition discriminate | exfalso; cbn in H; intuition discriminate |]. right. right. split; [cbn; tauto | exact H].
Qed.
Lemma digit_cases (P : N -> Prop) : P 0 -> P 1 -> P 2 -> P 3 -> P 4 -> P 5 -> P 6 -> P 7 -> P 8 -> P 9 -> forall d, is_digit d -> P d.
Proof.
  intros. unfold is_digit in *. assert (E : d = 0 \/ d = 1 \/ d = 2 \/ d = 3 \/ d = 4 \/ d = 5 \/ d = 6 \/ d = 7 \/ d = 8 \/ d = 9) by lia.
  repeat (destruct E as [->|E]; [assumption|]). now subst.
Qed.
Lemma tf_digit_built w d : (2 <= w)%nat -> is_digit d -> two_of_five d (S_Tf.stretch w (tf_digit d)).
Proof.
  intros Hw. destruct w as [|[|w]]; try lia. revert d. apply digit_cases; repeat split; reflexivity.
Qed.
Lemma odd_weave a : forall b, length a = length b -> odd_ones (weave a b) = a /\ even_ones (weave a b) = b.
Proof.
  unfold even_ones. induction a as [|x a IH]; intros [|y b] H; try discriminate; [split; reflexivity|]. injection H as H.
  destruct (IH b H) as [I1 I2]. cbn [weave odd_ones List.tl]. split; [now rewrite I1|].
  destruct a as [|x' a], b as [|y' b]; try discriminate; [reflexivity|]. cbn [weave List.tl odd_ones] in *. now rewrite I2.
Qed.
Lemma itf_pair_built x : is_digit (fst x) -> is_digit (snd x) -> woven x (itf_pair 3 x).
Proof.
  intros H1 H2. unfold itf_pair. pose proof (tf_digit_built 3 (fst x) ltac:(lia) H1) as B1. pose proof (tf_digit_built 3 (snd x) ltac:(lia) H2) as B2.
  destruct (odd_weave (S_Tf.stretch 3 (tf_digit (fst x))) (S_Tf.stretch 3 (tf_digit (snd x)))) as [E1 E2]; [now rewrite (proj1 B1), (proj1 B2)|].
  split; [|now rewrite E1, E2]. destruct B1 as [L1 _], B2 as [L2 _].
  destruct (S_Tf.stretch 3 (tf_digit (fst x))) as [|? [|? [|? [|? [|? [|? ?]]]]]]; try discriminate.
  destruct (S_Tf.stretch 3 (tf_digit (snd x))) as [|? [|? [|? [|? [|? [|? ?]]]]]]; try discriminate. reflexivity.
Qed.
Lemma pairs_two_by_two l : pairs l = two_by_two l.
Proof.
  enough (H : forall n l, (length l <= n)%nat -> pairs l = two_by_two l) by (now apply (H (length l))).
  clear l. induction n as [|n IH]; intros [|a [|b l]] H; try reflexivity; cbn [length] in H; try lia.
  cbn [pairs two_by_two]. rewrite IH by lia. reflexivity.
Qed.
Lemma two_by_two_digits l : Forall is_digit l -> Forall (fun x => is_digit (fst x) /\ is_digit (snd x)) (two_by_two l).
Proof.
  enough (H : forall n l, (length l <= n)%nat -> Forall is_digit l -> Forall (fun x => is_digit (fst x) /\ is_digit (snd x)) (two_by_two l))
    by (now apply (H (length l))).
  clear l. induction n as [|n IH]; intros [|a [|b l]] H HD; try constructor; cbn [length] in H; try lia.
  - cbn [fst snd]. inversion HD as [|? ? Ha HD']. inversion HD'. now split.
  - apply IH; [lia|]. inversion HD as [|? ? Ha HD']. now inversion HD'.
Qed.
Lemma stf_digit_built d : is_digit d -> length (stf_bars (S_Tf.stretch 3 (tf_digit d))) = 10%nat /\
  two_of_five d (odd_ones (stf_bars (S_Tf.stretch 3 (tf_digit d)))) /\ even_ones (stf_bars (S_Tf.stretch 3 (tf_digit d))) = [1; 1; 1; 1; 1]%nat.
Proof. revert d. apply digit_cases; repeat split; reflexivity. Qed.

Lemma spaced_star mid : forall f, spaced (c39_star :: map f mid ++ [c39_star])
  (c39_star ++ [1%nat] ++ concat (map (fun c : char => f c ++ [1%nat]) mid) ++ c39_star).
Proof.
  intros f. unfold spaced. cbn [map concat]. rewrite map_app, concat_app, map_map. cbn [map concat]. now rewrite app_nil_r, <- !app_assoc.
Qed.
Lemma spaced_guard g mid : forall f, spaced (g :: map f mid ++ [g])
  (g ++ [1%nat] ++ concat (map (fun c : char => f c ++ [1%nat]) mid) ++ g).
Proof.
  intros f. unfold spaced. cbn [map concat]. rewrite map_app, concat_app, map_map. cbn [map concat]. now rewrite app_nil_r, <- !app_assoc.
Qed.
Lemma spaced_sep f s : s <> [] -> spaced (map f s) (sep_symbol f s).
Proof.
  unfold spaced. destruct s as [|c s]; [congruence|]. intros _. cbn [sep_symbol map concat]. rewrite map_map. rewrite <- !app_assoc. f_equal.
  induction s as [|d s IH]; [reflexivity|]. cbn [map concat]. rewrite <- !app_assoc. cbn [app]. f_equal. now rewrite IH.
Qed.

(** ** Retail *)
Definition even_parity (p : parity) : bool := match p with PA => false | PB => true end.
Lemma left_built p d : is_digit d -> left_digit (even_parity p) (widths (set_table p) d).
Proof. revert d. apply digit_cases; destruct p; repeat split; reflexivity. Qed.
Lemma right_built d : is_digit d -> right_digit (widths setC_table d).
Proof. revert d. apply digit_cases; repeat split; reflexivity. Qed.
Lemma draw_left_built ps : forall ds, Forall is_digit ds -> length ps = length ds ->
  Forall2 left_digit (map even_parity ps) (map (fun x => widths (set_table (fst x)) (snd x)) (combine ps ds)).
Proof.
  induction ps as [|p ps IH]; intros [|d ds] HD HL; try discriminate; [constructor|]. inversion HD; subst. injection HL as HL.
  cbn [combine map fst snd]. constructor; [now apply left_built | now apply IH].
Qed.
Lemma halves_built n ps l r (parities : list bool -> Prop) : length ps = n -> length l = n -> length r = n -> Forall is_digit l -> Forall is_digit r ->
  parities (map even_parity ps) ->
  halves n parities (normal_guard ++ draw_left ps l ++ centre_guard ++ draw_right r ++ normal_guard).
Proof.
  intros Lp Ll Lr Dl Dr HP. exists (map even_parity ps). exists (map (fun x => widths (set_table (fst x)) (snd x)) (combine ps l)).
  exists (map (widths setC_table) r). split; [now rewrite map_length|]. split; [now rewrite map_length|].
  split; [apply draw_left_built; [assumption | congruence]|].
  split; [apply Forall_map; revert Dr; apply Forall_impl; exact right_built|]. split; [assumption|]. reflexivity.
Qed.
Lemma ean13_parities_built d : is_digit d -> length (nth (N.to_nat d) ean13_parities []) = 6%nat /\
  hd true (map even_parity (nth (N.to_nat d) ean13_parities [])) = false /\
  (evens (map even_parity (nth (N.to_nat d) ean13_parities [])) = 0 \/ evens (map even_parity (nth (N.to_nat d) ean13_parities [])) = 3)%nat.
Proof. revert d. apply digit_cases; (split; [reflexivity|]; split; [reflexivity|]); (left; reflexivity) || (right; reflexivity). Qed.
Lemma firstn_digits n l : Forall is_digit l -> Forall is_digit (firstn n l).
Proof. intros H. rewrite <- (firstn_skipn n l) in H. now apply Forall_app in H. Qed.
Lemma skipn_digits n l : Forall is_digit l -> Forall is_digit (skipn n l).
Proof. intros H. rewrite <- (firstn_skipn n l) in H. now apply Forall_app in H. Qed.
Lemma ean13_built s ds : length ds = 13%nat -> Forall is_digit ds -> built SEan13 s (ean13_symbol ds).
Proof.
  intros L D. cbn [built]. unfold ean13_symbol. assert (H : is_digit (hd 0 ds)) by (destruct D; [discriminate | assumption]).
  destruct (ean13_parities_built (hd 0 ds) H) as (E1 & E2 & E3). apply halves_built; try assumption.
  - rewrite firstn_length, skipn_length, L. reflexivity.
  - rewrite skipn_length, L. reflexivity.
  - now apply firstn_digits, skipn_digits.
  - now apply skipn_digits.
  - now split.
Qed.
Lemma ean8_built s ds : length ds = 8%nat -> Forall is_digit ds -> built SEan8 s (ean8_symbol ds).
Proof.
  intros L D. cbn [built]. unfold ean8_symbol. apply halves_built; try reflexivity.
  - rewrite firstn_length, L. reflexivity.
  - rewrite skipn_length, L. reflexivity.
  - now apply firstn_digits.
  - now apply skipn_digits.
Qed.
Lemma upca_built s ds : length ds = 12%nat -> Forall is_digit ds -> built SUpca s (upca_symbol ds).
Proof.
  intros L D. cbn [built]. unfold upca_symbol. apply halves_built; try reflexivity.
  - rewrite firstn_length, L. reflexivity.
  - rewrite skipn_length, L. reflexivity.
  - now apply firstn_digits.
  - now apply skipn_digits.
Qed.

(** ** Add-ons *)
Lemma addon_blocks ps : forall ds, ps <> [] -> length ps = length ds ->
  draw_addon true ps ds ++ [1; 1]%nat = concat (map (fun b => b ++ [1; 1]%nat) (map (fun x => widths (set_table (fst x)) (snd x)) (combine ps ds))).
Proof.
  assert (HF : forall ps ds, length ps = length ds -> draw_addon false ps ds ++ [1; 1]%nat =
    [1; 1]%nat ++ concat (map (fun b => b ++ [1; 1]%nat) (map (fun x => widths (set_table (fst x)) (snd x)) (combine ps ds)))).
  { clear ps. induction ps as [|p ps IH]; intros [|d ds] HL; try discriminate; [reflexivity|]. injection HL as HL.
    cbn [draw_addon combine map concat fst snd]. unfold addon_separator. rewrite <- !app_assoc, IH by assumption. reflexivity. }
  intros [|d ds] Hn HL; destruct ps as [|p ps]; try congruence; try discriminate. injection HL as HL.
  cbn [draw_addon combine map concat fst snd]. rewrite app_nil_l, <- !app_assoc, HF by assumption. reflexivity.
Qed.
Lemma ean2_built s ds : length ds = 2%nat -> Forall is_digit ds -> built SSupp s (ean2_symbol ds).
Proof.
  intros L D. cbn [built]. unfold ean2_symbol.
  set (ps := nth (N.to_nat (ean2_variant ds)) ean2_parities []).
  assert (Lp : length ps = 2%nat).
  { assert (B : ean2_variant ds < 4) by (destruct ds as [|a [|b [|c ds]]]; try discriminate; apply N.mod_lt; discriminate).
    subst ps. assert (E : ean2_variant ds = 0 \/ ean2_variant ds = 1 \/ ean2_variant ds = 2 \/ ean2_variant ds = 3) by lia.
    destruct E as [->|[->|[->| ->]]]; reflexivity. }
  exists (map even_parity ps), (map (fun x => widths (set_table (fst x)) (snd x)) (combine ps ds)).
  split; [apply draw_left_built; [assumption | congruence]|]. split; [left; now rewrite map_length|].
  rewrite <- addon_blocks; [now rewrite <- app_assoc | intros E; rewrite E in Lp; discriminate | congruence].
Qed.
Lemma ean5_built s ds : length ds = 5%nat -> Forall is_digit ds -> built SSupp s (ean5_symbol ds).
Proof.
  intros L D. cbn [built]. unfold ean5_symbol.
  set (ps := nth (N.to_nat (ean5_variant ds)) ean5_parities []).
  assert (Lp : length ps = 5%nat /\ evens (map even_parity ps) = 2%nat).
  { assert (B : is_digit (ean5_variant ds)) by (destruct ds as [|a [|b [|c [|d [|e [|f ds]]]]]]; try discriminate; apply N.mod_lt; discriminate).
    subst ps. revert B. generalize (ean5_variant ds). apply digit_cases; split; reflexivity. }
  destruct Lp as [Lp Ep].
  exists (map even_parity ps), (map (fun x => widths (set_table (fst x)) (snd x)) (combine ps ds)).
  split; [apply draw_left_built; [assumption | congruence]|]. split; [right; split; [now rewrite map_length | assumption]|].
  rewrite <- addon_blocks; [now rewrite <- app_assoc | intros E; rewrite E in Lp; discriminate | congruence].
Qed.

(** ** Continuous codes *)
Lemma c93_pattern_built c : In c c93_chars -> length (c93_pattern c) = 6%nat /\ list_sum (c93_pattern c) = 9%nat.
Proof. unfold c93_chars. intros H. cbn in H. each_char H; split; vm_compute; reflexivity. Qed.
Lemma c128_pattern_built v : v < 106 -> length (c128_pattern v) = 6%nat /\ list_sum (c128_pattern v) = 11%nat /\
  Nat.even (list_sum (odd_ones (c128_pattern v))) = true.
Proof.
  intros H. assert (HI : In (c128_pattern v) c128_table).
  { apply nth_In. replace (length c128_table) with 106%nat by (vm_compute; reflexivity). lia. }
  assert (E : forallb (fun b => Nat.eqb (length b) 6 && Nat.eqb (list_sum b) 11 && Nat.even (list_sum (odd_ones b))) c128_table = true)
    by (vm_compute; reflexivity).
  rewrite forallb_forall in E. apply E in HI. apply andb_prop in HI. destruct HI as [HI H3]. apply andb_prop in HI. destruct HI as [H1 H2].
  apply Nat.eqb_eq in H1, H2. now split.
Qed.

Lemma barcode_built y p s m : str_len s < 2 ^ 48 -> (y = SCodabar -> ~ In (ch "+") s) -> barcode y p s = Ret (Ok m) ->
  exists ws, scan m = Some ws /\ m = render ws ++ tail y /\ built y s ws.
Proof.
  intros Hs Hplus H. destruct y; cbn [barcode] in H; (apply run_Ret in H || apply run_Ok in H);
    destruct H as [b [HN HE]]; cbn [tail]; rewrite ?app_nil_r.
  - destruct (ean13_conform p p s b HN) as [E _]. destruct (ean13_accepted p s b HN) as (_ & L & D).
    destruct (with_check_ok (firstn 12 (digits_of s)) 12 L D) as (L1 & D1 & V1). rewrite HE in E. injection E as ->.
    eexists. rewrite app_nil_r. split; [now apply ean13_scan|]. split; [reflexivity|]. now apply ean13_built.
  - destruct (ean8_conform p p s b HN) as [E _]. destruct (ean8_accepted p s b HN) as (_ & L & D).
    destruct (with_check_ok (firstn 7 (digits_of s)) 7 L D) as (L1 & D1 & V1). rewrite HE in E. injection E as ->.
    eexists. rewrite app_nil_r. split; [now apply ean8_scan|]. split; [reflexivity|]. now apply ean8_built.
  - destruct (upca_conform p p s b HN) as [E _]. destruct (upca_accepted p s b HN) as (_ & L & D).
    destruct (with_check_ok (firstn 11 (digits_of s)) 11 L D) as (L1 & D1 & V1). rewrite HE in E. injection E as ->.
    eexists. rewrite app_nil_r. split; [now apply upca_scan|]. split; [reflexivity|]. now apply upca_built.
  - destruct (eansupp_accepted p s b HN) as [m' [E HC]]. rewrite HE in E. injection E as <-.
    destruct (eansupp_new_spec s) as [r [ER [_ [_ [_ HO]]]]]. rewrite HN in ER. injection ER as <-.
    specialize (HO b). destruct HO as [HO _]. destruct (HO eq_refl) as [HD _].
    apply digits_of_digits in HD.
    destruct HC as [[HL [_ [-> _]]]|[HL [_ [-> _]]]]; (eexists; rewrite app_nil_r; split; [|split; [reflexivity|]]).
    + now apply addon_scan.
    + apply ean2_built; [|assumption]. unfold digits_of. now rewrite map_length.
    + now apply addon_scan.
    + apply ean5_built; [|assumption]. unfold digits_of. now rewrite map_length.
  - destruct (code39_accepted p s b false Hs (or_introl HN)) as [m' [E [Em _]]].
    apply code39_init_Ok in HN. destruct HN as [HD [Hd Hb]]. subst b.
    cbn [c39_data] in E. rewrite HE in E. injection E as <-. subst m. eexists. rewrite app_nil_r.
    split; [now apply c39_symbol_scan|]. split; [reflexivity|]. cbn [built].
    exists (c39_star :: map c39_pattern s ++ [c39_star]). split; [|apply spaced_star].
    constructor; [exact c39_star_built|]. apply Forall2_app; [|constructor; [exact c39_star_built | constructor]].
    apply Forall2_map_r. revert HD. apply Forall_impl. exact c39_pattern_built.
  - destruct (code39_accepted p s b true Hs (or_intror HN)) as [m' [E [Em _]]].
    apply code39_init_Ok in HN. destruct HN as [HD [Hd Hb]]. subst b.
    cbn [c39_data] in E. rewrite HE in E. injection E as <-. subst m. eexists. rewrite app_nil_r.
    pose proof (c39_message_in s true HD) as HM. cbn [c39_message] in HM.
    split; [now apply c39_symbol_scan|]. split; [reflexivity|]. cbn [built].
    exists (c39_check s), (c39_star :: map c39_pattern (s ++ [c39_check s]) ++ [c39_star]). split; [|apply spaced_star].
    constructor; [exact c39_star_built|]. change (c39_check s :: lit "*") with ([c39_check s] ++ lit "*"). rewrite app_assoc.
    apply Forall2_app; [|constructor; [exact c39_star_built | constructor]].
    apply Forall2_map_r. revert HM. apply Forall_impl. exact c39_pattern_built.
  - destruct (code93_accepted p s b Hs HN) as [m' [E [Em _]]]. rewrite HE in E. injection E as <-. subst m.
    apply code93_new_Ok in HN. destruct HN as [HD _]. pose proof (c93_message_in s HD) as HM.
    eexists. rewrite app_nil_r. split; [now apply c93_symbol_scan|]. split; [reflexivity|]. cbn [built].
    exists (c93_star :: map c93_pattern (s ++ [c93_C s; c93_K s]) ++ [c93_star]). split.
    { cbn [length]. rewrite app_length, map_length, app_length. cbn [length]. lia. }
    split.
    { constructor; [now split|]. apply Forall_app. split; [|repeat constructor].
      apply Forall_map. revert HM. apply Forall_impl. exact c93_pattern_built. }
    unfold c93_symbol. cbn [concat]. rewrite concat_app. cbn [concat]. now rewrite app_nil_r, <- !app_assoc.
  - pose proof (code11_accepted p s b Hs HN) as E. rewrite HE in E. injection E as ->.
    apply code11_new_Ok in HN. destruct HN as [HD _]. pose proof (c11_message_in s HD) as HM.
    eexists. rewrite app_nil_r. split; [now apply c11_symbol_scan|]. split; [reflexivity|]. cbn [built].
    exists ([c11_C s] ++ (if Nat.ltb 10 (length s) then [c11_K s] else [])), c11_guard.
    exists (map c11_pattern (s ++ [c11_C s] ++ (if Nat.ltb 10 (length s) then [c11_K s] else []))), c11_guard.
    split; [destruct (Nat.ltb 10 (length s)); [now right | now left]|].
    split; [|split; [reflexivity|]; split; [reflexivity | apply spaced_guard]].
    apply Forall2_map_r. revert HM. apply Forall_impl. exact c11_pattern_built.
  - pose proof (codabar_encode_lib p s b HN) as E. rewrite HE in E. injection E as ->.
    apply codabar_new_Ok in HN. destruct HN as [HF [Hn _]]. specialize (Hplus eq_refl).
    eexists. rewrite app_nil_r. split; [now apply lib_symbol_scan|]. split; [reflexivity|]. cbn [built].
    exists (map lib_pattern s). split; [|now apply spaced_sep]. apply Forall2_map_r. rewrite Forall_forall in *.
    intros c Hc. rewrite lib_pattern_std; [|now apply HF | intros ->; exact (Hplus Hc)].
    apply exchange_kind. apply cod_pattern_built. specialize (HF c Hc). unfold exchange.
    destruct (c =? ch "B"); [cbn; tauto|]. destruct (c =? ch "C"); [cbn; tauto | exact HF].
  - destruct (code128_new_Ok s b HN) as [segs [HM [_ ->]]].
    destruct (encode_returns_form p _ m (message_units_idx _ HM) HE) as [chk [HC ->]].
    rewrite message_units_values.
    assert (HL : Forall (fun v => v < 106) (message_values segs ++ [chk])).
    { apply Forall_snoc; [now apply message_values_lt | assumption]. }
    eexists. rewrite app_nil_r. split; [now apply symbol_with_scan|]. split; [reflexivity|]. cbn [built].
    exists (map c128_pattern (message_values segs ++ [chk])). split; [|reflexivity].
    apply Forall_map. revert HL. apply Forall_impl. exact c128_pattern_built.
  - destruct (itf_accepted p s b HN) as [ds [HD [HO [HR [E _]]]]]. rewrite HE in E. injection E as ->.
    eexists. rewrite app_nil_r. split; [now apply itf_scan|]. split; [reflexivity|]. cbn [built].
    exists ds, (map (itf_pair 3) (pairs ds)). split; [assumption|]. split.
    { apply tf_interleaved_Ok in HN. destruct HN as [_ [_ [ds' [-> [_ [HV _]]]]]]. cbn [tf_raw_data] in HR. now subst. }
    split; [|reflexivity]. rewrite pairs_two_by_two. apply Forall2_map_r. pose proof (two_by_two_digits ds HD) as H2. revert H2.
    apply Forall_impl. intros x [H1 H2]. now apply itf_pair_built.
  - destruct (stf_accepted s b HN) as [m' [E [-> _]]]. rewrite HE in E. injection E as ->.
    apply tf_standard_Ok in HN. destruct HN as [HD _]. apply digits_of_digits in HD.
    exists (stf_symbol 3 2 (digits_of s)). split; [now apply stf_scan|]. split; [reflexivity|]. cbn [built].
    exists (map (fun d => stf_bars (S_Tf.stretch 3 (tf_digit d))) (digits_of s)). split; [|reflexivity].
    apply Forall2_map_r. revert HD. apply Forall_impl. exact stf_digit_built.
Qed.

Lemma spaced_blocks (bs bs' : list (list nat)) : Forall (fun b => length b = 7%nat) bs -> Forall (fun b => length b = 7%nat) bs' ->
  concat (map (fun b => b ++ [1%nat]) bs) = concat (map (fun b => b ++ [1%nat]) bs') -> bs = bs'.
Proof.
  intros H. revert bs'. induction H as [|b bs Hb H IH]; intros bs' H' E; destruct H' as [|b' bs' Hb' H']; [reflexivity | | |].
  - destruct b'; discriminate.
  - destruct b; discriminate.
  - cbn [map concat] in E. rewrite <- !app_assoc in E.
    assert (Eb : b = b').
    { apply (f_equal (firstn 7)) in E. rewrite <- Hb in E at 1. rewrite <- Hb' in E. rewrite !firstn_app, !Nat.sub_diag, !firstn_all in E.
      now rewrite !app_nil_r in E. }
    subst b'. f_equal. apply IH; [assumption|]. apply app_inv_head in E. now injection E.
Qed.
(** The plus sign and nothing else spoils the structure of a Codabar symbol. *)
Lemma codabar_built p s m ws : str_len s < 2 ^ 48 -> barcode SCodabar p s = Ret (Ok m) -> scan m = Some ws ->
  (built SCodabar s ws <-> ~ In (ch "+") s).
Proof.
  intros Hs H Hm. split; [|intros HP; destruct (barcode_built SCodabar p s m Hs (fun _ => HP) H) as [ws' [E [_ HB]]]; congruence].
  intros HB Hin. cbn [barcode] in H. apply run_Ok in H. destruct H as [b [HN HE]].
  pose proof (codabar_encode_lib p s b HN) as E. rewrite HE in E. injection E as ->.
  apply codabar_new_Ok in HN. destruct HN as [HF [Hn _]].
  rewrite lib_symbol_scan in Hm by assumption. injection Hm as <-.
  destruct HB as [bs [HK HS]]. unfold spaced in HS. rewrite sep_symbol_blocks in HS by assumption.
  apply spaced_blocks in HS.
  - subst bs. revert Hin HK. clear. induction s as [|c s IH]; intros Hin HK; [destruct Hin|]. cbn [map] in HK. inversion HK as [|? ? ? ? Hc Hr]; subst.
    destruct Hin as [->|Hin]; [|now apply IH].
    destruct Hc as [_ [[Hc _]|[[_ [_ Hc]]|[Hc _]]]]; [cbn in Hc; intuition discriminate | discriminate | cbn in Hc; intuition discriminate].
  - apply Forall_map. revert HF. apply Forall_impl. exact lib_pattern_length.
  - clear -HK. induction HK as [|c b s bs [H _] HK IH]; constructor; assumption.
Qed.
