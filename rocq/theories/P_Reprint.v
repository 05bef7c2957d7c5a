(** * Proofs: printing again what was read *)
From Verif Require Import Rust M_Error M_Helpers M_Parse M_Ean13 M_Ean8 M_Upca M_EanSupp M_Code39 M_Code93 M_Code11
  M_Codabar M_Code128 M_Tf Symbology M_Use S_Barcode S_Ean S_Text S_Linear S_Codabar S_Tf S_Code128 S_All S_Heard S_Exact S_Errors S_Reprint
  P_Rust P_Barcode P_Parse P_Gs1 P_Ean P_Retail P_Retail2 P_Retail3 P_Supp P_Alphabet P_Code39 P_Code93 P_Code11
  P_Codabar P_Tf P_Code128 P_Code128b P_Heard P_All P_Exact P_Errors P_Apart P_Damage P_Cell P_Cut P_Size.
Local Open Scope nat_scope.

(** ** Readers invert: what is read determines the elements. *)
Lemma read_all_inv {A B} (f : A -> option B) (g : B -> A) (P : B -> Prop) : (forall x z, f x = Some z -> x = g z /\ P z) ->
  forall l r, read_all f l = Some r -> l = map g r /\ Forall P r.
Proof.
  intros H. induction l as [|x l IH]; intros r HR; [apply read_all_nil in HR; subst; split; constructor|].
  apply read_all_cons in HR. destruct HR as (z & zs & E & HR & ->). apply H in E. destruct E as [-> E].
  apply IH in HR. destruct HR as [-> HR]. split; [reflexivity | now constructor].
Qed.
Lemma which_digit t b v : which t b = Some v -> widths t (N.of_nat v) = b /\ v < length t.
Proof.
  intros H. apply which_sound in H. unfold widths. rewrite Nat2N.id. split; [now apply nth_error_nth|].
  apply nth_error_Some. congruence.
Qed.
Definition drawn_AB (x : parity * N) : list nat := widths (set_table (fst x)) (snd x).
Lemma read_AB_inv b x : read_AB b = Some x -> b = drawn_AB x /\ is_digit (snd x).
Proof.
  unfold read_AB, drawn_AB, is_digit. destruct (which setA_table b) as [d|] eqn:E.
  - intros H. injection H as <-. apply which_digit in E. destruct E as [E L]. cbn in L. cbn [fst snd set_table]. split; [now symmetry | lia].
  - destruct (which setB_table b) as [d|] eqn:E'; [|discriminate]. intros H. injection H as <-. apply which_digit in E'.
    destruct E' as [E' L]. cbn in L. cbn [fst snd set_table]. split; [now symmetry | lia].
Qed.
Lemma read_C_inv b d : read_C b = Some d -> b = widths setC_table d /\ is_digit d.
Proof.
  unfold read_C, is_digit. destruct (which setC_table b) as [k|] eqn:E; [|discriminate]. intros H. injection H as <-.
  apply which_digit in E. destruct E as [E L]. cbn in L. split; [now symmetry | lia].
Qed.
Lemma drawn_left l : concat (map drawn_AB l) = draw_left (map fst l) (map snd l).
Proof. unfold draw_left. f_equal. induction l as [|[a d] l IH]; [reflexivity|]. cbn [map combine]. now rewrite IH. Qed.
Lemma halves_inv n ws l r : read_halves n ws = Some (l, r) ->
  ws = normal_guard ++ draw_left (map fst l) (map snd l) ++ centre_guard ++ draw_right r ++ normal_guard /\
  length l = n /\ length r = n /\ Forall is_digit (map snd l) /\ Forall is_digit r.
Proof.
  intros H. apply halves_form in H. destruct H as (lb & rb & -> & LL & LR & HL & HR).
  apply (read_all_inv _ drawn_AB (fun x => is_digit (snd x)) read_AB_inv) in HL. destruct HL as [-> HL].
  apply (read_all_inv _ (widths setC_table) is_digit read_C_inv) in HR. destruct HR as [-> HR].
  rewrite map_length in LL, LR. rewrite drawn_left. split; [reflexivity|]. repeat split; try assumption. now apply Forall_map.
Qed.
Lemma firstn_all2' {A} n (a b : list A) : length a = n -> firstn n (a ++ b) = a.
Proof. intros <-. rewrite firstn_app, Nat.sub_diag, firstn_O, firstn_all. apply app_nil_r. Qed.
Lemma skipn_all2' {A} n (a b : list A) : length a = n -> skipn n (a ++ b) = b.
Proof. intros <-. now rewrite skipn_app, Nat.sub_diag, skipn_all. Qed.

Lemma ean13_inv ws ds : read_ean13 ws = Some ds -> ws = ean13_symbol ds /\ length ds = 13 /\ Forall is_digit ds /\ gs1_valid ds.
Proof.
  intros H. apply obind_Some in H. destruct H as [[l r] [H HR]]. apply halves_inv in H. destruct H as (-> & LL & LR & DL & DR).
  apply obind_Some in HR. destruct HR as [f [HF HR]]. apply guard_Some in HR. destruct HR as [HV E]. injection E as <-.
  apply gs1_validb_spec in HV. apply which_parity_sound in HF.
  assert (Lf : f < 10) by (change 10 with (length ean13_parities); apply nth_error_Some; congruence).
  split; [|split; [cbn [length]; rewrite app_length, map_length; lia|split; [|exact HV]]].
  - unfold ean13_symbol. cbn [hd]. change (skipn 1 (N.of_nat f :: map snd l ++ r)) with (map snd l ++ r). rewrite Nat2N.id, (nth_error_nth _ _ [] HF).
    change (skipn 7 (N.of_nat f :: map snd l ++ r)) with (skipn 6 (map snd l ++ r)).
    rewrite firstn_all2', skipn_all2' by now rewrite map_length. reflexivity.
  - constructor; [unfold is_digit; lia|]. apply Forall_app. now split.
Qed.
Lemma upca_inv ws ds : read_upca ws = Some ds -> ws = upca_symbol ds /\ length ds = 12 /\ Forall is_digit ds /\ gs1_valid ds.
Proof.
  intros H. apply obind_Some in H. destruct H as [[l r] [H HR]]. apply halves_inv in H. destruct H as (-> & LL & LR & DL & DR).
  apply guard_Some in HR. destruct HR as [HV E]. injection E as <-. apply andb_prop in HV. destruct HV as [HP HV].
  apply gs1_validb_spec in HV. apply parities_eqb_sound in HP. rewrite HP.
  split; [|split; [rewrite app_length, map_length; lia|split; [|exact HV]]].
  - unfold upca_symbol. rewrite firstn_all2', skipn_all2' by now rewrite map_length. reflexivity.
  - apply Forall_app. now split.
Qed.
Lemma ean8_inv ws ds : read_ean8 ws = Some ds -> ws = ean8_symbol ds /\ length ds = 8 /\ Forall is_digit ds /\ gs1_valid ds.
Proof.
  intros H. apply obind_Some in H. destruct H as [[l r] [H HR]]. apply halves_inv in H. destruct H as (-> & LL & LR & DL & DR).
  apply guard_Some in HR. destruct HR as [HV E]. injection E as <-. apply andb_prop in HV. destruct HV as [HP HV].
  apply gs1_validb_spec in HV. apply parities_eqb_sound in HP. rewrite HP.
  split; [|split; [rewrite app_length, map_length; lia|split; [|exact HV]]].
  - unfold ean8_symbol. rewrite firstn_all2', skipn_all2' by now rewrite map_length. reflexivity.
  - apply Forall_app. now split.
Qed.
Lemma addon_inv ws l : read_addon_blocks ws = Some l -> length l = 2 \/ length l = 5 ->
  ws = addon_guard ++ draw_addon true (map fst l) (map snd l) /\ Forall is_digit (map snd l).
Proof.
  intros H HL. destruct (addon_cells ws l H) as (c & cs & -> & HR); [intros ->; destruct HL; discriminate|].
  apply (read_all_inv _ drawn_AB (fun x => is_digit (snd x)) read_AB_inv) in HR. destruct HR as [E HR].
  split; [|now apply Forall_map]. destruct l as [|x l]; [discriminate|]. injection E as -> ->.
  change [1;1;2] with addon_guard. f_equal. cbn [map draw_addon app]. unfold drawn_AB at 1. f_equal. clear.
  induction l as [|z l IH]; [reflexivity|]. cbn [map concat draw_addon app]. unfold addon_separator. cbn [app]. unfold drawn_AB at 1. now rewrite IH.
Qed.
Lemma ean2_inv ws ds : read_ean2 ws = Some ds -> ws = ean2_symbol ds /\ length ds = 2 /\ Forall is_digit ds.
Proof.
  intros H. apply obind_Some in H. destruct H as [l [H1 H]]. apply obind_Some in H. destruct H as [v [H2 H]].
  apply guard_Some in H. destruct H as [H E]. injection E as <-. apply andb_prop in H. destruct H as [H3 H4].
  apply Nat.eqb_eq in H3. apply N.eqb_eq in H4. apply which_parity_sound in H2. rewrite map_length in H3.
  destruct (addon_inv ws l H1 (or_introl H3)) as [-> HD]. split; [|split; [now rewrite map_length | assumption]].
  unfold ean2_symbol. rewrite <- H4, Nat2N.id. now rewrite (nth_error_nth _ _ [] H2).
Qed.
Lemma ean5_inv ws ds : read_ean5 ws = Some ds -> ws = ean5_symbol ds /\ length ds = 5 /\ Forall is_digit ds.
Proof.
  intros H. apply obind_Some in H. destruct H as [l [H1 H]]. apply obind_Some in H. destruct H as [v [H2 H]].
  apply guard_Some in H. destruct H as [H E]. injection E as <-. apply andb_prop in H. destruct H as [H3 H4].
  apply Nat.eqb_eq in H3. apply N.eqb_eq in H4. apply which_parity_sound in H2. rewrite map_length in H3.
  destruct (addon_inv ws l H1 (or_intror H3)) as [-> HD]. split; [|split; [now rewrite map_length | assumption]].
  unfold ean5_symbol. rewrite <- H4, Nat2N.id. now rewrite (nth_error_nth _ _ [] H2).
Qed.

Lemma chars_inv l t : NoDup l -> length l = length t -> forall bs r, read_all (read_char l t) bs = Some r ->
  bs = map (pattern l t) r /\ Forall (fun c => In c l) r.
Proof.
  intros HN HL. apply read_all_inv. intros x z H. apply P_Alphabet.read_char_sound in H; try assumption. destruct H as [H <-]. now split.
Qed.
Lemma gapped_symbol (g : list nat) (f : char -> list nat) cs ws :
  ws ++ [1] = concat (map (fun c => c ++ [1]) (g :: map f cs ++ [g])) -> ws = g ++ [1] ++ concat (map (fun c => f c ++ [1]) cs) ++ g.
Proof.
  intros H. cbn [map concat] in H. rewrite map_app, concat_app, map_map in H. cbn [map concat] in H. rewrite app_nil_r in H.
  apply (app_inj_tail ws (g ++ [1] ++ concat (map (fun c => f c ++ [1]) cs) ++ g) 1 1). rewrite H, <- !app_assoc. reflexivity.
Qed.
Lemma c39_inv ws t : read_c39 ws = Some t -> ws = c39_symbol t /\ Forall (fun c => In c c39_chars) t.
Proof.
  intros H. apply c39_form in H. destruct H as (mid & E & _ & _ & HR). apply (chars_inv _ _ c39_nodup_c c39_len) in HR.
  destruct HR as [-> HF]. split; [|assumption]. now apply gapped_symbol in E.
Qed.
Lemma verify_last_inv l n top cs r : verify_last l n top cs = Some r ->
  exists k, cs = r ++ [k] /\ value l k = check_sum l n top r.
Proof.
  unfold verify_last. destruct (rev cs) as [|k front] eqn:E; [discriminate|]. intros H. apply guard_Some in H.
  destruct H as [H1 H2]. injection H2 as <-. exists k. apply N.eqb_eq in H1. split; [|assumption].
  rewrite <- (rev_involutive cs), E. reflexivity.
Qed.
Lemma char_back l c v : In c l -> value l c = v -> c = char_of l v.
Proof. intros H <-. symmetry. now apply char_of_value. Qed.
Lemma c93_inv ws t : read_c93 ws = Some t -> ws = c93_symbol (t ++ [c93_C t; c93_K t]) /\ Forall (fun c => In c c93_chars) t.
Proof.
  intros H. apply c93_form in H. destruct H as (mid & raw & -> & HR & HV & _). apply (chars_inv _ _ c93_nodup c93_len) in HR.
  destruct HR as [-> HF]. apply obind_Some in HV. destruct HV as [front [V1 V2]].
  apply verify_last_inv in V1, V2. destruct V2 as (c & -> & VC). destruct V1 as (k & -> & VK).
  apply Forall_app in HF. destruct HF as [HF HK]. apply Forall_app in HF. destruct HF as [HF HC].
  apply Forall_inv in HK, HC. cbn beta in HK, HC.
  assert (c = c93_C t) as -> by (apply char_back; assumption).
  assert (k = c93_K t) as -> by (apply char_back; assumption).
  split; [|assumption]. change [c93_C t; c93_K t] with ([c93_C t] ++ [c93_K t]). rewrite (app_assoc t [c93_C t] [c93_K t]). generalize ((t ++ [c93_C t]) ++ [c93_K t]). intros u. unfold c93_symbol, c93_pattern. exact eq_refl.
Qed.
Lemma c11_inv ws t : length ws <> 83 -> read_c11 ws = Some t -> ws = c11_symbol (c11_checked t) /\ Forall (fun c => In c c11_chars) t.
Proof.
  intros H83 H. apply c11_form in H. destruct H as (mid & raw & E & HL & _ & HR & HV). apply (chars_inv _ _ c11_nodup_c c11_len) in HR.
  destruct HR as [-> HF]. rewrite map_length in HL. assert (H12 : length raw <> 12) by (unfold str, char in *; lia). clear HL H83. apply gapped_symbol in E. apply obind_Some in HV. destruct HV as [front [V1 V2]].
  apply verify_last_inv in V2. destruct V2 as (c & -> & VC). enough (G : raw = c11_checked t /\ Forall (fun c => In c c11_chars) t).
  { destruct G as [<- G]. now split. }
  destruct (Nat.ltb 11 (length raw)) eqn:EL.
  - apply verify_last_inv in V1. destruct V1 as (k & -> & VK).
    apply Forall_app in HF. destruct HF as [HF HK]. apply Forall_app in HF. destruct HF as [HF HC].
    apply Forall_inv in HK, HC. cbn beta in HK, HC.
    assert (c = c11_C t) as -> by (apply char_back; assumption).
    assert (k = c11_K t) as -> by (apply char_back; assumption).
    split; [|assumption]. apply Nat.ltb_lt in EL. rewrite !app_length in EL, H12. cbn [length] in EL, H12.
    unfold c11_checked. assert (ET : Nat.ltb 10 (length t) = true) by (apply Nat.ltb_lt; unfold str, char in *; lia). rewrite ET. symmetry. exact (app_assoc t [c11_C t] [c11_K t]).
  - injection V1 as ->. apply Forall_app in HF. destruct HF as [HF HC]. apply Forall_inv in HC. cbn beta in HC.
    assert (c = c11_C t) as -> by (apply char_back; assumption).
    split; [|assumption]. apply Nat.ltb_ge in EL. rewrite !app_length in EL. cbn [length] in EL.
    unfold c11_checked. assert (ET : Nat.ltb 10 (length t) = false) by (apply Nat.ltb_ge; unfold str, char in *; lia). rewrite ET. exact eq_refl.
Qed.
Lemma cod_inv ws t : read_cod ws = Some t -> ws ++ [1] = concat (map (fun c => c ++ [1]) (map cod_pattern t)) /\ Forall (fun c => In c cod_chars) t.
Proof.
  intros H. apply obind_Some in H. destruct H as [bs [H1 H]]. apply obind_Some in H. destruct H as [cs [H2 H]].
  destruct (gap_blocks 7 ws bs cs H1 H2) as (_ & _ & HE & _). apply (chars_inv _ _ cod_nodup_c cod_len) in H.
  destruct H as [-> HF]. now split.
Qed.

Lemma squash_app a b : squash (a ++ b) = squash a ++ squash b. Proof. apply map_app. Qed.
Lemma tf_table_ten : length tf_table = 10. Proof. vm_compute. reflexivity. Qed.
Local Opaque tf_table.
Lemma which_N t b d : option_map N.of_nat (which t b) = Some d -> b = nth (N.to_nat d) t [] /\ N.to_nat d < length t.
Proof.
  destruct (which t b) as [k|] eqn:E; [|discriminate]. intros H. injection H as <-. apply which_digit in E.
  destruct E as [E L]. unfold widths in E. rewrite Nat2N.id in *. split; [now symmetry | assumption].
Qed.
Lemma tf_inv b d : read_tf_digit b = Some d -> squash b = tf_digit d /\ is_digit d.
Proof.
  intros H. apply which_N in H. rewrite tf_table_ten in H. unfold tf_digit, is_digit. destruct H as [H L]. split; [exact H|]. clear H. lia.
Qed.
Lemma digit_cases d (P : N -> Prop) : is_digit d -> P 0%N -> P 1%N -> P 2%N -> P 3%N -> P 4%N -> P 5%N -> P 6%N -> P 7%N -> P 8%N -> P 9%N -> P d.
Proof.
  intros H. replace d with (N.of_nat (N.to_nat d)) by lia. unfold is_digit in H. assert (L : N.to_nat d < 10) by lia.
  generalize dependent (N.to_nat d). intros k L. do 10 (destruct k as [|k]; [intros; assumption|]). lia.
Qed.
Local Transparent tf_table.
Lemma stretch2 d : is_digit d -> stretch 2 (tf_digit d) = tf_digit d.
Proof. intros H. pattern d. apply digit_cases; [assumption | reflexivity..]. Qed.
Local Opaque tf_table.
Lemma itf_block_inv b ds : length b = 10 -> itf_block b = Some ds ->
  exists d e, ds = [d; e] /\ squash b = itf_pair 2 (d, e) /\ is_digit d /\ is_digit e.
Proof.
  intros L H. do 10 (destruct b as [|? b]; [discriminate|]). destruct b; [|discriminate]. unfold itf_block in H. cbn [unweave] in H.
  apply obind_Some in H. destruct H as [d [H1 H]]. apply obind_Some in H. destruct H as [e [H2 H]]. injection H as <-.
  apply tf_inv in H1, H2. destruct H1 as [E1 D1]. destruct H2 as [E2 D2]. exists d, e. split; [reflexivity|]. split; [|now split].
  unfold itf_pair. cbn [fst snd]. rewrite !stretch2 by assumption. rewrite <- E1, <- E2. reflexivity.
Qed.
Lemma itf_inv ws ds : read_itf ws = Some ds -> squash ws = itf_symbol 2 2 ds /\ Forall is_digit ds /\ Nat.even (length ds) = true.
Proof.
  intros H. unfold read_itf in H. destruct (trim_ends 4 3 ws) as [[a body] z] eqn:ET. apply trim_ends_whole in ET. destruct ET as [-> _].
  apply guard_Some in H. destruct H as [H HR]. apply andb_prop in H. destruct H as [Ha Hz].
  apply widths_eqb_eq in Ha, Hz. subst a. apply obind_Some in HR. destruct HR as [bs [HC HR]]. apply obind_Some in HR.
  destruct HR as [rs [HR E]]. injection E as <-. apply chop_sound in HC. destruct HC as [<- HF].
  change (read_all itf_block bs = Some rs) in HR.
  assert (G : squash (concat bs) = concat (map (itf_pair 2) (pairs (concat rs))) /\ Forall is_digit (concat rs) /\ Nat.even (length (concat rs)) = true).
  { clear Hz. revert rs HR. induction bs as [|b bs IH]; intros rs HR; [apply read_all_nil in HR; subst; repeat split; constructor|].
    apply read_all_cons in HR. destruct HR as (x & xs & Hx & HR & ->). apply Forall_cons_iff in HF. destruct HF as [Lb HF].
    destruct (itf_block_inv b x Lb Hx) as (d & e & -> & Eb & Dd & De). destruct (IH HF xs HR) as (I1 & I2 & I3).
    cbn [concat app pairs map length Nat.even]. rewrite squash_app, Eb, I1. split; [reflexivity|]. split; [|assumption].
    now repeat constructor. }
  destruct G as (G1 & G2 & G3). split; [|now split]. rewrite !squash_app, Hz, G1. reflexivity.
Qed.
Lemma stf_block_inv b d : length b = 10 -> stf_block b = Some d -> squash b = stf_bars (stretch 2 (tf_digit d)) /\ is_digit d.
Proof.
  intros L H. do 10 (destruct b as [|? b]; [discriminate|]). destruct b; [|discriminate]. unfold stf_block in H. cbn [unweave] in H.
  apply guard_Some in H. destruct H as [H1 H2]. apply widths_eqb_eq in H1. injection H1 as -> -> -> -> ->.
  apply tf_inv in H2. destruct H2 as [E D]. split; [|assumption]. rewrite stretch2 by assumption. rewrite <- E. reflexivity.
Qed.
Lemma stf_inv ws ds : read_stf ws = Some ds -> squash ws = stf_symbol 2 2 ds /\ Forall is_digit ds.
Proof.
  intros H. apply stf_form in H. destruct H as (a & bs & z & -> & Ha & Hz & HF & HR).
  assert (G : squash (concat bs) = concat (map (fun d => stf_bars (stretch 2 (tf_digit d))) ds) /\ Forall is_digit ds).
  { clear Hz Ha. revert ds HR. induction bs as [|b bs IH]; intros ds HR; [apply read_all_nil in HR; subst; repeat split; constructor|].
    apply read_all_cons in HR. destruct HR as (x & xs & Hx & HR & ->). apply Forall_cons_iff in HF. destruct HF as [Lb HF].
    destruct (stf_block_inv b x Lb Hx) as (Eb & Dd). destruct (IH HF xs HR) as (I1 & I2).
    cbn [concat map]. rewrite squash_app, Eb, I1. split; [reflexivity | now constructor]. }
  destruct G as (G1 & G2). split; [|assumption]. rewrite !squash_app, Ha, Hz, G1. reflexivity.
Qed.

(** ** One reading, one symbol *)
Lemma reading_alike y ws ws' r : y <> SCode128 -> standard y ws -> standard y ws' -> read_as y ws = Some r -> read_as y ws' = Some r -> alike y ws ws'.
Proof.
  intros HY HS HS' H H'. destruct y; try contradiction; cbn [read_as alike standard] in *.
  - apply option_map_Some in H, H'. destruct H as (a & H & ->). destruct H' as (a' & H' & E). injection E as <-.
    apply ean13_inv in H, H'. destruct H as [-> _]. now destruct H' as [-> _].
  - apply option_map_Some in H, H'. destruct H as (a & H & ->). destruct H' as (a' & H' & E). injection E as <-.
    apply ean8_inv in H, H'. destruct H as [-> _]. now destruct H' as [-> _].
  - apply option_map_Some in H, H'. destruct H as (a & H & ->). destruct H' as (a' & H' & E). injection E as <-.
    apply upca_inv in H, H'. destruct H as [-> _]. now destruct H' as [-> _].
  - assert (G : forall ws, match read_ean2 ws with Some l => Some (Digits l) | None => option_map Digits (read_ean5 ws) end = Some r ->
      exists ds, r = Digits ds /\ ((length ds = 2 /\ ws = ean2_symbol ds) \/ (length ds = 5 /\ ws = ean5_symbol ds))).
    { clear. intros ws H. destruct (read_ean2 ws) as [l|] eqn:E.
      - injection H as <-. apply ean2_inv in E. exists l. split; [reflexivity|]. left. tauto.
      - apply option_map_Some in H. destruct H as (a & H & ->). apply ean5_inv in H. exists a. split; [reflexivity|]. right. tauto. }
    apply G in H, H'. destruct H as (ds & -> & H). destruct H' as (ds' & E & H'). injection E as <-.
    destruct H as [[L ->]|[L ->]], H' as [[L' ->]|[L' ->]]; reflexivity || lia.
  - apply option_map_Some in H, H'. destruct H as (a & H & ->). destruct H' as (a' & H' & E). injection E as <-.
    apply c39_inv in H, H'. destruct H as [-> _]. now destruct H' as [-> _].
  - apply option_map_Some in H, H'. destruct H as (a & H & ->). destruct H' as (a' & H' & E). injection E as <-.
    apply c39_inv in H, H'. destruct H as [-> _]. now destruct H' as [-> _].
  - apply option_map_Some in H, H'. destruct H as (a & H & ->). destruct H' as (a' & H' & E). injection E as <-.
    apply c93_inv in H, H'. destruct H as [-> _]. now destruct H' as [-> _].
  - apply option_map_Some in H, H'. destruct H as (a & H & ->). destruct H' as (a' & H' & E). injection E as <-.
    apply c11_inv in H; [|assumption]. apply c11_inv in H'; [|assumption]. destruct H as [-> _]. now destruct H' as [-> _].
  - apply option_map_Some in H, H'. destruct H as (a & H & ->). destruct H' as (a' & H' & E). injection E as <-.
    apply cod_inv in H, H'. destruct H as [E _]. destruct H' as [E' _]. rewrite <- E' in E. now apply app_inj_tail in E.
  - apply option_map_Some in H, H'. destruct H as (a & H & ->). destruct H' as (a' & H' & E). injection E as <-.
    apply itf_inv in H, H'. destruct H as [-> _]. now destruct H' as [-> _].
  - apply option_map_Some in H, H'. destruct H as (a & H & ->). destruct H' as (a' & H' & E). injection E as <-.
    apply stf_inv in H, H'. destruct H as [-> _]. now destruct H' as [-> _].
Qed.

(** ** Acceptance *)
Lemma accepted_known y p s m : y <> SCode128 -> (str_len s < 2 ^ 32)%N -> barcode y p s = Ret (Ok m) -> known y s /\ fits y (length s).
Proof.
  intros HY Hs H. destruct (verdict y p s HY Hs) as [VL VC VK VF VO VG].
  destruct (known_dec y s) as [K|K]; [|destruct (VO K); congruence]. split; [assumption|].
  assert (D : fits y (length s) \/ ~ fits y (length s)) by (destruct y; cbn [fits]; lia).
  destruct D as [D|D]; [assumption|]. apply (VL K) in D. congruence.
Qed.
Lemma fits_bound y n : fits y n -> n <= 256.
Proof. destruct y; cbn [fits]; lia. Qed.
Lemma fits_small y s : known y s -> fits y (length s) -> (str_len s < 2 ^ 32)%N.
Proof. intros K F. rewrite (known_len y s K). apply fits_bound in F. change (2 ^ 32)%N with 4294967296%N. lia. Qed.
Lemma below_48 n : (n < 2 ^ 32 -> n < 2 ^ 48)%N.
Proof. change (2 ^ 32)%N with 4294967296%N. change (2 ^ 48)%N with 281474976710656%N. lia. Qed.
Lemma accepts y p s : y <> SCode128 -> known y s -> fits y (length s) ->
  (with_check_digit y (length s) -> gs1_valid (digits_of s)) -> (y = SItf -> Nat.even (length s) = true) ->
  exists m, barcode y p s = Ret (Ok m).
Proof.
  intros HY K F V EV. pose proof (fits_small y s K F) as Hs. destruct (verdict y p s HY Hs) as [VL VC VK VF VO VG].
  assert (G : exists r, barcode y p s = Ret r).
  { assert (D : profile_free y \/ y = SItf) by (destruct y; cbn; tauto). destruct D as [D|D].
    - destruct (barcode_any y s D (below_48 _ Hs)) as [r G]. now exists r.
    - subst y. destruct (tf_interleaved_spec p s) as (_ & _ & TO). cbv zeta in TO. rewrite N.mod_small in TO by assumption.
      rewrite (known_len _ _ K) in TO. cbn [fits] in F. assert (DC : Forall digit_char s) by (apply known_digits; exact K).
      specialize (TO ltac:(lia) DC). rewrite (EV eq_refl) in TO. cbn [barcode]. unfold run. rewrite TO. cbn [bind].
      rewrite tf_encode_interleaved; [eexists; reflexivity | now apply digits_of_digits | unfold digits_of; rewrite map_length; now apply EV]. }
  destruct G as [[m|e] G]; [now exists m|]. exfalso. pose proof (VG e G) as NG. destruct e;
    first [exact (VK K G) | exact (NG eq_refl) | exact (proj1 (VL K) G F) | (apply (VC K) in G; tauto)].
Qed.

(** ** Sources *)
Lemma text_of_known ds y : alphabet y = lit "0123456789" -> Forall is_digit ds -> known y (text_of ds).
Proof.
  intros HA H. unfold known. rewrite HA. apply known_digits. unfold text_of. apply Forall_map. revert H. apply Forall_impl.
  unfold is_digit, digit_char. intros. lia.
Qed.
Lemma text_of_len ds : length (text_of ds) = length ds. Proof. apply map_length. Qed.
Lemma full_number_id n ds : length ds = S n -> Forall is_digit ds -> gs1_valid ds -> full_number n ds = ds.
Proof.
  intros L D V. destruct ds as [|c u _] using rev_ind; [discriminate|]. rewrite app_length in L. cbn [length] in L.
  unfold full_number. rewrite firstn_all2' by lia. apply Forall_app in D. destruct D as [_ D]. apply Forall_inv in D. cbn beta in D.
  apply (gs1_check_unique u c D) in V. now rewrite <- V.
Qed.
Lemma exchange_twice c : exchange (exchange c) = c.
Proof.
  unfold exchange. destruct (c =? ch "B")%N eqn:E; [apply N.eqb_eq in E; subst; reflexivity|].
  destruct (c =? ch "C")%N eqn:E'; [apply N.eqb_eq in E'; subst; reflexivity|]. now rewrite E, E'.
Qed.
Lemma exchange_known t : Forall (fun c => In c cod_chars) t -> known SCodabar (map exchange t).
Proof.
  intros H. apply Forall_map. revert H. apply Forall_impl. intros c H. cbn [alphabet]. change (lit "0123456789-$:/.+ABCD") with cod_chars.
  unfold exchange. destruct (c =? ch "B")%N; [vm_compute; tauto|]. destruct (c =? ch "C")%N; [vm_compute; tauto | assumption].
Qed.
Lemma exchange_plus c : exchange c = ch "+" -> c = ch "+".
Proof.
  unfold exchange. destruct (c =? ch "B")%N; [discriminate|]. destruct (c =? ch "C")%N; [discriminate | auto].
Qed.
Lemma c39_valid_inv t : c39_valid t -> Forall (fun c => In c c39_chars) t -> t = removelast t ++ [c39_check (removelast t)].
Proof.
  intros (d & c & -> & V) H. rewrite removelast_last. f_equal. f_equal. apply Forall_app in H. destruct H as [_ H].
  apply Forall_inv in H. cbn beta in H. unfold c39_check. now apply char_back.
Qed.
Lemma source_fine y ws r : y <> SCode128 -> standard y ws -> read_as y ws = Some r -> printable y r ->
  known y (source y r) /\ fits y (length (source y r)) /\ (with_check_digit y (length (source y r)) -> gs1_valid (digits_of (source y r))) /\
  (y = SItf -> Nat.even (length (source y r)) = true) /\ reads_back y (source y r) (Some r).
Proof.
  intros HY HS H HP. destruct y; try contradiction; cbn [read_as standard] in *.
  - apply option_map_Some in H. destruct H as (ds & H & ->). apply ean13_inv in H. destruct H as (_ & L & D & V).
    cbn [source fits with_check_digit reads_back]. rewrite digits_of_text_of, text_of_len.
    split; [now apply text_of_known|]. split; [lia|]. split; [auto|]. split; [discriminate|]. now rewrite full_number_id.
  - apply option_map_Some in H. destruct H as (ds & H & ->). apply ean8_inv in H. destruct H as (_ & L & D & V).
    cbn [source fits with_check_digit reads_back]. rewrite digits_of_text_of, text_of_len.
    split; [now apply text_of_known|]. split; [lia|]. split; [auto|]. split; [discriminate|]. now rewrite full_number_id.
  - apply option_map_Some in H. destruct H as (ds & H & ->). apply upca_inv in H. destruct H as (_ & L & D & V).
    cbn [source fits with_check_digit reads_back]. rewrite digits_of_text_of, text_of_len.
    split; [now apply text_of_known|]. split; [lia|]. split; [auto|]. split; [discriminate|]. now rewrite full_number_id.
  - assert (G : exists ds, r = Digits ds /\ (length ds = 2 \/ length ds = 5) /\ Forall is_digit ds).
    { destruct (read_ean2 ws) as [l|] eqn:E.
      - injection H as <-. apply ean2_inv in E. exists l. split; [reflexivity | tauto].
      - apply option_map_Some in H. destruct H as (a & H & ->). apply ean5_inv in H. exists a. split; [reflexivity | tauto]. }
    destruct G as (ds & -> & L & D). cbn [source fits with_check_digit reads_back]. rewrite digits_of_text_of, text_of_len.
    split; [now apply text_of_known|]. split; [lia|]. split; [tauto|]. split; [discriminate | reflexivity].
  - apply option_map_Some in H. destruct H as (t & H & ->). apply c39_inv in H. destruct H as [_ H].
    cbn [source fits with_check_digit reads_back printable] in *. split; [exact H|]. split; [lia|]. split; [tauto|]. split; [discriminate | reflexivity].
  - apply option_map_Some in H. destruct H as (t & H & ->). apply c39_inv in H. destruct H as [_ H].
    cbn [source fits with_check_digit reads_back printable] in *. destruct HP as [V L]. pose proof (c39_valid_inv t V H) as E.
    assert (LT : length t = length (removelast t) + 1) by (rewrite E at 1; rewrite app_length; cbn [length]; lia).
    split; [|split; [lia|split; [tauto|split; [discriminate|now rewrite <- E]]]].
    unfold known. cbn [alphabet]. change (Forall (fun c => In c c39_chars) (removelast t)). rewrite E in H. apply Forall_app in H. apply H.
  - apply option_map_Some in H. destruct H as (t & H & ->). apply c93_inv in H. destruct H as [_ H].
    cbn [source fits with_check_digit reads_back printable] in *. split; [exact H|]. split; [lia|]. split; [tauto|]. split; [discriminate | reflexivity].
  - apply option_map_Some in H. destruct H as (t & H & ->). apply c11_inv in H; [|assumption]. destruct H as [_ H].
    cbn [source fits with_check_digit reads_back printable] in *. split; [exact H|]. split; [lia|]. split; [tauto|]. split; [discriminate | reflexivity].
  - apply option_map_Some in H. destruct H as (t & H & ->). apply cod_inv in H. destruct H as [_ H].
    cbn [source fits with_check_digit reads_back printable] in *. destruct HP as [L NP]. rewrite map_length.
    split; [now apply exchange_known|]. split; [lia|]. split; [tauto|]. split; [discriminate|].
    replace (existsb (fun c => (c =? ch "+")%N) (map exchange t)) with false.
    + rewrite map_map. rewrite (map_ext _ _ exchange_twice), map_id. reflexivity.
    + symmetry. apply Bool.not_true_is_false. intros X. apply existsb_exists in X. destruct X as (c & IC & EC). apply N.eqb_eq in EC. subst c.
      apply in_map_iff in IC. destruct IC as (c & EC & IC). apply exchange_plus in EC. subst c. contradiction.
  - apply option_map_Some in H. destruct H as (ds & H & ->). apply itf_inv in H. destruct H as (_ & D & EV).
    cbn [source fits with_check_digit reads_back printable] in *. rewrite digits_of_text_of, text_of_len, EV.
    split; [now apply text_of_known|]. split; [lia|]. split; [tauto|]. split; [auto | reflexivity].
  - apply option_map_Some in H. destruct H as (ds & H & ->). apply stf_inv in H. destruct H as (_ & D).
    cbn [source fits with_check_digit reads_back printable] in *. rewrite digits_of_text_of, text_of_len.
    split; [now apply text_of_known|]. split; [lia|]. split; [tauto|]. split; [discriminate | reflexivity].
Qed.

Lemma gap_length (g : list nat) (f : char -> list nat) cs k : length g = k -> Forall (fun c => length (f c) = k) cs ->
  length (g ++ [1] ++ concat (map (fun c => f c ++ [1]) cs) ++ g) + 1 = S k * (2 + length cs).
Proof.
  intros Hg H. rewrite !app_length. cbn [length]. enough (E : length (concat (map (fun c => f c ++ [1]) cs)) = S k * length cs) by lia.
  induction H as [|c cs Hc H IH]; [cbn; lia|]. cbn [map concat length]. rewrite !app_length, IH, Hc. cbn [length]. lia.
Qed.
Lemma printed_standard y p s m ws : (str_len s < 2 ^ 32)%N -> barcode y p s = Ret (Ok m) -> scan m = Some ws -> standard y ws.
Proof.
  intros Hs H HW. destruct y; try exact I. pose proof (accepted_known SCode11 p s m ltac:(discriminate) Hs H) as [K _].
  cbn [barcode standard] in *. apply run_Ret in H. destruct H as [b [HN HE]].
  pose proof (code11_accepted p s b (below_48 _ Hs) HN) as E. rewrite HE in E. apply Ret_inj in E. subst m.
  change (s ++ [c11_C s] ++ (if Nat.ltb 10 (length s) then [c11_K s] else [])) with (c11_checked s) in HW.
  assert (KC : Forall (fun c => In c c11_chars) (c11_checked s)).
  { apply Forall_app. split; [exact K|]. constructor; [apply char_of_In; apply N.mod_lt; discriminate|].
    destruct (Nat.ltb 10 (length s)); [|constructor]. constructor; [apply char_of_In; apply N.mod_lt; discriminate | constructor]. }
  rewrite c11_symbol_scan in HW by assumption. injection HW as <-.
  pose proof (gap_length c11_guard c11_pattern (c11_checked s) 5 eq_refl (c11_lengths _ KC)) as GL.
  change (c11_guard ++ [1] ++ concat (map (fun c => c11_pattern c ++ [1]) (c11_checked s)) ++ c11_guard) with (c11_symbol (c11_checked s)) in GL.
  assert (LC : length (c11_checked s) <> 12).
  { unfold c11_checked. rewrite !app_length. cbn [length]. destruct (Nat.ltb 10 (length s)) eqn:E; cbn [length];
      [apply Nat.ltb_lt in E | apply Nat.ltb_ge in E]; unfold str, char in *; lia. }
  lia.
Qed.
Lemma reprint y p ws r : y <> SCode128 -> standard y ws -> read_as y ws = Some r -> printable y r ->
  exists m ws', barcode y p (source y r) = Ret (Ok m) /\ scan m = Some ws' /\ m = render ws' ++ tail y /\ alike y ws ws'.
Proof.
  intros HY HS H HP. destruct (source_fine y ws r HY HS H HP) as (K & F & V & EV & RB).
  destruct (accepts y p _ HY K F V EV) as [m HB]. pose proof (fits_small _ _ K F) as Hs.
  pose proof (barcode_exact y p _ m (below_48 _ Hs) (fun e => False_ind _ (HY e)) HB) as HX.
  destruct (shape_scan y m (barcode_shape y p _ m (below_48 _ Hs) HB)) as (ws' & HW & HM & _). exists m, ws'.
  split; [assumption|]. split; [assumption|]. split; [assumption|].
  unfold read_modules in HX. rewrite HW in HX. cbn [obind] in HX.
  assert (E : read_as y ws' = Some r).
  { destruct y; try contradiction; cbn [reads_back] in RB, HX; congruence. }
  apply (reading_alike y ws ws' r); try assumption. now apply (printed_standard y p (source y r) m).
Qed.

(** ** Nothing else can be printed *)
Lemma itf_size ws ds : read_itf ws = Some ds -> length ws = 7 + 5 * length ds.
Proof.
  intros H. apply itf_form in H. destruct H as (bs & g & rs & -> & HF & HR & ->). rewrite !app_length. cbn [length].
  enough (E : length (concat bs) = 5 * length (concat rs)) by lia. revert rs HR.
  induction HF as [|b bs Lb HF IH]; intros rs HR; [apply read_all_nil in HR; subst; reflexivity|].
  apply read_all_cons in HR. destruct HR as (x & xs & Hx & HR & ->). apply itf_block_two in Hx. cbn [concat]. rewrite !app_length, (IH xs HR). lia.
Qed.
Lemma stf_size ws ds : read_stf ws = Some ds -> length ws = 11 + 10 * length ds.
Proof.
  intros H. apply stf_form in H. destruct H as (a & bs & z & -> & Ha & Hz & HF & HR). apply squash_length in Ha, Hz.
  rewrite !app_length, Ha, Hz. cbn [length]. pose proof (read_all_length _ _ _ HR) as L.
  enough (E : length (concat bs) = 10 * length bs) by lia. clear - HF.
  induction HF as [|b bs Lb HF IH]; [reflexivity|]. cbn [concat length]. rewrite app_length, IH. lia.
Qed.
Lemma printed_printable y p s m ws ws' r : y <> SCode128 -> read_as y ws = Some r -> (str_len s < 2 ^ 32)%N ->
  barcode y p s = Ret (Ok m) -> scan m = Some ws' -> alike y ws ws' -> standard y ws /\ printable y r.
Proof.
  intros HY H Hs HB HW HA. destruct (accepted_known y p s m HY Hs HB) as [K F].
  pose proof (barcode_exact y p s m (below_48 _ Hs) (fun e => False_ind _ (HY e)) HB) as HX.
  pose proof (printed_standard y p s m ws' Hs HB HW) as HS.
  unfold read_modules in HX. rewrite HW in HX. cbn [obind] in HX. clear HB HW.
  destruct y; try contradiction; cbn [alike standard printable fits reads_back read_as] in *; subst; (split; [try exact I; try assumption|]);
    try (destruct r; exact I).
  - rewrite H in HX. injection HX as ->. lia.
  - rewrite H in HX. injection HX as ->. split; [apply c39_check_valid|]. rewrite app_length. cbn [length]. lia.
  - rewrite H in HX. injection HX as ->. lia.
  - rewrite H in HX. injection HX as ->. lia.
  - rewrite H in HX. destruct (existsb (fun c : N => (c =? ch "+")%N) s) eqn:E; [discriminate|]. injection HX as ->. rewrite map_length. split; [lia|].
    intros X. apply in_map_iff in X. destruct X as (c & EC & IC). apply exchange_plus in EC. subst c.
    assert (Y : existsb (fun c => (c =? ch "+")%N) s = true) by (apply existsb_exists; exists (ch "+"); split; [assumption | reflexivity]). congruence.
  - apply option_map_Some in H. destruct H as (ds & H & ->). apply option_map_Some in HX. destruct HX as (ds' & HX & E). injection E as <-.
    apply itf_size in H, HX. apply (f_equal (@length nat)) in HA. unfold squash in HA. rewrite !map_length in HA.
    destruct (Nat.even (length s)) eqn:EV; [|rewrite app_length in HX; cbn [length] in HX].
    + unfold digits_of in HX. rewrite map_length in HX. unfold str, char in *. lia.
    + unfold digits_of in HX. rewrite map_length in HX. assert (length s <> 256) by (intros X; rewrite X in EV; discriminate). unfold str, char in *. lia.
  - apply option_map_Some in H. destruct H as (ds & H & ->). apply option_map_Some in HX. destruct HX as (ds' & HX & E). injection E as <-.
    apply stf_size in H, HX. apply (f_equal (@length nat)) in HA. unfold squash in HA. rewrite !map_length in HA.
    unfold digits_of in HX. rewrite map_length in HX. unfold str, char in *. lia.
Qed.

(** ** Code 128: every sequence of values can be spelled *)
Inductive meaning_of : Type := MSwitch (k : cset) | MText (t : str).
Definition means (k : cset) (v : N) : meaning_of :=
  (match k with
   | CC => if v <? 100 then MText [48 + v / 10; 48 + v mod 10] else if v =? 100 then MSwitch CB
           else if v =? 101 then MSwitch CA else MText [FNC1]
   | _ =>
     if v <? 96 then MText [match k with CA => if v <? 64 then v + 32 else v - 64 | _ => if v <? 95 then v + 32 else 247 end]
     else if v =? 96 then MText [FNC3] else if v =? 97 then MText [FNC2] else if v =? 98 then MText [SHIFT]
     else if v =? 99 then MSwitch CC
     else if v =? 100 then match k with CA => MSwitch CB | _ => MText [FNC4] end
     else if v =? 101 then match k with CA => MText [FNC4] | _ => MSwitch CA end
     else MText [FNC1]
   end)%N.
Fixpoint build (k : cset) (vs : list N) : str * list segment :=
  match vs with
  | [] => ([], [])
  | v :: tl => match means k v with
               | MSwitch k' => let '(b, rest) := build k' tl in ([], (k', b) :: rest)
               | MText t => let '(b, rest) := build k tl in (t ++ b, rest)
               end
  end.
Lemma value_cases v (P : N -> Prop) : (v <= 102)%N -> (forall n, n < 103 -> P (N.of_nat n)) -> P v.
Proof. intros H F. replace v with (N.of_nat (N.to_nat v)) by lia. apply F. lia. Qed.
Definition legalb (k : cset) (c : char) : bool :=
  (match k with
   | CA => (c <? 96) || existsb (N.eqb c) [FNC1; FNC2; FNC3; FNC4; SHIFT]
   | CB => (32 <=? c) && (c <=? 126) || (c =? 247) || existsb (N.eqb c) [FNC1; FNC2; FNC3; FNC4; SHIFT]
   | CC => digit c || (c =? FNC1)
   end)%N.
Lemma legalb_ok k c : legalb k c = true -> legal k c.
Proof.
  assert (E : forall l, existsb (N.eqb c) l = true -> In c l).
  { intros l H. apply existsb_exists in H. destruct H as (x & I & H). apply N.eqb_eq in H. now subst. }
  destruct k; unfold legalb, legal; intros H; apply orb_prop in H; destruct H as [H|H].
  - left. now apply N.ltb_lt.
  - right. apply E. exact H.
  - apply orb_prop in H. destruct H as [H|H].
    + left. apply andb_prop in H. rewrite !N.leb_le in H. exact H.
    + right. left. now apply N.eqb_eq.
  - right. right. apply E. exact H.
  - now left.
  - right. now apply N.eqb_eq.
Qed.
Definition means_ok (k : cset) (v : N) : bool :=
  match means k v with
  | MSwitch k' => (switch_value k' =? v)%N && negb (start_value k' =? start_value k)%N
  | MText t => forallb (legalb k) t && match k with
      | CC => match t with [x; z] => digit x && digit z && (pair_value x z =? v)%N | [x] => negb (digit x) && (fn_value CC x =? v)%N | _ => false end
      | _ => match t with [x] => (char_value k x =? v)%N | _ => false end
      end
  end.
Lemma means_all : forallb (fun v => means_ok CA (N.of_nat v) && means_ok CB (N.of_nat v) && means_ok CC (N.of_nat v)) (seq 0 103) = true.
Proof. vm_compute. reflexivity. Qed.
Lemma means_fine k v : (v <= 102)%N -> means_ok k v = true.
Proof.
  intros H. apply (value_cases v (fun v => means_ok k v = true)); [assumption|]. intros n Hn. pose proof means_all as A. rewrite forallb_forall in A.
  specialize (A n). rewrite in_seq in A. specialize (A ltac:(lia)). apply andb_prop in A. destruct A as [A C]. apply andb_prop in A.
  destruct A as [A B]. destruct k; assumption.
Qed.
Lemma digits_in_app a b : digits_in (a ++ b) = digits_in a + digits_in b.
Proof. unfold digits_in. rewrite filter_app. apply app_length. Qed.
Lemma build_ok vs : Forall (fun v => (v <= 102)%N) vs -> forall k,
  let '(b, rest) := build k vs in message_ok ((k, b) :: rest) /\
    body_values k b ++ concat (map (fun x => switch_value (fst x) :: body_values (fst x) (snd x)) rest) = vs.
Proof.
  induction 1 as [|v vs Hv H IH]; intros k; cbn [build].
  - split; [|now destruct k]. split; [discriminate|]. split; [|exact I]. constructor; [split; [constructor | reflexivity] | constructor].
  - pose proof (means_fine k v Hv) as HM. unfold means_ok in HM. destruct (means k v) as [k'|t].
    + specialize (IH k'). destruct (build k' vs) as [b rest]. destruct IH as [(_ & IF & IC) IV].
      apply andb_prop in HM. destruct HM as [HM HN]. apply N.eqb_eq in HM. split.
      * split; [discriminate|]. split; [constructor; [split; [constructor | reflexivity] | assumption]|].
        cbn [map fst] in *. split; [|assumption]. intros E. subst k'. rewrite N.eqb_refl in HN. discriminate.
      * cbn [map concat fst snd app]. rewrite HM. replace (body_values k []) with (@nil N) by now destruct k. cbn [app]. f_equal. exact IV.
    + specialize (IH k). destruct (build k vs) as [b rest]. destruct IH as [(_ & IF & IC) IV].
      apply andb_prop in HM. destruct HM as [HL HM]. rewrite forallb_forall in HL.
      apply Forall_cons_iff in IF. destruct IF as [[I1 I2] IF]. cbn [fst snd] in *. split.
      * split; [discriminate|]. split; [|exact IC]. constructor; [|assumption]. split; cbn [fst snd].
        -- apply Forall_app. split; [|assumption]. apply Forall_forall. intros c Hc. apply legalb_ok. now apply HL.
        -- intros ->. rewrite digits_in_app. destruct t as [|x [|z [|? ?]]]; try discriminate.
           ++ apply andb_prop in HM. destruct HM as [HM _]. apply negb_true_iff in HM. unfold digits_in at 1. cbn [filter]. rewrite HM.
              cbn [length]. now apply I2.
           ++ apply andb_prop in HM. destruct HM as [HM _]. apply andb_prop in HM. destruct HM as [H1 H2].
              unfold digits_in at 1. cbn [filter]. rewrite H1, H2. cbn [length Nat.add Nat.even]. now apply I2.
      * rewrite <- IV. clear IV IC IF I1 I2 HL. destruct k; destruct t as [|x [|z [|? ?]]]; try discriminate.
        -- apply N.eqb_eq in HM. cbn [body_values map app]. now rewrite HM.
        -- apply N.eqb_eq in HM. cbn [body_values map app]. now rewrite HM.
        -- apply andb_prop in HM. destruct HM as [H1 HM]. apply N.eqb_eq in HM. apply negb_true_iff in H1.
           cbn [body_values app pair_values]. rewrite H1, HM. reflexivity.
        -- apply andb_prop in HM. destruct HM as [HM H3]. apply andb_prop in HM. destruct HM as [H1 H2]. apply N.eqb_eq in H3.
           cbn [body_values app pair_values]. rewrite H1, H2, H3. reflexivity.
Qed.
Lemma values_spelled k vs : Forall (fun v => (v <= 102)%N) vs -> exists segs, message_ok segs /\ message_values segs = start_value k :: vs.
Proof.
  intros H. pose proof (build_ok vs H k) as G. destruct (build k vs) as [b rest]. destruct G as [GM GV].
  exists ((k, b) :: rest). split; [assumption|]. cbn [message_values]. now rewrite GV.
Qed.
Lemma decode_values vs : forall k sh r, decode k sh vs = Some r -> Forall (fun v => (v <= 102)%N) vs.
Proof.
  induction vs as [|v vs IH]; intros k sh r H; [constructor|]. cbn [decode] in H.
  assert (HV : interpret (if sh then shifted k else k) v <> None -> (v <= 102)%N).
  { generalize (if sh then shifted k else k). intros k' HN. destruct (N.leb v 102) eqn:E; [now apply N.leb_le|]. apply N.leb_gt in E.
    exfalso. apply HN. unfold interpret.
    replace (v <? 100)%N with false by (symmetry; apply N.ltb_ge; lia). replace (v <? 96)%N with false by (symmetry; apply N.ltb_ge; lia).
    replace (v =? 96)%N with false by (symmetry; apply N.eqb_neq; lia). replace (v =? 97)%N with false by (symmetry; apply N.eqb_neq; lia).
    replace (v =? 98)%N with false by (symmetry; apply N.eqb_neq; lia). replace (v =? 99)%N with false by (symmetry; apply N.eqb_neq; lia).
    replace (v =? 100)%N with false by (symmetry; apply N.eqb_neq; lia). replace (v =? 101)%N with false by (symmetry; apply N.eqb_neq; lia).
    replace (v =? 102)%N with false by (symmetry; apply N.eqb_neq; lia). now destruct k'. }
  destruct (interpret (if sh then shifted k else k) v) as [[l| |k']|]; [| | |discriminate].
  - apply obind_Some in H. destruct H as [r' [H _]]. constructor; [now apply HV | now apply IH in H].
  - constructor; [now apply HV | now apply IH in H].
  - constructor; [now apply HV | now apply IH in H].
Qed.
Local Opaque c128_table.
Lemma read_values_inv bs vs : read_all (fun b => option_map N.of_nat (which c128_table b)) bs = Some vs -> bs = map c128_pattern vs.
Proof.
  intros H. apply (read_all_inv _ c128_pattern (fun _ => True)) in H; [apply H|]. intros x v E. apply which_N in E.
  split; [|exact I]. unfold c128_pattern. apply E.
Qed.
Lemma c128_inv ws r : read_c128 ws = Some r -> exists k vs, Forall (fun v => (v <= 102)%N) vs /\
  ws = c128_symbol (start_value k :: vs) /\ length ws = 6 * (length vs + 2) + 7.
Proof.
  intros H. apply c128_form in H. destruct H as (bs & vs & -> & HF & HR & HD). apply read_values_inv in HR. subst bs.
  unfold decode_checked in HD. destruct (rev vs) as [|chk front] eqn:E; [discriminate|].
  destruct (rev front) as [|st data] eqn:E'; [discriminate|]. apply guard_Some in HD. destruct HD as [HC HD]. apply N.eqb_eq in HC.
  assert (EV : vs = (st :: data) ++ [chk]) by (rewrite <- (rev_involutive vs), E; cbn [rev]; now rewrite E').
  assert (HK : exists k, st = start_value k /\ decode k false data = Some r).
  { destruct (st =? 103)%N eqn:E1; [apply N.eqb_eq in E1; now exists CA|]. destruct (st =? 104)%N eqn:E2; [apply N.eqb_eq in E2; now exists CB|].
    destruct (st =? 105)%N eqn:E3; [apply N.eqb_eq in E3; now exists CC | discriminate]. }
  destruct HK as (k & -> & HK). exists k, data. apply decode_values in HK. split; [assumption|]. split.
  - unfold c128_symbol, symbol_with. now rewrite EV, HC.
  - rewrite app_length. change (length c128_stop) with 7. f_equal.
    assert (L : length (concat (map c128_pattern vs)) = 6 * length (map c128_pattern vs)).
    { clear - HF. induction HF as [|b bs Lb HF IH]; [reflexivity|]. cbn [concat length]. rewrite app_length, IH. lia. }
    rewrite L, map_length, EV, app_length. cbn [length]. lia.
Qed.
Lemma reprint_128 p ws r : read_c128 ws = Some r -> (len ws <= 38947)%N -> exists s, barcode SCode128 p s = Ret (Ok (render ws)).
Proof.
  intros H HL. destruct (c128_inv ws r H) as (k & vs & HV & -> & HN). destruct (values_spelled k vs HV) as (segs & HM & E).
  exists (spell segs). cbn [barcode]. unfold run. rewrite code128_new_spell by assumption. cbn [bind].
  rewrite code128_encode_ok; [|assumption|].
  - cbn [bind]. now rewrite E.
  - rewrite E. unfold len in *. rewrite HN in HL. cbn [length]. lia.
Qed.
