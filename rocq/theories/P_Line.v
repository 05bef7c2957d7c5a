(** * Proofs: parts of a line across a page of symbols *)
From Verif Require Import Rust M_Error Symbology M_Use S_Barcode S_Ean S_Text S_Linear S_Codabar S_Tf S_Code128 S_All S_Row S_Quiet S_Line S_Any
  P_Rust P_Barcode P_Ean P_Codabar P_Code39 P_Code93 P_Code11 P_Code128b P_Tf P_All P_Apart P_Damage P_Cell P_Cut P_Stretch P_Wrong P_Reprint P_Row P_Quiet P_Any.
Local Open Scope nat_scope.

(** ** Readers accept no element wider than four modules *)
Definition narrow4 (w : nat) : Prop := 1 <= w <= 4.
Lemma squash_narrow ws l : squash ws = l -> Forall (fun x => x <> 0) l -> Forall narrow4 ws.
Proof.
  intros <-. unfold squash. rewrite Forall_map. apply Forall_impl. intros w H. unfold narrow4. destruct w as [|[|[|[|w]]]]; cbn in H; try lia; congruence.
Qed.
Lemma gapped_narrow (ws : list nat) cs : ws ++ [1] = concat (map (fun c => c ++ [1]) cs) -> Forall (Forall narrow4) cs -> Forall narrow4 ws.
Proof.
  intros E H. assert (G : Forall narrow4 (ws ++ [1])).
  { rewrite E. apply Forall_concat, Forall_map. revert H. apply Forall_impl. intros c Hc. apply Forall_app. split; [exact Hc|]. constructor; [unfold narrow4; lia | constructor]. }
  now apply Forall_app in G.
Qed.
Definition narrow_tableb (t : list (list nat)) : bool := forallb (forallb (fun w => (1 <=? w) && (w <=? 4))) t.
Lemma narrow_table t : narrow_tableb t = true -> Forall (Forall narrow4) t.
Proof.
  intros H. apply Forall_forall. intros b Hb. unfold narrow_tableb in H. rewrite forallb_forall in H. specialize (H b Hb). rewrite forallb_forall in H.
  apply Forall_forall. intros w Hw. specialize (H w Hw). apply andb_prop in H. destruct H as [H1 H2]. apply Nat.leb_le in H1, H2. split; assumption.
Qed.
Lemma narrow_one b : narrow_tableb [b] = true -> Forall narrow4 b.
Proof. intros H. apply narrow_table in H. now inversion H. Qed.
Lemma chars_narrow l t : narrow_tableb t = true -> forall bs r, read_all (read_char l t) bs = Some r -> Forall (Forall narrow4) bs.
Proof.
  intros HT bs. induction bs as [|b bs IH]; intros r H; [constructor|]. apply read_all_cons in H. destruct H as (c & cs & Hb & H & _).
  constructor; [|now apply (IH cs)]. apply P_Apart.read_char_sound in Hb. destruct Hb as (v & Hv & _). apply nth_error_In in Hv.
  apply narrow_table in HT. rewrite Forall_forall in HT. now apply HT.
Qed.
Lemma tf_nonzero d : is_digit d -> Forall (fun x => x <> 0) (tf_digit d).
Proof. intros H. apply (digit_cases d (fun d => Forall (fun x => x <> 0) (tf_digit d)) H); repeat (constructor; [discriminate|]); constructor. Qed.
Lemma c128_narrow v : (v < 106)%N -> Forall narrow4 (c128_pattern v).
Proof.
  intros H. unfold c128_pattern. pose proof (narrow_table c128_table eq_refl) as T. rewrite Forall_forall in T. apply T. apply nth_In.
  change (length c128_table) with 106. lia.
Qed.
Lemma read_narrow y ws r : read_as y ws = Some r -> Forall narrow4 ws.
Proof.
  intros H. destruct y; cbn [read_as] in H;
    try (apply option_map_Some in H; destruct H as (l & H & _)).
  - apply ean13_inv in H. destruct H as (-> & _ & D & _). exact (ean13_symbol_width l D).
  - apply ean8_inv in H. destruct H as (-> & _ & D & _). exact (ean8_symbol_width l D).
  - apply upca_inv in H. destruct H as (-> & _ & D & _). exact (upca_symbol_width l D).
  - destruct (read_ean2 ws) as [l|] eqn:E.
    + apply ean2_inv in E. destruct E as (-> & _ & D). exact (proj2 (ean2_shape l D)).
    + apply option_map_Some in H. destruct H as (l & H & _). apply ean5_inv in H. destruct H as (-> & _ & D). exact (proj2 (ean5_shape l D)).
  - apply c39_form in H. destruct H as (mid & E & _ & _ & HR). apply (gapped_narrow _ _ E). apply (chars_narrow _ c39_table eq_refl) in HR.
    assert (HS : Forall narrow4 c39_star) by (apply narrow_one; reflexivity).
    constructor; [exact HS|]. apply Forall_app. split; [exact HR | constructor; [exact HS | constructor]].
  - apply c39_form in H. destruct H as (mid & E & _ & _ & HR). apply (gapped_narrow _ _ E). apply (chars_narrow _ c39_table eq_refl) in HR.
    assert (HS : Forall narrow4 c39_star) by (apply narrow_one; reflexivity).
    constructor; [exact HS|]. apply Forall_app. split; [exact HR | constructor; [exact HS | constructor]].
  - apply c93_form' in H. destruct H as (mid & -> & _ & HT). pose proof (narrow_table c93_table eq_refl) as T. rewrite Forall_forall in T.
    assert (HS : Forall narrow4 c93_star) by (apply narrow_one; reflexivity).
    apply Forall_app. split; [|constructor; [unfold narrow4; lia | constructor]]. apply Forall_concat. constructor; [exact HS|].
    apply Forall_app. split; [|constructor; [exact HS | constructor]]. revert HT. apply Forall_impl. intros b Hb. now apply T.
  - apply c11_form in H. destruct H as (mid & raw & E & _ & _ & HR & _). apply (gapped_narrow _ _ E). apply (chars_narrow _ c11_table eq_refl) in HR.
    assert (HS : Forall narrow4 c11_guard) by (apply narrow_one; reflexivity).
    constructor; [exact HS|]. apply Forall_app. split; [exact HR | constructor; [exact HS | constructor]].
  - apply cod_inv in H. destruct H as (E & HF). apply (gapped_narrow _ _ E). apply Forall_map. revert HF. apply Forall_impl. intros c Hc.
    pose proof (narrow_table cod_table eq_refl) as T. rewrite Forall_forall in T. apply T. now apply P_Alphabet.pattern_In.
  - apply c128_inv in H. destruct H as (k & vs & HV & -> & _). rewrite c128_symbol_with. apply Forall_app. split.
    + apply Forall_concat, Forall_map, Forall_app. split.
      * constructor; [destruct k; apply c128_narrow; reflexivity|]. revert HV. apply Forall_impl. intros v Hv. apply c128_narrow. lia.
      * constructor; [|constructor]. apply c128_narrow. unfold c128_check.
        match goal with |- (?x mod 103 < 106)%N => pose proof (N.mod_lt x 103 ltac:(discriminate)); lia end.
    + apply narrow_one. reflexivity.
  - apply itf_inv in H. destruct H as (E & HD & _). apply (squash_narrow _ _ E). unfold itf_symbol. apply Forall_app. split; [repeat (constructor; [discriminate|]); constructor|].
    apply Forall_app. split; [|repeat (constructor; [discriminate|]); constructor]. apply pairs_Forall in HD. apply Forall_concat, Forall_map. revert HD. apply Forall_impl.
    intros [a b] [Ha Hb]. destruct (itf_pair_facts 2 a b Ha Hb) as [_ F]. revert F. apply Forall_impl. intros x. lia.
  - apply stf_inv in H. destruct H as (E & HD). apply (squash_narrow _ _ E). unfold stf_symbol. apply Forall_app. split; [repeat (constructor; [discriminate|]); constructor|].
    apply Forall_app. split; [|repeat (constructor; [discriminate|]); constructor]. apply Forall_concat, Forall_map. revert HD. apply Forall_impl.
    intros d Hd. destruct (stf_digit_facts 2 d Hd) as [_ F]. revert F. apply Forall_impl. intros x. lia.
Qed.

(** ** Words without five light modules in a row *)
Fixpoint longest (n : nat) (l : list N) : nat :=
  match l with
  | [] => n
  | 0%N :: tl => longest (S n) tl
  | _ :: tl => Nat.max n (longest 0 tl)
  end.
Lemma longest_lights k n l : longest n (repeat 0%N k ++ l) = longest (n + k) l.
Proof. revert n. induction k as [|k IH]; intros n; cbn [repeat app longest]; [f_equal; lia | rewrite IH; f_equal; lia]. Qed.
Lemma longest_darks k n l : longest n (repeat 1%N (S k) ++ l) = Nat.max n (longest 0 l).
Proof. revert n. induction k as [|k IH]; intros n; [reflexivity|]. change (repeat 1%N (S (S k)) ++ l) with (1%N :: repeat 1%N (S k) ++ l). cbn [longest]. rewrite IH. lia. Qed.
Lemma longest_mono l : forall n k, n <= k -> longest n l <= longest k l.
Proof. induction l as [|[|x] l IH]; intros n k H; cbn [longest]; [lia | apply IH; lia | lia]. Qed.
Lemma longest_self l : forall n, n <= longest n l.
Proof. induction l as [|[|x] l IH]; intros n; cbn [longest]; [lia | specialize (IH (S n)); lia | lia]. Qed.
Lemma longest_part k u v : forall n, k <= longest n (u ++ repeat 0%N k ++ v).
Proof.
  induction u as [|[|x] u IH]; intros n; cbn [app longest].
  - rewrite longest_lights. pose proof (longest_self v (n + k)). lia.
  - apply IH.
  - specialize (IH 0). lia.
Qed.
Lemma longest_render ws : Forall narrow4 ws ->
  (forall n, n <= 4 -> longest n (render_from 1 ws) <= 4) /\ longest 0 (render_from 0 ws) <= 4.
Proof.
  intros H. induction H as [|w ws Hw H [I1 I2]]; [split; intros; cbn [render_from longest]; lia|]. unfold narrow4 in Hw. split.
  - intros n Hn. cbn [render_from]. destruct w as [|w]; [lia|]. rewrite longest_darks. change (1 - 1)%N with 0%N. lia.
  - cbn [render_from]. rewrite longest_lights. change (1 - 0)%N with 1%N. apply I1. lia.
Qed.
Definition lights5 : list N := repeat 0%N 5.
Definition solid (c : list N) : Prop :=
  (exists t, c = 1%N :: t) /\ (exists t, c = t ++ [1%N]) /\ (forall u v, c <> u ++ lights5 ++ v).
Lemma render_ends ws : Nat.even (length ws) = false -> Forall (fun w => 1 <= w) ws -> (exists t, render ws = 1%N :: t) /\ (exists t, render ws = t ++ [1%N]).
Proof.
  intros HO HP. assert (HN : ws <> []) by (intros ->; discriminate). split; [now apply render_starts|].
  destruct (render_starts (rev ws)) as [t Et].
  - intros C. apply (f_equal (@rev nat)) in C. rewrite rev_involutive in C. contradiction.
  - now apply Forall_rev.
  - exists (rev t). apply (f_equal (@rev N)) in Et. rewrite <- render_rev, rev_involutive in Et by exact HO. exact Et.
Qed.
Lemma render_solid ws : Nat.even (length ws) = false -> Forall narrow4 ws -> solid (render ws).
Proof.
  intros HO HN. assert (HP : Forall (fun w => 1 <= w) ws) by (revert HN; apply Forall_impl; unfold narrow4; lia).
  destruct (render_ends ws HO HP) as [S1 S2]. split; [exact S1|]. split; [exact S2|]. intros u v E.
  pose proof (longest_part 5 u v 0) as L. fold lights5 in L. rewrite <- E in L. destruct (longest_render ws HN) as [G _]. specialize (G 0 ltac:(lia)). unfold render in L. lia.
Qed.
Lemma dark_in_lights k u v : repeat 0%N k <> u ++ 1%N :: v.
Proof. intros E. assert (H : In 1%N (repeat 0%N k)) by (rewrite E; apply in_elt). apply repeat_spec in H. discriminate. Qed.
Lemma app_cases {A} (x1 x2 y1 y2 : list A) : x1 ++ x2 = y1 ++ y2 ->
  exists l, (x1 = y1 ++ l /\ y2 = l ++ x2) \/ (y1 = x1 ++ l /\ x2 = l ++ y2).
Proof. apply app_eq_app. Qed.
Lemma lights_suffix u w l : u ++ lights5 = w ++ 1%N :: l -> exists l0, l = l0 ++ lights5.
Proof.
  intros E. apply app_cases in E. destruct E as (t & [[-> E]|[-> E]]).
  - destruct t as [|x t]; [cbn [app] in E; discriminate|]. injection E as <- ->. now exists t.
  - now apply dark_in_lights in E.
Qed.
Lemma same_word c x v w : solid c -> solid x -> c ++ lights5 ++ v = x ++ lights5 ++ w -> c = x.
Proof.
  assert (G : forall c x l z w, solid c -> c = x ++ l -> lights5 ++ w = l ++ z -> l = []).
  { clear. intros c x l z w (_ & (t & Et) & HN) E E2. destruct l as [|e l _] using rev_ind; [reflexivity|]. exfalso.
    assert (e = 1%N). { rewrite Et, app_assoc in E. apply app_inj_tail in E. destruct E as [_ E]. now symmetry. } subst e.
    rewrite <- app_assoc in E2. apply app_cases in E2. destruct E2 as (k & [[E2 E3]|[E2 E3]]).
    - destruct k as [|q k].
      + rewrite app_nil_r in E2. subst l. now apply HN in E.
      + cbn [app] in E3. injection E3 as <- _. exact (dark_in_lights 5 _ _ E2).
    - subst l. rewrite <- !app_assoc in E. now apply HN in E. }
  intros Hc Hx E. apply app_cases in E. destruct E as (l & [[E1 E2]|[E1 E2]]).
  - rewrite (G _ _ _ _ _ Hc E1 E2), app_nil_r in E1. exact E1.
  - rewrite (G _ _ _ _ _ Hx E1 E2), app_nil_r in E1. now symmetry.
Qed.
Lemma word_of_row (xs : list (list N * nat)) : Forall (fun x => solid (fst x) /\ 5 <= snd x) xs ->
  forall a u c v, solid c -> repeat 0%N a ++ in_a_row xs = u ++ lights5 ++ c ++ lights5 ++ v -> In c (map fst xs).
Proof.
  intros H. induction H as [|[x g] xs [Hx Hg] H IH]; intros a u c v Hc E; cbn [fst snd] in *.
  - exfalso. destruct Hc as ((t & ->) & _). cbn [in_a_row flat_map] in E. rewrite app_nil_r, app_assoc in E. now apply dark_in_lights in E.
  - cbn [map fst]. change (in_a_row ((x, g) :: xs)) with ((x ++ repeat 0%N g) ++ in_a_row xs) in E.
    replace g with (5 + (g - 5)) in E by lia. rewrite repeat_app in E. fold lights5 in E. rewrite <- !app_assoc in E.
    assert (B : forall v, c ++ v = x ++ lights5 ++ repeat 0%N (g - 5) ++ in_a_row xs -> (exists v0, v = lights5 ++ v0) -> x = c).
    { intros v1 E1 [v0 ->]. symmetry. exact (same_word c x _ _ Hc Hx E1). }
    rewrite (app_assoc u) in E. apply app_cases in E. destruct E as (l & [[E1 E2]|[E1 E2]]).
    + destruct Hc as ((t & Et) & Hc'). destruct l as [|e l].
      * left. apply (B (lights5 ++ v)); [|now exists v]. exact E2.
      * rewrite Et in E2. cbn [app] in E2. injection E2 as <- _. now apply dark_in_lights in E1.
    + destruct l as [|e l].
      * left. apply (B (lights5 ++ v)); [|now exists v]. now symmetry.
      * destruct Hx as ((t & Et) & (t' & Et') & HN). assert (e = 1%N) by (rewrite Et in E2; cbn [app] in E2; congruence). subst e.
        apply app_cases in E2. destruct E2 as (k & [[E2 E3]|[E2 E3]]).
        -- exfalso. apply lights_suffix in E1. destruct E1 as [l0 ->]. rewrite E2 in HN. apply (HN (1%N :: l0) k). cbn [app]. now rewrite <- app_assoc.
        -- right. rewrite E2, Et', <- app_assoc in E1. cbn [app] in E1. rewrite app_assoc in E1. apply lights_suffix in E1. destruct E1 as [l0 ->].
           rewrite <- app_assoc in E3. apply (IH (5 + (g - 5)) l0 c v Hc). rewrite repeat_app. fold lights5. rewrite <- app_assoc. exact E3.
Qed.

(** ** What is read from a part of the line *)
Lemma core_odd F : F <> [] -> Nat.even (length (core F)) = false.
Proof.
  intros HN. unfold core. destruct (Nat.even (length F)) eqn:E; [|exact E]. destruct F as [|w F _] using rev_ind; [congruence|].
  rewrite removelast_last. rewrite app_length, Nat.add_1_r, Nat.even_succ, <- Nat.negb_even in E. now destruct (Nat.even (length F)).
Qed.
Lemma scan_odd m ws : scan m = Some ws -> Nat.even (length ws) = false.
Proof.
  intros HS. pose proof (bits_of m ws HS) as HB. destruct (runs_form m HB) as (c & F & Hc & HF & ->).
  destruct (scan_core c F ws Hc HF HS) as [-> HN]. now apply core_odd.
Qed.
Lemma zones_5 y : 5 <= fst (quiet_zones y) /\ 5 <= snd (quiet_zones y).
Proof. destruct y; cbn [quiet_zones fst snd]; lia. Qed.
Lemma quiet_form y l r : read_quiet y l = Some r -> exists ws j k,
  l = repeat 0%N j ++ render ws ++ repeat 0%N k /\ 5 <= j /\ 5 <= k /\
  Nat.even (length ws) = false /\ Forall narrow4 ws /\ read_as y ws = Some r.
Proof.
  unfold read_quiet. cbv zeta. intros H. apply guard_Some in H. destruct H as [HZ H]. apply andb_prop in HZ. destruct HZ as [Z1 Z2]. apply Nat.leb_le in Z1, Z2.
  unfold read_modules in H. apply obind_Some in H. destruct H as (ws & HS & HR). pose proof (read_narrow y ws r HR) as HN. pose proof (scan_odd l ws HS) as HO.
  destruct (scan_form l ws HS) as (j & k & E). exists ws, j, k. destruct (zones_5 y) as [Q1 Q2].
  assert (HP : Forall (fun w => 1 <= w) ws) by (revert HN; apply Forall_impl; unfold narrow4; lia).
  destruct (render_ends ws HO HP) as [(t & Et) (t' & Et')].
  assert (L1 : light_before l = j). { rewrite E, light_before_repeat, Et. cbn [app light_before]. lia. }
  assert (L2 : light_after l = k).
  { unfold light_after. rewrite E, !rev_app_distr, !rev_zeros, <- app_assoc, light_before_repeat, Et', rev_app_distr. cbn [rev app light_before]. lia. }
  split; [exact E|]. split; [lia|]. split; [lia|]. auto.
Qed.
Lemma quiet_scan ws j k y : Nat.even (length ws) = false -> Forall narrow4 ws ->
  read_modules y (repeat 0%N j ++ render ws ++ repeat 0%N k) = read_as y ws.
Proof.
  intros HO HN. unfold read_modules. rewrite scan_render_quiet; [reflexivity| |exact HO]. revert HN. apply Forall_impl. unfold narrow4. lia.
Qed.
Definition placed (it : symbology * profile * str * list N * nat) : list N * nat := let '(y, p, s, m, g) := it in (m, g).
Definition good_item (it : symbology * profile * str * list N * nat) : Prop :=
  let '(y, p, s, m, g) := it in (str_len s < 2 ^ 48)%N /\ (y = SCodabar -> cod_framed s) /\ barcode y p s = Ret (Ok m) /\ 5 <= g.
Lemma row_words (items : list (symbology * profile * str * list N * nat)) : Forall good_item items ->
  exists xs, in_a_row (map placed items) = in_a_row xs /\ Forall (fun x => solid (fst x) /\ 5 <= snd x) xs /\
    forall c, In c (map fst xs) -> exists y p s m g ws, In (y, p, s, m, g) items /\ c = render ws /\ m = render ws ++ tail y /\ drawn y ws.
Proof.
  intros H. induction H as [|[[[[y p] s] m] g] items Hi H (xs & E & HF & HX)]; [exists []; split; [reflexivity|]; split; [constructor|]; intros c []|].
  cbn [good_item] in Hi. destruct Hi as (Hs & _ & HB & Hg). destruct (barcode_shape y p s m Hs HB) as (ws & Em & HD).
  exists ((render ws, length (tail y) + g) :: xs). split; [|split].
  - cbn [map placed]. change (in_a_row ((m, g) :: map placed items)) with ((m ++ repeat 0%N g) ++ in_a_row (map placed items)).
    change (in_a_row ((render ws, length (tail y) + g) :: xs)) with ((render ws ++ repeat 0%N (length (tail y) + g)) ++ in_a_row xs).
    rewrite E, repeat_app, <- tail_zeros, Em, <- !app_assoc. reflexivity.
  - constructor; [|exact HF]. cbn [fst snd]. split; [|lia]. destruct (drawn_small y ws HD) as [HO HN]. now apply render_solid.
  - cbn [map fst]. intros c [<-|Hc].
    + exists y, p, s, m, g, ws. split; [now left|]. split; [reflexivity|]. now split.
    + destruct (HX c Hc) as (y1 & p1 & s1 & m1 & g1 & ws1 & HI & H1). exists y1, p1, s1, m1, g1, ws1. split; [now right | exact H1].
Qed.
Lemma found_in_page (items : list (symbology * profile * str * list N * nat)) a l y' r : Forall good_item items ->
  part_of l (page a (map placed items)) -> read_quiet y' l = Some r \/ read_quiet y' (rev l) = Some r ->
  exists y p s m g, In (y, p, s, m, g) items /\ trim l = trim m /\
    (read_quiet y' l = Some r /\ read_modules y' m = Some r \/ read_quiet y' (rev l) = Some r /\ read_modules y' (rev m) = Some r).
Proof.
  intros HI (u & v & HP) HR. destruct (row_words items HI) as (xs & E & HF & HX). unfold page in HP. rewrite E in HP.
  assert (G : forall ws j k, Nat.even (length ws) = false -> Forall narrow4 ws -> l = repeat 0%N j ++ render ws ++ repeat 0%N k -> 5 <= j -> 5 <= k ->
    exists y p s m g, In (y, p, s, m, g) items /\ trim l = trim m /\ (exists t, m = render ws ++ repeat 0%N t) /\ Nat.even (length ws) = false /\ Forall (fun w => 1 <= w) ws).
  { intros ws j k HO HN El Hj Hk. subst l. assert (HC : In (render ws) (map fst xs)).
    { replace j with (j - 5 + 5) in HP by lia. replace k with (5 + (k - 5)) in HP by lia. rewrite !repeat_app in HP. fold lights5 in HP.
      apply (word_of_row xs HF a (u ++ repeat 0%N (j - 5)) (render ws) (repeat 0%N (k - 5) ++ v)); [now apply render_solid|].
      rewrite HP, <- !app_assoc. reflexivity. }
    destruct (HX _ HC) as (y & p & s & m & g & ws' & HIn & Ec & Em & HD). exists y, p, s, m, g. split; [exact HIn|].
    assert (P4 : Forall (fun w => 1 <= w) ws) by (revert HN; apply Forall_impl; unfold narrow4; lia).
    destruct (tail_repeat y) as [t Ht]. rewrite Ht, <- Ec in Em. split; [|split; [now exists t | now split]].
    rewrite trim_render by assumption. subst m. pose proof (trim_render ws 0 t P4 HO) as T. cbn [repeat app] in T. now symmetry. }
  assert (Z : forall n, repeat 0%N n = rev (repeat 0%N n)) by (intros n; symmetry; apply rev_zeros).
  destruct HR as [HR|HR]; destruct (quiet_form y' _ r HR) as (ws & j & k & El & Hj & Hk & HO & HN & HA).
  - destruct (G ws j k HO HN El Hj Hk) as (y & p & s & m & g & HIn & HT & (t & Em) & _ & P4). exists y, p, s, m, g. split; [exact HIn|]. split; [exact HT|]. left. split; [exact HR|].
    unfold read_modules. rewrite Em, scan_render_tail by assumption. exact HA.
  - assert (El' : l = repeat 0%N k ++ render (rev ws) ++ repeat 0%N j).
    { rewrite <- (rev_involutive l), El, !rev_app_distr, !rev_zeros, render_rev by exact HO. now rewrite <- app_assoc. }
    assert (HO' : Nat.even (length (rev ws)) = false) by now rewrite rev_length.
    destruct (G (rev ws) k j HO' (Forall_rev HN) El' Hk Hj) as (y & p & s & m & g & HIn & HT & (t & Em) & _ & P4).
    exists y, p, s, m, g. split; [exact HIn|]. split; [exact HT|]. right. split; [exact HR|].
    rewrite Em, rev_app_distr, rev_zeros, render_rev, rev_involutive by exact HO'. pose proof (quiet_scan ws t 0 y' HO HN) as Q. cbn [repeat] in Q. rewrite app_nil_r in Q.
    rewrite Q. exact HA.
Qed.
Lemma only_whole_symbols (items : list (symbology * profile * str * list N * nat)) a l y' r : Forall good_item items ->
  part_of l (page a (map placed items)) -> read_quiet y' l = Some r \/ read_quiet y' (rev l) = Some r ->
  (y' = SCodabar -> exists t, r = Text t /\ cod_framed t) ->
  exists y p s m g, In (y, p, s, m, g) items /\ trim l = trim m /\ read_quiet y' l = Some r /\ same_kind y y' /\
    exists r0, read_modules y m = Some r0 /\ same_item r r0.
Proof.
  intros HI HP HR HC. destruct (found_in_page items a l y' r HI HP HR) as (y & p & s & m & g & HIn & HT & HF).
  pose proof (proj1 (Forall_forall _ _) HI _ HIn) as Hg. cbn [good_item] in Hg. destruct Hg as (Hs & HCod & HB & _).
  exists y, p, s, m, g. split; [exact HIn|]. split; [exact HT|].
  destruct HF as [[H1 H2]|[_ H2]]; [|now destruct (nothing_backwards y y' p s m r Hs HCod HB HC)].
  destruct (found_once y y' p s m r Hs HCod HB) as (K & _ & R0); [split; [now left | exact HC]|]. now split.
Qed.

(** ** Every symbol with wide enough margins is found *)
Lemma light_after_form l : exists u, l = u ++ repeat 0%N (light_after l).
Proof.
  assert (G : forall l, exists u, rev l = u ++ repeat 0%N (light_before l)).
  { clear. induction l as [|[|x] l [u IH]]; cbn [light_before].
    - now exists [].
    - exists u. cbn [rev]. rewrite IH, <- app_assoc. f_equal. cbn [repeat]. symmetry. apply repeat_cons.
    - exists (rev (N.pos x :: l)). cbn [repeat]. now rewrite app_nil_r. }
  destruct (G (rev l)) as [u E]. rewrite rev_involutive in E. now exists u.
Qed.
Lemma every_symbol_found xs zs a y p s m g : (str_len s < 2 ^ 48)%N -> barcode y p s = Ret (Ok m) ->
  fst (quiet_zones y) <= light_after (page a (map placed xs)) -> snd (quiet_zones y) <= g + length (tail y) ->
  exists l, part_of l (page a (map placed (xs ++ (y, p, s, m, g) :: zs))) /\ trim l = trim m /\ read_quiet y l = read_modules y m.
Proof.
  intros Hs HB H1 H2. pose proof (barcode_shape y p s m Hs HB) as HS. destruct (light_after_form (page a (map placed xs))) as [u Eu].
  set (n := light_after (page a (map placed xs))) in *. exists (with_margins n g m). split; [|split].
  - exists u, (in_a_row (map placed zs)). unfold page in *. rewrite map_app. unfold in_a_row in *. rewrite flat_map_app, app_assoc, Eu.
    cbn [map placed flat_map fst snd]. unfold with_margins. rewrite <- !app_assoc. reflexivity.
  - destruct HS as (ws & Em & HD). destruct (tail_repeat y) as [t Ht]. rewrite Ht in Em. subst m. pose proof (shape_pos y ws HD) as P4. destruct HD as [HO _].
    pose proof (trim_render ws 0 t P4 HO) as T. cbn [repeat app] in T. rewrite T. unfold with_margins. rewrite <- app_assoc, <- repeat_app. now apply trim_render.
  - rewrite read_quiet_margins by exact HS. unfold enough. apply Nat.leb_le in H1, H2. now rewrite H1, H2.
Qed.
