(** * Proofs about the Code 128 check symbol as a detector of misread characters *)
From Coq Require Import ZArith.
From Verif Require Import Rust M_Error M_Code128 Symbology M_Use S_Barcode S_Text S_Linear S_Tf S_Code128 S_All S_Check128
  P_Rust P_Barcode P_Code128 P_Code128b P_Apart P_All.

Lemma decode_bound data : forall k sh, decode k sh data <> None -> Forall (fun v => v <= 102) data.
Proof.
  induction data as [|v tl IH]; intros k sh H; constructor.
  - apply N.le_ngt. intros Hv. apply H. cbn [decode].
    assert (E : forall k', interpret k' v = None).
    { intros k'. unfold interpret.
      replace (v <? 100) with false by (symmetry; apply N.ltb_ge; lia).
      replace (v <? 96) with false by (symmetry; apply N.ltb_ge; lia).
      replace (v =? 96) with false by (symmetry; apply N.eqb_neq; lia).
      replace (v =? 97) with false by (symmetry; apply N.eqb_neq; lia).
      replace (v =? 98) with false by (symmetry; apply N.eqb_neq; lia).
      replace (v =? 99) with false by (symmetry; apply N.eqb_neq; lia).
      replace (v =? 100) with false by (symmetry; apply N.eqb_neq; lia).
      replace (v =? 101) with false by (symmetry; apply N.eqb_neq; lia).
      replace (v =? 102) with false by (symmetry; apply N.eqb_neq; lia).
      now destruct k'. }
    now rewrite E.
  - cbn [decode] in H. destruct (interpret _ v) as [[l| |k']|]; [| | |now elim H].
    + apply (IH k false). intros E. apply H. now rewrite E.
    + now apply (IH k true).
    + now apply (IH k' false).
Qed.
Lemma decode_checked_form vs : decode_checked vs <> None ->
  exists st data, vs = (st :: data) ++ [c128_check (st :: data)] /\
    103 <= st <= 105 /\ Forall (fun v => v <= 102) data.
Proof.
  intros H. unfold decode_checked in H. destruct (rev vs) as [|chk front] eqn:E; [now elim H|].
  destruct (rev front) as [|st data] eqn:E2; [now elim H|].
  destruct (chk =? c128_check (st :: data)) eqn:EC; [|now elim H]. cbn [guard] in H.
  apply N.eqb_eq in EC. exists st, data. split.
  - rewrite <- (rev_involutive vs), E. cbn [rev]. now rewrite E2, EC.
  - destruct (st =? 103) eqn:E3; [apply N.eqb_eq in E3; split; [lia|]; now apply (decode_bound _ _ _ H)|].
    destruct (st =? 104) eqn:E4; [apply N.eqb_eq in E4; split; [lia|]; now apply (decode_bound _ _ _ H)|].
    destruct (st =? 105) eqn:E5; [apply N.eqb_eq in E5; split; [lia|]; now apply (decode_bound _ _ _ H)|].
    now elim H.
Qed.

Lemma position_sum_app a b : forall i,
  position_sum i (a ++ b) = position_sum i a + position_sum (i + N.of_nat (length a)) b.
Proof.
  induction a as [|x a IH]; intros i; cbn [app position_sum length].
  - now rewrite N.add_0_r.
  - rewrite IH. replace (i + N.of_nat (S (length a))) with (i + 1 + N.of_nat (length a)) by lia. lia.
Qed.
(** The weight of the value after [st :: a] is the number of values before it. *)
Lemma c128_sum_split st a v b : c128_sum (st :: a ++ v :: b) =
  st + position_sum 1 a + N.of_nat (length (st :: a)) * v + position_sum (N.of_nat (length (st :: a)) + 1) b.
Proof.
  cbn [c128_sum]. rewrite position_sum_app. cbn [position_sum].
  replace (1 + N.of_nat (length a)) with (N.of_nat (length (st :: a))) by (cbn [length]; lia). lia.
Qed.
Lemma coprime103 d : 0 < d < 103 -> N.gcd 103 d = 1.
Proof.
  intros H. assert (G : forallb (fun x => (x =? 0) || (N.gcd 103 x =? 1)) (range 103) = true) by (vm_compute; reflexivity).
  rewrite forallb_forall in G. specialize (G d). rewrite In_range in G.
  assert (Hd : d < 103) by lia. specialize (G Hd). apply orb_true_iff in G.
  destruct G as [G|G]; apply N.eqb_eq in G; lia.
Qed.
Lemma mod_eq_divides a b n : n <> 0 -> a <= b -> a mod n = b mod n -> (n | b - a).
Proof.
  intros Hn Hab H. exists (b / n - a / n).
  rewrite (N.div_mod a n), (N.div_mod b n) by assumption. rewrite H.
  rewrite N.mul_sub_distr_r.
  assert (D : a / n <= b / n) by (apply N.div_le_mono; assumption).
  assert (EA := N.div_mod a n Hn). assert (EB := N.div_mod b n Hn).
  replace ((n * (b / n) + b mod n) / n) with (b / n) by (now rewrite <- EB).
  replace ((n * (a / n) + b mod n) / n) with (a / n) by (rewrite <- H; now rewrite <- EA).
  nia.
Qed.
(** [w*x + r] and [w*y + r] leave the same remainder only when [w] or [x - y] is a multiple. *)
Lemma weight103 w x y r : x < 103 -> y < 103 -> x <> y -> (w * x + r) mod 103 = (w * y + r) mod 103 -> (103 | w).
Proof.
  assert (G : forall x y, x < y -> y < 103 -> (w * x + r) mod 103 = (w * y + r) mod 103 -> (103 | w)).
  { clear x y. intros x y H1 H2 E. apply mod_eq_divides in E; [|lia|nia].
    replace (w * y + r - (w * x + r)) with ((y - x) * w) in E by nia.
    apply N.gauss in E; [assumption|]. apply coprime103. lia. }
  intros Hx Hy Hne E. destruct (N.lt_total x y) as [H|[H|H]]; [now apply (G x y) | contradiction |].
  apply (G y x); auto.
Qed.
Lemma divides_weightless n : (103 | N.of_nat n) -> (1 <= n)%nat -> weightless n.
Proof.
  intros [k Hk] Hn. exists (N.to_nat k). split; lia.
Qed.
Lemma mod_small_eq r r' : (r + 103) mod 103 = (r' + 103) mod 103 -> r mod 103 = r' mod 103.
Proof.
  intros H. replace (r + 103) with (r + 1 * 103) in H by lia. replace (r' + 103) with (r' + 1 * 103) in H by lia.
  now rewrite !N.mod_add in H by lia.
Qed.

(** ** One value replaced *)
Lemma cons_snoc_split {A} (x : A) l z u v w : x :: l ++ [z] = u ++ v :: w ->
  (w = [] /\ v = z /\ u = x :: l) \/
  (u = [] /\ v = x /\ w = l ++ [z]) \/
  (exists a b, u = x :: a /\ w = b ++ [z] /\ l = a ++ v :: b).
Proof.
  intros E. destruct (rev w) as [|z' w'] eqn:Ew.
  - left. assert (w = []) as -> by (rewrite <- (rev_involutive w), Ew; reflexivity).
    change (x :: l ++ [z]) with ((x :: l) ++ [z]) in E. apply app_inj_tail in E. destruct E as [-> ->]. auto.
  - right. assert (w = rev w' ++ [z']) as -> by (rewrite <- (rev_involutive w), Ew; reflexivity).
    assert (E2 : (x :: l) ++ [z] = (u ++ v :: rev w') ++ [z']) by (rewrite <- app_assoc; exact E).
    apply app_inj_tail in E2. destruct E2 as [E2 ->].
    destruct u as [|x' a].
    + left. cbn [app] in E2. injection E2 as -> ->. auto.
    + right. cbn [app] in E2. injection E2 as -> ->. exists a, (rev w'). auto.
Qed.
Lemma c128_subst u v w v' : decode_checked (u ++ v :: w) <> None -> v' <> v ->
  decode_checked (u ++ v' :: w) <> None -> weightless (length u) /\ w <> [].
Proof.
  intros H1 Hne H2. apply decode_checked_form in H1. destruct H1 as [st [data [E1 [Hst Hd]]]].
  apply decode_checked_form in H2. destruct H2 as [st' [data' [E2 [Hst' Hd']]]].
  symmetry in E1, E2. cbn [app] in E1, E2. apply cons_snoc_split in E1. apply cons_snoc_split in E2.
  destruct E1 as [[-> [-> ->]]|[[-> [-> ->]]|[a [b [-> [-> E1]]]]]].
  - destruct E2 as [[_ [E2 E3]]|[[E2 _]|[a [b [_ [E2 _]]]]]].
    + injection E3 as -> ->. now elim Hne.
    + discriminate E2.
    + destruct b; discriminate E2.
  - destruct E2 as [[E2 [_ _]]|[[_ [-> E2]]|[a [b [E2 _]]]]].
    + destruct data; discriminate E2.
    + apply app_inj_tail in E2. destruct E2 as [<- E2]. elim Hne. unfold c128_check in E2. cbn [c128_sum] in E2.
      destruct (N.le_gt_cases st' st) as [L|L].
      * symmetry in E2. apply mod_eq_divides in E2; [|lia|lia].
        destruct E2 as [k Hk]. lia.
      * apply mod_eq_divides in E2; [|lia|lia]. destruct E2 as [k Hk]. lia.
    + discriminate E2.
  - destruct E2 as [[E2 [_ _]]|[[E2 _]|[a' [b' [E2 [E3 E4]]]]]].
    + destruct b; discriminate E2.
    + discriminate E2.
    + injection E2 as -> ->. apply app_inj_tail in E3. destruct E3 as [<- E3].
      rewrite E1 in Hd. rewrite E4 in Hd'.
      assert (Hv : v <= 102) by (rewrite Forall_forall in Hd; apply Hd; apply in_or_app; right; now left).
      assert (Hv' : v' <= 102) by (rewrite Forall_forall in Hd'; apply Hd'; apply in_or_app; right; now left).
      rewrite E1, E4 in E3. unfold c128_check in E3. rewrite !c128_sum_split in E3.
      split; [|destruct b; discriminate]. apply divides_weightless; [|cbn [length]; lia].
      remember (N.of_nat (length (st' :: a'))) as n. remember (position_sum 1 a') as p1. remember (position_sum (n + 1) b) as p2.
      apply (weight103 n v v' (st' + p1 + p2)); [lia|lia|auto|].
      replace (n * v + (st' + p1 + p2)) with (st' + p1 + n * v + p2) by lia.
      replace (n * v' + (st' + p1 + p2)) with (st' + p1 + n * v' + p2) by lia. exact E3.
Qed.

(** ** Two neighbours exchanged *)
Lemma c128_swap u c d w : decode_checked (u ++ c :: d :: w) <> None -> c <> d ->
  decode_checked (u ++ d :: c :: w) <> None -> w = [] /\ weightless (S (length u)).
Proof.
  intros H1 Hne H2. apply decode_checked_form in H1. destruct H1 as [st [data [E1 [Hst Hd]]]].
  apply decode_checked_form in H2. destruct H2 as [st' [data' [E2 [Hst' Hd']]]].
  symmetry in E1, E2. cbn [app] in E1, E2. apply cons_snoc_split in E1. apply cons_snoc_split in E2.
  assert (HC : forall l, c128_check l < 103) by (intros l; unfold c128_check; apply N.mod_lt; lia).
  destruct E1 as [[E1 _]|[[-> [-> E1]]|[a [b [-> [E1 E3]]]]]]; [discriminate| |].
  - exfalso. destruct E2 as [[E2 _]|[[_ [-> E2]]|[a [b [E2 _]]]]]; [discriminate| |discriminate].
    destruct data as [|x data]; cbn [app] in E1.
    + injection E1 as -> ->. specialize (HC [st]). lia.
    + injection E1 as -> ->. inversion Hd. lia.
  - destruct E2 as [[E2 _]|[[E2 _]|[a' [b' [E2 [E4 E5]]]]]]; [discriminate|discriminate|].
    injection E2 as -> ->.
    destruct b as [|y b].
    + cbn [app] in E1. injection E1 as -> ->. destruct b' as [|y' b']; [|destruct b'; discriminate E4].
      cbn [app] in E4. injection E4 as E4. split; [reflexivity|].
      rewrite E3 in Hd. rewrite E5 in Hd'.
      assert (Hc : c <= 102) by (rewrite Forall_forall in Hd; apply Hd; apply in_or_app; right; now left).
      remember (c128_check (st' :: data)) as d eqn:Ed. assert (Hd2 : d < 103) by (subst d; apply HC).
      rewrite E3 in Ed. rewrite E5 in E4. unfold c128_check in Ed, E4. rewrite c128_sum_split in Ed, E4.
      cbn [position_sum] in Ed, E4. rewrite N.add_0_r in Ed, E4.
      apply divides_weightless; [|lia]. cbn [length] in *.
      replace (N.of_nat (S (S (length a')))) with (N.of_nat (S (length a')) + 1) by lia.
      remember (N.of_nat (S (length a'))) as n. remember (st' + position_sum 1 a') as q.
      apply (weight103 (n + 1) c d q); [lia|lia|auto|].
      assert (E6 : (q + n * c + c) mod 103 = (d + c) mod 103).
      { rewrite N.add_mod, <- Ed by lia. rewrite (N.mod_small c 103) by lia. reflexivity. }
      assert (E7 : (q + n * d + d) mod 103 = (c + d) mod 103).
      { rewrite N.add_mod, <- E4 by lia. rewrite (N.mod_small d 103) by lia. reflexivity. }
      replace ((n + 1) * c + q) with (q + n * c + c) by lia. replace ((n + 1) * d + q) with (q + n * d + d) by lia.
      rewrite E6, E7, N.add_comm. reflexivity.
    + exfalso. destruct b' as [|y' b'].
      * cbn [app] in E1. injection E1 as -> ->. destruct b; discriminate E4.
      * cbn [app] in E1, E4. injection E1 as -> ->. injection E4 as <- E4.
        apply app_inj_tail in E4. destruct E4 as [<- E4].
        rewrite E3 in Hd. rewrite E5 in Hd'.
        assert (Hc : c <= 102) by (rewrite Forall_forall in Hd; apply Hd; apply in_or_app; right; now left).
        assert (Hd2 : y <= 102) by (rewrite Forall_forall in Hd'; apply Hd'; apply in_or_app; right; now left).
        rewrite E3, E5 in E4. unfold c128_check in E4. rewrite !c128_sum_split in E4. cbn [position_sum] in E4.
        remember (N.of_nat (length (st' :: a'))) as n. remember (position_sum 1 a') as q.
        remember (position_sum (n + 1 + 1) b) as r.
        destruct (N.le_gt_cases c y) as [L|L].
        -- symmetry in E4. apply mod_eq_divides in E4; [|lia|nia]. destruct E4 as [k Hk].
           replace (st' + q + n * c + ((n + 1) * y + r) - (st' + q + n * y + ((n + 1) * c + r))) with (y - c) in Hk by nia. lia.
        -- apply mod_eq_divides in E4; [|lia|nia]. destruct E4 as [k Hk].
           replace (st' + q + n * y + ((n + 1) * c + r) - (st' + q + n * c + ((n + 1) * y + r))) with (c - y) in Hk by nia. lia.
Qed.

(** ** On printed symbols *)
Lemma bars_symbol vs chk : c128_bars (vs ++ [chk]) = render (symbol_with vs chk).
Proof. reflexivity. Qed.
Lemma bars_read vs : vs <> [] -> Forall (fun v => v < 106) vs ->
  read_modules SCode128 (c128_bars vs) = option_map Tokens (decode_checked vs).
Proof.
  intros HN H. destruct (rev vs) as [|chk r] eqn:E.
  { elim HN. rewrite <- (rev_involutive vs), E. reflexivity. }
  assert (Ev : vs = rev r ++ [chk]) by (rewrite <- (rev_involutive vs), E; reflexivity).
  rewrite Ev in *. rewrite bars_symbol. unfold read_modules. rewrite symbol_with_scan by assumption.
  cbn [obind read_as]. unfold read_c128. rewrite read_values_symbol by assumption. reflexivity.
Qed.
Lemma barcode128_values p s m : barcode SCode128 p s = Ret (Ok m) ->
  exists vs, vs <> [] /\ Forall (fun v => v < 106) vs /\ m = c128_bars vs.
Proof.
  intros H. unfold barcode in H. apply run_Ret in H.
  destruct H as [b [HN HE]]. destruct (code128_new_Ok s b HN) as [segs [HM [_ ->]]].
  destruct (encode_returns_form p _ m (message_units_idx _ HM) HE) as [chk [HC ->]].
  rewrite message_units_values. exists (message_values segs ++ [chk]). split; [now destruct (message_values segs)|].
  split; [|reflexivity]. apply Forall_app. split; [now apply message_values_lt | now constructor].
Qed.
Lemma c128_misread p s m : barcode SCode128 p s = Ret (Ok m) -> read_modules SCode128 m <> None ->
  exists vs, m = c128_bars vs /\
    (forall u v w v', vs = u ++ v :: w -> v' <= 105 -> v' <> v ->
       (weightless (length u) -> w = []) -> read_modules SCode128 (c128_bars (u ++ v' :: w)) = None) /\
    (forall u c d w, vs = u ++ c :: d :: w -> c <> d ->
       (weightless (S (length u)) -> w <> []) -> read_modules SCode128 (c128_bars (u ++ d :: c :: w)) = None).
Proof.
  intros H HR. destruct (barcode128_values p s m H) as [vs [HN [HF ->]]]. exists vs. split; [reflexivity|].
  rewrite bars_read in HR by assumption.
  assert (HD : decode_checked vs <> None) by (intros E; apply HR; now rewrite E).
  split.
  - intros u v w v' -> Hv' Hne HW.
    assert (HF' : Forall (fun v => v < 106) (u ++ v' :: w)).
    { apply Forall_app in HF. destruct HF as [F1 F2]. apply Forall_app. split; [assumption|].
      constructor; [lia | now apply Forall_inv_tail in F2]. }
    rewrite bars_read by (assumption || now destruct u).
    destruct (decode_checked (u ++ v' :: w)) as [t|] eqn:E; [|reflexivity]. exfalso.
    destruct (c128_subst u v w v' HD Hne) as [W1 W2]; [rewrite E; discriminate|]. now apply W2, HW.
  - intros u c d w -> Hne HW.
    assert (HF' : Forall (fun v => v < 106) (u ++ d :: c :: w)).
    { apply Forall_app in HF. destruct HF as [F1 F2]. apply Forall_app. split; [assumption|].
      pose proof (Forall_inv F2). apply Forall_inv_tail in F2. pose proof (Forall_inv F2). apply Forall_inv_tail in F2.
      repeat constructor; assumption. }
    rewrite bars_read by (assumption || now destruct u).
    destruct (decode_checked (u ++ d :: c :: w)) as [t|] eqn:E; [|reflexivity]. exfalso.
    destruct (c128_swap u c d w HD Hne) as [W1 W2]; [rewrite E; discriminate|]. now apply HW.
Qed.

(** ** Where the check symbol is blind *)
Lemma text_values t : message_values [(CB, t)] = 104 :: map (char_value CB) t.
Proof. cbn [message_values body_values map concat start_value]. now rewrite app_nil_r. Qed.
Lemma text_ok t : Forall (fun c => 32 <= c <= 126) t -> message_ok [(CB, t)].
Proof.
  intros H. split; [discriminate|]. split; [|exact I]. constructor; [|constructor]. split; [|discriminate].
  cbn [fst snd]. eapply Forall_impl; [|exact H]. intros c Hc. cbn [legal]. now left.
Qed.
Lemma text_spell t : 385 :: t = spell [(CB, t)].
Proof. cbn [spell map concat fst snd set_char]. now rewrite app_nil_r. Qed.
Lemma text_barcode p t : Forall (fun c => 32 <= c <= 126) t -> len t <= 6488 ->
  barcode SCode128 p (385 :: t) =
    Ret (Ok (c128_bars ((104 :: map (char_value CB) t) ++ [c128_check (104 :: map (char_value CB) t)]))).
Proof.
  intros HT HL. unfold barcode. rewrite text_spell, code128_new_spell by now apply text_ok.
  assert (HV : len (message_values [(CB, t)]) <= 6489).
  { rewrite text_values. unfold len, str, char in *. cbn [length]. rewrite map_length. lia. }
  pose proof (code128_encode_ok p [(CB, t)] (text_ok t HT) HV) as E. unfold run. cbn [bind].
  rewrite text_values in E. rewrite bars_symbol.
  rewrite E. reflexivity.
Qed.
Lemma c128_check_blind st a v v' b : weightless (S (length a)) ->
  c128_check (st :: a ++ v :: b) = c128_check (st :: a ++ v' :: b).
Proof.
  intros [k [_ Hk]]. unfold c128_check. rewrite !c128_sum_split. cbn [length]. rewrite Hk.
  remember (position_sum 1 a) as q. remember (position_sum (N.of_nat (103 * k) + 1) b) as r.
  replace (st + q + N.of_nat (103 * k) * v + r) with (st + q + r + (N.of_nat k * v) * 103) by lia.
  replace (st + q + N.of_nat (103 * k) * v' + r) with (st + q + r + (N.of_nat k * v') * 103) by lia.
  now rewrite !N.mod_add by lia.
Qed.
Lemma char_value_B_inj c c' : 32 <= c <= 126 -> 32 <= c' <= 126 -> char_value CB c = char_value CB c' -> c = c'.
Proof.
  intros H H'. cbn [char_value]. replace (c <? 127) with true by (symmetry; apply N.ltb_lt; lia).
  replace (c' <? 127) with true by (symmetry; apply N.ltb_lt; lia). lia.
Qed.
Lemma c128_blind_subst p a c c' b : Forall (fun x => 32 <= x <= 126) (a ++ c :: b) -> 32 <= c' <= 126 -> c <> c' ->
  len (a ++ c :: b) <= 6488 -> weightless (S (length a)) ->
  exists u v v' w, length u = S (length a) /\ v <> v' /\
    barcode SCode128 p (385 :: a ++ c :: b) = Ret (Ok (c128_bars (u ++ v :: w))) /\
    barcode SCode128 p (385 :: a ++ c' :: b) = Ret (Ok (c128_bars (u ++ v' :: w))).
Proof.
  intros HT Hc' Hne HL HW.
  exists (104 :: map (char_value CB) a), (char_value CB c), (char_value CB c'),
    (map (char_value CB) b ++ [c128_check (104 :: map (char_value CB) (a ++ c :: b))]).
  pose proof HT as HT'. apply Forall_app in HT'. destruct HT' as [Ha Hb].
  split; [cbn [length]; now rewrite map_length|].
  split; [intros E; apply Hne; apply char_value_B_inj; auto; exact (Forall_inv Hb)|].
  assert (HT' : Forall (fun x => 32 <= x <= 126) (a ++ c' :: b)).
  { apply Forall_app. split; [assumption|]. constructor; [assumption | now apply Forall_inv_tail in Hb]. }
  assert (HL' : len (a ++ c' :: b) <= 6488).
  { unfold len in *. rewrite app_length in *. cbn [length] in *. assumption. }
  rewrite !text_barcode by assumption.
  assert (EC : c128_check (104 :: map (char_value CB) (a ++ c' :: b)) = c128_check (104 :: map (char_value CB) (a ++ c :: b))).
  { rewrite !map_app. cbn [map]. apply c128_check_blind. now rewrite map_length. }
  rewrite EC. remember (c128_check _) as k. rewrite !map_app. cbn [map].
  rewrite <- !app_comm_cons, <- !app_assoc. cbn [app]. auto.
Qed.
Lemma decode_B_last a d : Forall (fun x => 32 <= x <= 126) a -> d <= 102 ->
  decode CB false (map (char_value CB) a ++ [d]) <> None.
Proof.
  intros H Hd. induction a as [|x a IH].
  - cbn [map app]. assert (G : forallb (fun v => match decode CB false [v] with Some _ => true | None => false end) (range 103) = true)
      by (vm_compute; reflexivity).
    rewrite forallb_forall in G. specialize (G d). rewrite In_range in G. specialize (G ltac:(lia)).
    intros E. rewrite E in G. discriminate.
  - cbn [map app decode]. pose proof (Forall_inv H) as Hx. cbn beta in Hx. apply Forall_inv_tail in H.
    rewrite interpret_char; [|now left | discriminate].
    replace (x =? SHIFT) with false by (symmetry; apply N.eqb_neq; unfold SHIFT; lia).
    intros E. apply (IH H). destruct (decode CB false (map (char_value CB) a ++ [d])); [discriminate | reflexivity].
Qed.
Lemma char_value_B_bound c : 32 <= c <= 126 -> char_value CB c <= 94.
Proof. intros H. cbn [char_value]. replace (c <? 127) with true by (symmetry; apply N.ltb_lt; lia). lia. Qed.
(** [x] is the remainder of [q + n*x'] and [n + 1] is a multiple of 103: the roles exchange. *)
Lemma swap103 q n c d k : n + 1 = 103 * k -> c < 103 -> d = (q + n * c) mod 103 -> c = (q + n * d) mod 103.
Proof.
  intros Hn Hc Hd.
  assert (E : (q + n * c + c) mod 103 = q mod 103).
  { replace (q + n * c + c) with (q + (k * c) * 103) by nia. now rewrite N.mod_add by lia. }
  assert (E2 : (d + c) mod 103 = q mod 103).
  { rewrite <- E. rewrite (N.add_mod (q + n * c)) by lia. rewrite <- Hd. now rewrite (N.mod_small c 103) by lia. }
  assert (Hd' : d < 103) by (subst d; apply N.mod_lt; lia).
  assert (E3 : ((q + n * d) + d) mod 103 = q mod 103).
  { replace (q + n * d + d) with (q + (k * d) * 103) by nia. now rewrite N.mod_add by lia. }
  rewrite <- E2 in E3. rewrite (N.add_comm d c) in E3.
  assert (E4 : ((q + n * d) + d + (103 - d)) mod 103 = (c + d + (103 - d)) mod 103).
  { rewrite N.add_mod, E3, <- N.add_mod by lia. reflexivity. }
  replace (q + n * d + d + (103 - d)) with (q + n * d + 1 * 103) in E4 by lia.
  replace (c + d + (103 - d)) with (c + 1 * 103) in E4 by lia.
  rewrite !N.mod_add in E4 by lia. rewrite (N.mod_small c 103) in E4 by lia. now symmetry.
Qed.
Lemma c128_blind_swap p a c : Forall (fun x => 32 <= x <= 126) (a ++ [c]) -> len (a ++ [c]) <= 6488 ->
  weightless (S (S (length a))) ->
  exists u v d, barcode SCode128 p (385 :: a ++ [c]) = Ret (Ok (c128_bars (u ++ [v; d]))) /\
    read_modules SCode128 (c128_bars (u ++ [d; v])) <> None.
Proof.
  intros HT HL [k [_ Hk]]. rewrite text_barcode by assumption.
  apply Forall_app in HT. destruct HT as [Ha Hc]. apply Forall_inv in Hc. cbn beta in Hc.
  remember (c128_check (104 :: map (char_value CB) (a ++ [c]))) as d eqn:Ed.
  exists (104 :: map (char_value CB) a), (char_value CB c), d. split.
  { rewrite map_app. cbn [map]. rewrite <- !app_comm_cons, <- app_assoc. reflexivity. }
  assert (Hd : d < 103) by (subst d; unfold c128_check; apply N.mod_lt; lia).
  pose proof (char_value_B_bound c Hc) as Hv.
  rewrite bars_read.
  - rewrite map_app in Ed. cbn [map] in Ed. unfold c128_check in Ed. rewrite c128_sum_split in Ed. cbn [position_sum] in Ed. rewrite N.add_0_r in Ed.
    assert (E : char_value CB c = c128_check (104 :: map (char_value CB) a ++ [d])).
    { unfold c128_check. rewrite c128_sum_split. cbn [position_sum]. rewrite N.add_0_r.
      apply (swap103 _ _ _ _ (N.of_nat k)); [|lia|exact Ed]. cbn [length]. rewrite map_length. unfold str, char in *. lia. }
    replace ((104 :: map (char_value CB) a) ++ [d; char_value CB c])
      with ((start_value CB :: (map (char_value CB) a ++ [d])) ++ [c128_check (start_value CB :: (map (char_value CB) a ++ [d]))]).
    + rewrite decode_checked_ok. pose proof (decode_B_last a d Ha ltac:(lia)) as HD.
      destruct (decode CB false _); [discriminate | now elim HD].
    + cbn [start_value]. rewrite <- E. rewrite <- !app_comm_cons, <- app_assoc. reflexivity.
  - discriminate.
  - apply Forall_app. split.
    + constructor; [lia|]. apply Forall_map. eapply Forall_impl; [|exact Ha]. intros x Hx.
      pose proof (char_value_B_bound x Hx). lia.
    + repeat constructor; lia.
Qed.
