(** * Weighted check characters: what they detect *)
From Verif Require Import Rust S_Barcode S_Linear P_Rust P_Barcode P_Alphabet.

Lemma add_mod_cancel n x y y' : n <> 0 -> (x + y) mod n = (x + y') mod n -> y mod n = y' mod n.
Proof.
  intros Hn H.
  assert (E : forall z, z mod n = ((x + z) mod n + (n - 1) * x) mod n).
  { intros z. rewrite N.add_mod_idemp_l by assumption.
    replace (x + z + (n - 1) * x) with (z + x * n) by nia.
    now rewrite N.mod_add by assumption. }
  rewrite (E y), (E y'), H. reflexivity.
Qed.

Lemma last_cases {A} (v : list A) : v = [] \/ exists w z, v = w ++ [z].
Proof.
  destruct v as [|x v]; [now left|]. right.
  destruct (@exists_last A (x :: v)) as [w [z E]]; [discriminate|]. eauto.
Qed.

Section Weighted.
  Variable l : list char.
  Variables n T : N.
  Hypothesis Hl : len l = n.
  Hypothesis Hn : n <> 0.
  Hypothesis Hnd : NoDup l.
  Hypothesis Hinv : forall w v v', 1 <= w <= T -> v < n -> v' < n ->
    (w * v) mod n = (w * v') mod n -> v = v'.
  Hypothesis Hodd : forall a d k, d < n -> k < n ->
    k = (a + d) mod n -> d = (a + k) mod n -> d = k.

  Lemma val_lt c : In c l -> value l c < n.
  Proof. intros H. rewrite <- Hl. now apply value_lt. Qed.

  Lemma check_sum_app top u c v : 0 < top ->
    check_sum l n top (u ++ c :: v) =
    (wpos top 0 (rev (map (value l) v)) + wpos top (len v + 1) (rev (map (value l) u))
     + weight_at top (len v) * value l c) mod n.
  Proof.
    intros Ht. unfold check_sum. rewrite map_app. cbn [map]. rewrite weighted_app by assumption.
    f_equal. rewrite len_map. lia.
  Qed.

  Lemma check_sum_subst top u c c' v : 1 <= top <= T -> In c l -> In c' l ->
    check_sum l n top (u ++ c' :: v) = check_sum l n top (u ++ c :: v) -> c' = c.
  Proof.
    intros Ht Hc Hc' H. rewrite !check_sum_app in H by lia.
    apply add_mod_cancel in H; [|assumption].
    apply (value_inj l); try assumption.
    pose proof (weight_at_range top (len v) ltac:(lia)).
    apply (Hinv (weight_at top (len v))); try (now apply val_lt); [lia | assumption].
  Qed.

  Lemma check_sum_app2 top u c d v : 0 < top ->
    check_sum l n top (u ++ c :: d :: v) =
    (wpos top 0 (rev (map (value l) v)) + wpos top (len v + 2) (rev (map (value l) u))
     + (weight_at top (len v) * value l d + weight_at top (len v + 1) * value l c)) mod n.
  Proof.
    intros Ht. unfold check_sum. rewrite map_app. cbn [map]. rewrite weighted_app by assumption.
    f_equal. cbn [rev]. rewrite wpos_app. cbn [wpos].
    unfold len. cbn [length]. rewrite rev_length, !map_length.
    replace (N.of_nat (S (length v))) with (N.of_nat (length v) + 1) by lia.
    replace (N.of_nat (length v) + 1 + 1) with (N.of_nat (length v) + 2) by lia.
    rewrite N.add_0_l. lia.
  Qed.

  Lemma check_sum_swap top u c d v : 2 <= top <= T -> In c l -> In d l ->
    check_sum l n top (u ++ d :: c :: v) = check_sum l n top (u ++ c :: d :: v) -> d = c.
  Proof.
    intros Ht Hc Hd H. rewrite !check_sum_app2 in H by lia.
    apply add_mod_cancel in H; [|assumption].
    apply (value_inj l); try assumption.
    pose proof (val_lt c Hc). pose proof (val_lt d Hd).
    rewrite weight_at_succ in H by lia.
    pose proof (weight_at_range top (len v) ltac:(lia)) as Hw.
    set (w := weight_at top (len v)) in *. clearbody w.
    destruct (w =? top) eqn:E.
    - apply N.eqb_eq in E. subst w.
      apply (Hinv (top - 1)); try assumption; [lia|].
      apply (add_mod_cancel n (value l c + value l d)); [assumption|].
      symmetry. revert H.
      replace (value l c + value l d + (top - 1) * value l d)
        with (top * value l d + 1 * value l c) by nia.
      replace (value l c + value l d + (top - 1) * value l c)
        with (top * value l c + 1 * value l d) by nia.
      intros H. exact H.
    - apply (Hinv 1); try assumption; [lia|].
      apply (add_mod_cancel n (w * (value l c + value l d))); [assumption|].
      replace (w * (value l c + value l d) + 1 * value l d)
        with (w * value l c + (w + 1) * value l d) by nia.
      replace (w * (value l c + value l d) + 1 * value l c)
        with (w * value l d + (w + 1) * value l c) by nia.
      exact H.
  Qed.

  Lemma verify_last_app top u k :
    verify_last l n top (u ++ [k]) = guard (value l k =? check_sum l n top u) (Some u).
  Proof. unfold verify_last. rewrite rev_app_distr. cbn [rev app]. now rewrite rev_involutive. Qed.

  Lemma guard_None {A} b (x : option A) : b = false -> guard b x = None.
  Proof. intros ->. reflexivity. Qed.

  Lemma guard_inv {A} b (x : option A) : guard b x <> None -> b = true.
  Proof. destruct b; [reflexivity | intros H; now elim H]. Qed.

  (** One wrong character, the check character included *)
  Lemma verify_last_subst top u c c' v : 1 <= top <= T -> In c l -> In c' l -> c' <> c ->
    verify_last l n top (u ++ c :: v) <> None -> verify_last l n top (u ++ c' :: v) = None.
  Proof.
    intros Ht Hc Hc' Hne H.
    destruct (last_cases v) as [->|[w [z ->]]].
    - rewrite verify_last_app in *. apply guard_None. apply N.eqb_neq. intros E. apply Hne.
      apply (value_inj l); try assumption. rewrite E.
      apply guard_inv in H. apply N.eqb_eq in H as E2. congruence.
    - rewrite (app_assoc u [c] (w ++ [z]) : u ++ c :: w ++ [z] = _) in H.
      rewrite (app_assoc u [c'] (w ++ [z]) : u ++ c' :: w ++ [z] = _).
      rewrite app_assoc in *. rewrite verify_last_app in *.
      apply guard_None. apply N.eqb_neq. intros E. apply Hne.
      apply guard_inv in H. apply N.eqb_eq in H as E2. rewrite <- !app_assoc in *. cbn [app] in *.
      apply (check_sum_subst top u c c' w); try assumption. congruence.
  Qed.

  (** Two neighbours exchanged, the check character included *)
  Lemma verify_last_swap top u c d v : 2 <= top <= T -> In c l -> In d l -> c <> d ->
    verify_last l n top (u ++ c :: d :: v) <> None -> verify_last l n top (u ++ d :: c :: v) = None.
  Proof.
    intros Ht Hc Hd Hne H.
    destruct (last_cases v) as [->|[w [z ->]]].
    - rewrite (app_assoc u [c] [d] : u ++ [c; d] = _) in H.
      rewrite (app_assoc u [d] [c] : u ++ [d; c] = _).
      rewrite verify_last_app in *. apply guard_None. apply N.eqb_neq. intros E. apply Hne.
      apply guard_inv in H. apply N.eqb_eq in H as E2. rewrite check_sum_app in E, E2 by lia.
      cbn [map rev wpos] in E, E2. rewrite weight_at_0 in E, E2 by lia.
      rewrite N.mul_1_l in E, E2.
      apply (value_inj l); try assumption.
      eapply Hodd; [now apply val_lt | now apply val_lt | exact E2 | exact E].
    - rewrite (app_assoc u [c; d] (w ++ [z]) : u ++ c :: d :: w ++ [z] = _) in H.
      rewrite (app_assoc u [d; c] (w ++ [z]) : u ++ d :: c :: w ++ [z] = _).
      rewrite app_assoc in *. rewrite verify_last_app in *.
      apply guard_None. apply N.eqb_neq. intros E. apply Hne. symmetry.
      apply guard_inv in H. apply N.eqb_eq in H as E2. rewrite <- !app_assoc in *. cbn [app] in *.
      apply (check_sum_swap top u c d w); try assumption. congruence.
  Qed.
End Weighted.

(** ** The two moduli in use *)
Definition inv_table (n T : N) : bool :=
  forallb (fun w => forallb (fun v => forallb (fun v' =>
    implb ((w + 1) * v mod n =? (w + 1) * v' mod n) (v =? v')) (range n)) (range n)) (range T).
Lemma inv_table_ok n T : inv_table n T = true ->
  forall w v v', 1 <= w <= T -> v < n -> v' < n -> (w * v) mod n = (w * v') mod n -> v = v'.
Proof.
  unfold inv_table. intros H w v v' Hw Hv Hv' E.
  rewrite forallb_forall in H. specialize (H (w - 1)). rewrite In_range in H.
  specialize (H ltac:(lia)). rewrite forallb_forall in H. specialize (H v).
  rewrite In_range in H. specialize (H Hv). rewrite forallb_forall in H. specialize (H v').
  rewrite In_range in H. specialize (H Hv'). replace (w - 1 + 1) with w in H by lia.
  rewrite E, N.eqb_refl in H. cbn [implb] in H. now apply N.eqb_eq.
Qed.
Lemma inv47 : forall w v v', 1 <= w <= 20 -> v < 47 -> v' < 47 ->
  (w * v) mod 47 = (w * v') mod 47 -> v = v'.
Proof. apply inv_table_ok. vm_compute. reflexivity. Qed.
Lemma inv11 : forall w v v', 1 <= w <= 10 -> v < 11 -> v' < 11 ->
  (w * v) mod 11 = (w * v') mod 11 -> v = v'.
Proof. apply inv_table_ok. vm_compute. reflexivity. Qed.
Lemma odd47 a d k : d < 47 -> k < 47 -> k = (a + d) mod 47 -> d = (a + k) mod 47 -> d = k.
Proof.
  intros Hd Hk E1 E2.
  pose proof (N.div_mod (a + d) 47 ltac:(discriminate)) as D1.
  pose proof (N.div_mod (a + k) 47 ltac:(discriminate)) as D2.
  rewrite <- E1 in D1. rewrite <- E2 in D2.
  set (q := (a + d) / 47) in *. set (q' := (a + k) / 47) in *. clearbody q q'. clear E1 E2. lia.
Qed.
Lemma odd11 a d k : d < 11 -> k < 11 -> k = (a + d) mod 11 -> d = (a + k) mod 11 -> d = k.
Proof.
  intros Hd Hk E1 E2.
  pose proof (N.div_mod (a + d) 11 ltac:(discriminate)) as D1.
  pose proof (N.div_mod (a + k) 11 ltac:(discriminate)) as D2.
  rewrite <- E1 in D1. rewrite <- E2 in D2.
  set (q := (a + d) / 11) in *. set (q' := (a + k) / 11) in *. clearbody q q'. clear E1 E2. lia.
Qed.
