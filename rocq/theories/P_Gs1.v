(** * The GS1 check digit and modulo_10_checksum *)
From Verif Require Import Rust M_Helpers S_Ean S_Text P_Rust.
Local Arguments N.add : simpl never.
Local Arguments N.mul : simpl never.
Local Arguments N.sub : simpl never.
Local Arguments N.modulo : simpl never.

Lemma alt_sum_app w w' a b :
  alt_sum w w' (a ++ b) =
  alt_sum w w' a + (if Nat.even (length a) then alt_sum w w' b else alt_sum w' w b).
Proof.
  revert w w'. induction a as [|x a IH]; intros w w'; simpl alt_sum; [simpl; lia|].
  rewrite IH. simpl length. rewrite Nat.even_succ, <- Nat.negb_even.
  destruct (Nat.even (length a)); simpl; lia.
Qed.

(** Sum weighting from the left, when the length is known. *)
Lemma alt_sum_rev w w' l :
  alt_sum w w' (rev l) =
  if Nat.even (length l) then alt_sum w' w l else alt_sum w w' l.
Proof.
  revert w w'. induction l as [|x l IH]; intros w w'; [reflexivity|].
  simpl rev. rewrite alt_sum_app, rev_length, IH. simpl length.
  rewrite Nat.even_succ, <- Nat.negb_even. simpl alt_sum.
  destruct (Nat.even (length l)); simpl; lia.
Qed.

Lemma mod10_solve a c : c < 10 -> ((a + c) mod 10 = 0 <-> c = (10 - a mod 10) mod 10).
Proof.
  intros Hc.
  assert (Ha : a mod 10 < 10) by (apply N.mod_lt; lia).
  rewrite <- N.add_mod_idemp_l by lia.
  set (r := a mod 10) in *. clearbody r.
  assert (E : r = 0 \/ r = 1 \/ r = 2 \/ r = 3 \/ r = 4 \/ r = 5 \/ r = 6 \/ r = 7 \/ r = 8 \/ r = 9) by lia.
  assert (F : c = 0 \/ c = 1 \/ c = 2 \/ c = 3 \/ c = 4 \/ c = 5 \/ c = 6 \/ c = 7 \/ c = 8 \/ c = 9) by lia.
  repeat (destruct E as [->|E]; [repeat (destruct F as [->|F]; [vm_compute; intuition congruence|]); subst; vm_compute; intuition congruence|]).
  subst. repeat (destruct F as [->|F]; [vm_compute; intuition congruence|]); subst; vm_compute; intuition congruence.
Qed.

Lemma gs1_sum_app d c : gs1_sum (d ++ [c]) = c + alt_sum 3 1 (rev d).
Proof. unfold gs1_sum. rewrite rev_unit. simpl alt_sum. lia. Qed.

(** [gs1_check] is the only digit that makes the number valid. *)
Lemma gs1_check_unique d c : c < 10 -> (gs1_valid (d ++ [c]) <-> c = gs1_check d).
Proof.
  intros Hc. unfold gs1_valid, gs1_check. rewrite gs1_sum_app, N.add_comm.
  now apply mod10_solve.
Qed.

Lemma gs1_check_digit d : gs1_check d < 10.
Proof. unfold gs1_check. apply N.mod_lt. lia. Qed.

Lemma gs1_check_valid d : gs1_valid (d ++ [gs1_check d]).
Proof. apply gs1_check_unique; [apply gs1_check_digit | reflexivity]. Qed.

Lemma gs1_validb_spec l : gs1_validb l = true <-> gs1_valid l.
Proof. unfold gs1_validb, gs1_valid. apply N.eqb_eq. Qed.

(** ** The loop of modulo_10_checksum: exact sums, when they fit in a byte. *)
Lemma mod10_loop p l : forall i o e,
  o + e + alt_sum 1 1 l < 256 ->
  foldM (mod10_step p) (enumerate_from i l) (o, e) =
  Ret (o + (if N.even i then alt_sum 0 1 l else alt_sum 1 0 l),
       e + (if N.even i then alt_sum 1 0 l else alt_sum 0 1 l)).
Proof.
  induction l as [|d l IH]; intros i o e H.
  { simpl. destruct (N.even i); now rewrite !N.add_0_r. }
  cbn [enumerate_from foldM alt_sum] in *.
  unfold mod10_step at 1.
  assert (E : (i mod 2 =? 1) = negb (N.even i)).
  { rewrite N.negb_even. apply eq_true_iff_eq.
    rewrite N.eqb_eq, N.odd_spec. rewrite <- N.bit0_mod, N.bit0_odd.
    destruct (N.odd i) eqn:E; simpl.
    - apply N.odd_spec in E. tauto.
    - split; [discriminate|]. intros Ho. apply N.odd_spec in Ho. congruence. }
  rewrite E. rewrite N.add_1_r in *.
  destruct (N.even i) eqn:Ei; simpl negb; cbn iota.
  - unfold add_u. rewrite fit_u_ok by (change (2 ^ 8) with 256; lia).
    cbn [bind]. rewrite IH by lia. rewrite N.even_succ, <- N.negb_even, Ei. simpl negb. cbn iota.
    f_equal. f_equal; lia.
  - unfold add_u. rewrite fit_u_ok by (change (2 ^ 8) with 256; lia).
    cbn [bind]. rewrite IH by lia. rewrite N.even_succ, <- N.negb_even, Ei. simpl negb. cbn iota.
    f_equal. f_equal; lia.
Qed.

Lemma alt_sum_split w w' l :
  alt_sum w w' l = w * alt_sum 1 0 l + w' * alt_sum 0 1 l.
Proof.
  revert w w'. induction l as [|d l IH]; intros w w'; simpl alt_sum; [lia|].
  rewrite (IH w' w), (IH 1 0), (IH 0 1). lia.
Qed.

Lemma mod10_finish s : (if 10 - s mod 10 =? 10 then 0 else 10 - s mod 10) = (10 - s mod 10) mod 10.
Proof.
  assert (H : s mod 10 < 10) by (apply N.mod_lt; lia).
  set (r := s mod 10) in *. clearbody r.
  destruct (10 - r =? 10) eqn:E.
  - apply N.eqb_eq in E. rewrite E. reflexivity.
  - apply N.eqb_neq in E. rewrite N.mod_small; [reflexivity | lia].
Qed.

(** modulo_10_checksum on any bytes whose weighted sum fits in a byte. *)
Lemma modulo_10_checksum_fits p l even_start :
  let s := if even_start : bool then alt_sum 1 3 l else alt_sum 3 1 l in
  s < 256 ->
  modulo_10_checksum p l even_start = Ret ((10 - s mod 10) mod 10).
Proof.
  intros s Hs. unfold modulo_10_checksum, enumerate.
  pose proof (alt_sum_split 1 1 l) as E11.
  pose proof (alt_sum_split 1 3 l) as E13.
  pose proof (alt_sum_split 3 1 l) as E31.
  rewrite mod10_loop.
  2:{ subst s. destruct even_start; lia. }
  cbn [bind N.even].
  subst s. destruct even_start.
  - unfold mul_u, add_u. rewrite fit_u_ok by (change (2 ^ 8) with 256; lia). cbn [bind].
    rewrite fit_u_ok by (change (2 ^ 8) with 256; lia). cbn [bind].
    rewrite rem_u_ok by lia. cbn [bind].
    replace ((0 + alt_sum 0 1 l) * 3 + (0 + alt_sum 1 0 l)) with (alt_sum 1 3 l) by lia.
    rewrite sub_u_ok.
    2:{ assert (alt_sum 1 3 l mod 10 < 10) by (apply N.mod_lt; lia). lia. }
    cbn [bind]. f_equal. apply mod10_finish.
  - unfold mul_u, add_u. rewrite fit_u_ok by (change (2 ^ 8) with 256; lia). cbn [bind].
    rewrite fit_u_ok by (change (2 ^ 8) with 256; lia). cbn [bind].
    rewrite rem_u_ok by lia. cbn [bind].
    replace (0 + alt_sum 0 1 l + (0 + alt_sum 1 0 l) * 3) with (alt_sum 3 1 l) by lia.
    rewrite sub_u_ok.
    2:{ assert (alt_sum 3 1 l mod 10 < 10) by (apply N.mod_lt; lia). lia. }
    cbn [bind]. f_equal. apply mod10_finish.
Qed.

Lemma alt_sum_bound w w' l :
  Forall is_digit l ->
  alt_sum w w' l <= 9 * (w * N.of_nat (Nat.div2 (S (length l))) + w' * N.of_nat (Nat.div2 (length l))).
Proof.
  intros H. revert w w'. induction H as [|d l Hd _ IH]; intros w w'; [simpl; lia|].
  cbn [alt_sum length]. unfold is_digit in Hd. specialize (IH w' w).
  change (Nat.div2 (S (S (length l)))) with (S (Nat.div2 (length l))).
  nia.
Qed.

(** On a digit string of odd length with weights 3,1,3..., or of even length with
    weights 1,3,1..., the function is the GS1 check digit. *)
Lemma modulo_10_checksum_gs1 p l even_start :
  Nat.even (length l) = even_start ->
  alt_sum 3 1 (rev l) < 256 ->
  modulo_10_checksum p l even_start = Ret (gs1_check l).
Proof.
  intros He Hs. unfold gs1_check. rewrite alt_sum_rev, He in Hs |- *.
  destruct even_start; now rewrite modulo_10_checksum_fits.
Qed.

Lemma modulo_10_checksum_short p l even_start :
  Nat.even (length l) = even_start -> (length l <= 13)%nat -> Forall is_digit l ->
  modulo_10_checksum p l even_start = Ret (gs1_check l).
Proof.
  intros He Hl Hd. apply modulo_10_checksum_gs1; [assumption|].
  pose proof (alt_sum_bound 3 1 (rev l) (Forall_rev Hd)) as B. rewrite rev_length in B.
  assert (B1 : (Nat.div2 (S (length l)) <= 7)%nat).
  { apply (Nat.le_trans _ (Nat.div2 14)); [|simpl; lia]. rewrite !Nat.div2_div. apply Nat.div_le_mono; lia. }
  assert (B2 : (Nat.div2 (length l) <= 6)%nat).
  { apply (Nat.le_trans _ (Nat.div2 13)); [|simpl; lia]. rewrite !Nat.div2_div. apply Nat.div_le_mono; lia. }
  lia.
Qed.

(** ** Error detection *)

(** A weighted sum with one digit replaced. *)
Lemma gs1_sum_replace a x b :
  exists w, (w = 1 \/ w = 3) /\
    forall y, gs1_sum (a ++ y :: b) + w * x = gs1_sum (a ++ x :: b) + w * y.
Proof.
  unfold gs1_sum.
  exists (if Nat.even (length b) then 1 else 3). split; [destruct (Nat.even _); auto|].
  intros y. rewrite !rev_app_distr. simpl rev. rewrite <- !app_assoc.
  rewrite !alt_sum_app, rev_length. cbn [app alt_sum length Nat.even].
  destruct (Nat.even (length b)); lia.
Qed.

Lemma weight_inj w x y s t :
  w = 1 \/ w = 3 -> x < 10 -> y < 10 ->
  t + w * x = s + w * y -> s mod 10 = 0 -> t mod 10 = 0 -> x = y.
Proof.
  intros Hw Hx Hy E Hs Ht.
  apply N.mod_divide in Hs; [|lia]. apply N.mod_divide in Ht; [|lia].
  destruct Hs as [k ->], Ht as [m ->].
  destruct Hw; subst w; lia.
Qed.

Lemma gs1_substitution a x y b :
  x < 10 -> y < 10 -> x <> y ->
  gs1_valid (a ++ x :: b) -> ~ gs1_valid (a ++ y :: b).
Proof.
  unfold gs1_valid. intros Hx Hy Hne H H'.
  destruct (gs1_sum_replace a x b) as [w [Hw E]]. specialize (E y).
  apply Hne. eapply weight_inj; eauto.
Qed.

Lemma gs1_transposition a x y b :
  x < 10 -> y < 10 -> x <> y ->
  gs1_valid (a ++ x :: y :: b) ->
  (gs1_valid (a ++ y :: x :: b) <-> differ_by_5 x y).
Proof.
  unfold gs1_valid, gs1_sum, differ_by_5. intros Hx Hy Hne H.
  rewrite !rev_app_distr in *. simpl rev in *. rewrite <- !app_assoc in *.
  rewrite !alt_sum_app in *. cbn [app alt_sum length Nat.even] in *.
  set (sb := alt_sum 1 3 (rev b)) in *.
  set (sa := alt_sum 1 3 (rev a)) in *. set (sa' := alt_sum 3 1 (rev a)) in *.
  clearbody sb sa sa'.
  rewrite rev_length in *.
  apply N.mod_divide in H; [|lia].
  rewrite N.mod_divide by lia.
  destruct (Nat.even (length b)); destruct H as [k H];
    (split; [intros [m Hm]; lia | intros [->| ->]]).
  - exists (k - 1). lia.
  - exists (k + 1). lia.
  - exists (k + 1). lia.
  - exists (k - 1). lia.
Qed.
