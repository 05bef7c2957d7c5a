(** * Proofs about edges printed out of place *)
From Verif Require Import Rust M_Error M_Helpers M_Parse M_Ean13 M_Ean8 M_Upca M_EanSupp M_Code39 M_Code93 M_Code11
  M_Codabar M_Code128 M_Tf Symbology M_Use S_Barcode S_Ean S_Text S_Linear S_Codabar S_Tf S_Code128 S_All S_Blind S_Tolerance
  P_Rust P_Barcode P_Parse P_Gs1 P_Ean P_Retail P_Retail2 P_Retail3 P_Supp P_Code39 P_Code93 P_Code11
  P_Codabar P_Tf P_Code128 P_Code128b P_All P_Blind.
From Coq Require Import ZArith.
Open Scope nat_scope.

(** ** Pictures from edges *)
Definition shade (b : bool) : N := if b then 1%N else 0%N.
Fixpoint gaps (e : nat) (es : list nat) : list nat :=
  match es with
  | [] => []
  | f :: tl => (f - e) :: gaps f tl
  end.
(** increasing, from [e] on *)
Fixpoint climbs (e : nat) (es : list nat) : Prop :=
  match es with
  | [] => True
  | f :: tl => e <= f /\ climbs f tl
  end.
Lemma last_cons (l : list nat) : forall e k, last (e :: l) k = last l e.
Proof.
  induction l as [|a l IH]; intros e k; [reflexivity|]. change (last (e :: a :: l) k) with (last (a :: l) k). now rewrite !IH.
Qed.
Lemma behind_before es : forall e i, climbs e es -> i < e -> behind es i = 0.
Proof.
  induction es as [|f tl IH]; intros e i HC Hi; [reflexivity|]. destruct HC as [H1 H2]. unfold behind in *. cbn [filter].
  assert (E : (f <=? i) = false) by (apply Nat.leb_gt; lia). rewrite E. apply (IH f); [assumption | lia].
Qed.
Lemma shade_flip b : shade (negb b) = (1 - shade b)%N. Proof. now destruct b. Qed.
Lemma map_const {A B} (c : B) (f : A -> B) l : (forall a, In a l -> f a = c) -> map f l = repeat c (length l).
Proof. induction l as [|a l IH]; intros H; [reflexivity|]. cbn. rewrite H by now left. f_equal. apply IH. intros. apply H. now right. Qed.
Lemma picture_from es : forall b k n, climbs k es -> Forall (fun e => e <= n) es -> k <= n ->
  map (fun i => shade (xorb b (Nat.odd (behind es i)))) (seq k (n - k)) =
  render_from (shade b) (gaps k es) ++ repeat (shade (xorb b (Nat.odd (length es)))) (n - last es k).
Proof.
  induction es as [|e tl IH]; intros b k n HC HF Hk.
  - cbn [gaps render_from last app length]. rewrite (map_const (shade (xorb b (Nat.odd 0)))) by reflexivity. now rewrite seq_length.
  - destruct HC as [H1 H2]. inversion HF as [|? ? He HF']; subst. cbn [gaps render_from].
    replace (n - k) with ((e - k) + (n - e)) by lia. rewrite seq_app, map_app. rewrite <- app_assoc. f_equal.
    + rewrite (map_const (shade b)).
      * now rewrite seq_length.
      * intros i Hi. apply in_seq in Hi. rewrite (behind_before (e :: tl) e); [now rewrite xorb_false_r | | lia]. now split.
    + replace (k + (e - k)) with e by lia. rewrite <- shade_flip. rewrite last_cons.
      cbn [length]. rewrite Nat.odd_succ, <- Nat.negb_odd, <- negb_xorb_r, negb_xorb_l.
      rewrite <- IH by assumption. apply map_ext_in. intros i Hi. apply in_seq in Hi. f_equal.
      unfold behind. cbn [filter]. assert (E : (e <=? i) = true) by (apply Nat.leb_le; lia). rewrite E. cbn [length].
      rewrite Nat.odd_succ, <- Nat.negb_odd, <- negb_xorb_r, negb_xorb_l. reflexivity.
Qed.
Lemma picture_climbs e es n : climbs e es -> Forall (fun f => f <= n) (e :: es) -> Nat.odd (length es) = true ->
  picture (e :: es) n = repeat 0%N e ++ render (gaps e es) ++ repeat 0%N (n - last es e).
Proof.
  intros HC HF HO. pose proof (picture_from (e :: es) false 0 n) as H. cbn [climbs] in H.
  specialize (H (conj (Nat.le_0_l e) HC) HF (Nat.le_0_l n)). rewrite !Nat.sub_0_r in H.
  unfold picture. etransitivity; [|etransitivity; [exact H|]].
  - apply map_ext. intros i. now rewrite xorb_false_l.
  - cbn [gaps render_from length shade]. rewrite Nat.sub_0_r, <- app_assoc. f_equal. f_equal.
    rewrite Nat.odd_succ, <- Nat.negb_odd, HO. cbn [negb xorb].
    now rewrite last_cons.
Qed.

(** ** A symbol's own edges *)
Lemma edges_head x q ws : exists tl, edges x q ws = q :: tl.
Proof. destruct ws; cbn; eauto. Qed.
Lemma edges_length x ws : forall q, length (edges x q ws) = S (length ws).
Proof. induction ws as [|w tl IH]; intros q; [reflexivity|]. cbn. now rewrite IH. Qed.

(** Edges moved by less than half the distance to the next one stay in order *)
Lemma moved_gaps t x : 1 <= t -> 1 <= x -> forall ws q es', Forall (fun w => 1 <= w) ws -> moved t x (edges x q ws) es' ->
  exists e tl, es' = e :: tl /\ t * (q - e) < x /\ t * (e - q) < x /\ length tl = length ws /\
    Forall2 (fun w v => t * (x * w) < t * v + 2 * x /\ t * v < t * (x * w) + 2 * x) ws (gaps e tl) /\ (2 <= t -> climbs e tl).
Proof.
  intros Ht Hx. induction ws as [|w ws IH]; intros q es' HF HM.
  - inversion HM as [|? ? ? ? [A B] HN]; subst. inversion HN; subst. eexists. exists []. split; [reflexivity|]. cbn [gaps climbs length]. auto.
  - inversion HF as [|? ? Hw HF']; subst. cbn [edges] in HM. inversion HM as [|? e' ? tl' [A B] HN]; subst.
    destruct (IH _ _ HF' HN) as (f & tl & -> & C & D & HL & HG & HC). exists e', (f :: tl). split; [reflexivity|].
    split; [assumption|]. split; [assumption|]. cbn [length gaps climbs]. split; [now rewrite HL|]. split.
    + constructor; [|assumption]. nia.
    + intros H2. split; [|now apply HC]. nia.
Qed.
Lemma nearest_close x w v : 1 <= x -> 2 * (x * w) < 2 * v + x -> 2 * v < 2 * (x * w) + x -> nearest x v = w.
Proof.
  intros Hx A B. unfold nearest. symmetry. apply (Nat.div_unique _ _ _ (2 * v + x - 2 * x * w)); nia.
Qed.
Lemma Forall2_len {A B} (R : A -> B -> Prop) l l' : Forall2 R l l' -> length l = length l'.
Proof. induction 1; cbn; congruence. Qed.
Lemma odd_even_false n : Nat.even n = false -> Nat.odd n = true.
Proof. intros H. now rewrite <- Nat.negb_even, H. Qed.

Lemma rounded_reads y x q ws es' n : 1 <= x -> Forall (fun w => 1 <= w) ws -> Nat.even (length ws) = false ->
  moved 4 x (edges x q ws) es' -> Forall (fun e => e <= n) es' -> rounded_read y x (picture es' n) = read_as y ws.
Proof.
  intros Hx HF HO HM HN. destruct (moved_gaps 4 x ltac:(lia) Hx ws q es' HF HM) as (e & tl & -> & _ & _ & HL & HG & HC).
  unfold rounded_read. rewrite picture_climbs; [|apply HC; lia | assumption | rewrite HL; now apply odd_even_false].
  assert (HP : Forall (fun v => 1 <= v) (gaps e tl)).
  { clear -HF HG Hx. revert HF. induction HG as [|w v ws vs [A B] HG IH]; intros HF; [constructor|]. inversion HF as [|? ? Hw HF']; subst.
    constructor; [nia | now apply IH]. }
  assert (HE : length (gaps e tl) = length ws) by (symmetry; apply (Forall2_len _ _ _ HG)).
  rewrite scan_render_quiet; [|assumption | now rewrite HE]. cbn [obind]. f_equal.
  clear -HG Hx HF. revert HF. induction HG as [|w v ws vs [A B] HG IH]; intros HF; [reflexivity|]. inversion HF as [|? ? Hw HF']; subst.
  cbn [map]. f_equal; [apply nearest_close; lia | now apply IH].
Qed.

(** ** The grid known *)
Lemma edges_grid x q ws : exists Es, edges x q ws = map (fun E => q + x * E) Es /\ edges 1 0 ws = Es.
Proof.
  exists (edges 1 0 ws). split; [|reflexivity]. assert (H : forall a, edges x (q + x * a) ws = map (fun E => q + x * E) (edges 1 a ws)).
  { induction ws as [|w ws IH]; intros a; [reflexivity|]. cbn [edges map]. f_equal. rewrite <- IH. f_equal. nia. }
  specialize (H 0). now rewrite Nat.mul_0_r, Nat.add_0_r in H.
Qed.
Lemma half x : 1 <= x -> 2 * (x / 2) <= x < 2 * (x / 2) + 2.
Proof. intros. pose proof (Nat.div_mod x 2 ltac:(lia)). pose proof (Nat.mod_upper_bound x 2 ltac:(lia)). lia. Qed.
Lemma middle_behind x q j : 1 <= x -> forall Es es', Forall2 (fun e e' => 2 * (e - e') < x /\ 2 * (e' - e) < x) (map (fun E => q + x * E) Es) es' ->
  behind es' (q + x * j + x / 2) = behind Es j.
Proof.
  intros Hx. pose proof (half x Hx) as HH. induction Es as [|E Es IH]; intros es' H; inversion H as [|? e' ? tl [A B] HF]; subst; [reflexivity|].
  specialize (IH tl HF). unfold behind in *. cbn [filter].
  destruct (E <=? j) eqn:E1, (e' <=? q + x * j + x / 2) eqn:E2; cbn [length]; try congruence; exfalso.
  - apply Nat.leb_le in E1. apply Nat.leb_gt in E2. assert (x * E <= x * j) by now apply Nat.mul_le_mono_l. lia.
  - apply Nat.leb_gt in E1. apply Nat.leb_le in E2. assert (x * S j <= x * E) by (apply Nat.mul_le_mono_l; lia). rewrite Nat.mul_succ_r in *. lia.
Qed.
Lemma edges_climb ws : forall a, exists tl, edges 1 a ws = a :: tl /\ climbs a tl /\ gaps a tl = ws /\ length tl = length ws /\ last tl a = a + list_sum ws /\
  Forall (fun e => e <= a + list_sum ws) (a :: tl).
Proof.
  induction ws as [|w ws IH]; intros a.
  - exists []. cbn. repeat split; [lia|]. constructor; [lia | constructor].
  - destruct (IH (a + 1 * w)) as (tl & E & HC & HG & HL & HS & HF). exists (a + 1 * w :: tl). cbn [edges]. rewrite E.
    repeat split; cbn [climbs gaps length list_sum fold_right].
    + lia.
    + assumption.
    + f_equal; [lia | assumption].
    + now rewrite HL.
    + rewrite last_cons, HS. change (fold_right Nat.add 0 ws) with (list_sum ws). lia.
    + change (fold_right Nat.add 0 ws) with (list_sum ws). constructor; [lia|]. revert HF. apply Forall_impl. intros. lia.
Qed.
Lemma samples_moved x q ws es' n : 1 <= x -> Nat.even (length ws) = false ->
  moved 2 x (edges x q ws) es' -> Forall (fun e => e <= n) es' ->
  exists k, samples x q (picture es' n) = render ws ++ repeat 0%N k.
Proof.
  intros Hx HO HM HN. destruct (edges_grid x q ws) as (Es & E1 & E2). rewrite E1 in HM.
  destruct (edges_climb ws 0) as (tl & E3 & HC & HG & HL & HS & HF). rewrite E2 in E3. rewrite Nat.add_0_l in *.
  assert (HLen : length (picture es' n) = n) by (unfold picture; now rewrite map_length, seq_length).
  assert (HSN : list_sum ws <= S (n / x)).
  { assert (HI : In (list_sum ws) Es).
    { rewrite E3, <- HS. clear. generalize 0. induction tl as [|f tl IH]; intros b; [now left|]. right. rewrite last_cons. apply IH. }
    assert (HX : exists e', In e' es' /\ 2 * (q + x * list_sum ws - e') < x).
    { clear -HM HI. revert es' HM. induction Es as [|E Es IH]; intros es' HM; [destruct HI|]. inversion HM as [|? e' ? t [A B] HF]; subst.
      destruct HI as [->|HI]; [exists e'; split; [now left | assumption]|]. destruct (IH HI t HF) as (e & H1 & H2). exists e. split; [now right | assumption]. }
    destruct HX as (e' & H1 & H2). rewrite Forall_forall in HN. specialize (HN e' H1).
    destruct (list_sum ws) as [|k]; [lia|]. apply le_n_S. apply Nat.div_le_lower_bound; [lia|]. rewrite Nat.mul_succ_r in H2. lia. }
  exists (S (n / x) - list_sum ws). unfold samples. rewrite HLen.
  transitivity (picture Es (S (n / x))).
  - unfold picture at 2. apply map_ext. intros j. rewrite <- (middle_behind x q j Hx Es es' HM). set (c := q + x * j + x / 2).
    destruct (Nat.lt_ge_cases c n) as [Hc|Hc].
    + unfold picture. set (f := fun i => if Nat.odd (behind es' i) then 1%N else 0%N).
      rewrite (nth_indep _ 0%N (f 0)) by now rewrite map_length, seq_length.
      rewrite (map_nth f), seq_nth by assumption. now rewrite Nat.add_0_l.
    + rewrite nth_overflow by (rewrite HLen; assumption).
      assert (HB : behind es' c = length es').
      { clear -HN Hc. unfold behind. induction HN as [|e es H HN IH]; [reflexivity|]. cbn [filter].
        assert (E : (e <=? c) = true) by (apply Nat.leb_le; lia). rewrite E. cbn [length]. now rewrite IH. }
      rewrite HB. apply Forall2_len in HM. rewrite map_length, E3 in HM. rewrite <- HM. cbn [length]. rewrite HL, Nat.odd_succ, HO. reflexivity.
  - rewrite E3. rewrite picture_climbs; [|assumption | | rewrite HL; now apply odd_even_false].
    + cbn [repeat app]. now rewrite HG, HS.
    + revert HF. apply Forall_impl. intros. lia.
Qed.
Lemma grid_reads y x q ws es' n : 1 <= x -> Forall (fun w => 1 <= w) ws -> Nat.even (length ws) = false ->
  moved 2 x (edges x q ws) es' -> Forall (fun e => e <= n) es' -> grid_read y x q (picture es' n) = read_as y ws.
Proof.
  intros Hx HF HO HM HN. destruct (samples_moved x q ws es' n Hx HO HM HN) as [k E]. unfold grid_read, read_modules. rewrite E.
  now rewrite scan_render_tail.
Qed.

(** ** Ink that spreads *)
Fixpoint grown (x : nat) (d : Z) (ws vs : list nat) : Prop :=
  match ws, vs with
  | [], [] => True
  | w :: ws', v :: vs' => (Z.of_nat v = Z.of_nat (x * w) + d)%Z /\ grown x (- d)%Z ws' vs'
  | _, _ => False
  end.
Lemma shifted_gaps x : forall ws l t q es', Forall (fun w => 1 <= w) ws -> (Z.abs (t - l) < Z.of_nat x)%Z -> shifted l t (edges x q ws) es' ->
  exists e tl, es' = e :: tl /\ (Z.of_nat e = Z.of_nat q + l)%Z /\ length tl = length ws /\ grown x (t - l) ws (gaps e tl) /\ climbs e tl.
Proof.
  induction ws as [|w ws IH]; intros l t q es' HF HX HS.
  - destruct es' as [|e es']; [destruct HS|]. destruct HS as [HE HN]. destruct es'; [|destruct HN]. exists e, []. cbn. auto.
  - inversion HF as [|? ? Hw HF']; subst. cbn [edges] in HS. destruct es' as [|e es']; [destruct HS|]. destruct HS as [HE HN].
    apply IH in HN; [|assumption | lia]. destruct HN as (f & tl & -> & HE' & HL & HG & HC). exists e, (f :: tl). split; [reflexivity|].
    split; [assumption|]. cbn [length gaps climbs grown]. split; [now rewrite HL|].
    assert (HX' : (Z.of_nat (q + x * w) = Z.of_nat q + Z.of_nat (x * w))%Z) by lia.
    assert (Hxw : x <= x * w) by nia.
    split; [split|].
    + rewrite Nat2Z.inj_sub by lia. lia.
    + replace (- (t - l))%Z with (l - t)%Z by lia. exact HG.
    + split; [lia | exact HC].
Qed.
Lemma grown_length x : forall ws d vs, grown x d ws vs -> length vs = length ws.
Proof. induction ws as [|w ws IH]; intros d [|v vs] H; try destruct H; [reflexivity|]. cbn. f_equal. eapply IH; eassumption. Qed.
Lemma grown_pos x : forall ws d vs, Forall (fun w => 1 <= w) ws -> (Z.abs d < Z.of_nat x)%Z -> grown x d ws vs -> Forall (fun v => 1 <= v) vs.
Proof.
  induction ws as [|w ws IH]; intros d [|v vs] HF HX H; try destruct H; [constructor|]. inversion HF as [|? ? Hw HF']; subst.
  constructor; [nia|]. apply (IH (- d)%Z); [assumption | lia | assumption].
Qed.
Lemma grown_bars x d : forall n ws vs, length ws <= n -> grown x d ws vs ->
  Forall2 (fun w v => Z.of_nat v = Z.of_nat (x * w) + d)%Z (bars ws) (bars vs).
Proof.
  unfold bars. induction n as [|n IH]; intros ws vs Hn H.
  - destruct ws; [|cbn in Hn; lia]. destruct vs; [constructor | destruct H].
  - destruct ws as [|w [|w2 ws]], vs as [|v [|v2 vs]]; try (destruct H; fail); cbn [every_other].
    + constructor.
    + constructor; [apply H | constructor].
    + destruct H as [_ []].
    + destruct H as [_ []].
    + destruct H as [H1 [_ H2]]. constructor; [exact H1|]. apply IH; [cbn in Hn; lia|]. replace d with (- - d)%Z by lia. exact H2.
Qed.
Lemma grown_spaces x d ws vs : grown x d ws vs -> Forall2 (fun w v => Z.of_nat v = Z.of_nat (x * w) + - d)%Z (spaces ws) (spaces vs).
Proof.
  intros H. unfold spaces. destruct ws as [|w ws], vs as [|v vs]; try destruct H; [constructor|]. cbn [tl].
  now apply (grown_bars x (- d)%Z (length ws)).
Qed.
Lemma every_other_in {A} (l : list A) a : In a (every_other l) -> In a l.
Proof.
  assert (H : forall n l, length l <= n -> In a (every_other l) -> In a l).
  { induction n as [|n IH]; intros l' Hn HI; [destruct l'; [exact HI | cbn in Hn; lia]|].
    destruct l' as [|b [|c l']]; [exact HI | exact HI|]. cbn [every_other] in HI. destruct HI as [->|HI]; [now left|].
    right. right. apply IH; [cbn in Hn; lia | assumption]. }
  now apply (H (length l)).
Qed.
Lemma narrowest_grown x d ws vs : Forall (fun w => 1 <= w) ws -> In 1 ws ->
  Forall2 (fun w v => Z.of_nat v = Z.of_nat (x * w) + d)%Z ws vs -> Z.of_nat (narrowest vs) = (Z.of_nat x + d)%Z.
Proof.
  intros HF H1 H2. assert (HI : exists v, In v vs /\ (Z.of_nat v = Z.of_nat x + d)%Z).
  { clear HF. induction H2 as [|w v ws vs E H2 IH]; [destruct H1|]. destruct H1 as [->|H1].
    - exists v. split; [now left|]. rewrite Nat.mul_1_r in E. exact E.
    - destruct (IH H1) as (u & Hu & Eu). exists u. split; [now right | assumption]. }
  destruct HI as (v & Hv & Ev). pose proof (narrowest_le vs v Hv) as HL.
  assert (HG : v <= narrowest vs).
  { apply narrowest_ge; [destruct vs; [destruct Hv | discriminate]|]. clear -HF H2 Ev. revert HF.
    induction H2 as [|w u ws vs E H2 IH]; intros HF; [constructor|]. inversion HF as [|? ? Hw HF']; subst. constructor; [nia | now apply IH]. }
  lia.
Qed.
Lemma corrected_grown x : 1 <= x -> forall ws vs d b s, (Z.of_nat b = Z.of_nat x + d)%Z -> (Z.of_nat s = Z.of_nat x - d)%Z ->
  grown x d ws vs -> corrected x b s vs = ws.
Proof.
  intros Hx. induction ws as [|w ws IH]; intros [|v vs] d b s Hb Hs H; try destruct H; [reflexivity|]. cbn [corrected]. f_equal.
  - replace (v + x - b) with (w * x) by nia. apply Nat.div_mul. lia.
  - apply (IH vs (- d)%Z); [lia | lia | assumption].
Qed.
Lemma spread_reads y x q l t ws es' n : Forall (fun w => 1 <= w) ws -> Nat.even (length ws) = false ->
  In 1 (bars ws) -> In 1 (spaces ws) -> (Z.abs (t - l) < Z.of_nat x)%Z -> shifted l t (edges x q ws) es' ->
  Forall (fun e => e <= n) es' -> spread_read y (picture es' n) = read_as y ws.
Proof.
  intros HF HO HB HS HX HM HN. destruct (shifted_gaps x ws l t q es' HF HX HM) as (e & tl & -> & _ & HL & HG & HC).
  unfold spread_read. rewrite picture_climbs; [|assumption | assumption | rewrite HL; now apply odd_even_false].
  pose proof (grown_length _ _ _ _ HG) as HLen. pose proof (grown_pos _ _ _ _ HF HX HG) as HP.
  rewrite scan_render_quiet; [|assumption | now rewrite HLen]. cbn [obind]. f_equal.
  assert (EB : Z.of_nat (narrowest (bars (gaps e tl))) = (Z.of_nat x + (t - l))%Z).
  { apply (narrowest_grown x (t - l) (bars ws)); [|assumption | now apply (grown_bars x (t - l) (length ws))].
    apply Forall_forall. intros w Hw. apply every_other_in in Hw. rewrite Forall_forall in HF. now apply HF. }
  assert (ES : Z.of_nat (narrowest (spaces (gaps e tl))) = (Z.of_nat x + - (t - l))%Z).
  { apply (narrowest_grown x _ (spaces ws)); [|assumption | now apply grown_spaces].
    apply Forall_forall. intros w Hw. apply every_other_in in Hw. rewrite Forall_forall in HF. apply HF. destruct ws; [destruct Hw | now right]. }
  assert (EX : (narrowest (bars (gaps e tl)) + narrowest (spaces (gaps e tl))) / 2 = x).
  { replace (_ + _) with (x * 2) by lia. apply Nat.div_mul. discriminate. }
  rewrite EX. apply (corrected_grown x ltac:(lia) ws _ (t - l)); [exact EB | lia | exact HG].
Qed.

(** ** Every symbol has a narrow bar and a narrow space *)
Lemma every_other_app {A} (a b : list A) : Nat.even (length a) = true -> every_other (a ++ b) = every_other a ++ every_other b.
Proof.
  assert (H : forall n (l : list A), length l <= n -> Nat.even (length l) = true -> every_other (l ++ b) = every_other l ++ every_other b).
  { induction n as [|n IH]; intros l Hn He; [destruct l; [reflexivity | cbn in Hn; lia]|].
    destruct l as [|x [|y l]]; [reflexivity | discriminate|]. cbn [app every_other]. f_equal. apply IH; [cbn in Hn; lia | exact He]. }
  apply (H (length a)). reflexivity.
Qed.
Definition both_narrow (ws : list nat) : Prop := In 1 (bars ws) /\ In 1 (spaces ws).
Lemma every_other_mono (x : nat) (a b : list nat) : In x (every_other a) -> In x (every_other (a ++ b)).
Proof.
  assert (H : forall n (l : list nat), length l <= n -> In x (every_other l) -> In x (every_other (l ++ b))).
  { induction n as [|n IH]; intros l Hn HI; [destruct l; [destruct HI | cbn in Hn; lia]|].
    destruct l as [|u [|v l]]; [destruct HI| |].
    - destruct HI as [->|[]]. cbn [app]. destruct b; now left.
    - cbn [app every_other] in *. destruct HI as [->|HI]; [now left | right]. apply IH; [cbn in Hn; lia | assumption]. }
  now apply (H (length a)).
Qed.
Lemma both_prefix a b : both_narrow a -> both_narrow (a ++ b).
Proof.
  intros [HB HS]. split; unfold bars, spaces in *; [now apply every_other_mono|].
  destruct a as [|x a]; [destruct HS|]. cbn [tl app] in *. now apply every_other_mono.
Qed.
Lemma both_suffix a b : Nat.even (length a) = true -> both_narrow b -> both_narrow (a ++ b).
Proof.
  intros HE [HB HS]. split; unfold bars, spaces in *.
  - rewrite every_other_app by assumption. apply in_or_app. now right.
  - destruct a as [|x a]; [exact HS|]. cbn [tl app]. destruct b as [|y b]; [destruct HS|]. cbn [tl] in HS. clear HB. revert HE.
    assert (H : forall n (l : list nat), length l <= n -> Nat.even (S (length l)) = true -> In 1 (every_other (l ++ y :: b))).
    { induction n as [|n IH]; intros l Hn He; [destruct l; [discriminate | cbn in Hn; lia]|].
      destruct l as [|u [|v l]]; [discriminate | |].
      - cbn [app every_other]. now right.
      - cbn [app every_other]. right. apply IH; [cbn in Hn; lia | exact He]. }
    intros HE. now apply (H (length a)).
Qed.

Definition both_narrow_b (ws : list nat) : bool := existsb (Nat.eqb 1) (bars ws) && existsb (Nat.eqb 1) (spaces ws).
Lemma both_narrow_true ws : both_narrow_b ws = true -> both_narrow ws.
Proof.
  unfold both_narrow_b, both_narrow. rewrite andb_true_iff, !existsb_exists. intros [(x & Hx & Ex) (z & Hz & Ez)].
  apply Nat.eqb_eq in Ex, Ez. now subst x z.
Qed.
Lemma lib_pattern_both c : In c cod_chars -> both_narrow (lib_pattern c).
Proof.
  intros H. apply both_narrow_true. revert c H. apply forallb_forall. vm_compute. reflexivity.
Qed.
Lemma codabar_both s : Forall cod_in s -> s <> [] -> both_narrow (sep_symbol lib_pattern s).
Proof.
  intros H Hn. destruct H as [|c s Hc H]; [congruence|]. cbn [sep_symbol]. apply both_prefix. now apply lib_pattern_both.
Qed.

Lemma c128_both vs chk : Forall (fun v => v < 106)%N (vs ++ [chk]) -> both_narrow (symbol_with vs chk).
Proof.
  intros H. unfold symbol_with. apply both_suffix; [|apply both_narrow_true; reflexivity].
  rewrite concat_length_6 by now apply c128_lengths. now rewrite Nat.even_mul.
Qed.
Definition narrow2 (y : symbology) (m : list N) : Prop := exists ws, m = render ws ++ tail y /\ drawn y ws /\ both_narrow ws.
Lemma narrow2_plain y ws : tail y = [] -> both_narrow ws -> drawn y ws -> narrow2 y (render ws).
Proof. intros E H1 H. exists ws. rewrite E, app_nil_r. now split. Qed.
Ltac both :=
  first [ apply c128_both; assumption
        | apply codabar_both; assumption
        | unfold ean13_symbol, ean8_symbol, upca_symbol, ean2_symbol, ean5_symbol, c39_symbol, c93_symbol, c11_symbol, itf_symbol, stf_symbol, stf_bars;
          apply both_prefix; apply both_narrow_true; vm_compute; reflexivity ].
Open Scope N_scope.
Lemma barcode_narrow2 y p s m : str_len s < 2 ^ 48 -> barcode y p s = Ret (Ok m) -> narrow2 y m.
Proof.
  intros Hs H. destruct y; cbn [barcode] in H; (apply run_Ret in H || apply run_Ok in H);
    destruct H as [b [HN HE]].
  - destruct (ean13_conform p p s b HN) as [E _]. destruct (ean13_accepted p s b HN) as (_ & _ & D).
    rewrite HE in E. injection E as ->. apply narrow2_plain; [reflexivity | both |].
    apply Forall_snoc with (x := gs1_check (firstn 12 (digits_of s))) in D; [|apply gs1_check_digit].
    split; [now apply ean13_symbol_odd | now apply ean13_symbol_width].
  - destruct (ean8_conform p p s b HN) as [E _]. destruct (ean8_accepted p s b HN) as (_ & _ & D).
    rewrite HE in E. injection E as ->. apply narrow2_plain; [reflexivity | both |].
    apply Forall_snoc with (x := gs1_check (firstn 7 (digits_of s))) in D; [|apply gs1_check_digit].
    split; [now apply ean8_symbol_odd | now apply ean8_symbol_width].
  - destruct (upca_conform p p s b HN) as [E _]. destruct (upca_accepted p s b HN) as (_ & _ & D).
    rewrite HE in E. injection E as ->. apply narrow2_plain; [reflexivity | both |].
    apply Forall_snoc with (x := gs1_check (firstn 11 (digits_of s))) in D; [|apply gs1_check_digit].
    split; [now apply upca_symbol_odd | now apply upca_symbol_width].
  - destruct (eansupp_accepted p s b HN) as [m' [E HC]]. rewrite HE in E. injection E as <-.
    destruct (eansupp_new_spec s) as [r [ER [_ [_ [_ HO]]]]]. rewrite HN in ER. injection ER as <-.
    specialize (HO b). destruct HO as [HO _]. destruct (HO eq_refl) as [HD _].
    apply digits_of_digits in HD.
    destruct HC as [[_ [_ [-> _]]]|[_ [_ [-> _]]]]; (apply narrow2_plain; [reflexivity | both |]).
    + now apply ean2_shape.
    + now apply ean5_shape.
  - destruct (code39_accepted p s b false Hs (or_introl HN)) as [m' [E [Em _]]].
    apply code39_init_Ok in HN. destruct HN as [HD [Hd Hb]]. subst b.
    cbn [c39_data] in E. rewrite HE in E. injection E as <-. subst m. apply narrow2_plain; [reflexivity | both |].
    split; [now apply c39_symbol_odd | now apply c39_symbol_widths].
  - destruct (code39_accepted p s b true Hs (or_intror HN)) as [m' [E [Em _]]].
    apply code39_init_Ok in HN. destruct HN as [HD [Hd Hb]]. subst b.
    cbn [c39_data] in E. rewrite HE in E. injection E as <-. subst m. apply narrow2_plain; [reflexivity | both |].
    pose proof (c39_message_in s true HD) as HM.
    split; [now apply c39_symbol_odd | now apply c39_symbol_widths].
  - destruct (code93_accepted p s b Hs HN) as [m' [E [Em _]]]. rewrite HE in E. injection E as <-. subst m.
    apply narrow2_plain; [reflexivity | both |].
    apply code93_new_Ok in HN. destruct HN as [HD _]. pose proof (c93_message_in s HD) as HM.
    split; [now apply c93_symbol_odd | now apply c93_symbol_widths].
  - pose proof (code11_accepted p s b Hs HN) as E. rewrite HE in E. injection E as ->.
    apply narrow2_plain; [reflexivity | both |].
    apply code11_new_Ok in HN. destruct HN as [HD _]. pose proof (c11_message_in s HD) as HM.
    split; [now apply c11_symbol_odd | now apply c11_symbol_widths].
  - pose proof (codabar_encode_lib p s b HN) as E. rewrite HE in E. injection E as ->.
    apply codabar_new_Ok in HN. destruct HN as [HF [Hn _]].
    apply narrow2_plain; [reflexivity | both |]. split; [|now apply lib_symbol_widths].
    apply sep_odd; [exact lib_pattern_length | assumption | assumption].
  - destruct (code128_new_Ok s b HN) as [segs [HM [_ ->]]].
    destruct (encode_returns_form p _ m (message_units_idx _ HM) HE) as [chk [HC ->]].
    rewrite message_units_values.
    assert (HL : Forall (fun v => v < 106) (message_values segs ++ [chk])).
    { apply Forall_snoc; [now apply message_values_lt | assumption]. }
    apply narrow2_plain; [reflexivity | both |].
    split; [now apply symbol_with_odd | now apply symbol_with_widths].
  - destruct (itf_accepted p s b HN) as [ds [HD [_ [_ [E _]]]]]. rewrite HE in E. injection E as ->.
    apply narrow2_plain; [reflexivity | both |]. split; [now apply itf_symbol_odd | now apply itf_symbol_widths].
  - destruct (stf_accepted s b HN) as [m' [E [-> _]]]. rewrite HE in E. injection E as ->.
    apply tf_standard_Ok in HN. destruct HN as [HD _]. apply digits_of_digits in HD.
    exists (stf_symbol 3 2 (digits_of s)). split; [reflexivity|].
    split; [split; [now apply stf_symbol_odd | now apply stf_symbol_widths] | both].
Qed.

(** ** Nothing moved *)
Open Scope nat_scope.
Lemma edges_scaled x : forall ws q, exists tl, edges x q ws = q :: tl /\ climbs q tl /\ gaps q tl = map (fun w => w * x) ws /\
  length tl = length ws /\ last tl q = q + x * list_sum ws /\ Forall (fun e => e <= q + x * list_sum ws) (q :: tl).
Proof.
  induction ws as [|w ws IH]; intros q.
  - exists []. cbn. rewrite Nat.mul_0_r. repeat split; [lia|]. constructor; [lia | constructor].
  - destruct (IH (q + x * w)) as (tl & E & HC & HG & HL & HS & HF). exists (q + x * w :: tl). cbn [edges]. rewrite E.
    repeat split; cbn [climbs gaps length list_sum fold_right map].
    + lia.
    + assumption.
    + f_equal; [lia | assumption].
    + now rewrite HL.
    + rewrite last_cons, HS. change (fold_right Nat.add 0 ws) with (list_sum ws). lia.
    + change (fold_right Nat.add 0 ws) with (list_sum ws). constructor; [lia|]. revert HF. apply Forall_impl. intros. lia.
Qed.
Lemma enlarged_repeat k b n : enlarged k (repeat b n) = repeat b (n * k).
Proof. induction n as [|n IH]; [reflexivity|]. cbn [repeat enlarged flat_map]. fold (enlarged k (repeat b n)). now rewrite IH, <- repeat_app. Qed.
Lemma enlarged_app k a b : enlarged k (a ++ b) = enlarged k a ++ enlarged k b.
Proof. apply flat_map_app. Qed.
Lemma enlarged_render k : forall ws b, enlarged k (render_from b ws) = render_from b (map (fun w => w * k) ws).
Proof. induction ws as [|w ws IH]; intros b; [reflexivity|]. cbn [render_from map]. now rewrite enlarged_app, enlarged_repeat, IH. Qed.
Lemma picture_unmoved x q y ws : Nat.even (length ws) = false ->
  picture (edges x q ws) (q + x * length (render ws ++ tail y)) = repeat 0%N q ++ enlarged x (render ws ++ tail y).
Proof.
  intros HO. destruct (edges_scaled x ws q) as (tl & E & HC & HG & HL & HS & HF). rewrite E. destruct (tail_repeat y) as [k ->].
  assert (HR : length (render ws) = list_sum ws) by (unfold render; apply render_from_length).
  rewrite app_length, repeat_length, HR.
  rewrite picture_climbs; [|assumption | | rewrite HL; now apply odd_even_false].
  - rewrite HG, HS, enlarged_app, enlarged_repeat. unfold render. rewrite enlarged_render. do 3 f_equal. lia.
  - revert HF. apply Forall_impl. intros. lia.
Qed.

(** ** Witnesses *)
Definition midway (a b : list nat) : list nat := map (fun '(e, f) => (e + f) / 2) (combine a b).
Fixpoint thicker (trailing : bool) (es : list nat) : list nat :=
  match es with
  | [] => []
  | e :: tl => (if trailing then S e else e) :: thicker (negb trailing) tl
  end.
