(** * Several wrong characters *)
From Verif Require Import Rust M_Error Symbology M_Use S_Barcode S_Ean S_Text S_Linear S_Codabar S_Tf S_Code128 S_All S_Damage S_Check128 S_Cell S_Several
  P_Rust P_Barcode P_Alphabet P_Weighted P_Code93 P_All P_Damage P_Cell P_Stretch P_Wrong.
Local Open Scope nat_scope.

Lemma app_same {A} (a b c d : list A) : a ++ b = c ++ d -> length a = length c -> a = c /\ b = d.
Proof.
  revert c. induction a as [|x a IH]; intros [|y c] E L; try discriminate L; [auto|]. injection L as L. injection E as -> E.
  destruct (IH c E L) as [-> ->]. auto.
Qed.
Lemma concat_same {A} k (bs bs' : list (list A)) t t' : 0 < k -> Forall (fun b => length b = k) bs -> Forall (fun b => length b = k) bs' ->
  length bs = length bs' -> concat bs ++ t = concat bs' ++ t' -> bs = bs'.
Proof.
  intros Hk H. revert bs'. induction H as [|b bs Hb H IH]; intros bs' H' L E; destruct H' as [|b' bs' Hb' H']; try discriminate L; [reflexivity|].
  injection L as L. cbn [concat] in E. rewrite <- !app_assoc in E. apply app_same in E; [|congruence]. destruct E as [-> E]. f_equal. now apply IH.
Qed.
(** A list cut in blocks of six, one of which is replaced *)
Lemma cut_at {A} k (bs : list (list A)) : Forall (fun b => length b = k) bs -> forall u b v t i,
  length b = k -> length u = k * i -> 0 < k -> length t < k -> concat bs ++ t = u ++ b ++ v ->
  exists x y, bs = x ++ b :: y /\ u = concat x /\ v = concat y ++ t.
Proof.
  intros HF. induction HF as [|c bs Hc HF IH]; intros u b v t i Lb Lu Hk Lt E.
  - exfalso. apply (f_equal (@length A)) in E. cbn [concat app] in E. rewrite !app_length in E. lia.
  - destruct i as [|i].
    + assert (u = []) by (apply length_zero_iff_nil; lia). subst u. cbn [concat app] in E. rewrite <- app_assoc in E.
      apply app_same in E; [|congruence]. destruct E as [-> E]. exists [], bs. auto.
    + assert (Lu' : length (firstn k u) = k) by (rewrite firstn_length; lia).
      rewrite <- (firstn_skipn k u) in E. cbn [concat] in E. rewrite <- !app_assoc in E.
      apply app_same in E; [|congruence]. destruct E as [Ec E].
      destruct (IH (skipn k u) b v t i Lb) as (x & z & -> & Eu & Ev); [rewrite skipn_length; lia | assumption | assumption | exact E |].
      exists (c :: x), z. split; [reflexivity|]. split; [|assumption]. cbn [concat]. rewrite <- Eu, Ec. symmetry. apply firstn_skipn.
Qed.

Lemma diffs_triangle a : forall b c, length a = length b -> length b = length c -> diffs a c <= diffs a b + diffs b c.
Proof.
  induction a as [|x a IH]; intros [|y b] [|z c] L L'; try discriminate; [cbn; lia|]. injection L as L. injection L' as L'. cbn [diffs].
  specialize (IH b c L L'). destruct (list_eq_dec Nat.eq_dec x z), (list_eq_dec Nat.eq_dec x y), (list_eq_dec Nat.eq_dec y z); try lia. congruence.
Qed.
Lemma diffs_replace x (b b' : list nat) z : diffs (x ++ b :: z) (x ++ b' :: z) <= 1.
Proof. rewrite diffs_app by reflexivity. rewrite diffs_same. cbn [diffs]. rewrite diffs_same. destruct (list_eq_dec Nat.eq_dec b b'); lia. Qed.
Definition sixes : list (list nat) -> Prop := Forall (fun b => length b = 6).
Lemma cells_blocks k : forall bs t ws', sixes bs -> length t < 6 -> cells_changed SCode93 k (concat bs ++ t) ws' ->
  exists bs', ws' = concat bs' ++ t /\ sixes bs' /\ length bs' = length bs /\ diffs bs bs' <= k.
Proof.
  induction k as [|k IH]; intros bs t ws' HF Ht H.
  - exists bs. rewrite diffs_same. cbn [cells_changed] in H. auto.
  - destruct H as [H|(v & H & H2)].
    + destruct (IH bs t ws' HF Ht H) as (bs' & E & F & L & D). exists bs'. repeat (split; [assumption|]). lia.
    + destruct H as (u & b & b' & w & E & -> & Hne & Lb & Lb' & i & Lu).
      destruct (cut_at 6 bs HF u b w t i Lb Lu ltac:(lia) Ht E) as (x & z & -> & -> & ->).
      assert (HF' : sixes (x ++ b' :: z)).
      { unfold sixes in *. apply Forall_app in HF. destruct HF as [F1 F2]. apply Forall_cons_iff in F2. destruct F2 as [_ F2].
        apply Forall_app. split; [assumption|]. now constructor. }
      replace (concat x ++ b' ++ concat z ++ t) with (concat (x ++ b' :: z) ++ t) in H2 by (rewrite concat_app; cbn [concat]; now rewrite <- !app_assoc).
      destruct (IH _ t ws' HF' Ht H2) as (bs' & E' & F & L & D). exists bs'. split; [assumption|]. split; [assumption|].
      split; [rewrite L, !app_length; reflexivity|].
      pose proof (diffs_triangle (x ++ b :: z) (x ++ b' :: z) bs') as T. rewrite !app_length in *. cbn [length] in *. specialize (T eq_refl (eq_sym L)).
      pose proof (diffs_replace x b b' z). lia.
Qed.
Lemma c93_blocks ws r : read_c93 ws = Some r -> exists mid raw, ws = concat (c93_star :: mid ++ [c93_star]) ++ [1] /\
  read_all (read_char c93_chars c93_table) mid = Some raw /\ c93_verify raw = Some r /\ sixes (c93_star :: mid ++ [c93_star]) /\ length raw = length mid.
Proof.
  intros H. destruct (c93_form ws r H) as (mid & raw & -> & HR & HV & HF). exists mid, raw.
  split; [cbn [concat]; rewrite concat_app; cbn [concat]; rewrite app_nil_r, <- !app_assoc; reflexivity|].
  split; [assumption|]. split; [assumption|]. split; [|exact (read_all_length _ _ _ HR)].
  unfold sixes. constructor; [reflexivity|]. apply Forall_app. split; [revert HF; apply Forall_impl; tauto | now repeat constructor].
Qed.
Lemma c93_two_wrong ws r ws' r' n : read_c93 ws = Some r -> list_sum ws = 9 * n + 37 -> n <= 14 -> cells_changed SCode93 2 ws ws' -> read_c93 ws' = Some r' -> ws' = ws.
Proof.
  intros H HN L HC H'.
  assert (LM0 : forall mid, ws = concat (c93_star :: mid ++ [c93_star]) ++ [1] -> sixes (c93_star :: mid ++ [c93_star]) -> length mid = n + 2).
  { destruct (c93_form ws r H) as (mid & raw & E & _ & _ & HF). intros mid' E' HF'.
    assert (L' : length mid' = length mid).
    { rewrite E in E'. apply (f_equal (@length nat)) in E'. rewrite !app_length in E'. rewrite (concat_length_const 6 mid) in E' by (revert HF; apply Forall_impl; tauto).
      rewrite (concat_length_const 6 (c93_star :: _)) in E' by exact HF'. cbn [length] in E'. rewrite app_length in E'.
      cbn [length] in E'. change (length c93_star) with 6 in E'. lia. }
    rewrite L'. rewrite E, !list_sum_app, (list_sum_concat 9) in HN by (revert HF; apply Forall_impl; tauto).
    change (list_sum c93_star) with 9 in HN. cbn [list_sum fold_right] in HN. lia. }
  destruct (c93_blocks ws r H) as (mid & raw & E & HR & HV & HF & LR).
  destruct (c93_blocks ws' r' H') as (mid' & raw' & E' & HR' & HV' & HF' & LR').
  rewrite E in HC. destruct (cells_blocks 2 _ [1] ws' HF ltac:(cbn; lia) HC) as (bs' & EB & FB & LB & DB).
  assert (LM : length mid' = length mid).
  { pose proof EB as X. rewrite E' in X. apply (f_equal (@length nat)) in X. rewrite !app_length in X.
    rewrite !(concat_length_const 6) in X by assumption. cbn [length] in X, LB. rewrite !app_length in X, LB. cbn [length] in X, LB. lia. }
  assert (bs' = c93_star :: mid' ++ [c93_star]) as ->.
  { apply (concat_same 6 _ _ [1] [1]); try assumption; [lia | | congruence]. rewrite LB. cbn [length]. rewrite !app_length, LM. reflexivity. }
  rewrite diffs_ends in DB by lia.
  pose proof (LM0 mid E HF) as L0.
  assert (mid = mid') by (apply (c93_few_blocks mid mid' _ raw' r r' HR HR' HV HV'); lia). congruence.
Qed.

Lemma several_characters y p s m : (str_len s < 2 ^ 48)%N -> checked y s -> barcode y p s = Ret (Ok m) ->
  (y = SCode128 -> read_modules y m <> None) ->
  exists ws r, m = render ws /\ read_as y ws = Some r /\ verified y r /\
    forall k ws' r', k < characters_needed y s -> cells_changed y k ws ws' -> read_as y ws' = Some r' -> verified y r' -> ws' = ws.
Proof.
  intros Hs HC H H128. destruct (cell_detected y p s m Hs HC H H128) as (ws & r & Em & HR & HV & HD).
  exists ws, r. repeat (split; [assumption|]). intros k ws' r' Hk HX HR' HV'.
  assert (ONE : k < 2 -> ws' = ws).
  { intros K. destruct k as [|[|k]]; [exact HX | | lia]. destruct HX as [HX|(v & HX & E)]; [exact HX|]. cbn [cells_changed] in E. subst v.
    exfalso. exact (HD ws' r' HX HR' HV'). }
  destruct y; cbn [characters_needed] in Hk; auto.
  destruct (Nat.leb_spec (length s) 14) as [L|L]; [|auto].
  cbn [read_as] in HR, HR'. destruct (read_c93 ws) as [t|] eqn:E1; [|discriminate HR]. destruct (read_c93 ws') as [t'|] eqn:E2; [|discriminate HR'].
  assert (C2 : cells_changed SCode93 2 ws ws').
  { destruct k as [|[|[|k]]]; [left; left; exact HX | left; exact HX | exact HX | lia]. }
  refine (c93_two_wrong ws t ws' t' (length s) E1 _ L C2 E2).
  pose proof (barcode_length SCode93 p s m Hs H) as HL. cbn [modules_spec] in HL. rewrite Em in HL; unfold render in HL; rewrite render_from_length in HL. exact HL.
Qed.

(** ** Witnesses that the numbers cannot be raised *)
Definition put (n k : nat) (src ws : list nat) : list nat := firstn n ws ++ firstn k (skipn n src) ++ skipn (n + k) ws.
Fixpoint put_all (y : symbology) (ns : list nat) (src ws : list nat) : list nat :=
  match ns with [] => ws | n :: tl => put_all y tl src (put n (cell_size y) src ws) end.
Definition starts (y : symbology) (n : nat) : bool :=
  match y with
  | SEan13 | SUpca => existsb (fun i => (n =? 3 + 4 * i) || (n =? 32 + 4 * i)) (seq 0 6)
  | SEan8 => existsb (fun i => (n =? 3 + 4 * i) || (n =? 24 + 4 * i)) (seq 0 4)
  | SSupp => existsb (fun i => n =? 3 + 6 * i) (seq 0 9)
  | SCode39 | SCode39Checked => existsb (fun i => n =? 10 * i) (seq 0 9)
  | SCode93 | SCode11 => existsb (fun i => n =? 6 * i) (seq 0 30)
  | SCode128 => existsb (fun i => (n =? 6 * i) && (1 <=? i)) (seq 0 9)
  | _ => false
  end.
Fixpoint steps (y : symbology) (ns : list nat) (src ws : list nat) : bool :=
  match ns with
  | [] => true
  | n :: tl => starts y n && (n + cell_size y <=? length ws) && (n + cell_size y <=? length src) &&
               negb (widths_eqb (firstn (cell_size y) (skipn n ws)) (firstn (cell_size y) (skipn n src))) &&
               steps y tl src (put n (cell_size y) src ws)
  end.
Lemma starts_sound y n : starts y n = true -> cell_start y n.
Proof.
  intros H. destruct y; cbn [starts cell_start] in *; try discriminate; apply existsb_exists in H; destruct H as (i & Hi & H); apply in_seq in Hi; exists i.
  - split; [lia|]. apply orb_prop in H. destruct H as [H|H]; apply Nat.eqb_eq in H; auto.
  - split; [lia|]. apply orb_prop in H. destruct H as [H|H]; apply Nat.eqb_eq in H; auto.
  - split; [lia|]. apply orb_prop in H. destruct H as [H|H]; apply Nat.eqb_eq in H; auto.
  - now apply Nat.eqb_eq in H.
  - now apply Nat.eqb_eq in H.
  - now apply Nat.eqb_eq in H.
  - now apply Nat.eqb_eq in H.
  - now apply Nat.eqb_eq in H.
  - apply andb_prop in H. destruct H as [H H2]. apply Nat.eqb_eq in H. apply Nat.leb_le in H2. split; [assumption|].
    intros (j & Hj & E). lia.
Qed.
Lemma skipn_twice {A} a b (l : list A) : skipn a (skipn b l) = skipn (b + a) l.
Proof. revert l. induction b as [|b IH]; intros l; [reflexivity|]. destruct l as [|x l]; [destruct a; reflexivity|]. apply IH. Qed.
Lemma steps_sound y ns : forall src ws, steps y ns src ws = true -> cells_changed y (length ns) ws (put_all y ns src ws).
Proof.
  induction ns as [|n ns IH]; intros src ws H; [reflexivity|]. cbn [steps] in H. apply andb_prop in H. destruct H as [H HS].
  apply andb_prop in H. destruct H as [H HN]. apply andb_prop in H. destruct H as [H HL']. apply andb_prop in H. destruct H as [H HL].
  apply Nat.leb_le in HL, HL'. apply negb_true_iff in HN. right. exists (put n (cell_size y) src ws). split; [|now apply IH].
  exists (firstn n ws), (firstn (cell_size y) (skipn n ws)), (firstn (cell_size y) (skipn n src)), (skipn (n + cell_size y) ws).
  split. { rewrite <- skipn_twice. now rewrite !firstn_skipn. }
  split; [reflexivity|]. split. { intros E. rewrite E, (proj2 (widths_eqb_eq _ _) eq_refl) in HN. discriminate. }
  split; [rewrite firstn_length, skipn_length; lia|]. split; [rewrite firstn_length, skipn_length; lia|].
  rewrite firstn_length, Nat.min_l by lia. now apply starts_sound.
Qed.
Lemma steps_between y ns k src ws : steps y ns src ws = true -> widths_eqb (put_all y ns src ws) src = true -> length ns = k -> cells_changed y k ws src.
Proof. intros H E <-. apply widths_eqb_eq in E. pose proof (steps_sound y ns src ws H) as G. now rewrite E in G. Qed.
