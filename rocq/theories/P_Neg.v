(** * Proofs: pictures in negative *)
From Verif Require Import Rust M_Error Symbology M_Use S_Barcode S_Ean S_Text S_Linear S_Codabar S_Tf S_Code128 S_All S_Cut S_Part S_Gen S_Neg
  P_Rust P_Barcode P_All P_Apart P_Damage P_Cell P_Cut P_Wrong P_Part P_Line P_Stretch P_Part2 P_Side P_Skip P_Ink4 P_Any.
Local Open Scope nat_scope.

(** ** The elements of the negative *)
Lemma negative_render b ws : bit b -> negative (render_from b ws) = render_from (1 - b) ws.
Proof.
  revert b. induction ws as [|w ws IH]; intros b Hb; [reflexivity|]. cbn [render_from]. unfold negative in *. rewrite map_app, IH.
  - f_equal. clear. induction w as [|w IH]; [reflexivity|]. cbn [repeat map]. now rewrite IH.
  - destruct Hb as [->| ->]; [now right | now left].
Qed.
Lemma ends_of (ws : list nat) : 2 <= length ws -> exists f mid l, ws = f :: mid ++ [l].
Proof.
  intros H. destruct ws as [|f ws]; [cbn in H; lia|]. destruct (exists_last (l := ws)) as (mid & l & ->); [intros ->; cbn in H; lia | now exists f, mid, l].
Qed.
Lemma repeat_plus {A} (x : A) a b : repeat x (a + b) = repeat x a ++ repeat x b.
Proof. apply repeat_app. Qed.
(** The elements of the negative on dark paper *)
Definition negated (i j : nat) (f : nat) (mid : list nat) (l : nat) : list nat :=
  (match i with 0 => [] | _ => [i; f] end) ++ mid ++ (match j with 0 => [] | _ => [l; j] end).
Lemma scan_negative i j f mid l : Nat.even (length mid) = false -> Forall (fun w => 1 <= w) (f :: mid ++ [l]) ->
  scan (on_dark i j (render (f :: mid ++ [l]))) = Some (negated i j f mid l).
Proof.
  intros HO HP. inversion HP as [|? ? Hf HP2]; subst. apply Forall_app in HP2. destruct HP2 as [Hm Hl]. inversion Hl as [|? ? Hl1 _]; subst.
  unfold on_dark, render. rewrite negative_render by now right. cbn [render_from]. change (1 - 1)%N with 0%N. change (1 - 0)%N with 1%N.
  rewrite render_from_app_odd by (assumption || now right). cbn [render_from]. rewrite app_nil_r. change (1 - 1)%N with 0%N.
  apply (scan_one (negated i j f mid l) (match i with 0 => f | _ => 0 end) (match j with 0 => l | _ => 0 end)).
  - unfold negated, render. destruct i as [|i], j as [|j]; cbn [repeat]; rewrite ?app_nil_r; cbn [app].
    + rewrite <- ?app_assoc; reflexivity.
    + rewrite render_from_app_odd by (assumption || now right). cbn [render_from]. change (1 - 1)%N with 0%N. change (1 - 0)%N with 1%N. rewrite ?app_nil_r, <- ?app_assoc; reflexivity.
    + cbn [render_from]. change (1 - 1)%N with 0%N. change (1 - 0)%N with 1%N. cbn [repeat app]. rewrite <- ?app_assoc; reflexivity.
    + cbn [render_from]. change (1 - 1)%N with 0%N. change (1 - 0)%N with 1%N. rewrite render_from_app_odd by (assumption || now right).
      cbn [render_from]. change (1 - 1)%N with 0%N. change (1 - 0)%N with 1%N. cbn [repeat app]. rewrite ?app_nil_r, <- ?app_assoc; reflexivity.
  - unfold negated. rewrite !Forall_app. split; [|split; [assumption|]]; [destruct i | destruct j]; try apply Forall_nil; (apply Forall_cons; [lia | apply Forall_cons; [lia | apply Forall_nil]]).
  - unfold negated. rewrite !app_length, !Nat.even_add, HO. destruct i, j; reflexivity.
Qed.
Lemma on_dark_paper i j m ws a b : m = repeat 0%N a ++ render ws ++ repeat 0%N b -> on_dark i j m = on_dark (i + a) (b + j) (render ws).
Proof.
  intros ->. unfold on_dark, negative. rewrite !map_app, !repeat_plus, <- !app_assoc. f_equal.
  assert (R : forall n, map (fun x => (1 - x)%N) (repeat 0%N n) = repeat 1%N n) by (induction n as [|n IH]; [reflexivity | cbn [repeat map]; now rewrite IH]).
  now rewrite !R.
Qed.

(** ** Number of elements *)
Definition counted (y : symbology) (n : nat) : Prop :=
  match y with
  | SEan13 | SUpca => n = 59 | SEan8 => n = 43 | SSupp => n = 13 \/ n = 31
  | SCode39 | SCode39Checked => exists k, n + 1 = 10 * k | SCode93 | SCode128 => exists k, n = 6 * k + 1 | SCode11 => exists k, n + 1 = 6 * k
  | SCodabar => exists k, n + 1 = 8 * k | SItf => exists k, n = 10 * k + 7 | SStf => exists k, n = 10 * k + 11
  end.
Lemma sizes y ws r : read_as y ws = Some r -> accepts y r -> 3 <= length ws /\ counted y (length ws).
Proof.
  intros H HA. destruct y; cbn [counted].
  - destruct (read_halves_of SEan13 ws r (or_introl eq_refl) H) as [x E]. apply halves_size in E. cbn in E. lia.
  - destruct (read_halves_of SEan8 ws r (or_intror (or_intror eq_refl)) H) as [x E]. apply halves_size in E. cbn in E. lia.
  - destruct (read_halves_of SUpca ws r (or_intror (or_introl eq_refl)) H) as [x E]. apply halves_size in E. cbn in E. lia.
  - pose proof (supp_size ws r H) as L. apply supp_form in H. destruct H as (l & _ & HL & ->). cbn [reported] in L. rewrite map_length in L. lia.
  - apply option_map_Some in H. destruct H as (t & H & ->). apply c39_size in H. split; [lia | exists (length t + 2); lia].
  - apply option_map_Some in H. destruct H as (t & H & ->). apply c39_size in H. split; [lia | exists (length t + 2); lia].
  - apply option_map_Some in H. destruct H as (t & H & ->). apply c93_form' in H. destruct H as (mid & -> & F & _).
    rewrite app_length, (concat_length_const 6) by assumption. cbn [length]. rewrite app_length. split; [cbn [length]; lia | eexists; reflexivity].
  - apply option_map_Some in H. destruct H as (t & H & ->). apply c11_size in H. destruct H as (n & L & _). split; [lia | exists (n + 2); lia].
  - apply option_map_Some in H. destruct H as (t & H & ->). destruct (cod_form _ _ H HA) as (a & mid & z & _ & _ & _ & _ & _ & L). split; [lia | exists (2 + length mid); lia].
  - apply option_map_Some in H. destruct H as (t & H & ->). apply c128_form in H. destruct H as (bs & vs & -> & F & _).
    rewrite app_length, (concat_length_const 6) by assumption. change (length c128_stop) with 7. split; [lia | exists (length bs + 1); lia].
  - apply option_map_Some in H. destruct H as (t & H & ->). apply itf_form in H. destruct H as (bs & g & ds & -> & F & _).
    rewrite !app_length, (concat_length_const 10) by assumption. cbn [length]. split; [lia | exists (length bs); lia].
  - apply option_map_Some in H. destruct H as (t & H & ->). apply P_Part2.stf_size in H. split; [lia | now exists (length t)].
Qed.
Lemma two_more y n : counted y n -> counted y (n + 2) -> False.
Proof. destruct y; cbn [counted]; intros H H'; repeat match goal with H : exists _, _ |- _ => destruct H end; lia. Qed.

(** ** Shifted by one element *)
Lemma c93_shift c l i r r' : read_c93 (c ++ [l]) = Some r -> read_c93 (i :: c) = Some r' -> False.
Proof.
  intros H H'. apply c93_form' in H, H'. destruct H as (m1 & E1 & _). destruct H' as (m2 & E2 & _).
  cbn [concat app] in E1, E2. change c93_star with [1;1;1;1;4;1] in *. cbn [app] in E1, E2. injection E2 as _ ->. cbn [app] in E1. discriminate E1.
Qed.
Lemma itf_last ws r : read_itf ws = Some r -> exists u g, ws = u ++ [g; 1; 1] /\ g <> 1.
Proof.
  unfold read_itf. destruct (trim_ends 4 3 ws) as [[a body] z] eqn:ET. apply trim_ends_whole in ET. destruct ET as [HW _].
  intros H. apply guard_Some in H. destruct H as [H HR]. apply andb_prop in H. destruct H as [Ha Hz]. apply widths_eqb_eq in Hz.
  destruct z as [|x [|y [|w [|? ?]]]]; try discriminate. rewrite !squash_cons in Hz. injection Hz as Hx Hy Hw.
  apply P_Apart.narrow in Hy, Hw. subst y w. exists (a ++ body), x. split; [now rewrite <- app_assoc | intros ->; discriminate Hx].
Qed.
Lemma itf_shift c l i r r' : read_itf (c ++ [l]) = Some r -> read_itf (i :: c) = Some r' -> False.
Proof.
  intros H H'. apply itf_last in H, H'. destruct H as (u & g & E & Hg). destruct H' as (u' & g' & E' & Hg').
  change [g; 1; 1] with ([g; 1] ++ [1]) in E. rewrite app_assoc in E. apply app_inj_tail in E. destruct E as [-> _].
  change [g'; 1; 1] with ([g'; 1] ++ [1]) in E'. change (i :: u ++ [g; 1]) with ((i :: u) ++ [g] ++ [1]) in E'. rewrite !app_assoc in E'. apply app_inj_tail in E'. destruct E' as [E' _].
  change [g'; 1] with ([g'] ++ [1]) in E'. rewrite app_assoc in E'. apply app_inj_tail in E'. destruct E' as [_ E']. congruence.
Qed.
Lemma nth_shift (c : list nat) l i k : k < length c -> nth (S k) (i :: c) 0 = nth k (c ++ [l]) 0.
Proof. intros H. cbn [nth]. now rewrite app_nth1. Qed.
Lemma first_right n ws x : 0 < n -> read_halves n ws = Some x -> exists a b c d, In [a;b;c;d] setC_table /\ nth (4 * n + 7) ws 0 = 1 /\
  nth (4 * n + 8) ws 0 = a /\ nth (4 * n + 9) ws 0 = b /\ nth (4 * n + 10) ws 0 = c /\ nth (4 * n + 11) ws 0 = d.
Proof.
  intros Hn H. destruct x as [l r]. apply halves_form in H. destruct H as (lb & rb & -> & Ll & Lr & HA & HC). destruct rb as [|b rb]; [cbn in Lr; lia|].
  apply read_all_cons in HC. destruct HC as (d & ds & Hd & _ & _). unfold read_C in Hd. apply option_map_Some in Hd. destruct Hd as (v & Hd & _).
  apply which_sound, nth_error_In in Hd. assert (L4 : length b = 4) by (apply (proj1 (Forall_forall (fun b => length b = 4) setC_table)); [vm_compute; repeat (apply Forall_cons; [reflexivity|]); apply Forall_nil | exact Hd]).
  assert (LL : length (normal_guard ++ concat lb ++ [1;1;1;1]) = 4 * n + 7).
  { rewrite !app_length, (concat_length_const 4 lb), Ll; [change (length normal_guard) with 3; cbn [length]; lia|].
    apply (read_all_Forall _ _ _ _ (fun x y E => match AB_sum x y E with conj P Q => Q end) HA). }
  destruct b as [|b0 [|b1 [|b2 [|b3 [|? ?]]]]]; try discriminate. exists b0, b1, b2, b3. split; [exact Hd|].
  replace (normal_guard ++ concat lb ++ centre_guard ++ concat ([b0;b1;b2;b3] :: rb) ++ normal_guard)
    with ((normal_guard ++ concat lb ++ [1;1;1;1]) ++ 1 :: b0 :: b1 :: b2 :: b3 :: concat rb ++ normal_guard) by (rewrite <- !app_assoc; reflexivity).
  rewrite !app_nth2 by (rewrite LL; lia). rewrite LL. replace (4 * n + 7 - (4 * n + 7)) with 0 by lia. replace (4 * n + 8 - (4 * n + 7)) with 1 by lia.
  replace (4 * n + 9 - (4 * n + 7)) with 2 by lia. replace (4 * n + 10 - (4 * n + 7)) with 3 by lia. replace (4 * n + 11 - (4 * n + 7)) with 4 by lia. repeat split.
Qed.
Lemma C_shift a b c d : In [a;b;c;d] setC_table -> In [1;a;b;c] setC_table -> False.
Proof.
  intros H. vm_compute in H. repeat (destruct H as [H|H]; [injection H as <- <- <- <-; intros H'; vm_compute in H'; repeat (destruct H' as [H'|H']; [discriminate H'|]); destruct H'|]). destruct H.
Qed.
Lemma halves_shift n c l i x x' : 0 < n -> read_halves n (c ++ [l]) = Some x -> read_halves n (i :: c) = Some x' -> False.
Proof.
  intros Hn H H'. pose proof (halves_size _ _ _ H) as L. rewrite app_length in L. cbn [length] in L.
  destruct (first_right _ _ _ Hn H) as (a & b & p & d & HI & N0 & N1 & N2 & N3 & N4). destruct (first_right _ _ _ Hn H') as (a' & b' & p' & d' & HI' & M0 & M1 & M2 & M3 & M4).
  replace (4 * n + 8) with (S (4 * n + 7)) in M1 by lia. replace (4 * n + 9) with (S (4 * n + 8)) in M2 by lia. replace (4 * n + 10) with (S (4 * n + 9)) in M3 by lia. replace (4 * n + 11) with (S (4 * n + 10)) in M4 by lia.
  rewrite (nth_shift c l) in M1, M2, M3, M4 by lia. apply (C_shift a b p d HI). congruence.
Qed.
Lemma shifted y c l i r r' : read_as y (c ++ [l]) = Some r -> accepts y r -> read_as y (i :: c) = Some r' -> accepts y r' -> False.
Proof.
  intros H HA H' HA'. assert (HF : forall r, accepts y r -> (exists ws, read_as y ws = Some r) -> y = SCodabar -> exists t, r = Text t /\ cod_framed t).
  { intros q Hq [ws Hws] ->. apply option_map_Some in Hws. destruct Hws as (t & _ & ->). now exists t. }
  pose proof (read_sig y _ r H (HF r HA (ex_intro _ _ H))) as G. pose proof (read_sig y _ r' H' (HF r' HA' (ex_intro _ _ H'))) as G'.
  pose proof (sizes _ _ _ H' HA') as [LC CC]. cbn [length] in LC. destruct c as [|c0 [|c1 c]]; [cbn in LC; lia | cbn in LC; lia |]. cbn [app] in *.
  destruct y; cbn [counted length] in CC.
  - destruct (read_halves_of SEan13 _ r (or_introl eq_refl) H) as [x E]. destruct (read_halves_of SEan13 _ r' (or_introl eq_refl) H') as [x' E'].
    now apply (halves_shift 6 (c0 :: c1 :: c) l i x x' ltac:(lia)).
  - destruct (read_halves_of SEan8 _ r (or_intror (or_intror eq_refl)) H) as [x E]. destruct (read_halves_of SEan8 _ r' (or_intror (or_intror eq_refl)) H') as [x' E'].
    now apply (halves_shift 4 (c0 :: c1 :: c) l i x x' ltac:(lia)).
  - destruct (read_halves_of SUpca _ r (or_intror (or_introl eq_refl)) H) as [x E]. destruct (read_halves_of SUpca _ r' (or_intror (or_introl eq_refl)) H') as [x' E'].
    now apply (halves_shift 6 (c0 :: c1 :: c) l i x x' ltac:(lia)).
  - destruct G as (a & b & p & d & [t E] & _). destruct G' as (a' & b' & p' & d' & [t' E'] & _). cbn [app] in E, E'. congruence.
  - destruct G as [t E]. destruct G' as [t' E']. cbn [app] in E, E'. congruence.
  - destruct G as [t E]. destruct G' as [t' E']. cbn [app] in E, E'. congruence.
  - apply option_map_Some in H, H'. destruct H as (t & H & _), H' as (t' & H' & _). exact (c93_shift (c0 :: c1 :: c) l i t t' H H').
  - destruct G as [[t E] _]. destruct G' as [[t' E'] _]. cbn [app] in E, E'. congruence.
  - destruct G as (p & HI & [t E] & _). destruct G' as (p' & HI' & [t' E'] & _).
    destruct c as [|c2 [|c3 [|c4 [|c5 c]]]]; try (exfalso; destruct CC; cbn [length] in *; lia).
    vm_compute in HI, HI'. repeat (destruct HI as [<-|HI]); try destruct HI; repeat (destruct HI' as [<-|HI']); try destruct HI'; cbn [app] in E, E'; congruence.
  - destruct G as [t E]. destruct G' as [t' E']. cbn [app] in E, E'. congruence.
  - apply option_map_Some in H, H'. destruct H as (t & H & _), H' as (t' & H' & _). exact (itf_shift (c0 :: c1 :: c) l i t t' H H').
  - destruct G as (a & b & [t E] & Ha & _). destruct G' as (a' & b' & [t' E'] & _). cbn [app] in E, E'. congruence.
Qed.

Lemma not_negative y m r i j r' : read_modules y m = Some r -> accepts y r -> read_modules y (on_dark i j m) = Some r' -> accepts y r' -> False.
Proof.
  intros H HA H' HA'. destruct (read_inv _ _ _ H) as (ws & S & R). destruct (scan_form _ _ S) as (a & b & E). rewrite (on_dark_paper i j m ws a b E) in H'.
  pose proof (scan_odd _ _ S) as HO. pose proof (scan_pos _ _ S) as HP. destruct (sizes _ _ _ R HA) as [L3 CN]. destruct (ends_of ws ltac:(lia)) as (f & mid & l & ->).
  assert (Lm : length (f :: mid ++ [l]) = length mid + 2) by (cbn [length]; rewrite app_length; cbn [length]; lia).
  rewrite Lm, Nat.even_add in HO. cbn [Nat.even] in HO. assert (HM : Nat.even (length mid) = false) by (destruct (Nat.even (length mid)); [discriminate HO | reflexivity]).
  unfold read_modules in H'. rewrite (scan_negative (i + a) (b + j) f mid l HM HP) in H'. cbn [obind] in H'. unfold negated in H'. destruct (i + a) as [|i'], (b + j) as [|j'].
  - cbn [app] in H'. rewrite app_nil_r in H'. destruct (sizes _ _ _ H' HA') as [_ C']. rewrite Lm in CN. exact (two_more _ _ C' CN).
  - cbn [app] in H'. change [l; Datatypes.S j'] with ([l] ++ [Datatypes.S j']) in H'. rewrite app_assoc in H'. exact (shifted y (mid ++ [l]) (Datatypes.S j') f r' r H' HA' R HA).
  - rewrite app_nil_r in H'. cbn [app] in H'. exact (shifted y (f :: mid) l (Datatypes.S i') r r' R HA H' HA').
  - destruct (sizes _ _ _ H' HA') as [_ C']. rewrite Lm in CN. apply (two_more _ _ CN). rewrite !app_length in C'. cbn [length] in C'. replace (length mid + 2 + 2) with (2 + (length mid + 2)) by lia. exact C'.
Qed.

(** ** Pictures with light bars *)
Lemma samples_negative {A} (eqb : A -> A -> bool) (HE : forall x y, eqb x y = true -> x = y) fg bg block v : fg <> bg ->
  read_samples eqb fg bg block = Some v -> read_samples eqb bg fg block = Some (1 - v)%N.
Proof.
  intros HN H. destruct block as [|x block]; [discriminate|]. cbn [read_samples] in *.
  destruct (forallb (eqb fg) (x :: block)) eqn:F.
  - injection H as <-. cbn [forallb] in *. apply andb_prop in F. destruct F as [F _]. apply HE in F. destruct (eqb bg x) eqn:G; [apply HE in G; congruence | reflexivity].
  - destruct (forallb (eqb bg) (x :: block)) eqn:G; [injection H as <-; reflexivity | discriminate].
Qed.
Lemma line_negative {A} (eqb : A -> A -> bool) (HE : forall x y, eqb x y = true -> x = y) fg bg xdim line b : fg <> bg ->
  read_line eqb fg bg xdim line = Some b -> read_line eqb bg fg xdim line = Some (negative b).
Proof.
  intros HN H. unfold read_line in *. apply obind_Some in H. destruct H as (bl & -> & H). cbn [obind]. revert b H.
  induction bl as [|x bl IH]; intros b H; [apply read_all_nil in H; now subst|]. apply read_all_cons in H. destruct H as (v & vs & Hv & H & ->).
  cbn [read_all negative map]. rewrite (samples_negative eqb HE fg bg x v HN Hv). cbn [obind]. now rewrite (IH _ H).
Qed.

(** ** Read backwards *)
Definition rear (y : symbology) (e : list nat) : Prop :=
  match y with
  | SCode39 | SCode39Checked => starts [1;1;2;1;2] e
  | SCode93 => starts [1;1;4] e
  | SCodabar => exists l, In l (map (@rev nat) cod_starts) /\ starts l e
  | SCode128 => starts [2;1;1;1] e
  | SItf => exists g, g <> 1 /\ starts [1;1;g] e
  | SStf => exists g, g <> 1 /\ starts [g;1] e
  | _ => False
  end.
Definition one_way (y : symbology) : Prop := In y [SCode39; SCode39Checked; SCode93; SCodabar; SCode128; SItf; SStf].
Lemma rear_of y ws r : one_way y -> read_as y ws = Some r -> accepts y r -> rear y (rev ws).
Proof.
  intros HY H HA. destruct y; try (exfalso; cbn in HY; intuition discriminate); apply option_map_Some in H; destruct H as (t & H & ->); cbn [rear].
  - apply c39_form in H. destruct H as (mid & E & _). rewrite app_comm_cons in E. destruct (gapped_end _ _ _ E) as [u ->]. rewrite rev_app_distr. eexists. reflexivity.
  - apply c39_form in H. destruct H as (mid & E & _). rewrite app_comm_cons in E. destruct (gapped_end _ _ _ E) as [u ->]. rewrite rev_app_distr. eexists. reflexivity.
  - apply c93_form' in H. destruct H as (mid & -> & _). rewrite app_comm_cons, concat_app. cbn [concat]. rewrite app_nil_r, !rev_app_distr. eexists. reflexivity.
  - destruct (cod_form _ _ H HA) as (a & mid & z & E & _ & _ & Hz & _). rewrite app_comm_cons in E. destruct (gapped_end _ _ _ E) as [u ->]. rewrite rev_app_distr.
    exists (rev z). split; [now apply in_map | now exists (rev u)].
  - apply c128_form in H. destruct H as (bs & vs & -> & _). rewrite rev_app_distr. eexists. reflexivity.
  - apply itf_last in H. destruct H as (u & g & -> & Hg). exists g. split; [assumption|]. rewrite rev_app_distr. now exists (rev u).
  - apply stf_form in H. destruct H as (a & bs & z & -> & _ & Hz & _). pose proof (squash_length _ _ Hz) as L. destruct z as [|z0 [|z1 [|z2 [|z3 [|z4 [|? ?]]]]]]; try discriminate.
    rewrite !squash_cons in Hz. injection Hz as _ _ _ H3 H4. apply P_Apart.narrow in H3. subst z3. exists z4. split; [intros ->; discriminate H4|]. rewrite !rev_app_distr. eexists. reflexivity.
Qed.
Lemma front_rear y d l i n z : one_way y -> rear y (l :: d) -> sig_of y (d ++ [i]) n z -> 6 <= length d -> False.
Proof.
  intros HY HR HS L. destruct d as [|d0 [|d1 [|d2 [|d3 [|d4 [|d5 d]]]]]]; try (cbn in L; lia).
  unfold rear, sig_of, starts, cod_starts in *. cbn [map rev app] in *.
  destruct y; try (exfalso; cbn in HY; intuition discriminate);
    repeat match goal with
    | H : _ /\ _ |- _ => destruct H
    | H : exists _, _ |- _ => destruct H
    | H : In _ _ |- _ => destruct H
    | H : False |- _ => contradiction
    end; subst; cbn [app] in *; congruence.
Qed.
Lemma rear_front y c f j n z : one_way y -> rear y (c ++ [j]) -> sig_of y (f :: c) n z -> 6 <= length c -> False.
Proof.
  intros HY HR HS L. destruct c as [|d0 [|d1 [|d2 [|d3 [|d4 [|d5 d]]]]]]; try (cbn in L; lia).
  unfold rear, sig_of, starts, cod_starts in *. cbn [map rev app] in *.
  destruct y; try (exfalso; cbn in HY; intuition discriminate);
    repeat match goal with
    | H : _ /\ _ |- _ => destruct H
    | H : exists _, _ |- _ => destruct H
    | H : In _ _ |- _ => destruct H
    | H : False |- _ => contradiction
    end; subst; cbn [app] in *; congruence.
Qed.
Lemma scan_back m ws : scan m = Some ws -> scan (rev m) = Some (rev ws).
Proof.
  intros S. pose proof (scan_odd _ _ S) as HO. pose proof (scan_pos _ _ S) as HP. destruct (scan_form _ _ S) as (a & b & ->).
  apply (scan_one (rev ws) b a); [|now apply Forall_rev | now rewrite rev_length].
  assert (R : forall n, rev (repeat 0%N n) = repeat 0%N n) by (induction n as [|n IH]; [reflexivity | cbn [repeat rev]; rewrite IH; symmetry; apply repeat_cons]).
  now rewrite !rev_app_distr, !R, <- app_assoc, render_rev.
Qed.
Lemma seven y n : one_way y -> counted y n -> 3 <= n -> 7 <= n.
Proof.
  intros HY C H. destruct y; try (exfalso; cbn in HY; intuition discriminate); cbn [counted] in C; destruct C as [k C]; destruct k as [|[|k]]; lia.
Qed.
Lemma framed_if y r : accepts y r -> (exists ws, read_as y ws = Some r) -> y = SCodabar -> exists t, r = Text t /\ cod_framed t.
Proof. intros HA [ws H] ->. apply option_map_Some in H. destruct H as (t & _ & ->). now exists t. Qed.
Lemma not_negative_back y m r i j r' : one_way y -> read_modules y m = Some r -> accepts y r -> read_modules y (rev (on_dark i j m)) = Some r' -> accepts y r' -> False.
Proof.
  intros HY H HA H' HA'. destruct (read_inv _ _ _ H) as (ws & S & R). destruct (scan_form _ _ S) as (a & b & E). rewrite (on_dark_paper i j m ws a b E) in H'.
  pose proof (scan_odd _ _ S) as HO. pose proof (scan_pos _ _ S) as HP. destruct (sizes _ _ _ R HA) as [L3 CN]. pose proof (seven _ _ HY CN L3) as L7. destruct (ends_of ws ltac:(lia)) as (f & mid & l & ->).
  assert (Lm : length (f :: mid ++ [l]) = length mid + 2) by (cbn [length]; rewrite app_length; cbn [length]; lia).
  rewrite Lm, Nat.even_add in HO. cbn [Nat.even] in HO. assert (HM : Nat.even (length mid) = false) by (destruct (Nat.even (length mid)); [discriminate HO | reflexivity]).
  destruct (read_inv _ _ _ H') as (zs & S' & R'). rewrite (scan_back _ _ (scan_negative (i + a) (b + j) f mid l HM HP)) in S'. assert (EZ : rev (negated (i + a) (b + j) f mid l) = zs) by congruence. clear S'.
  destruct (sizes _ _ _ R' HA') as [_ C']. rewrite <- EZ, rev_length in C'. unfold negated in *. destruct (i + a) as [|i'], (b + j) as [|j'].
  - cbn [app] in C'. rewrite app_nil_r in C'. rewrite Lm in CN. exact (two_more _ _ C' CN).
  - cbn [app] in EZ. pose proof (rear_of y _ _ HY R' HA') as G. rewrite <- EZ, rev_involutive in G.
    pose proof (read_sig y _ r R (framed_if y r HA (ex_intro _ _ R))) as G'. change [l; Datatypes.S j'] with ([l] ++ [Datatypes.S j']) in G. rewrite app_assoc in G.
    refine (rear_front y (mid ++ [l]) f _ _ _ HY G G' _). rewrite Lm in L7. rewrite app_length. cbn [length]. lia.
  - rewrite app_nil_r in EZ. change ([Datatypes.S i'; f] ++ mid) with (Datatypes.S i' :: (f :: mid)) in EZ. cbn [rev] in EZ. pose proof (rear_of y _ _ HY R HA) as G.
    rewrite app_comm_cons, rev_app_distr in G. pose proof (read_sig y _ r' R' (framed_if y r' HA' (ex_intro _ _ R'))) as G'. rewrite <- EZ in G'.
    refine (front_rear y (rev (f :: mid)) l (Datatypes.S i') _ _ HY G G' _). rewrite Lm in L7. rewrite rev_length. cbn [length]. lia.
  - rewrite Lm in CN. apply (two_more _ _ CN). rewrite !app_length in C'. cbn [length] in C'. replace (length mid + 2 + 2) with (2 + (length mid + 2)) by lia. exact C'.
Qed.
Lemma not_negative_even y p s m r i j r' : (str_len s < 2 ^ 48)%N -> barcode y p s = Ret (Ok m) -> (i = 0 <-> j = 0) ->
  read_modules y m = Some r -> accepts y r -> read_modules y (rev (on_dark i j m)) = Some r' -> accepts y r' -> False.
Proof.
  intros Hs HB HE H HA H' HA'. destruct (printed_elements y p s m Hs HB) as (ws & S & E & HO & HP).
  assert (HY : one_way y \/ tail y = repeat 0%N 0) by (destruct y; (now right) || (left; cbn; tauto)). destruct HY as [HY|HY]; [exact (not_negative_back y m r i j r' HY H HA H' HA')|].
  rewrite HY in E. destruct (read_inv _ _ _ H) as (ws2 & S2 & R). assert (ws2 = ws) by congruence. subst ws2.
  rewrite (on_dark_paper i j m ws 0 0 E), Nat.add_0_r in H'. cbn [Nat.add] in H'.
  destruct (sizes _ _ _ R HA) as [L3 CN]. destruct (ends_of ws ltac:(lia)) as (f & mid & l & ->).
  assert (Lm : length (f :: mid ++ [l]) = length mid + 2) by (cbn [length]; rewrite app_length; cbn [length]; lia).
  rewrite Lm, Nat.even_add in HO. cbn [Nat.even] in HO. assert (HM : Nat.even (length mid) = false) by (destruct (Nat.even (length mid)); [discriminate HO | reflexivity]).
  destruct (read_inv _ _ _ H') as (zs & S' & R'). rewrite (scan_back _ _ (scan_negative i j f mid l HM HP)) in S'. assert (EZ : rev (negated i j f mid l) = zs) by congruence. clear S'.
  destruct (sizes _ _ _ R' HA') as [_ C']. rewrite <- EZ, rev_length in C'. unfold negated in *. rewrite Lm in CN. destruct i as [|i'], j as [|j'].
  - cbn [app] in C'. rewrite app_nil_r in C'. exact (two_more _ _ C' CN).
  - exfalso. apply proj1 in HE. discriminate (HE eq_refl).
  - exfalso. apply proj2 in HE. discriminate (HE eq_refl).
  - apply (two_more _ _ CN). rewrite !app_length in C'. cbn [length] in C'. replace (length mid + 2 + 2) with (2 + (length mid + 2)) by lia. exact C'.
Qed.
