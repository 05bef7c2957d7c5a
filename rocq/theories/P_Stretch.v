(** * Bars and spaces printed too wide or too narrow *)
From Verif Require Import Rust M_Error Symbology M_Use S_Barcode S_Ean S_Text S_Linear S_Codabar S_Tf S_Code128 S_All S_Cut S_Heard S_Stretch
  P_Rust P_Barcode P_Parse P_Tf P_Code11 P_All P_Apart P_Damage P_Cell P_Cut P_Code128 P_Code128b P_Heard.
Local Open Scope nat_scope.

Definition bit (x : N) : Prop := (x = 0 \/ x = 1)%N.
Lemma bit_neg c : bit c -> bit (1 - c)%N. Proof. unfold bit. lia. Qed.

(** ** Pictures as runs *)
Lemma runs_form l : Forall bit l -> exists c F, bit c /\ Forall (fun w => 1 <= w) F /\ l = render_from c F.
Proof.
  induction 1 as [|y l Hy H (c & F & Hc & HF & ->)].
  - exists 1%N, []. split; [now right|]. split; [constructor | reflexivity].
  - destruct F as [|w G].
    + exists y, [1]. split; [assumption|]. split; [repeat constructor | reflexivity].
    + destruct (N.eq_dec y c) as [->|Hyc].
      * exists c, (S w :: G). split; [assumption|]. split; [|reflexivity]. inversion HF; subst. constructor; [lia | assumption].
      * exists y, (1 :: w :: G). split; [assumption|]. split; [constructor; [lia | assumption]|].
        assert (E : c = (1 - y)%N) by (unfold bit in *; lia). subst c. cbn [render_from repeat app].
        replace (1 - (1 - y))%N with y by (unfold bit in *; lia). reflexivity.
Qed.
Lemma before_form x a : bit x -> Forall bit a -> exists c F i, bit c /\ Forall (fun w => 1 <= w) F /\
  a = render_from c F ++ repeat x i /\ x = flip c (length F) /\ (F = [] -> c = x).
Proof.
  intros Hx Ha. destruct (runs_form a Ha) as (c & F & Hc & HF & ->). destruct F as [|w G _] using rev_ind.
  - exists x, [], 0. split; [assumption|]. split; [constructor|]. split; [reflexivity|]. split; reflexivity.
  - destruct (N.eq_dec x (flip c (length G))) as [E|E].
    + exists c, G, w. apply Forall_app in HF. split; [assumption|]. split; [tauto|]. split.
      * rewrite render_from_app by assumption. rewrite <- E. cbn [render_from]. now rewrite app_nil_r.
      * split; [assumption|]. intros ->. now rewrite E.
    + exists c, (G ++ [w]), 0. split; [assumption|]. split; [assumption|]. split; [cbn [repeat]; now rewrite app_nil_r|].
      split; [|destruct G; discriminate]. rewrite app_length, Nat.add_1_r, flip_S by assumption.
      pose proof (flip_bit c (length G) Hc). unfold bit in *. lia.
Qed.
Lemma after_form x b : bit x -> Forall bit b -> exists j V, Forall (fun w => 1 <= w) V /\ b = repeat x j ++ render_from (1 - x) V.
Proof.
  intros Hx Hb. destruct (runs_form b Hb) as (c & F & Hc & HF & ->). destruct (N.eq_dec c x) as [->|E].
  - destruct F as [|w F]; [exists 0, []; split; [constructor | reflexivity]|]. exists w, F. inversion HF; subst. split; [assumption | reflexivity].
  - exists 0, F. split; [assumption|]. cbn [repeat app]. f_equal. unfold bit in *. lia.
Qed.

(** Runs between the quiet zones *)
Definition inner (c : N) (F : list nat) : list nat := if (c =? 0)%N then tl F else F.
Definition core (F : list nat) : list nat := if Nat.even (length F) then removelast F else F.
Lemma scan_core c F ws : bit c -> Forall (fun w => 1 <= w) F -> scan (render_from c F) = Some ws ->
  ws = core (inner c F) /\ inner c F <> [].
Proof.
  intros Hc HF HS.
  assert (G : forall j F, Forall (fun w => 1 <= w) F -> scan (repeat 0%N j ++ render F) = Some ws -> ws = core F /\ F <> []).
  { clear. intros j F HF HS. destruct F as [|w F _] using rev_ind.
    - change (render []) with (@nil N) in HS. rewrite app_nil_r, scan_lights in HS. discriminate.
    - split; [|now destruct F]. unfold core. destruct (Nat.even (length (F ++ [w]))) eqn:E.
      + rewrite removelast_last. apply Forall_app in HF.
        assert (HO : Nat.even (length F) = false).
        { rewrite app_length, Nat.add_1_r, Nat.even_succ, <- Nat.negb_even in E. now destruct (Nat.even (length F)). }
        unfold render in HS. rewrite render_from_app_odd in HS by (auto; now right). cbn [render_from] in HS. rewrite app_nil_r in HS.
        fold (render F) in HS. change (1 - 1)%N with 0%N in HS. rewrite scan_render_quiet in HS by tauto. congruence.
      + rewrite <- (app_nil_r (render _)) in HS. change (@nil N) with (repeat 0%N 0) in HS.
        rewrite scan_render_quiet in HS by assumption. congruence. }
  destruct Hc as [->| ->]; unfold inner; cbn [N.eqb].
  - destruct F as [|w F]; [discriminate|]. cbn [render_from tl] in *. inversion HF; subst. now apply (G w).
  - now apply (G 0).
Qed.

(** ** What stretching does to the elements *)
Definition near (ws ws' : list nat) : Prop :=
  length ws' = length ws + 2 \/ exists u w w' v, ws = u ++ w :: v /\ ws' = u ++ w' :: v /\ w <> w'.
Lemma core_length F : F <> [] -> length (core F) = if Nat.even (length F) then length F - 1 else length F.
Proof.
  intros HN. unfold core. destruct (Nat.even (length F)); [|reflexivity]. destruct F as [|w F _] using rev_ind; [congruence|].
  rewrite removelast_last, app_length. cbn [length]. lia.
Qed.
Lemma core_longer F F' : F <> [] -> length F' = length F + 2 -> length (core F') = length (core F) + 2.
Proof.
  intros HN HL. rewrite !core_length; [|assumption|destruct F'; [cbn [length] in HL; lia | discriminate]].
  rewrite HL. replace (length F + 2) with (S (S (length F))) by lia. rewrite even_SS.
  destruct F as [|w F]; [congruence|]. destruct (Nat.even (length (w :: F))); cbn [length]; lia.
Qed.
Lemma inner_length c F : length (inner c F) = if (c =? 0)%N then length F - 1 else length F.
Proof. unfold inner. destruct (c =? 0)%N; [destruct F; cbn [tl length]; lia | reflexivity]. Qed.
Lemma lights_dark i : ~ In 1%N (repeat 0%N i). Proof. intros H. apply repeat_spec in H. discriminate. Qed.
Lemma bits_of m ws : scan m = Some ws -> Forall bit m.
Proof.
  unfold scan. destruct (forallb is_module m) eqn:E; [|discriminate]. intros _. apply Forall_forall. intros x Hx.
  rewrite forallb_forall in E. specialize (E x Hx). unfold is_module in E. apply orb_prop in E. rewrite !N.eqb_eq in E. exact E.
Qed.
Lemma flip_ends c n x : bit c -> x = flip c n -> x = 0%N <-> (if (c =? 0)%N then Nat.even n = true else Nat.even n = false).
Proof.
  intros Hc ->. unfold flip. destruct Hc as [->| ->]; cbn [N.eqb]; destruct (Nat.even n); split; intros H; try reflexivity; try discriminate.
Qed.
Lemma stretch_near a x n e b ws ws' : (x = 1%N \/ In 1%N a /\ In 1%N b) ->
  scan (a ++ repeat x n ++ b) = Some ws -> scan (a ++ repeat x (n + S e) ++ b) = Some ws' -> near ws ws'.
Proof.
  intros HI HS HS'. pose proof (bits_of _ _ HS') as HB. apply Forall_app in HB. destruct HB as [Ba HB].
  apply Forall_app in HB. destruct HB as [Bx Bb].
  assert (Hx : bit x). { rewrite Forall_forall in Bx. apply Bx. rewrite Nat.add_succ_r. now left. }
  destruct (before_form x a Hx Ba) as (c & F & i & Hc & HF & -> & Ex & EF). destruct (after_form x b Hx Bb) as (j & V & HV & ->).
  clear Ba Bx Bb.
  assert (R : forall n, (render_from c F ++ repeat x i) ++ repeat x n ++ repeat x j ++ render_from (1 - x) V =
    render_from c F ++ repeat x (i + n + j) ++ render_from (1 - x) V).
  { intros k. rewrite !repeat_plus, <- !app_assoc. reflexivity. }
  assert (J : forall k, render_from c F ++ repeat x k ++ render_from (1 - x) V = render_from c (F ++ k :: V)).
  { intros k. rewrite render_from_app by assumption. rewrite <- Ex. reflexivity. }
  rewrite R in HS, HS'. rewrite J in HS'.
  assert (P : forall k, 1 <= k -> Forall (fun w => 1 <= w) (F ++ k :: V)).
  { intros k Hk. apply Forall_app. split; [assumption | now constructor]. }
  destruct (scan_core _ _ _ Hc (P (i + (n + S e) + j) ltac:(lia)) HS') as [-> _].
  (* the place is not in a quiet zone *)
  assert (HF0 : F = [] -> c = 1%N).
  { intros E. specialize (EF E). destruct Hc as [Hc|Hc]; [exfalso | assumption]. subst F. rewrite Hc in EF. subst x. destruct HI as [HI|[HI _]]; [congruence|].
    cbn [render_from app] in HI. rewrite <- EF in HI. now apply lights_dark in HI. }
  assert (HV0 : V = [] -> x = 1%N).
  { intros ->. destruct Hx as [E0|E1]; [exfalso | assumption]. destruct HI as [HI|[_ HI]]; [congruence|].
    cbn [render_from] in HI. rewrite app_nil_r, E0 in HI. now apply lights_dark in HI. }
  assert (EI : forall k, inner c (F ++ k :: V) = inner c F ++ k :: V).
  { intros k. unfold inner. destruct (c =? 0)%N eqn:Ec; [|reflexivity]. destruct F as [|w F]; [|reflexivity].
    apply N.eqb_eq in Ec. rewrite HF0 in Ec by reflexivity. discriminate. }
  assert (ELast : V = [] -> forall k, core (inner c (F ++ [k])) = inner c F ++ [k]).
  { intros E k. specialize (HV0 E). pose proof (EI k) as X. rewrite E in X. rewrite X. unfold core.
    replace (Nat.even (length (inner c F ++ [k]))) with false; [reflexivity|]. symmetry.
    rewrite app_length, inner_length. cbn [length].
    assert (NX : ~ x = 0%N) by congruence. rewrite (flip_ends c (length F) x Hc Ex) in NX.
    destruct (c =? 0)%N eqn:Ec.
    - destruct F as [|w F]; [apply N.eqb_eq in Ec; rewrite HF0 in Ec by reflexivity; discriminate|].
      cbn [length] in *. replace (S (length F) - 1 + 1) with (S (length F)) by lia. now destruct (Nat.even (S (length F))).
    - rewrite Nat.add_1_r, Nat.even_succ, <- Nat.negb_even. destruct (Nat.even (length F)); [reflexivity | congruence]. }
  set (k' := i + (n + S e) + j) in *.
  destruct (Nat.eq_dec (i + n + j) 0) as [K0|K].
  - (* a new element *)
    left. rewrite K0 in HS. cbn [repeat app] in HS.
    destruct F as [|p F _] using rev_ind.
    + (* before the first bar *)
      rewrite (HF0 eq_refl) in *. assert (x = 1%N) by (symmetry; now apply EF). subst x. cbn [render_from app] in HS. change (1 - 1)%N with 0%N in HS.
      destruct (scan_core _ _ _ (or_introl eq_refl) HV HS) as [-> HN]. unfold inner in *. cbn [N.eqb app] in *.
      apply core_longer; [assumption|]. destruct V; [now destruct HN|]. cbn [tl length]. lia.
    + destruct V as [|q V].
      * (* after the last bar *)
        cbn [render_from] in HS. rewrite app_nil_r in HS. destruct (scan_core _ _ _ Hc HF HS) as [-> HN].
        rewrite ELast by reflexivity. rewrite app_length. cbn [length]. rewrite core_length by assumption.
        assert (HE : Nat.even (length (inner c (F ++ [p]))) = true).
        { pose proof (ELast eq_refl k') as X. unfold core in X. rewrite EI in X. cbn [app] in X.
          destruct (Nat.even (length (inner c (F ++ [p]) ++ [k']))) eqn:E.
          - rewrite removelast_last in X. apply (f_equal (@length nat)) in X. rewrite app_length in X. cbn [length] in X. lia.
          - rewrite app_length, Nat.add_1_r, Nat.even_succ, <- Nat.negb_even in E. now destruct (Nat.even (length (inner c (F ++ [p])))). }
        rewrite HE. destruct (inner c (F ++ [p])); [congruence|]. cbn [length]. lia.
      * (* inside an element *)
        assert (E2 : render_from c (F ++ [p]) ++ render_from (1 - x) (q :: V) = render_from c (F ++ (p + q) :: V)).
        { rewrite !render_from_app by assumption. rewrite <- app_assoc. f_equal.
          assert (E3 : flip c (length F) = (1 - x)%N).
          { rewrite Ex, app_length, Nat.add_1_r, flip_S by assumption. pose proof (flip_bit c (length F) Hc). lia. }
          rewrite E3. cbn [render_from]. rewrite app_nil_r, repeat_plus, <- app_assoc. reflexivity. }
        rewrite E2 in HS. assert (HF2 : Forall (fun w => 1 <= w) (F ++ (p + q) :: V)).
        { apply Forall_app in HF. destruct HF as [HF Hp]. inversion Hp; subst. inversion HV; subst. apply Forall_app. split; [assumption|].
          constructor; [lia | assumption]. }
        destruct (scan_core _ _ _ Hc HF2 HS) as [-> HN]. apply core_longer; [assumption|].
        rewrite !inner_length, !app_length. cbn [length]. destruct (c =? 0)%N; lia.
  - (* a wider element *)
    rewrite J in HS. destruct (scan_core _ _ _ Hc (P (i + n + j) ltac:(lia)) HS) as [-> _]. right.
    set (k := i + n + j) in *. rewrite !EI. destruct V as [|q V].
    + pose proof (ELast eq_refl k) as X. pose proof (ELast eq_refl k') as X'. rewrite EI in X, X'. rewrite X, X'.
      exists (inner c F), k, k', []. split; [reflexivity|]. split; [reflexivity | unfold k, k'; lia].
    + unfold core. replace (length (inner c F ++ k' :: q :: V)) with (length (inner c F ++ k :: q :: V)) by (rewrite !app_length; reflexivity).
      destruct (Nat.even _).
      * exists (inner c F), k, k', (removelast (q :: V)). rewrite !removelast_app by discriminate.
        split; [reflexivity|]. split; [reflexivity | unfold k, k'; lia].
      * exists (inner c F), k, k', (q :: V). split; [reflexivity|]. split; [reflexivity | unfold k, k'; lia].
Qed.
Definition close (ws ws' : list nat) : Prop :=
  length ws' = length ws + 2 \/ length ws = length ws' + 2 \/ exists u w w' v, ws = u ++ w :: v /\ ws' = u ++ w' :: v /\ w <> w'.
Lemma stretched_close m m' ws ws' : stretched m m' -> scan m = Some ws -> scan m' = Some ws' -> close ws ws'.
Proof.
  intros (a & x & n & n' & b & -> & -> & Hn & HI) HS HS'. unfold close.
  destruct (Nat.lt_ge_cases n n') as [L|L].
  - replace n' with (n + S (n' - n - 1)) in HS' by lia. destruct (stretch_near _ _ _ _ _ _ _ HI HS HS') as [H|H]; auto.
  - replace n with (n' + S (n - n' - 1)) in HS by lia. destruct (stretch_near _ _ _ _ _ _ _ HI HS' HS) as [H|(u & w & w' & v & E1 & E2 & E3)]; auto.
    right. right. exists u, w', w, v. auto.
Qed.

(** ** One element of another width *)
Inductive changed : list nat -> list nat -> Prop :=
| changed_here w w' v : w <> w' -> changed (w :: v) (w' :: v)
| changed_later x u u' : changed u u' -> changed (x :: u) (x :: u').
Lemma changed_app u w w' v : w <> w' -> changed (u ++ w :: v) (u ++ w' :: v).
Proof. intros H. induction u; cbn [app]; [now apply changed_here | now apply changed_later]. Qed.
Lemma changed_length u u' : changed u u' -> length u = length u'.
Proof. induction 1; cbn [length]; auto. Qed.
Lemma changed_sum u u' : changed u u' -> list_sum u <> list_sum u'.
Proof. induction 1; unfold list_sum in *; cbn [fold_right]; lia. Qed.
Lemma changed_ham u u' : changed u u' -> ham u u' = 1.
Proof.
  induction 1 as [w w' v H|x u u' H IH]; cbn [ham]; [|now rewrite Nat.eqb_refl].
  rewrite ham_same. destruct (Nat.eqb_spec w w'); [congruence | reflexivity].
Qed.
Lemma changed_aham u u' : changed u u' -> forall b, aham b u u' <= 1.
Proof.
  induction 1 as [w w' v H|x u u' H IH]; intros b; cbn [aham].
  - rewrite aham_same. destruct b; [destruct (Nat.eqb w w')|]; lia.
  - rewrite Nat.eqb_refl. specialize (IH (negb b)). destruct b; lia.
Qed.
Lemma changed_neq u u' : changed u u' -> u <> u'.
Proof. intros H ->. now apply changed_sum in H. Qed.
Lemma changed_split x : forall x' y y', length x = length x' -> changed (x ++ y) (x' ++ y') ->
  (changed x x' /\ y = y') \/ (x = x' /\ changed y y').
Proof.
  induction x as [|a x IH]; intros [|a' x'] y y' HL H; try discriminate; [right; auto|].
  injection HL as HL. cbn [app] in H. inversion H as [w w' v Hw E1 E2|z u u' H1 E1 E2]; subst.
  - match goal with E : x ++ y = x' ++ y' |- _ => rename E into E0 | E : x' ++ y' = x ++ y |- _ => symmetry in E; rename E into E0 end.
    destruct (split_same x x' y y' HL E0) as [-> ->]. left. split; [now apply changed_here | reflexivity].
  - destruct (IH x' y y' HL H1) as [[H2 ->]|[-> H2]]; [left | right]; split; try reflexivity; try assumption. now apply changed_later.
Qed.
Lemma changed_gapped cs : forall cs', Forall2 (fun c c' : list nat => length c = length c') cs cs' ->
  changed (concat (map (fun c => c ++ [1]) cs)) (concat (map (fun c => c ++ [1]) cs')) ->
  exists x c c' y, cs = x ++ c :: y /\ cs' = x ++ c' :: y /\ changed c c'.
Proof.
  intros cs' HF. induction HF as [|c c' cs cs' HL HF IH]; cbn [map concat]; intros H; [inversion H|].
  apply changed_split in H; [|rewrite !app_length; now rewrite HL].
  destruct H as [[H HE]|[HE H]].
  - apply changed_split in H; [|assumption]. destruct H as [[H _]|[_ H]].
    + exists [], c, c', cs. split; [reflexivity|]. split; [|assumption]. cbn [app]. f_equal.
      clear - HF HE. induction HF as [|d d' cs cs' HL HF IH]; [reflexivity|].
      cbn [map concat] in HE. apply split_same in HE; [|rewrite !app_length; now rewrite HL]. destruct HE as [E HE].
      apply app_inj_tail in E. destruct E as [-> _]. f_equal. now apply IH.
    + inversion H as [? ? ? X|? ? ? X]; subst; [congruence | inversion X].
  - apply app_inj_tail in HE. destruct HE as [-> _]. destruct (IH H) as (x & d & d' & y & -> & -> & Hd).
    exists (c' :: x), d, d', y. auto.
Qed.
Lemma changed_snoc u u' : changed u u' -> forall x, changed (u ++ [x]) (u' ++ [x]).
Proof. intros H x. induction H; cbn [app]; [now apply changed_here | now apply changed_later]. Qed.

(** ** Symbols whose size follows from the number of elements *)
Lemma list_sum_concat s (bs : list (list nat)) : Forall (fun b => list_sum b = s) bs -> list_sum (concat bs) = s * length bs.
Proof. induction 1 as [|b bs Hb H IH]; cbn [concat length]; [cbn; lia|]. rewrite list_sum_app. lia. Qed.
Lemma all_sums {B} (f : list nat -> option B) s bs r : (forall b y, f b = Some y -> list_sum b = s) -> read_all f bs = Some r ->
  list_sum (concat bs) = s * length bs.
Proof. intros Hf HR. apply list_sum_concat. exact (read_all_Forall _ _ _ _ Hf HR). Qed.
Definition sums (s : nat) (t : list (list nat)) : bool := forallb (fun b => Nat.eqb (list_sum b) s) t.
Lemma sums_In s t b : sums s t = true -> In b t -> list_sum b = s.
Proof. intros H HI. unfold sums in H. rewrite forallb_forall in H. now apply Nat.eqb_eq, H. Qed.
Lemma char_sum l t s b c : sums s t = true -> read_char l t b = Some c -> list_sum b = s.
Proof. intros H E. apply read_char_sound in E. destruct E as (v & E & _). apply nth_error_In in E. now apply (sums_In s t). Qed.
Lemma gapped_sum s (cs : list (list nat)) : Forall (fun c => list_sum c = s) cs -> list_sum (concat (map (fun c => c ++ [1]) cs)) = (s + 1) * length cs.
Proof.
  intros H. rewrite <- (map_length (fun c => c ++ [1]) cs). apply list_sum_concat. apply Forall_map. revert H. apply Forall_impl.
  intros c Hc. rewrite list_sum_app, Hc. reflexivity.
Qed.
Lemma halves_sum n ws x : read_halves n ws = Some x -> list_sum ws = 14 * n + 11.
Proof.
  destruct x as [l r]. intros H. destruct (halves_form n ws l r H) as (lb & rb & -> & Hl & Hr & HA & HB).
  rewrite !list_sum_app. rewrite (all_sums read_AB 7 lb l), (all_sums read_C 7 rb r); try assumption.
  - rewrite Hl, Hr. cbn. lia.
  - intros b y E. apply option_map_Some in E. destruct E as [v [E _]]. apply which_sound, nth_error_In in E.
    exact (sums_In 7 setC_table b eq_refl E).
  - intros b y E. now apply AB_sum in E.
Qed.
Lemma supp_sum ws r : read_as SSupp ws = Some r -> (length ws = 13 /\ list_sum ws = 20) \/ (length ws = 31 /\ list_sum ws = 47).
Proof.
  intros H. apply supp_form in H. destruct H as (l & H & HL & _).
  assert (G : forall cs l, read_all read_AB cs = Some l -> Forall (fun c => length c = 4 /\ list_sum c = 7) cs).
  { intros cs l0 HR. apply (read_all_Forall _ _ _ _ (fun x y E => match AB_sum x y E with conj P Q => conj Q P end) HR). }
  destruct (supp_shape ws l H HL) as [(_ & c1 & c2 & -> & HR)|(_ & c1 & c2 & c3 & c4 & c5 & -> & HR)]; [left | right]; apply G in HR.
  - inversion HR as [|? ? [A1 B1] HR1]; subst. inversion HR1 as [|? ? [A2 B2] _]; subst.
    repeat rewrite app_length. repeat rewrite list_sum_app. rewrite A1, A2, B1, B2. split; reflexivity.
  - inversion HR as [|? ? [A1 B1] HR1]; subst. inversion HR1 as [|? ? [A2 B2] HR2]; subst. inversion HR2 as [|? ? [A3 B3] HR3]; subst.
    inversion HR3 as [|? ? [A4 B4] HR4]; subst. inversion HR4 as [|? ? [A5 B5] _]; subst.
    repeat rewrite app_length. repeat rewrite list_sum_app. rewrite A1, A2, A3, A4, A5, B1, B2, B3, B4, B5. split; reflexivity.
Qed.
Lemma c39_sum ws r : read_c39 ws = Some r -> exists n, length ws + 1 = 10 * n /\ list_sum ws + 1 = 13 * n.
Proof.
  intros H. destruct (c39_form _ _ H) as (mid & E & L & _ & HR). exists (2 + length mid). split; [assumption|].
  apply (f_equal list_sum) in E. rewrite list_sum_app in E. rewrite (gapped_sum 12) in E.
  - cbn [length] in E. rewrite app_length in E. cbn [length list_sum fold_right] in E. lia.
  - constructor; [reflexivity|]. apply Forall_app. split; [|constructor; [reflexivity | constructor]].
    apply (read_all_Forall _ _ _ _ (fun b c => char_sum c39_chars c39_table 12 b c ltac:(vm_compute; reflexivity)) HR).
Qed.
Lemma c93_sum ws r : read_c93 ws = Some r -> exists n, length ws = 6 * n + 1 /\ list_sum ws = 9 * n + 1.
Proof.
  intros H. apply c93_form in H. destruct H as (mid & raw & -> & _ & _ & HF). exists (2 + length mid).
  rewrite !app_length, !list_sum_app, (concat_length_const 6) by (apply (sized 6 9); assumption).
  rewrite (list_sum_concat 9) by (revert HF; apply Forall_impl; tauto). change (length c93_star) with 6. change (list_sum c93_star) with 9.
  cbn [length list_sum fold_right]. split; lia.
Qed.
Lemma c128_sum_of ws r : read_c128 ws = Some r -> exists n, length ws = 6 * n + 7 /\ list_sum ws = 11 * n + 13.
Proof.
  intros H. apply obind_Some in H. destruct H as [vs [H _]]. unfold read_values in H.
  destruct (trim_ends 0 7 ws) as [[a body] z] eqn:ET. apply trim_ends_whole in ET. destruct ET as [HW Ea].
  cbn [firstn] in Ea. subst a. cbn [app] in HW. apply guard_Some in H. destruct H as [Hz H]. apply widths_eqb_eq in Hz. subst z.
  apply obind_Some in H. destruct H as [bs [HC H]]. pose proof (chop_length _ _ _ HC) as HL. apply chop_sound in HC. destruct HC as [HC HF].
  exists (length bs). rewrite HW, <- HC, app_length, list_sum_app, (concat_length_const 6) by assumption.
  rewrite (all_sums (fun b => option_map N.of_nat (which c128_table b)) 11 bs vs); [split; reflexivity| |exact H].
  intros b y E. apply option_map_Some in E. destruct E as [v [E _]]. apply which_sound, nth_error_In in E.
  apply (sums_In 11 c128_table b); [vm_compute; reflexivity | assumption].
Qed.

(** ** Code 11 and Codabar *)
Lemma c11_changed ws ws' r : changed ws ws' -> read_c11 ws = Some r -> read_c11 ws' = None.
Proof.
  intros HE H. destruct (read_c11 ws') as [r'|] eqn:H'; [exfalso | reflexivity].
  destruct (c11_form ws r H) as (mid & raw & EW & EL & HF & HR & HV). destruct (c11_form ws' r' H') as (mid' & raw' & EW' & EL' & HF' & HR' & HV').
  pose proof (changed_length _ _ HE) as HL.
  apply (fun h => changed_snoc _ _ h 1) in HE. rewrite EW, EW' in HE. apply changed_gapped in HE.
  - assert (HS : one_block mid mid').
    { apply (one_block_inner c11_guard). destruct HE as (x & c & c' & y & E1 & E2 & Hc). exists x, c, c', y.
      split; [assumption|]. split; [assumption | now apply changed_neq]. }
    destruct (one_block_chars _ _ _ _ _ _ c11_nodup HS HR HR') as (u & c & c' & v & E1 & E2 & Hc & HI & HI').
    assert (HRL : length raw = length raw') by (subst; rewrite !app_length; reflexivity).
    set (top := (if Nat.ltb 11 (length raw) then 9 else 10)%N).
    assert (HT : (1 <= top <= 10)%N) by (unfold top; destruct (Nat.ltb 11 (length raw)); lia).
    assert (X : verify_last c11_chars 11 top raw <> None).
    { apply (verify_weights raw raw); [congruence | reflexivity | reflexivity]. }
    assert (X' : verify_last c11_chars 11 top raw' <> None).
    { apply (verify_weights raw raw'); [congruence | assumption | reflexivity]. }
    apply X'. rewrite E2. apply (c11_subst top u c c' v HT HI HI' Hc). now rewrite <- E1.
  - apply (Forall2_lengths 5).
    + constructor; [reflexivity|]. apply Forall_app. split; [assumption|]. constructor; [reflexivity | constructor].
    + constructor; [reflexivity|]. apply Forall_app. split; [assumption|]. constructor; [reflexivity | constructor].
    + cbn [length]. rewrite !app_length. cbn [length]. lia.
Qed.
Definition one_apart (t : list (list nat)) : bool := forallb (fun p => forallb (fun q => negb (Nat.eqb (ham p q) 1)) t) t.
Lemma one_apart_In t p q : one_apart t = true -> In p t -> In q t -> ~ changed p q.
Proof.
  intros H Hp Hq HC. unfold one_apart in H. rewrite forallb_forall in H. specialize (H p Hp). rewrite forallb_forall in H.
  specialize (H q Hq). rewrite (changed_ham _ _ HC) in H. discriminate.
Qed.
Lemma cod_changed ws ws' r r' : changed ws ws' -> read_cod ws = Some r -> cod_framed r -> read_cod ws' = Some r' -> ~ cod_framed r'.
Proof.
  intros HE H HF H' HF'. destruct (cod_form _ _ H HF) as (a & mid & z & E & F & Ia & Iz & Im & L).
  destruct (cod_form _ _ H' HF') as (a' & mid' & z' & E' & F' & Ia' & Iz' & Im' & L').
  pose proof (changed_length _ _ HE) as HL. apply (fun h => changed_snoc _ _ h 1) in HE. rewrite E, E' in HE.
  apply changed_gapped in HE; [|apply (Forall2_lengths 7); try assumption; cbn [length]; rewrite !app_length; cbn [length]; lia].
  destruct HE as (x & c & c' & y & E1 & E2 & Hc). destruct x as [|x0 x]; cbn [app] in E1, E2; injection E1 as E1 E3; injection E2 as E2 E4.
  - subst c c'. exact (one_apart_In cod_starts a a' ltac:(vm_compute; reflexivity) Ia Ia' Hc).
  - destruct y as [|y0 y _] using rev_ind.
    + apply app_inj_tail in E3, E4. destruct E3 as [_ ->]. destruct E4 as [_ ->].
      exact (one_apart_In cod_starts c c' ltac:(vm_compute; reflexivity) Iz Iz' Hc).
    + rewrite app_comm_cons, app_assoc in E3, E4. apply app_inj_tail in E3, E4. destruct E3 as [-> _]. destruct E4 as [-> _].
      apply Forall_app in Im, Im'. destruct Im as [_ Im], Im' as [_ Im']. inversion Im; subst. inversion Im'; subst.
      eapply (one_apart_In cod_inner c c'); try eassumption. vm_compute. reflexivity.
Qed.

(** ** All readers *)
Lemma close_read y ws ws' r r' : close ws ws' -> read_as y ws = Some r -> accepts y r -> read_as y ws' = Some r' -> accepts y r' ->
  tolerant y = true /\ r' = r.
Proof.
  intros HC H HA H' HA'.
  assert (HD : (length ws' = length ws + 2 \/ length ws = length ws' + 2) \/ changed ws ws').
  { destruct HC as [HC|[HC|(u & w & w' & v & -> & -> & Hw)]]; auto. right. now apply changed_app. }
  assert (FX : forall n, (exists x, read_halves n ws = Some x) -> (exists x, read_halves n ws' = Some x) -> False).
  { intros n [[l1 r1] E1] [[l2 r2] E2]. destruct HD as [HD|HD].
    - apply halves_sig in E1, E2. destruct E1 as (_ & E1 & _). destruct E2 as (_ & E2 & _). lia.
    - apply changed_sum in HD. apply halves_sum in E1, E2. congruence. }
  destruct y; cbn [read_as tolerant] in *.
  - exfalso. apply option_map_Some in H, H'. destruct H as (l & H & _), H' as (l' & H' & _).
    apply obind_Some in H, H'. destruct H as (x & H & _), H' as (x' & H' & _). apply (FX 6); eauto.
  - exfalso. apply option_map_Some in H, H'. destruct H as (l & H & _), H' as (l' & H' & _).
    apply obind_Some in H, H'. destruct H as (x & H & _), H' as (x' & H' & _). apply (FX 4); eauto.
  - exfalso. apply option_map_Some in H, H'. destruct H as (l & H & _), H' as (l' & H' & _).
    apply obind_Some in H, H'. destruct H as (x & H & _), H' as (x' & H' & _). apply (FX 6); eauto.
  - exfalso. apply (supp_sum ws r) in H. apply (supp_sum ws' r') in H'. destruct HD as [HD|HD]; [lia|].
    pose proof (changed_length _ _ HD). apply changed_sum in HD. lia.
  - exfalso. apply option_map_Some in H, H'. destruct H as (l & H & _), H' as (l' & H' & _).
    apply c39_sum in H, H'. destruct H as (n & L & S), H' as (n' & L' & S'). destruct HD as [HD|HD]; [lia|].
    pose proof (changed_length _ _ HD). apply changed_sum in HD. lia.
  - exfalso. apply option_map_Some in H, H'. destruct H as (l & H & _), H' as (l' & H' & _).
    apply c39_sum in H, H'. destruct H as (n & L & S), H' as (n' & L' & S'). destruct HD as [HD|HD]; [lia|].
    pose proof (changed_length _ _ HD). apply changed_sum in HD. lia.
  - exfalso. apply option_map_Some in H, H'. destruct H as (l & H & _), H' as (l' & H' & _).
    apply c93_sum in H, H'. destruct H as (n & L & S), H' as (n' & L' & S'). destruct HD as [HD|HD]; [lia|].
    pose proof (changed_length _ _ HD). apply changed_sum in HD. lia.
  - exfalso. apply option_map_Some in H, H'. destruct H as (l & H & _), H' as (l' & H' & _). destruct HD as [HD|HD].
    + apply c11_form in H, H'. destruct H as (m1 & _ & _ & L & _), H' as (m2 & _ & _ & L' & _). lia.
    + rewrite (c11_changed _ _ _ HD H) in H'. discriminate.
  - exfalso. apply option_map_Some in H, H'. destruct H as (l & H & ->), H' as (l' & H' & ->). destruct HD as [HD|HD].
    + apply cod_odd in H, H'. destruct H as (n & L & _), H' as (n' & L' & _). lia.
    + exact (cod_changed _ _ _ _ HD H HA H' HA').
  - exfalso. apply option_map_Some in H, H'. destruct H as (l & H & _), H' as (l' & H' & _).
    apply c128_sum_of in H, H'. destruct H as (n & L & S), H' as (n' & L' & S'). destruct HD as [HD|HD]; [lia|].
    pose proof (changed_length _ _ HD). apply changed_sum in HD. lia.
  - split; [reflexivity|]. apply option_map_Some in H, H'. destruct H as (l & H & ->), H' as (l' & H' & ->).
    destruct HD as [HD|HD].
    + exfalso. apply itf_count in H, H'. destruct H as (n & L), H' as (n' & L'). lia.
    + now rewrite (itf_close ws ws' l l' (changed_length _ _ HD) (changed_aham _ _ HD) H H').
  - split; [reflexivity|]. apply option_map_Some in H, H'. destruct H as (l & H & ->), H' as (l' & H' & ->).
    destruct HD as [HD|HD].
    + exfalso. apply stf_count in H, H'. destruct H as (n & L), H' as (n' & L'). lia.
    + now rewrite (stf_close ws ws' l l' (changed_length _ _ HD) (changed_aham _ _ HD) H H').
Qed.

(** ** Printed symbols are readable *)
Lemma body_values_length k body : length (body_values k body) <= length body.
Proof.
  destruct k; cbn [body_values]; try (now rewrite map_length).
  assert (G : forall first, length (pair_values first body) <= length body); [|apply G].
  induction body as [|c body IH]; intros first; cbn [pair_values length]; [lia|].
  destruct (digit c); [destruct first|]; cbn [length]; [specialize (IH None) | specialize (IH (Some c)) | specialize (IH first)]; lia.
Qed.
Lemma message_values_length segs : length (message_values segs) <= length (spell segs).
Proof.
  assert (G : forall segs, length (concat (map (fun x => switch_value (fst x) :: body_values (fst x) (snd x)) segs)) <= length (spell segs)).
  { clear. induction segs as [|[k body] segs IH]; [reflexivity|]. unfold spell in *. cbn [map concat fst snd]. rewrite !app_length. cbn [length].
    pose proof (body_values_length k body). lia. }
  destruct segs as [|[k body] segs]; [cbn; lia|]. specialize (G segs). unfold spell in *. cbn [message_values map concat fst snd].
  cbn [app]. cbn [length]. rewrite !app_length. pose proof (body_values_length k body). lia.
Qed.
Lemma readable y p s m : (str_len s < 2 ^ 48)%N -> barcode y p s = Ret (Ok m) ->
  (y = SCodabar -> cod_framed s /\ ~ In (ch "+") s) -> (y = SCode128 -> (len s <= 6489)%N) ->
  exists r, read_modules y m = Some r /\ accepts y r /\ meant y s (Some r).
Proof.
  intros Hs H HC H128. pose proof (barcode_meant y p s m Hs H) as HM.
  destruct y; cbn [meant accepts] in *; try (destruct HM as (c & HV & HM); eexists; split; [exact HM|]; split; [exact I|]; eexists; split; [exact HV | reflexivity]);
    try (eexists; split; [exact HM|]; split; [exact I | reflexivity]).
  - destruct (HC eq_refl) as [HF HN].
    assert (E : existsb (fun c => (c =? ch "+")%N) s = false).
    { destruct (existsb (fun c => (c =? ch "+")%N) s) eqn:E; [|reflexivity]. exfalso. apply existsb_exists in E.
      destruct E as (c & Hc & E). apply N.eqb_eq in E. subst c. contradiction. }
    rewrite E in HM |- *. eexists. split; [exact HM|]. split; [now apply P_Codabar.exchange_framed | reflexivity].
  - cbn [barcode] in H. apply run_Ok in H. destruct H as (b & HB & HE). injection HB as HB.
    destruct (code128_accepted s b HB) as (segs & Hok & -> & HX & _).
    assert (HL : (len (message_values segs) <= 6489)%N).
    { specialize (H128 eq_refl). unfold len in *. pose proof (message_values_length segs). lia. }
    assert (m = render (c128_symbol (message_values segs))) by (rewrite (HX HL p) in HE; congruence). subst m.
    assert (HR : read_modules SCode128 (render (c128_symbol (message_values segs))) = Some (Tokens (hear segs))).
    { unfold read_modules. pose proof (code128_hears segs Hok) as X. destruct (scan _); [|discriminate]. cbn [obind read_as] in *. now rewrite X. }
    exists (Tokens (hear segs)). split; [exact HR|]. split; [exact I|].
    intros segs' H1 H2 H3 H4. rewrite <- HR. now apply HM.
Qed.
Lemma stretched_read y p s m m' r' : (str_len s < 2 ^ 48)%N -> barcode y p s = Ret (Ok m) ->
  (y = SCodabar -> cod_framed s /\ ~ In (ch "+") s) -> (y = SCode128 -> (len s <= 6489)%N) ->
  stretched m m' -> read_modules y m' = Some r' -> accepts y r' ->
  tolerant y = true /\ read_modules y m = Some r' /\ meant y s (Some r').
Proof.
  intros Hs H HC H128 HS HR' HA'. destruct (readable y p s m Hs H HC H128) as (r & HR & HA & HM).
  rewrite HR. unfold read_modules in HR, HR'. apply obind_Some in HR, HR'.
  destruct HR as (ws & E & HR), HR' as (ws' & E' & HR').
  destruct (close_read y ws ws' r r' (stretched_close m m' ws ws' HS E E') HR HA HR' HA') as [HT ->]. auto.
Qed.
