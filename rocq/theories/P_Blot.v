(** * Ink blots and scratches *)
From Verif Require Import Rust M_Error Symbology M_Use S_Barcode S_Ean S_Text S_Linear S_Codabar S_Tf S_Code128 S_All S_Damage S_Cut S_Check128 S_Cell S_Blot
  P_Rust P_Barcode P_Parse P_Tf P_Code11 P_All P_Apart P_Damage P_Cell P_Cut P_Code128 P_Code128b P_Heard P_Stretch P_Several P_Readable P_Blind P_Line P_Wrong P_Part P_Back P_Check128.
Local Open Scope nat_scope.

(** ** Pictures as runs *)
(** Modules of one colour, or runs of the other colour at both ends of an odd number *)
Lemma ends_form x l : bit x -> Forall bit l -> l = repeat (1 - x)%N (length l) \/
  exists g G h, Forall (fun w => 1 <= w) G /\ Nat.even (length G) = false /\ l = repeat (1 - x)%N g ++ render_from x G ++ repeat (1 - x)%N h.
Proof.
  intros Hx. induction 1 as [|y l Hy H IH]; [now left|].
  destruct (N.eq_dec y (1 - x)%N) as [->|N].
  - destruct IH as [E|(g & G & h & HG & HO & E)]; [left; cbn [length repeat]; congruence|].
    right. exists (S g), G, h. split; [assumption|]. split; [assumption|]. cbn [repeat app]. congruence.
  - assert (y = x) by (unfold bit in *; lia). subst y. right. destruct IH as [E|(g & G & h & HG & HO & E)].
    + exists 0, [1], (length l). split; [repeat constructor|]. split; [reflexivity|]. cbn [render_from repeat app]. congruence.
    + destruct g as [|g].
      * destruct G as [|w G]; [discriminate|]. exists 0, (S w :: G), h. apply Forall_cons_iff in HG. destruct HG as [Hw HG]. split; [constructor; [lia | assumption]|].
        split; [exact HO|]. cbn [repeat app render_from] in *. congruence.
      * exists 0, (1 :: S g :: G), h. split; [constructor; [lia|]; constructor; [lia | assumption]|]. split; [exact HO|].
        rewrite E. cbn [render_from]. replace (1 - (1 - x))%N with x by (unfold bit in *; lia). cbn [repeat app]. rewrite <- app_assoc. reflexivity.
Qed.
Lemma render_sum c F : length (render_from c F) = list_sum F.
Proof. apply render_from_length. Qed.

(** What a blot of colour [x] does to the runs, if runs of the other colour are left on both sides *)
Definition inked (L L' : list nat) (n : nat) : Prop :=
  (exists A f k v B, L = A ++ (f + k + v) :: B /\ L' = A ++ f :: k :: v :: B /\ 1 <= f /\ 1 <= k /\ 1 <= v /\ n = length A) \/
  (exists A f g G h v B, L = A ++ (f + g) :: G ++ (h + v) :: B /\ L' = A ++ f :: (g + list_sum G + h) :: v :: B /\
    1 <= f /\ 1 <= v /\ Nat.even (length G) = false /\ Forall (fun w => 1 <= w) G /\ n = length A).
Lemma flip_next c (F : list nat) f : bit c -> flip c (length (F ++ [f])) = (1 - flip c (length F))%N.
Proof. intros Hc. rewrite app_length, Nat.add_1_r. now apply flip_S. Qed.
Lemma blot_runs x a b c : bit x -> Forall bit a -> Forall bit b -> Forall bit c -> b <> [] -> In (1 - x)%N a -> In (1 - x)%N c ->
  exists d L L' n, bit d /\ Forall (fun w => 1 <= w) L /\ Forall (fun w => 1 <= w) L' /\
    a ++ b ++ c = render_from d L /\ a ++ repeat x (length b) ++ c = render_from d L' /\ inked L L' n /\ flip d n = (1 - x)%N.
Proof.
  intros Hx Ha Hb Hc Hne Ia Ic.
  destruct (before_form x a Hx Ha) as (d & F & i & Hd & HF & -> & Ex & EF). destruct (after_form x c Hx Hc) as (j & V & HV & ->).
  destruct F as [|f F _] using rev_ind.
  { exfalso. cbn [render_from app] in Ia. apply repeat_spec in Ia. unfold bit in Hx. lia. }
  destruct V as [|v V]. { exfalso. cbn [render_from] in Ic. rewrite app_nil_r in Ic. apply repeat_spec in Ic. unfold bit in Hx. lia. }
  assert (E1 : flip d (length F) = (1 - x)%N).
  { rewrite flip_next in Ex by assumption. pose proof (flip_bit d (length F) Hd). unfold bit in *. lia. }
  assert (NX : (1 - (1 - x) = x)%N) by (unfold bit in Hx; lia).
  apply Forall_app in HF. destruct HF as [HF Hf]. inversion Hf as [|? ? Hf1 _]; subst. inversion HV as [|? ? Hv HV1]; subst.
  set (x := flip d (length (F ++ [f]))) in *. clearbody x.
  set (mid := repeat x i ++ b ++ repeat x j).
  assert (LM : length mid = i + length b + j) by (unfold mid; rewrite !app_length, !repeat_length; lia).
  assert (BM : Forall bit mid).
  { unfold mid. apply Forall_app. split; [apply Forall_forall; intros z Hz; apply repeat_spec in Hz; now subst|].
    apply Forall_app. split; [assumption | apply Forall_forall; intros z Hz; apply repeat_spec in Hz; now subst]. }
  assert (Lb : 1 <= length b) by (destruct b; [congruence | cbn [length]; lia]).
  assert (EA : (render_from d (F ++ [f]) ++ repeat x i) ++ b ++ repeat x j ++ render_from (1 - x) (v :: V) =
               render_from d F ++ repeat (1 - x)%N f ++ mid ++ repeat (1 - x)%N v ++ render_from x V).
  { rewrite render_from_app by assumption. rewrite E1. cbn [render_from]. rewrite !NX, app_nil_r. unfold mid. rewrite <- !app_assoc. reflexivity. }
  assert (EB : (render_from d (F ++ [f]) ++ repeat x i) ++ repeat x (length b) ++ repeat x j ++ render_from (1 - x) (v :: V) =
               render_from d F ++ repeat (1 - x)%N f ++ repeat x (length mid) ++ repeat (1 - x)%N v ++ render_from x V).
  { rewrite render_from_app by assumption. rewrite E1. cbn [render_from]. rewrite !NX, app_nil_r, LM, !repeat_plus, <- !app_assoc. reflexivity. }
  rewrite EA, EB.
  destruct (ends_form x mid Hx BM) as [E|(g & G & h & HG & HO & E)].
  - exists d, (F ++ (f + length mid + v) :: V), (F ++ f :: length mid :: v :: V), (length F).
    split; [assumption|]. split; [apply Forall_app; split; [assumption | constructor; [lia | assumption]]|].
    split; [apply Forall_app; split; [assumption | repeat (constructor; [lia|]); assumption]|].
    split. { rewrite render_from_app by assumption. rewrite E1. cbn [render_from]. rewrite !NX, !repeat_plus, <- !app_assoc, E at 1. reflexivity. }
    split. { rewrite render_from_app by assumption. rewrite E1. cbn [render_from]. rewrite !NX. reflexivity. }
    split; [|assumption]. left. exists F, f, (length mid), v, V. repeat split; try assumption; lia.
  - assert (LG : length mid = g + list_sum G + h) by (rewrite E, !app_length, !repeat_length, render_sum; lia).
    exists d, (F ++ (f + g) :: G ++ (h + v) :: V), (F ++ f :: (g + list_sum G + h) :: v :: V), (length F).
    assert (SG : 1 <= list_sum G). { destruct G as [|w G]; [discriminate|]. inversion HG; subst. change (list_sum (w :: G)) with (w + list_sum G). lia. }
    split; [assumption|]. split.
    { apply Forall_app; split; [assumption|]. constructor; [lia|]. apply Forall_app. split; [assumption|]. constructor; [lia | assumption]. }
    split; [apply Forall_app; split; [assumption | repeat (constructor; [lia|]); assumption]|].
    split.
    { rewrite E. rewrite render_from_app by assumption. rewrite E1. cbn [render_from]. rewrite !NX, render_from_app_odd by assumption.
      cbn [render_from]. rewrite !NX, !repeat_plus, <- !app_assoc. reflexivity. }
    split. { rewrite LG. rewrite render_from_app by assumption. rewrite E1. cbn [render_from]. rewrite !NX. reflexivity. }
    split; [|assumption]. right. exists F, f, g, G, h, v, V. repeat split; try assumption; lia.
Qed.

(** ** What blots do to the elements *)
Definition gives (g : nat) (A A' : list nat) : Prop := (A = [] /\ A' = []) \/ exists A0 f, 1 <= f /\ A = A0 ++ [f + g] /\ A' = A0 ++ [f].
Definition yields (h : nat) (B B' : list nat) : Prop := (B = [] /\ B' = []) \/ exists v B0, 1 <= v /\ B = (h + v) :: B0 /\ B' = v :: B0.
Definition widened (ws ws' : list nat) : Prop := exists A b B g h A' B', 1 <= b /\ ws = A ++ b :: B /\ ws' = A' ++ (g + b + h) :: B' /\
  gives g A A' /\ yields h B B'.
Definition blurred (ws ws' : list nat) : Prop :=
  length ws' = length ws + 2 \/
  (exists k e, 1 <= k /\ length ws = length ws' + 2 * k /\ In e ws' /\ 2 * k + 1 <= e) \/
  widened ws ws'.

Lemma even_plus2 n k : Nat.even (n + 2 * k) = Nat.even n.
Proof. rewrite Nat.even_add, Nat.even_mul. cbn [Nat.even orb]. now destruct (Nat.even n). Qed.
Lemma core_shorter (F F' : list nat) k : F' <> [] -> length F = length F' + 2 * k -> length (core F) = length (core F') + 2 * k.
Proof.
  intros HN HL. assert (F <> []) by (destruct F; [destruct F'; [congruence | cbn [length] in HL; lia] | discriminate]).
  rewrite !core_length by assumption. rewrite HL, even_plus2. assert (1 <= length F') by (destruct F'; [congruence | cbn [length]; lia]).
  destruct (Nat.even (length F')); lia.
Qed.
Lemma core_right (X : list nat) z y B : exists B', (forall X' : list nat, Nat.even (length X') = Nat.even (length X) -> core (X' ++ z :: y :: B) = X' ++ z :: B') /\
  (B' = y :: B \/ B' = removelast (y :: B)).
Proof.
  exists (if Nat.even (length (X ++ z :: y :: B)) then removelast (y :: B) else y :: B). split.
  - intros X' HX. unfold core. rewrite !app_length. rewrite !Nat.even_add, HX. destruct (eqb _ _); [|reflexivity].
    rewrite removelast_app by discriminate. reflexivity.
  - destruct (Nat.even _); auto.
Qed.
Lemma list_sum_ge (G : list nat) : Forall (fun w => 1 <= w) G -> length G <= list_sum G.
Proof. induction 1 as [|w G H _ IH]; [reflexivity|]. change (list_sum (w :: G)) with (w + list_sum G). cbn [length]. lia. Qed.
Lemma core_In X e v B : In e (core (X ++ e :: v :: B)).
Proof.
  unfold core. destruct (Nat.even _); [|apply in_elt]. rewrite removelast_app by discriminate. apply in_or_app. right. now left.
Qed.
Lemma odd_double n : Nat.even n = false -> exists k, n = 2 * k + 1.
Proof. intros H. rewrite <- Nat.negb_odd in H. apply negb_false_iff, Nat.odd_spec in H. destruct H as (k & ->). eauto. Qed.

Lemma inked_blurred x d L L' n ws ws' : bit x -> bit d -> inked L L' n -> flip d n = (1 - x)%N ->
  ws = core (inner d L) -> ws' = core (inner d L') -> inner d L <> [] -> inner d L' <> [] -> blurred ws ws'.
Proof.
  intros Hx Hd HI Hn -> -> N1 N2. destruct HI as [(A & f & k & v & B & -> & -> & Hf & Hk & Hv & ->)|(A & f & g & G & h & v & B & -> & -> & Hf & Hv & HO & HG & ->)].
  - left. apply core_longer; [assumption|]. rewrite !inner_length, !app_length. cbn [length]. destruct (d =? 0)%N; lia.
  - right. destruct (odd_double _ HO) as (k & Ek). destruct k as [|k].
    + (* one run covered *)
      right. destruct G as [|b [|? ?]]; try discriminate. apply Forall_inv in HG. cbn beta in HG.
      change (list_sum [b]) with (b + 0). rewrite Nat.add_0_r. cbn [app] in *.
      (* the left end *)
      assert (HLeft : exists A1 A1', gives g A1 A1' /\ length A1 = length A1' /\
        (forall T, inner d (A ++ (f + g) :: T) = A1 ++ T) /\ (forall T, inner d (A ++ f :: T) = A1' ++ T) /\
        Nat.even (length A1) = (x =? 1)%N).
      { destruct A as [|a A].
        - cbn [length] in Hn. unfold flip in Hn. cbn [Nat.even] in Hn. destruct Hd as [->| ->]; unfold inner; cbn [N.eqb].
          + exists [], []. split; [now left|]. repeat (split; [reflexivity|]). unfold bit in Hx. assert (x = 1)%N as -> by lia. reflexivity.
          + exists [f + g], [f]. split; [right; exists [], f; auto|]. repeat (split; [reflexivity|]). unfold bit in Hx. assert (x = 0)%N as -> by lia. reflexivity.
        - destruct Hd as [->| ->]; unfold inner; cbn [N.eqb app tl].
          + exists (A ++ [f + g]), (A ++ [f]). split; [right; exists A, f; auto|]. split; [now rewrite !app_length|].
            split; [intros T; now rewrite <- app_assoc|]. split; [intros T; now rewrite <- app_assoc|].
            rewrite app_length. cbn [length] in *. rewrite Nat.add_1_r. unfold flip in Hn.
            destruct Hx as [->| ->]; destruct (Nat.even (S (length A))); try reflexivity; discriminate.
          + exists (a :: A ++ [f + g]), (a :: A ++ [f]). split; [right; exists (a :: A), f; auto|]. split; [cbn [length]; now rewrite !app_length|].
            split; [intros T; cbn [app]; now rewrite <- app_assoc|]. split; [intros T; cbn [app]; now rewrite <- app_assoc|].
            cbn [length]. rewrite app_length. cbn [length] in *. rewrite Nat.add_1_r. rewrite Nat.even_succ_succ. unfold flip in Hn.
            rewrite Nat.even_succ, <- Nat.negb_even in Hn.
            destruct Hx as [->| ->]; destruct (Nat.even (length A)); try reflexivity; discriminate. }
      destruct HLeft as (A1 & A1' & HA & HLA & EL & EL' & EP). rewrite EL, EL'.
      destruct B as [|y B].
      * (* the right end *)
        unfold core. rewrite !app_length. cbn [length].
        replace (Nat.even (length A1 + 2)) with (Nat.even (length A1)) by (rewrite Nat.add_comm; reflexivity).
        replace (Nat.even (length A1' + 2)) with (Nat.even (length A1)) by (rewrite HLA, Nat.add_comm; reflexivity).
        destruct (Nat.even (length A1)).
        -- rewrite !removelast_app by discriminate. cbn [removelast]. exists A1, b, [], g, h, A1', []. repeat split; try assumption. now left.
        -- exists A1, b, [h + v], g, h, A1', [v]. repeat split; try assumption. right. exists v, []. auto.
      * destruct (core_right (A1 ++ [b]) (h + v) y B) as (B' & EB & HB).
        destruct (core_right (A1 ++ [b]) v y B) as (B'' & EB' & HB').
        assert (B' = B'').
        { pose proof (EB (A1 ++ [b]) eq_refl) as X1. pose proof (EB' (A1 ++ [b]) eq_refl) as X2. clear - X1 X2.
          unfold core in X1, X2. rewrite !app_length in X1, X2. cbn [length] in X1, X2. destruct (Nat.even _).
          - rewrite removelast_app in X1, X2 by discriminate. apply app_inv_head in X1, X2. cbn [removelast] in X1, X2. destruct B; congruence.
          - apply app_inv_head in X1, X2. congruence. }
        subst B''. exists A1, b, ((h + v) :: B'), g, h, A1', (v :: B'). split; [assumption|].
        split. { pose proof (EB (A1 ++ [b]) eq_refl) as X1. rewrite <- !app_assoc in X1. exact X1. }
        split. { pose proof (EB' (A1' ++ [g + b + h])) as X1. rewrite !app_length, HLA in X1. specialize (X1 eq_refl). rewrite <- !app_assoc in X1. exact X1. }
        split; [assumption|]. right. exists v, B'. auto.
    + (* several runs covered *)
      left. exists (S k), (g + list_sum G + h). split; [lia|]. split.
      { apply core_shorter; [assumption|]. rewrite !inner_length, !app_length. cbn [length]. rewrite app_length. cbn [length]. destruct (d =? 0)%N; lia. }
      split.
      { destruct A as [|a A]; unfold inner; destruct (d =? 0)%N; cbn [app tl].
        - exact (core_In [] _ v B).
        - exact (core_In [f] _ v B).
        - pose proof (core_In (A ++ [f]) (g + list_sum G + h) v B) as X. rewrite <- app_assoc in X. exact X.
        - pose proof (core_In (a :: A ++ [f]) (g + list_sum G + h) v B) as X. cbn [app] in X. rewrite <- app_assoc in X. exact X. }
      pose proof (list_sum_ge G HG). lia.
Qed.

(** ** Symbols made of characters of one width *)
Lemma ham_zero_tiles (T T' : list (list nat)) : Forall2 (fun b b' => length b = length b' /\ list_sum b = list_sum b') T T' -> ham (concat T) (concat T') = 0 -> T = T'.
Proof.
  induction 1 as [|b b' T T' [HL _] HF IH]; intros HZ; [reflexivity|]. cbn [concat] in HZ. rewrite ham_app in HZ by assumption.
  f_equal; [apply ham_zero; [assumption | lia] | apply IH; lia].
Qed.
Lemma ham_tiles (T T' : list (list nat)) : Forall2 (fun b b' => length b = length b' /\ list_sum b = list_sum b') T T' -> ham (concat T) (concat T') <= 3 ->
  T = T' \/ one_block T T'.
Proof.
  induction 1 as [|b b' T T' [HL HS] HF IH]; intros HZ; [now left|]. cbn [concat] in HZ. rewrite ham_app in HZ by assumption.
  destruct (list_eq_dec Nat.eq_dec b b') as [->|Hb].
  - destruct IH as [->|(u & c & c' & v & -> & -> & Hc)]; [lia | now left |]. right. exists (b' :: u), c, c', v. auto.
  - pose proof (ham_two b b' HL HS Hb) as H2. destruct (Nat.eq_dec (ham (concat T) (concat T')) 0) as [E|NE].
    + apply ham_zero_tiles in E; [|assumption]. subst T'. right. exists [], b, b', T. auto.
    + exfalso. assert (H3 : 2 <= ham (concat T) (concat T')); [|lia]. apply ham_two.
      * clear - HF. induction HF as [|c c' T T' [A B] F IH]; [reflexivity|]. cbn [concat]. rewrite !app_length. lia.
      * clear - HF. induction HF as [|c c' T T' [A B] F IH]; [reflexivity|]. cbn [concat]. rewrite !list_sum_app. lia.
      * intros E. apply NE. rewrite E. apply ham_same.
Qed.
Lemma one_block_app {A} (a a' x x' : list A) : length a = length a' -> one_block (a ++ x) (a' ++ x') -> (one_block a a' /\ x = x') \/ (a = a' /\ one_block x x').
Proof.
  intros HL (u & b & b' & v & E & E' & Hb). destruct (Nat.lt_ge_cases (length u) (length a)) as [HU|HU].
  - left. assert (SP : forall (z : A) (l r : list A), l ++ r = u ++ z :: v -> length u < length l -> exists w, l = u ++ z :: w /\ v = w ++ r).
    { clear. induction u as [|q u IH]; intros z l r E H; (destruct l as [|y l]; [cbn [length] in H; lia|]); cbn [app] in E; injection E as -> E.
      - exists l. auto.
      - destruct (IH z l r E) as (w & -> & ->); [cbn [length] in H; lia|]. exists w. auto. }
    destruct (SP b a x E HU) as (w & -> & ->). destruct (SP b' a' x' E') as (w' & -> & EV); [lia|].
    apply split_same in EV; [|rewrite !app_length in HL; cbn [length] in HL; lia]. destruct EV as [-> ->]. split; [|reflexivity].
    exists u, b, b', w'. auto.
  - right. assert (SP : forall z (l r : list A), l ++ r = u ++ z :: v -> length l <= length u -> firstn (length l) u = l /\ r = skipn (length l) u ++ z :: v).
    { clear. induction u as [|q u IH]; intros z l r E H; (destruct l as [|y l]; [cbn [length firstn skipn app] in *; auto|]); [cbn [length] in H; lia|].
      cbn [app] in E. injection E as -> E. destruct (IH z l r E) as (E1 & E2); [cbn [length] in H; lia|]. cbn [length firstn skipn app]. rewrite E1. auto. }
    destruct (SP b a x E HU) as (E1 & E2). destruct (SP b' a' x' E') as (E1' & E2'); [lia|]. rewrite <- HL in E1', E2'.
    split; [congruence|]. exists (skipn (length a) u), b, b', v. auto.
Qed.
Lemma one_block_neq {A} (x x' : list A) : one_block x x' -> x <> x'.
Proof. intros (u & b & b' & v & -> & -> & Hb) E. apply app_inv_head in E. congruence. Qed.
Lemma tiles_same k s (bs bs' : list (list nat)) : Forall (fun b => length b = k /\ list_sum b = s) bs -> Forall (fun b => length b = k /\ list_sum b = s) bs' ->
  length bs = length bs' -> Forall2 (fun b b' => length b = length b' /\ list_sum b = list_sum b') bs bs'.
Proof.
  intros H. revert bs'. induction H as [|b bs [A B] HF IH]; intros [|b' bs'] H' HL; try discriminate; [constructor|].
  apply Forall_cons_iff in H'. destruct H' as [[A' B'] H']. constructor; [split; congruence | apply IH; [assumption | now injection HL]].
Qed.
Lemma same_tile (g : list nat) : (fun b b' : list nat => length b = length b' /\ list_sum b = list_sum b') g g.
Proof. split; reflexivity. Qed.
Lemma C_sum c x : read_C c = Some x -> list_sum c = 7 /\ length c = 4.
Proof.
  intros H. apply read_C_sound in H. destruct H as (H & _ & L). split; [|exact L]. apply nth_error_In in H. exact (sums_In 7 setC_table c eq_refl H).
Qed.
Lemma AB_tiles bs l : read_all read_AB bs = Some l -> Forall (fun b => length b = 4 /\ list_sum b = 7) bs.
Proof. intros H. refine (read_all_Forall _ _ _ _ _ H). intros x y E. apply AB_sum in E. tauto. Qed.
Lemma C_tiles bs l : read_all read_C bs = Some l -> Forall (fun b => length b = 4 /\ list_sum b = 7) bs.
Proof. intros H. refine (read_all_Forall _ _ _ _ _ H). intros x y E. apply C_sum in E. tauto. Qed.
Lemma halves_tiles n ws ws' x x' : read_halves n ws = Some x -> read_halves n ws' = Some x' -> ham ws ws' <= 3 ->
  ws = ws' \/ exists u b b' v i, ws = u ++ b ++ v /\ ws' = u ++ b' ++ v /\ b <> b' /\ length b = 4 /\ length b' = 4 /\ i < n /\ (length u = 3 + 4 * i \/ length u = 4 * n + 8 + 4 * i).
Proof.
  destruct x as [l r], x' as [l' r']. intros H H' HH.
  destruct (halves_form _ _ _ _ H) as (lb & rb & E & Ll & Lr & HA & HB). destruct (halves_form _ _ _ _ H') as (lb' & rb' & E' & Ll' & Lr' & HA' & HB').
  apply AB_tiles in HA, HA'. apply C_tiles in HB, HB'.
  set (T := [normal_guard] ++ lb ++ [centre_guard] ++ rb ++ [normal_guard]). set (T' := [normal_guard] ++ lb' ++ [centre_guard] ++ rb' ++ [normal_guard]).
  assert (ET : ws = concat T) by (rewrite E; unfold T; rewrite !concat_app; cbn [concat]; rewrite !app_nil_r; reflexivity).
  assert (ET' : ws' = concat T') by (rewrite E'; unfold T'; rewrite !concat_app; cbn [concat]; rewrite !app_nil_r; reflexivity).
  destruct (ham_tiles T T') as [HT|HT].
  { unfold T, T'. constructor; [apply same_tile|]. apply Forall2_app; [apply (tiles_same 4 7); try assumption; congruence|].
    constructor; [apply same_tile|]. apply Forall2_app; [apply (tiles_same 4 7); try assumption; congruence|]. constructor; [apply same_tile | constructor]. }
  { now rewrite <- ET, <- ET'. }
  { left. now rewrite ET, ET', HT. }
  right. unfold T, T' in HT. apply one_block_app in HT; [|reflexivity]. destruct HT as [[HT _]|[_ HT]]; [now apply one_block_neq in HT|].
  pose proof (sized 4 7 _ HA) as SA. pose proof (sized 4 7 _ HA') as SA'. pose proof (sized 4 7 _ HB) as SB. pose proof (sized 4 7 _ HB') as SB'.
  apply one_block_app in HT; [|congruence]. destruct HT as [[(u & b & b' & v & -> & -> & Hb) HT]|[<- HT]].
  - assert (rb' = rb) as -> by (injection HT; intros HT1; now apply app_inv_tail in HT1).
    exists (normal_guard ++ concat u), b, b', (concat v ++ centre_guard ++ concat rb ++ normal_guard), (length u).
    split; [rewrite E, concat_app; cbn [concat]; rewrite <- !app_assoc; reflexivity|]. split; [rewrite E', concat_app; cbn [concat]; rewrite <- !app_assoc; reflexivity|].
    split; [assumption|]. apply Forall_app in SA, SA'. destruct SA as [SU SA], SA' as [_ SA'].
    apply Forall_inv in SA, SA'. split; [assumption|]. split; [assumption|]. rewrite app_length in Ll. cbn [length] in Ll. split; [lia|].
    left. rewrite app_length, (concat_length_const 4 u) by assumption. reflexivity.
  - apply one_block_app in HT; [|reflexivity]. destruct HT as [[HT _]|[_ HT]]; [now apply one_block_neq in HT|].
    apply one_block_app in HT; [|congruence]. destruct HT as [[(u & b & b' & v & -> & -> & Hb) _]|[_ HT]]; [|now apply one_block_neq in HT].
    exists (normal_guard ++ concat lb ++ centre_guard ++ concat u), b, b', (concat v ++ normal_guard), (length u).
    split; [rewrite E, concat_app; cbn [concat]; rewrite <- !app_assoc; reflexivity|]. split; [rewrite E', concat_app; cbn [concat]; rewrite <- !app_assoc; reflexivity|].
    split; [assumption|]. apply Forall_app in SB, SB'. destruct SB as [SU SB], SB' as [_ SB'].
    apply Forall_inv in SB, SB'. split; [assumption|]. split; [assumption|]. rewrite app_length in Lr. cbn [length] in Lr. split; [lia|].
    right. rewrite !app_length, (concat_length_const 4 u), (concat_length_const 4 lb), Ll by assumption. cbn [normal_guard centre_guard length]. lia.
Qed.

Definition one_width (y : symbology) : bool := match y with SEan13 | SEan8 | SUpca | SSupp | SCode93 | SCode128 => true | _ => false end.
Lemma verified_any y r : one_width y = true -> verified y r.
Proof. destruct y; try discriminate; intros _; exact I. Qed.
Lemma c128_tiles bs vs : read_all (fun b => option_map N.of_nat (which c128_table b)) bs = Some vs -> Forall (fun b => list_sum b = 11) bs.
Proof. intros H. apply c128_values_In in H. revert H. apply Forall_impl. intros b Hb. now apply c128_sum11. Qed.
(** Blocks as patterns *)
Lemma table_blocks (t : list (list nat)) bs vs : read_all (fun b => option_map N.of_nat (which t b)) bs = Some vs -> bs = map (fun v => nth (N.to_nat v) t []) vs.
Proof.
  revert vs. induction bs as [|b bs IH]; intros vs H; cbn [read_all] in H; [injection H as <-; reflexivity|].
  apply obind_Some in H. destruct H as (v & Hv & H). apply obind_Some in H. destruct H as (l & Hl & H). injection H as <-.
  cbn [map]. rewrite (IH l Hl). f_equal. apply option_map_Some in Hv. destruct Hv as (w & Hw & ->). apply which_sound in Hw.
  rewrite Nat2N.id. symmetry. now apply nth_error_nth.
Qed.
Lemma pattern_blocks bs vs : read_all (fun b => option_map N.of_nat (which c128_table b)) bs = Some vs -> bs = map c128_pattern vs.
Proof. exact (table_blocks c128_table bs vs). Qed.
Lemma c128_width_read ws ws' r r' : read_as SCode128 ws = Some r -> read_as SCode128 ws' = Some r' -> length ws = length ws' -> ham ws ws' <= 3 ->
  ws = ws' \/ exists u v v' w, ws = concat (map c128_pattern (u ++ v :: w)) ++ c128_stop /\ ws' = concat (map c128_pattern (u ++ v' :: w)) ++ c128_stop /\
    v <> v' /\ weightless (length u) /\ w <> [] /\ length ws = 6 * length (u ++ v :: w) + 7.
Proof.
  intros H H' HL HH. cbn [read_as] in *. apply option_map_Some in H, H'. destruct H as (l & H & _), H' as (l' & H' & _).
  destruct (c128_form _ _ H) as (bs & vs & E & HF & HR & HD). destruct (c128_form _ _ H') as (bs' & vs' & E' & HF' & HR' & HD').
  pose proof HR as RV. pose proof HR' as RV'. apply c128_tiles in HR, HR'.
  assert (LB : length ws = 6 * length bs + 7) by (rewrite E, app_length, (concat_length_const 6 bs) by assumption; reflexivity).
  assert (LB' : length ws' = 6 * length bs' + 7) by (rewrite E', app_length, (concat_length_const 6 bs') by assumption; reflexivity).
  assert (FB : forall q : list (list nat), Forall (fun b => length b = 6) q -> Forall (fun b => list_sum b = 11) q -> Forall (fun b => length b = 6 /\ list_sum b = 11) q).
  { intros q A B. apply Forall_forall. intros z Hz. rewrite Forall_forall in A, B. auto. }
  destruct (ham_tiles (bs ++ [c128_stop]) (bs' ++ [c128_stop])) as [HT|HT].
  { apply Forall2_app; [apply (tiles_same 6 11); [now apply FB | now apply FB | lia]|]. constructor; [apply same_tile | constructor]. }
  { rewrite !concat_app. cbn [concat]. rewrite !app_nil_r. now rewrite <- E, <- E'. }
  { left. rewrite E, E'. apply app_inv_tail in HT. now subst. }
  right. apply one_block_app in HT; [|lia]. destruct HT as [[(u & b & b' & v & -> & -> & Hb) _]|[_ HT]]; [|now apply one_block_neq in HT].
  destruct (read_all_changed _ _ _ _ _ _ _ RV RV') as (rx & c & c' & ry & -> & -> & R & R' & Lr).
  apply pattern_blocks in RV, RV'.
  assert (NE : c <> c').
  { intros <-. apply option_map_Some in R, R'. destruct R as (w & R & ->), R' as (w' & R' & X). apply Nat2N.inj in X. subst w'. apply which_sound in R, R'. congruence. }
  destruct (c128_subst rx c ry c') as [HW0 HNE]; [congruence | congruence | congruence |].
  exists rx, c, c', ry. rewrite <- RV, <- RV'. repeat (split; [assumption|]). rewrite LB, RV, map_length. reflexivity.
Qed.
Lemma one_width_read y ws ws' r r' : one_width y = true -> read_as y ws = Some r -> read_as y ws' = Some r' -> length ws = length ws' -> ham ws ws' <= 3 ->
  (y = SSupp -> exists l, r = Digits l /\ length l = 5) -> (y = SCode128 -> length ws <= 631) -> ws = ws'.
Proof.
  intros HY H H' HL HH H5 H128.
  assert (X : ws = ws' \/ cell_changed y ws ws').
  2: { destruct X as [X|X]; [assumption|]. exfalso.
       pose proof (cell_changed_read y ws ws' r r' X H H' H5 (verified_any y r HY) (verified_any y r' HY)). destruct y; try discriminate; assumption. }
  destruct y; try discriminate; cbn [read_as] in *.
  - apply option_map_Some in H, H'. destruct H as (l & H & _), H' as (l' & H' & _).
    apply obind_Some in H, H'. destruct H as (x & H & _), H' as (x' & H' & _).
    destruct (halves_tiles 6 ws ws' x x' H H' HH) as [E|(u & b & b' & v & i & -> & -> & Hb & Lb & Lb' & Hi & Hu)]; [now left|].
    right. exists u, b, b', v. repeat (split; [first [reflexivity | assumption]|]). exists i. split; [assumption|]. lia.
  - apply option_map_Some in H, H'. destruct H as (l & H & _), H' as (l' & H' & _).
    apply obind_Some in H, H'. destruct H as (x & H & _), H' as (x' & H' & _).
    destruct (halves_tiles 4 ws ws' x x' H H' HH) as [E|(u & b & b' & v & i & -> & -> & Hb & Lb & Lb' & Hi & Hu)]; [now left|].
    right. exists u, b, b', v. repeat (split; [first [reflexivity | assumption]|]). exists i. split; [assumption|]. lia.
  - apply option_map_Some in H, H'. destruct H as (l & H & _), H' as (l' & H' & _).
    apply obind_Some in H, H'. destruct H as (x & H & _), H' as (x' & H' & _).
    destruct (halves_tiles 6 ws ws' x x' H H' HH) as [E|(u & b & b' & v & i & -> & -> & Hb & Lb & Lb' & Hi & Hu)]; [now left|].
    right. exists u, b, b', v. repeat (split; [first [reflexivity | assumption]|]). exists i. split; [assumption|]. lia.
  - apply (supp_form ws r) in H. apply (supp_form ws' r') in H'. destruct H as (l & H & N & _), H' as (l' & H' & N' & _).
    destruct (addon_cells _ _ H) as (c & cs & E & HR); [intros ->; destruct N; discriminate|].
    destruct (addon_cells _ _ H') as (c' & cs' & E' & HR'); [intros ->; destruct N'; discriminate|].
    apply AB_tiles in HR, HR'. apply Forall_cons_iff in HR, HR'. destruct HR as [[Lc Sc] HR], HR' as [[Lc' Sc'] HR'].
    assert (SX : forall q : list (list nat), Forall (fun b => length b = 4 /\ list_sum b = 7) q -> Forall (fun b => length b = 6 /\ list_sum b = 9) (map (fun c => 1 :: 1 :: c) q)).
    { intros q Hq. apply Forall_map. revert Hq. apply Forall_impl. intros a [A B]. split; [cbn [length]; lia|].
      change (list_sum (1 :: 1 :: a)) with (1 + (1 + list_sum a)). lia. }
    pose proof (SX _ HR) as S1. pose proof (SX _ HR') as S1'.
    assert (LC : length cs = length cs').
    { rewrite E, E', !app_length, !(concat_length_const 6), !map_length in HL by (apply (sized 6 9); assumption). lia. }
    destruct (ham_tiles ([1;1;2] :: c :: map (fun c => 1 :: 1 :: c) cs) ([1;1;2] :: c' :: map (fun c => 1 :: 1 :: c) cs')) as [HT|HT].
    { constructor; [apply same_tile|]. constructor; [split; congruence|]. apply (tiles_same 6 9); [assumption | assumption | now rewrite !map_length]. }
    { cbn [concat]. now rewrite <- E, <- E'. }
    { left. rewrite E, E'. now injection HT as -> ->. }
    right. apply (one_block_app [[1;1;2]] [[1;1;2]]) in HT; [|reflexivity]. destruct HT as [[HT _]|[_ HT]]; [now apply one_block_neq in HT|].
    apply (one_block_app [c] [c']) in HT; [|reflexivity]. destruct HT as [[HT HC]|[HC HT]].
    + rewrite E, E', <- HC. exists [1;1;2], c, c', (concat (map (fun c => 1 :: 1 :: c) cs)). repeat (split; [first [reflexivity | assumption]|]).
      split; [intros ->; now apply one_block_neq in HT|]. repeat (split; [assumption|]). exists 0. reflexivity.
    + injection HC as <-. destruct HT as (u & b & b' & v & E1 & E2 & Hb). rewrite E1 in E, S1. rewrite E2 in E', S1'.
      assert (SU : Forall (fun b => length b = 6) u) by (apply Forall_app in S1; destruct S1 as [S1 _]; now apply (sized 6 9)).
      assert (Ib : exists b0, b = 1 :: 1 :: b0 /\ length b0 = 4).
      { assert (In b (map (fun c => 1 :: 1 :: c) cs)) as I1 by (rewrite E1; apply in_elt). apply in_map_iff in I1. destruct I1 as (b0 & <- & I1).
        exists b0. split; [reflexivity|]. rewrite Forall_forall in HR. now apply HR. }
      assert (Ib' : exists b0, b' = 1 :: 1 :: b0 /\ length b0 = 4).
      { assert (In b' (map (fun c => 1 :: 1 :: c) cs')) as I1 by (rewrite E2; apply in_elt). apply in_map_iff in I1. destruct I1 as (b0 & <- & I1).
        exists b0. split; [reflexivity|]. rewrite Forall_forall in HR'. now apply HR'. }
      destruct Ib as (b0 & -> & Lb), Ib' as (b0' & -> & Lb').
      exists ([1;1;2] ++ c ++ concat u ++ [1;1]), b0, b0', (concat v).
      split; [rewrite E, concat_app; cbn [concat]; rewrite <- !app_assoc; reflexivity|]. split; [rewrite E', concat_app; cbn [concat]; rewrite <- !app_assoc; reflexivity|].
      split; [congruence|]. split; [assumption|]. split; [assumption|]. exists (S (length u)).
      rewrite !app_length, (concat_length_const 6 u) by assumption. cbn [length]. lia.
  - apply option_map_Some in H, H'. destruct H as (l & H & _), H' as (l' & H' & _).
    destruct (c93_form _ _ H) as (mid & raw & E & _ & _ & HF). destruct (c93_form _ _ H') as (mid' & raw' & E' & _ & _ & HF').
    assert (LC : length mid = length mid').
    { rewrite E, E', !app_length, !(concat_length_const 6) in HL by (apply (sized 6 9); assumption). cbn [length] in HL. lia. }
    destruct (ham_tiles ([c93_star] ++ mid ++ [c93_star ++ [1]]) ([c93_star] ++ mid' ++ [c93_star ++ [1]])) as [HT|HT].
    { constructor; [apply same_tile|]. apply Forall2_app; [now apply (tiles_same 6 9)|]. constructor; [apply same_tile | constructor]. }
    { rewrite !concat_app. cbn [concat]. rewrite !app_nil_r. now rewrite <- E, <- E'. }
    { left. rewrite E, E'. apply app_inv_head in HT. apply app_inv_tail in HT. now subst. }
    right. apply one_block_app in HT; [|reflexivity]. destruct HT as [[HT _]|[_ HT]]; [now apply one_block_neq in HT|].
    apply one_block_app in HT; [|assumption]. destruct HT as [[(u & b & b' & v & -> & -> & Hb) _]|[_ HT]]; [|now apply one_block_neq in HT].
    apply (sized 6 9) in HF, HF'. apply Forall_app in HF, HF'. destruct HF as [FU HF], HF' as [_ HF']. apply Forall_inv in HF, HF'.
    exists (c93_star ++ concat u), b, b', (concat v ++ c93_star ++ [1]).
    split; [rewrite E, concat_app; cbn [concat]; rewrite <- !app_assoc; reflexivity|]. split; [rewrite E', concat_app; cbn [concat]; rewrite <- !app_assoc; reflexivity|].
    split; [assumption|]. split; [assumption|]. split; [assumption|]. exists (S (length u)).
    rewrite app_length, (concat_length_const 6 u) by assumption. change (length c93_star) with 6. lia.
  - destruct (c128_width_read ws ws' r r' H H' HL HH) as [X|(u & v & v' & w & _ & _ & _ & (k & Hk & HW) & HN & HX)]; [now left|].
    exfalso. specialize (H128 eq_refl). rewrite app_length in HX. destruct w; [congruence|]. cbn [length] in HX. lia.
Qed.

(** ** Widths *)
Definition top (y : symbology) : nat := match y with SCode39 | SCode39Checked | SCode11 | SCodabar => 2 | SItf | SStf => 3 | _ => 4 end.
Definition narrow_table (k : nat) (t : list (list nat)) : bool := forallb (forallb (fun w => w <=? k)) t.
Lemma narrow_In k t b : narrow_table k t = true -> In b t -> Forall (fun w => w <= k) b.
Proof.
  intros H HI. unfold narrow_table in H. rewrite forallb_forall in H. specialize (H b HI). rewrite forallb_forall in H.
  apply Forall_forall. intros w Hw. now apply Nat.leb_le, H.
Qed.
Lemma Forall_concat_all {A} (P : A -> Prop) (bs : list (list A)) : Forall (Forall P) bs -> Forall P (concat bs).
Proof. induction 1; cbn [concat]; [constructor | now apply Forall_app]. Qed.
Lemma gapped_bound k ws cs : 1 <= k -> Forall (Forall (fun w => w <= k)) cs -> ws ++ [1] = concat (map (fun c => c ++ [1]) cs) -> Forall (fun w => w <= k) ws.
Proof.
  intros Hk HF E. assert (H : Forall (fun w => w <= k) (ws ++ [1])).
  { rewrite E. apply Forall_concat_all. apply Forall_map. revert HF. apply Forall_impl. intros c Hc. apply Forall_app. split; [assumption|]. constructor; [assumption | constructor]. }
  now apply Forall_app in H.
Qed.
Lemma chars_bound k l t bs r : narrow_table k t = true -> read_all (read_char l t) bs = Some r -> Forall (Forall (fun w => w <= k)) bs.
Proof. intros HT H. apply read_chars_In in H. revert H. apply Forall_impl. intros b. now apply narrow_In. Qed.
Lemma ends_bound k (s : list nat) mid : Forall (fun w => w <= k) s -> Forall (Forall (fun w => w <= k)) mid -> Forall (Forall (fun w => w <= k)) (s :: mid ++ [s]).
Proof. intros Hs Hm. constructor; [assumption|]. apply Forall_app. split; [assumption | constructor; [assumption | constructor]]. Qed.
Ltac small := match goal with |- Forall (fun w => w <= ?k) ?s => apply (narrow_In k [s]); [vm_compute; reflexivity | apply in_eq] end.
Lemma AB_bound bs l : read_all read_AB bs = Some l -> Forall (Forall (fun w => w <= 4)) bs.
Proof.
  intros H. refine (read_all_Forall _ _ _ _ _ H). intros b x E. apply read_AB_sound in E. destruct E as (E & _). apply nth_error_In in E.
  destruct (fst x); cbn [set_table] in E; [apply (narrow_In 4 setA_table) | apply (narrow_In 4 setB_table)]; try assumption; reflexivity.
Qed.
Lemma halves_bound n ws x : read_halves n ws = Some x -> Forall (fun w => w <= 4) ws.
Proof.
  destruct x as [l r]. intros H. destruct (halves_form _ _ _ _ H) as (lb & rb & -> & _ & _ & HA & HB).
  apply AB_bound in HA. assert (HC : Forall (Forall (fun w => w <= 4)) rb).
  { refine (read_all_Forall _ _ _ _ _ HB). intros b y E. apply read_C_sound in E. destruct E as (E & _). apply nth_error_In in E.
    apply (narrow_In 4 setC_table); [reflexivity | assumption]. }
  apply Forall_concat_all in HA, HC.
  repeat (apply Forall_app; split); try assumption; apply (narrow_In 4 [normal_guard; centre_guard]); try reflexivity; cbn [In]; auto.
Qed.
Lemma squash_bound ws : Forall (fun w => w = 1 \/ w = 2) (squash ws) -> Forall (fun w => 1 <= w /\ w <= 3) ws.
Proof.
  induction ws as [|w ws IH]; intros H; constructor; unfold squash in H; cbn [map] in H; apply Forall_cons_iff in H; destruct H as [H H2]; [|now apply IH].
  destruct w as [|[|[|[|w]]]]; lia.
Qed.
Lemma tf_digit_table x d : read_tf_digit x = Some d -> In (squash x) tf_table.
Proof. unfold read_tf_digit. intros H. apply option_map_Some in H. destruct H as (v & H & _). exact (nth_error_In _ _ (which_sound _ _ _ H)). Qed.
Lemma tf_table_12 b : In b tf_table -> Forall (fun w => w = 1 \/ w = 2) b.
Proof. intros H. vm_compute in H. repeat destruct H as [<-|H]; try contradiction; repeat (constructor; [auto|]); constructor. Qed.
Lemma unweave_Forall (P : nat -> Prop) b x y : length b = 10 -> unweave b = (x, y) -> Forall P x -> Forall P y -> Forall P b.
Proof.
  intros H E. apply ten in H. destruct H as (a0 & a1 & a2 & a3 & a4 & a5 & a6 & a7 & a8 & a9 & ->). cbn [unweave] in E. injection E as <- <-.
  rewrite !Forall_cons_iff. tauto.
Qed.
Lemma itf_squash ws r : read_itf ws = Some r -> exists bs z ds, ws = [1;1;1;1] ++ concat bs ++ z /\ squash z = [2;1;1] /\ Forall (fun b => length b = 10) bs /\ read_all itf_block bs = Some ds.
Proof.
  unfold read_itf. destruct (trim_ends 4 3 ws) as [[a body] z] eqn:ET. apply trim_ends_whole in ET. destruct ET as [HW _].
  intros H. apply guard_Some in H. destruct H as [H HR]. apply andb_prop in H. destruct H as [Ha Hz].
  apply widths_eqb_eq in Ha, Hz. apply obind_Some in HR. destruct HR as [bs [HC HR]]. apply obind_Some in HR. destruct HR as [ds [HR _]].
  apply chop_sound in HC. destruct HC as [HC HF]. exists bs, z, ds. split; [now rewrite HW, Ha, HC|]. auto.
Qed.
Lemma itf_block_digits b ds : itf_block b = Some ds -> exists x y d e, unweave b = (x, y) /\ read_tf_digit x = Some d /\ read_tf_digit y = Some e.
Proof.
  unfold itf_block. destruct (unweave b) as [x y]. intros H. apply obind_Some in H. destruct H as (d & Hd & H). apply obind_Some in H. destruct H as (e & He & _).
  exists x, y, d, e. auto.
Qed.
Lemma stf_block_digits b d : stf_block b = Some d -> exists x, unweave b = (x, [1;1;1;1;1]) /\ read_tf_digit x = Some d.
Proof.
  unfold stf_block. destruct (unweave b) as [x y]. intros H. apply guard_Some in H. destruct H as [Hy H]. apply widths_eqb_eq in Hy. subst y. exists x. auto.
Qed.
Lemma bound y ws r : read_as y ws = Some r -> Forall (fun w => w <= top y) ws.
Proof.
  intros H. destruct y; cbn [read_as top] in *.
  - apply option_map_Some in H. destruct H as (l & H & _). apply obind_Some in H. destruct H as (x & H & _). now apply halves_bound in H.
  - apply option_map_Some in H. destruct H as (l & H & _). apply obind_Some in H. destruct H as (x & H & _). now apply halves_bound in H.
  - apply option_map_Some in H. destruct H as (l & H & _). apply obind_Some in H. destruct H as (x & H & _). now apply halves_bound in H.
  - apply (supp_form ws r) in H. destruct H as (l & H & N & _). destruct (addon_cells _ _ H) as (c & cs & -> & HR); [intros ->; destruct N; discriminate|].
    apply AB_bound in HR. apply Forall_cons_iff in HR. destruct HR as [Hc HR].
    apply Forall_app. split; [repeat (constructor; [lia|]); constructor|]. apply Forall_app. split; [assumption|]. apply Forall_concat_all. apply Forall_map.
    revert HR. apply Forall_impl. intros b Hb. constructor; [lia|]. constructor; [lia | assumption].
  - apply option_map_Some in H. destruct H as (l & H & _). destruct (c39_form _ _ H) as (mid & E & _ & _ & HR).
    apply (chars_bound 2) in HR; [|vm_compute; reflexivity]. revert E. apply gapped_bound; [lia|]. apply ends_bound; [small | assumption].
  - apply option_map_Some in H. destruct H as (l & H & _). destruct (c39_form _ _ H) as (mid & E & _ & _ & HR).
    apply (chars_bound 2) in HR; [|vm_compute; reflexivity]. revert E. apply gapped_bound; [lia|]. apply ends_bound; [small | assumption].
  - apply option_map_Some in H. destruct H as (l & H & _). destruct (c93_form _ _ H) as (mid & raw & -> & HR & _).
    apply (chars_bound 4) in HR; [|vm_compute; reflexivity]. apply Forall_concat_all in HR.
    apply Forall_app. split; [small|]. apply Forall_app. split; [assumption|]. apply Forall_app. split; [small|]. repeat constructor.
  - apply option_map_Some in H. destruct H as (l & H & _). destruct (c11_form _ _ H) as (mid & raw & E & _ & _ & HR & _).
    apply (chars_bound 2) in HR; [|vm_compute; reflexivity]. revert E. apply gapped_bound; [lia|]. apply ends_bound; [small | assumption].
  - apply option_map_Some in H. destruct H as (l & H & _). apply obind_Some in H. destruct H as [bs [H1 H]]. apply obind_Some in H. destruct H as [cs [H2 HR]].
    destruct (gap_blocks 7 ws bs cs H1 H2) as (_ & _ & HE & _). apply (chars_bound 2) in HR; [|vm_compute; reflexivity]. revert HE. apply gapped_bound; [lia | assumption].
  - apply option_map_Some in H. destruct H as (l & H & _). destruct (c128_form _ _ H) as (bs & vs & -> & _ & HR & _). apply c128_values_In in HR.
    apply Forall_app. split; [|small]. apply Forall_concat_all. revert HR. apply Forall_impl. intros b. apply narrow_In. vm_compute. reflexivity.
  - apply option_map_Some in H. destruct H as (l & H & _). destruct (itf_squash _ _ H) as (bs & z & ds & -> & Hz & HF & HR).
    apply Forall_app. split; [repeat (constructor; [lia|]); constructor|]. apply Forall_app. split.
    + apply Forall_concat_all. assert (HD : Forall (fun b => exists ds, itf_block b = Some ds) bs) by (apply (read_all_Forall _ _ _ _ (fun b d E => ex_intro _ d E) HR)).
      rewrite Forall_forall in HD, HF |- *. intros b Hb. destruct (HD b Hb) as (d0 & Hd). destruct (itf_block_digits _ _ Hd) as (x & y & d & e & EU & D1 & D2).
      apply (unweave_Forall _ b x y (HF b Hb) EU).
      * apply tf_digit_table, tf_table_12, squash_bound in D1. revert D1. apply Forall_impl. lia.
      * apply tf_digit_table, tf_table_12, squash_bound in D2. revert D2. apply Forall_impl. lia.
    + assert (Forall (fun w => 1 <= w /\ w <= 3) z) as HB by (apply squash_bound; rewrite Hz; repeat (constructor; [auto|]); constructor). revert HB. apply Forall_impl. lia.
  - apply option_map_Some in H. destruct H as (l & H & _). destruct (stf_form _ _ H) as (a & bs & z & -> & Ha & Hz & HF & HR).
    apply Forall_app. split.
    { assert (Forall (fun w => 1 <= w /\ w <= 3) a) as HB by (apply squash_bound; rewrite Ha; repeat (constructor; [auto|]); constructor). revert HB. apply Forall_impl. lia. }
    apply Forall_app. split.
    + apply Forall_concat_all. assert (HD : Forall (fun b => exists ds, stf_block b = Some ds) bs) by (apply (read_all_Forall _ _ _ _ (fun b d E => ex_intro _ d E) HR)).
      rewrite Forall_forall in HD, HF |- *. intros b Hb. destruct (HD b Hb) as (d0 & Hd). destruct (stf_block_digits _ _ Hd) as (x & EU & D1).
      apply (unweave_Forall _ b x _ (HF b Hb) EU); [|repeat (constructor; [lia|]); constructor].
      apply tf_digit_table, tf_table_12, squash_bound in D1. revert D1. apply Forall_impl. lia.
    + assert (Forall (fun w => 1 <= w /\ w <= 3) z) as HB by (apply squash_bound; rewrite Hz; repeat (constructor; [auto|]); constructor). revert HB. apply Forall_impl. lia.
Qed.
(** Numbers of elements *)
Lemma counts y ws ws' r r' : read_as y ws = Some r -> read_as y ws' = Some r' -> length ws' <> length ws + 2 /\ forall k, 1 <= k -> length ws = length ws' + 2 * k -> 6 <= 2 * k.
Proof.
  intros H H'.
  assert (FX : forall n, (exists x, read_halves n ws = Some x) -> (exists x, read_halves n ws' = Some x) -> length ws = length ws').
  { intros n [[l1 r1] E1] [[l2 r2] E2]. apply halves_sig in E1, E2. destruct E1 as (_ & E1 & _). destruct E2 as (_ & E2 & _). lia. }
  destruct y; cbn [read_as] in *.
  1-3: apply option_map_Some in H, H'; destruct H as (l & H & _), H' as (l' & H' & _); apply obind_Some in H, H'; destruct H as (x & H & _), H' as (x' & H' & _).
  - rewrite (FX 6) by eauto. split; [|intros k]; lia.
  - rewrite (FX 4) by eauto. split; [|intros k]; lia.
  - rewrite (FX 6) by eauto. split; [|intros k]; lia.
  - apply (supp_sum ws r) in H. apply (supp_sum ws' r') in H'. split; [|intros k]; lia.
  - apply option_map_Some in H, H'. destruct H as (l & H & _), H' as (l' & H' & _).
    apply c39_sum in H, H'. destruct H as (n & L & _), H' as (n' & L' & _). split; [|intros k]; lia.
  - apply option_map_Some in H, H'. destruct H as (l & H & _), H' as (l' & H' & _).
    apply c39_sum in H, H'. destruct H as (n & L & _), H' as (n' & L' & _). split; [|intros k]; lia.
  - apply option_map_Some in H, H'. destruct H as (l & H & _), H' as (l' & H' & _).
    apply c93_sum in H, H'. destruct H as (n & L & _), H' as (n' & L' & _). split; [|intros k]; lia.
  - apply option_map_Some in H, H'. destruct H as (l & H & _), H' as (l' & H' & _).
    apply c11_form in H, H'. destruct H as (m1 & _ & _ & L & _), H' as (m2 & _ & _ & L' & _). split; [|intros k]; lia.
  - apply option_map_Some in H, H'. destruct H as (l & H & _), H' as (l' & H' & _).
    apply cod_odd in H, H'. destruct H as (n & L & _), H' as (n' & L' & _). split; [|intros k]; lia.
  - apply option_map_Some in H, H'. destruct H as (l & H & _), H' as (l' & H' & _).
    apply c128_sum_of in H, H'. destruct H as (n & L & _), H' as (n' & L' & _). split; [|intros k]; lia.
  - apply option_map_Some in H, H'. destruct H as (l & H & _), H' as (l' & H' & _).
    apply itf_count in H, H'. destruct H as (n & L), H' as (n' & L'). split; [|intros k]; lia.
  - apply option_map_Some in H, H'. destruct H as (l & H & _), H' as (l' & H' & _).
    apply stf_count in H, H'. destruct H as (n & L), H' as (n' & L'). split; [|intros k]; lia.
Qed.

(** ** 2 of 5: as many wide elements in every symbol of a length *)
Lemma asum_const k s c (bs : list (list nat)) : Nat.even k = true -> Forall (fun b => length b = k /\ asum c b = s) bs -> asum c (concat bs) = s * length bs.
Proof.
  intros Hk. induction 1 as [|b bs [HL HS] HF IH]; [cbn; lia|]. cbn [concat length]. rewrite asum_app, HL, Hk, HS, IH. lia.
Qed.
Lemma squash_app a b : squash (a ++ b) = squash a ++ squash b. Proof. apply map_app. Qed.
Lemma squash_concat bs : squash (concat bs) = concat (map squash bs). Proof. apply concat_map. Qed.
Lemma squash_len a : length (squash a) = length a. Proof. apply map_length. Qed.
Lemma tf_sum b : In b tf_table -> list_sum b = 7.
Proof. intros H. vm_compute in H. repeat destruct H as [<-|H]; try contradiction; reflexivity. Qed.
Lemma unweave_asum b x y : length b = 10 -> unweave b = (x, y) -> asum true (squash b) = list_sum (squash x) /\ asum false (squash b) = list_sum (squash y).
Proof.
  intros H E. apply ten in H. destruct H as (a0 & a1 & a2 & a3 & a4 & a5 & a6 & a7 & a8 & a9 & ->). cbn [unweave] in E. injection E as <- <-.
  unfold squash, list_sum. cbn [map asum negb fold_right]. split; lia.
Qed.
Lemma itf_wides ws r c : read_itf ws = Some r -> exists n, length ws = 10 * n + 7 /\ asum c (squash ws) = 7 * n + asum c [1;1;1;1] + asum c [2;1;1].
Proof.
  intros H. destruct (itf_squash _ _ H) as (bs & z & ds & -> & Hz & HF & HR). exists (length bs). split.
  - rewrite !app_length, (concat_length_const 10 bs) by assumption. apply squash_length in Hz. cbn [length] in *. lia.
  - rewrite !squash_app, squash_concat, Hz. rewrite !asum_app. rewrite (asum_const 10 7 _ (map squash bs) eq_refl).
    + rewrite map_length. rewrite (concat_length_const 10) by (apply Forall_map; revert HF; apply Forall_impl; intros b Hb; now rewrite squash_len).
      rewrite map_length. replace (Nat.even (10 * length bs)) with true by (rewrite Nat.even_mul; reflexivity). change (Nat.even (length (squash [1;1;1;1]))) with true. cbn iota.
      change (squash [1;1;1;1]) with [1;1;1;1]. lia.
    + apply Forall_map. assert (HD : Forall (fun b => exists ds, itf_block b = Some ds) bs) by (apply (read_all_Forall _ _ _ _ (fun b d E => ex_intro _ d E) HR)).
      rewrite Forall_forall in HD, HF |- *. intros b Hb. split; [rewrite squash_len; now apply HF|]. destruct (HD b Hb) as (d0 & Hd).
      destruct (itf_block_digits _ _ Hd) as (x & y & d & e & EU & D1 & D2). destruct (unweave_asum b x y (HF b Hb) EU) as [A1 A2].
      apply tf_digit_table, tf_sum in D1, D2. change (Nat.even (length (squash [1;1;1;1]))) with true. cbn iota. destruct c; lia.
Qed.
Lemma stf_wides ws r c : read_stf ws = Some r -> exists n, length ws = 10 * n + 11 /\ asum c (squash ws) = (if c then 7 else 5) * n + asum c [2;1;2;1;1;1] + asum c [2;1;1;1;2].
Proof.
  intros H. destruct (stf_form _ _ H) as (a & bs & z & -> & Ha & Hz & HF & HR). exists (length bs). split.
  - rewrite !app_length, (concat_length_const 10 bs) by assumption. apply squash_length in Hz, Ha. cbn [length] in *. lia.
  - rewrite !squash_app, squash_concat, Hz, Ha. rewrite !asum_app. change (Nat.even (length [2;1;2;1;1;1])) with true. cbn iota.
    rewrite (asum_const 10 (if c then 7 else 5) c (map squash bs) eq_refl).
    + rewrite map_length. rewrite (concat_length_const 10) by (apply Forall_map; revert HF; apply Forall_impl; intros b Hb; now rewrite squash_len).
      rewrite map_length. replace (Nat.even (10 * length bs)) with true by (rewrite Nat.even_mul; reflexivity). lia.
    + apply Forall_map. assert (HD : Forall (fun b => exists ds, stf_block b = Some ds) bs) by (apply (read_all_Forall _ _ _ _ (fun b d E => ex_intro _ d E) HR)).
      rewrite Forall_forall in HD, HF |- *. intros b Hb. split; [rewrite squash_len; now apply HF|]. destruct (HD b Hb) as (d0 & Hd).
      destruct (stf_block_digits _ _ Hd) as (x & EU & D1). destruct (unweave_asum b x _ (HF b Hb) EU) as [A1 A2].
      apply tf_digit_table, tf_sum in D1. destruct c; [lia | exact A2].
Qed.

(** ** One element widened *)
Lemma gives_length g A A' : gives g A A' -> length A = length A'.
Proof. intros [[-> ->]|(A0 & f & _ & -> & ->)]; [reflexivity | now rewrite !app_length]. Qed.
Lemma yields_length h B B' : yields h B B' -> length B = length B'.
Proof. intros [[-> ->]|(v & B0 & _ & -> & ->)]; reflexivity. Qed.
Lemma ham_one (a b : nat) : ham [a] [b] <= 1.
Proof. cbn. destruct (Nat.eqb a b); lia. Qed.
Lemma ham_cons a u b u' : ham (a :: u) (b :: u') <= 1 + ham u u'.
Proof. cbn [ham]. destruct (Nat.eqb a b); lia. Qed.
Lemma gives_ham g A A' : gives g A A' -> ham A A' <= 1.
Proof. intros [[-> ->]|(A0 & f & _ & -> & ->)]; [cbn; lia|]. rewrite ham_app by reflexivity. rewrite ham_same. pose proof (ham_one (f + g) f). lia. Qed.
Lemma yields_ham h B B' : yields h B B' -> ham B B' <= 1.
Proof. intros [[-> ->]|(v & B0 & _ & -> & ->)]; [cbn; lia|]. pose proof (ham_cons (h + v) B0 v B0). rewrite ham_same in *. lia. Qed.
Lemma widened_length ws ws' : widened ws ws' -> length ws = length ws'.
Proof.
  intros (A & b & B & g & h & A' & B' & _ & -> & -> & HA & HB). apply gives_length in HA. apply yields_length in HB. rewrite !app_length. cbn [length]. lia.
Qed.
Lemma widened_ham ws ws' : widened ws ws' -> ham ws ws' <= 3.
Proof.
  intros (A & b & B & g & h & A' & B' & _ & -> & -> & HA & HB). rewrite ham_app by (now apply gives_length in HA).
  apply gives_ham in HA. apply yields_ham in HB. pose proof (ham_cons b B (g + b + h) B'). lia.
Qed.
Lemma gives_zero A A' : gives 0 A A' -> A = A'.
Proof. intros [[-> ->]|(A0 & f & _ & -> & ->)]; [reflexivity | now rewrite Nat.add_0_r]. Qed.
Lemma yields_zero B B' : yields 0 B B' -> B = B'.
Proof. intros [[-> ->]|(v & B0 & _ & -> & ->)]; reflexivity. Qed.
(** Two widths only: an edge has moved by one *)
Lemma widened_two ws ws' : widened ws ws' -> Forall (fun w => w <= 2) ws' -> ws = ws' \/ damage ws ws'.
Proof.
  intros (A & b & B & g & h & A' & B' & Hb & -> & -> & HA & HB) HF. apply Forall_app in HF. destruct HF as [_ HF]. apply Forall_inv in HF.
  destruct g as [|[|g]]; [|assert (h = 0) by lia; subst h|lia].
  - destruct h as [|[|h]]; [| |lia].
    + left. apply gives_zero in HA. apply yields_zero in HB. subst. now rewrite Nat.add_0_r.
    + apply gives_zero in HA. subst A'. right. right. right. destruct HB as [[-> ->]|(v & B0 & Hv & -> & ->)].
      * right. right. exists A, b, (0 + b + 1). repeat split. lia.
      * left. apply shift_app; lia.
  - apply yields_zero in HB. subst B'. right. right. right. destruct HA as [[-> ->]|(A0 & f & Hf & -> & ->)].
    + right. left. exists b, (1 + b + 0), B. repeat split. lia.
    + left. rewrite <- !app_assoc. cbn [app]. apply shift_app; lia.
Qed.
(** Widths up to three: one bar and one space at most, or a new wide element between two others *)
Lemma aham_le u : forall u' b, aham b u u' <= ham u u'.
Proof. induction u as [|x u IH]; intros [|x' u'] b; try (cbn; lia). cbn [aham ham]. specialize (IH u' (negb b)). destruct b, (Nat.eqb x x'); lia. Qed.
Lemma aham_two u a a' b b' v : forall c, aham c (u ++ a :: b :: v) (u ++ a' :: b' :: v) <= 1.
Proof.
  intros c. rewrite aham_app, aham_same by reflexivity. cbn [aham]. rewrite aham_same.
  destruct (if Nat.even (length u) then c else negb c); cbn [negb]; destruct (Nat.eqb a a'), (Nat.eqb b b'); lia.
Qed.
Lemma widened_three ws ws' : widened ws ws' -> Forall (fun w => w <= 3) ws' -> (forall c, aham c ws ws' <= 1) \/
  exists A0 f v B0, 1 <= f /\ 1 <= v /\ ws = A0 ++ (f + 1) :: 1 :: (v + 1) :: B0 /\ ws' = A0 ++ f :: 3 :: v :: B0.
Proof.
  intros (A & b & B & g & h & A' & B' & Hb & -> & -> & HA & HB) HF. apply Forall_app in HF. destruct HF as [_ HF]. apply Forall_inv in HF.
  destruct (Nat.eq_dec g 0) as [->|Hg].
  { left. apply gives_zero in HA. subst A'. intros c. destruct HB as [[-> ->]|(v & B0 & Hv & -> & ->)].
    - eapply Nat.le_trans; [apply aham_le|]. rewrite ham_app, ham_same by reflexivity. apply ham_one.
    - apply aham_two. }
  destruct (Nat.eq_dec h 0) as [->|Hh].
  { left. apply yields_zero in HB. subst B'. intros c. destruct HA as [[-> ->]|(A0 & f & Hf & -> & ->)].
    - eapply Nat.le_trans; [apply aham_le|]. pose proof (ham_cons b B (g + b + 0) B). rewrite ham_same in *. cbn [app]. lia.
    - rewrite <- !app_assoc. cbn [app]. apply aham_two. }
  assert (g = 1 /\ b = 1 /\ h = 1) as (-> & -> & ->) by lia.
  destruct HA as [[-> ->]|(A0 & f & Hf & -> & ->)].
  { left. intros c. destruct HB as [[-> ->]|(v & B0 & Hv & -> & ->)]; [cbn; destruct c; lia|]. apply (aham_two []). }
  destruct HB as [[-> ->]|(v & B0 & Hv & -> & ->)].
  { left. intros c. rewrite <- !app_assoc. cbn [app]. apply aham_two. }
  right. exists A0, f, v, B0. rewrite <- !app_assoc. rewrite (Nat.add_comm v 1). auto.
Qed.
Lemma wide_between A0 f v B0 : let c := if Nat.even (length A0) then false else true in
  asum c (squash (A0 ++ f :: 3 :: v :: B0)) = S (asum c (squash (A0 ++ (f + 1) :: 1 :: (v + 1) :: B0))).
Proof.
  intros c. rewrite !squash_app, !asum_app, squash_len. unfold squash at 2 4. cbn [map].
  assert (E : (if Nat.even (length A0) then c else negb c) = false) by (unfold c; destruct (Nat.even (length A0)); reflexivity).
  rewrite !E. cbn [asum negb]. lia.
Qed.

(** ** Readers and blots *)
Lemma blurred_read y ws ws' r r' : blurred ws ws' -> Nat.even (length ws) = false -> read_as y ws = Some r -> read_as y ws' = Some r' ->
  (y = SSupp -> exists l, r = Digits l /\ length l = 5) -> (y = SCode128 -> length ws <= 631) -> ws = ws' \/ (tolerant y = true /\ r' = r).
Proof.
  intros HB HO H H' H5 H128. pose proof (bound y ws' r' H') as HF. destruct (counts y ws ws' r r' H H') as [C1 C2].
  destruct HB as [HB|[(k & e & Hk & HL & He & Hw)|HB]]; [contradiction | |].
  - exfalso. specialize (C2 k Hk HL). rewrite Forall_forall in HF. specialize (HF e He). assert (top y <= 4) by (destruct y; cbn [top]; lia). lia.
  - destruct (one_width y) eqn:HY.
    { left. apply (one_width_read y ws ws' r r'); try assumption; [now apply widened_length | now apply widened_ham]. }
    destruct (Nat.eq_dec (top y) 2) as [E2|E2].
    { rewrite E2 in HF. destruct (widened_two ws ws' HB HF) as [E|HD]; [now left|]. exfalso.
      destruct (read_damage y ws ws' r HD HO H H5) as [X|[X _]]; [congruence|]. destruct y; discriminate. }
    assert (E3 : top y = 3 /\ tolerant y = true) by (destruct y; try discriminate; auto; cbn [top] in E2; lia). destruct E3 as [E3 ET].
    rewrite E3 in HF. right. split; [assumption|]. pose proof (widened_length _ _ HB) as HL. destruct (widened_three ws ws' HB HF) as [HA|(A0 & f & v & B0 & Hf & Hv & E & E')].
    + destruct y; try discriminate; cbn [read_as] in *; apply option_map_Some in H, H'; destruct H as (l & H & ->), H' as (l' & H' & ->); f_equal; symmetry.
      * exact (itf_close ws ws' l l' HL HA H H').
      * exact (stf_close ws ws' l l' HL HA H H').
    + exfalso. pose proof (wide_between A0 f v B0) as HW. cbv zeta in HW. rewrite <- E, <- E' in HW. revert HW. generalize (if Nat.even (length A0) then false else true). intros c HW.
      destruct y; try discriminate; cbn [read_as] in *; apply option_map_Some in H, H'; destruct H as (l & H & _), H' as (l' & H' & _).
      * destruct (itf_wides ws l c H) as (n & L & S1). destruct (itf_wides ws' l' c H') as (n' & L' & S1'). assert (n = n') by lia. subst n'. lia.
      * destruct (stf_wides ws l c H) as (n & L & S1). destruct (stf_wides ws' l' c H') as (n' & L' & S1'). assert (n = n') by lia. subst n'. lia.
Qed.

(** ** From pictures to readings *)
Lemma blot_elements x a b c ws ws' : bit x -> (x = 1%N \/ In 1%N a /\ In 1%N c) -> b <> [] ->
  scan (a ++ b ++ c) = Some ws -> scan (a ++ repeat x (length b) ++ c) = Some ws' -> blurred ws ws'.
Proof.
  intros Hx HC Hb HS HS'. pose proof (bits_of _ _ HS) as BB. apply Forall_app in BB. destruct BB as [Ba BB]. apply Forall_app in BB. destruct BB as [Bb Bc].
  assert (G : forall a c ws ws', Forall bit a -> Forall bit c -> In (1 - x)%N a -> In (1 - x)%N c -> scan (a ++ b ++ c) = Some ws -> scan (a ++ repeat x (length b) ++ c) = Some ws' -> blurred ws ws').
  { clear - Hx Hb Bb. intros a c ws ws' Ba Bc Ia Ic HS HS'. destruct (blot_runs x a b c Hx Ba Bb Bc Hb Ia Ic) as (d & L & L' & n & Hd & HL & HL' & E & E' & HI & Hn).
    rewrite E in HS. rewrite E' in HS'. destruct (scan_core d L ws Hd HL HS) as [W N1]. destruct (scan_core d L' ws' Hd HL' HS') as [W' N2].
    exact (inked_blurred x d L L' n ws ws' Hx Hd HI Hn W W' N1 N2). }
  destruct Hx as [->| ->].
  - destruct HC as [HC|[Ia Ic]]; [discriminate|]. exact (G a c ws ws' Ba Bc Ia Ic HS HS').
  - apply (G (0%N :: a) (c ++ [0%N]) ws ws').
    + constructor; [now left | assumption].
    + apply Forall_app. split; [assumption|]. constructor; [now left | constructor].
    + now left.
    + apply in_or_app. right. now left.
    + cbn [app]. rewrite scan_lead. rewrite !app_assoc. change [0%N] with (repeat 0%N 1). rewrite scan_quiet, <- app_assoc. exact HS.
    + cbn [app]. rewrite scan_lead. rewrite !app_assoc. change [0%N] with (repeat 0%N 1). rewrite scan_quiet, <- app_assoc. exact HS'.
Qed.
(** The amount of ink *)
Definition darks (p : list N) : nat := count_occ N.eq_dec p 1%N.
Lemma darks_app a b : darks (a ++ b) = darks a + darks b. Proof. apply count_occ_app. Qed.
Lemma darks_light n : darks (repeat 0%N n) = 0. Proof. unfold darks. now induction n. Qed.
Lemma darks_dark n : darks (repeat 1%N n) = n. Proof. unfold darks. induction n; cbn [repeat count_occ]; [reflexivity|]. destruct (N.eq_dec 1 1); congruence. Qed.
Lemma darks_render ws : darks (render ws) = asum true ws /\ darks (render_from 0 ws) = asum false ws.
Proof.
  induction ws as [|w ws [IH1 IH2]]; [split; reflexivity|]. unfold render in *. cbn [render_from asum negb]. rewrite !darks_app, darks_light, darks_dark.
  change (1 - 1)%N with 0%N. change (1 - 0)%N with 1%N. rewrite IH1, IH2. split; reflexivity.
Qed.
Lemma darks_scan p ws : scan p = Some ws -> darks p = asum true ws.
Proof. intros H. destruct (scan_form p ws H) as (j & k & ->). rewrite !darks_app, !darks_light. rewrite (proj1 (darks_render ws)). lia. Qed.
Lemma darks_full b : Forall bit b -> darks b = length b -> b = repeat 1%N (length b).
Proof.
  induction 1 as [|z b Hz HF IH]; [reflexivity|]. intros E. cbn [length repeat]. unfold darks in *. cbn [count_occ length] in E. pose proof (count_occ_bound N.eq_dec 1%N b).
  destruct (N.eq_dec z 1) as [->|]; [|lia]. f_equal. apply IH. lia.
Qed.
Lemma darks_none b : Forall bit b -> darks b = 0 -> b = repeat 0%N (length b).
Proof.
  induction 1 as [|z b Hz HF IH]; [reflexivity|]. intros E. cbn [length repeat]. unfold darks in *. cbn [count_occ] in E.
  destruct (N.eq_dec z 1) as [->|]; [lia|]. destruct Hz as [->| ->]; [|congruence]. f_equal. now apply IH.
Qed.
Lemma same_ink x a b c ws : bit x -> scan (a ++ b ++ c) = Some ws -> scan (a ++ repeat x (length b) ++ c) = Some ws -> a ++ repeat x (length b) ++ c = a ++ b ++ c.
Proof.
  intros Hx H H'. pose proof (bits_of _ _ H) as BB. apply Forall_app in BB. destruct BB as [_ BB]. apply Forall_app in BB. destruct BB as [Bb _].
  apply darks_scan in H, H'. rewrite <- H in H'. rewrite !darks_app in H'. do 2 f_equal. destruct Hx as [->| ->].
  - rewrite darks_light in H'. symmetry. apply darks_none; [assumption | lia].
  - rewrite darks_dark in H'. symmetry. apply darks_full; [assumption | lia].
Qed.
Lemma scan_paper m i j : scan (repeat 0%N i ++ m ++ repeat 0%N j) = scan m.
Proof. rewrite scan_leads. apply scan_quiet. Qed.
Lemma c128_size p s m ws : (len s <= 103)%N -> barcode SCode128 p s = Ret (Ok m) -> scan m = Some ws -> length ws <= 631.
Proof.
  intros HL H HS. cbn [barcode] in H. apply run_Ok in H. destruct H as (b & HB & HE). injection HB as HB.
  destruct (code128_accepted s b HB) as (segs & Hok & -> & HX & _). unfold len in HL. pose proof (message_values_length segs) as ML.
  rewrite (HX ltac:(unfold len; lia) p) in HE. injection HE as <-. unfold c128_symbol in HS.
  assert (HV : Forall (fun v => (v < 106)%N) (message_values segs ++ [c128_check (message_values segs)])).
  { apply Forall_app. split; [now apply message_values_lt|]. constructor; [apply check_lt | constructor]. }
  rewrite symbol_with_scan in HS by assumption. injection HS as <-. unfold symbol_with.
  rewrite app_length, (concat_length_const 6) by (apply Forall_map; revert HV; apply Forall_impl; intros v Hv; now destruct (c128_row v Hv)).
  rewrite map_length, app_length. cbn [length]. change (length c128_stop) with 7. lia.
Qed.
Lemma blot_read y p s m q q' x r : (str_len s < 2 ^ 48)%N -> barcode y p s = Ret (Ok m) -> read_modules y m = Some r ->
  (y = SSupp -> length s = 5) -> (y = SCode128 -> (len s <= 103)%N) -> on_paper m q -> bit x ->
  (exists a b c, q = a ++ b ++ c /\ q' = a ++ repeat x (length b) ++ c /\ (x = 1%N \/ In 1%N a /\ In 1%N c)) ->
  read_modules y q' = None \/ (read_modules y q' = Some r /\ (tolerant y = false -> q' = q)).
Proof.
  intros Hs H HR H5 H128 (i & j & Eq) Hx (a & b & c & E & -> & HC).
  destruct (read_modules y (a ++ repeat x (length b) ++ c)) as [r'|] eqn:HR'; [right | now left].
  destruct b as [|z b].
  { cbn [repeat length app] in *. rewrite <- E, Eq in HR'. unfold read_modules in HR', HR. rewrite scan_paper, HR in HR'. split; [congruence|]. intros _. now rewrite E. }
  remember (z :: b) as b0. assert (Hb : b0 <> []) by (subst b0; discriminate). clear Heqb0 z b.
  unfold read_modules in HR, HR'. apply obind_Some in HR, HR'. destruct HR as (ws & HS & HR). destruct HR' as (ws' & HS' & HR').
  assert (HQ : scan (a ++ b0 ++ c) = Some ws) by (rewrite <- E, Eq, scan_paper; exact HS).
  pose proof (blot_elements x a b0 c ws ws' Hx HC Hb HQ HS') as HB. pose proof (scan_odd m ws HS) as HO.
  destruct (blurred_read y ws ws' r r' HB HO HR HR') as [EW|[HT Er]].
  - intros ->. specialize (H5 eq_refl). pose proof (barcode_meant SSupp p s m Hs H) as HM. cbn [meant] in HM. unfold read_modules in HM. rewrite HS in HM. cbn [obind] in HM.
    rewrite HR in HM. injection HM as ->. eexists. split; [reflexivity|]. unfold digits_of. now rewrite map_length.
  - intros ->. exact (c128_size p s m ws (H128 eq_refl) H HS).
  - subst ws'. split; [congruence|]. intros _. rewrite E. now apply (same_ink x a b0 c ws).
  - split; [congruence|]. intros X. congruence.
Qed.
Lemma In_dec1 (l : list N) : In 1%N l \/ ~ In 1%N l.
Proof. destruct (in_dec N.eq_dec 1%N l); auto. Qed.
Lemma none_light l : Forall bit l -> ~ In 1%N l -> l = repeat 0%N (length l).
Proof. intros H HN. apply darks_none; [assumption|]. unfold darks. now apply count_occ_not_In. Qed.
Lemma prefix_paper i (m R a T : list N) : repeat 0%N i ++ m ++ R = a ++ T -> In 1%N a -> exists m1, a = repeat 0%N i ++ m1 /\ m ++ R = m1 ++ T.
Proof.
  revert a. induction i as [|i IH]; intros a E I1; [exists a; auto|]. cbn [repeat app] in E. destruct a as [|z a]; [contradiction|]. cbn [app] in E. injection E as <- E.
  destruct I1 as [X|I1]; [discriminate|]. destruct (IH a E I1) as (m1 & -> & E1). exists m1. auto.
Qed.
Lemma repeat_rev (z : N) n : rev (repeat z n) = repeat z n.
Proof. induction n; [reflexivity|]. cbn [repeat rev]. rewrite IHn. apply repeat_snoc. Qed.
(** A scratch that leaves nothing dark on its right cuts the symbol. *)
Lemma scratch_right m i j a b c : Forall bit (a ++ b ++ c) -> repeat 0%N i ++ m ++ repeat 0%N j = a ++ b ++ c -> In 1%N a -> In 1%N b -> ~ In 1%N c ->
  exists m1, cut_right m m1 /\ scan (a ++ repeat 0%N (length b) ++ c) = scan m1.
Proof.
  intros HB E Ia Ib Nc. destruct (prefix_paper i m (repeat 0%N j) a (b ++ c) E Ia) as (m1 & -> & E1). apply Forall_app in HB. destruct HB as [_ HB]. apply Forall_app in HB. destruct HB as [_ Bc].
  exists m1. split.
  - (* the rest of the symbol *)
    apply (f_equal (@rev N)) in E1. rewrite !rev_app_distr, repeat_rev in E1. rewrite <- app_assoc in E1.
    assert (I2 : In 1%N (rev c ++ rev b)) by (apply in_or_app; right; now apply -> in_rev).
    rewrite app_assoc in E1. rewrite <- (app_nil_r (rev m)) in E1.
    destruct (prefix_paper j (rev m) [] (rev c ++ rev b) (rev m1) E1 I2) as (m2 & E2 & E3). rewrite app_nil_r in E3.
    exists (rev m2). split.
    + apply (f_equal (@rev N)) in E3. rewrite rev_app_distr, !rev_involutive in E3. exact E3.
    + apply -> in_rev. rewrite E2 in I2. apply in_app_or in I2. destruct I2 as [I2|I2]; [apply repeat_spec in I2; discriminate | assumption].
  - rewrite (none_light c Bc Nc), <- repeat_app, scan_quiet, scan_leads. reflexivity.
Qed.
Lemma scratch_left m i j a b c : Forall bit (a ++ b ++ c) -> repeat 0%N i ++ m ++ repeat 0%N j = a ++ b ++ c -> ~ In 1%N a -> In 1%N b -> In 1%N c ->
  exists m1, cut_left m m1 /\ scan (a ++ repeat 0%N (length b) ++ c) = scan m1.
Proof.
  intros HB E Na Ib Ic. apply Forall_app in HB. destruct HB as [Ba _]. rewrite <- (app_nil_r (repeat 0%N j)) in E.
  assert (E0 : repeat 0%N j ++ rev m ++ repeat 0%N i = rev c ++ rev (a ++ b)).
  { apply (f_equal (@rev N)) in E. rewrite app_nil_r in E. rewrite !rev_app_distr, !repeat_rev in E. rewrite rev_app_distr. rewrite <- !app_assoc in E. exact E. }
  destruct (prefix_paper j (rev m) (repeat 0%N i) (rev c) (rev (a ++ b)) E0 ltac:(now apply -> in_rev)) as (m1 & E1 & E2).
  exists (rev m1). assert (Ec : c = rev m1 ++ repeat 0%N j) by (apply (f_equal (@rev N)) in E1; rewrite rev_involutive, rev_app_distr, repeat_rev in E1; exact E1).
  assert (E3 : repeat 0%N i ++ m = (a ++ b) ++ rev m1).
  { apply (f_equal (@rev N)) in E2. rewrite !rev_app_distr, !rev_involutive, repeat_rev in E2. exact E2. }
  split.
  - rewrite <- (app_nil_r m) in E3. assert (I2 : In 1%N (a ++ b)) by (apply in_or_app; now right).
    destruct (prefix_paper i m [] (a ++ b) (rev m1) E3 I2) as (m2 & E4 & E5). rewrite app_nil_r in E5. exists m2. split; [assumption|].
    rewrite E4 in I2. apply in_app_or in I2. destruct I2 as [I2|I2]; [apply repeat_spec in I2; discriminate | assumption].
  - rewrite (none_light a Ba Na), app_assoc, <- repeat_app, scan_leads, Ec, scan_quiet. reflexivity.
Qed.
Lemma scratch_read y p s m q q' r r' : (str_len s < 2 ^ 48)%N -> barcode y p s = Ret (Ok m) -> read_modules y m = Some r ->
  (y = SSupp -> length s = 5) -> (y = SCode128 -> (len s <= 103)%N) -> on_paper m q -> blotted 0 q q' ->
  read_modules y q' = Some r' -> accepts y r' -> r' = r \/ after_cut y s r'.
Proof.
  intros Hs H HR H5 H128 HP (a & b & c & E & E') HR' HA.
  destruct (In_dec1 b) as [Ib|Nb].
  2: { left. destruct HP as (i & j & Eq). unfold read_modules in HR'. 
       assert (BB : Forall bit q).
       { unfold read_modules in HR. apply obind_Some in HR. destruct HR as (ws & HS & _). apply (bits_of q ws). rewrite Eq, scan_paper. exact HS. }
       rewrite E in BB. apply Forall_app in BB. destruct BB as [_ BB]. apply Forall_app in BB. destruct BB as [Bb _].
       rewrite E', <- (none_light b Bb Nb), <- E, Eq, scan_paper in HR'. unfold read_modules in HR. congruence. }
  destruct (In_dec1 a) as [Ia|Na]; destruct (In_dec1 c) as [Ic|Nc].
  - left. destruct (blot_read y p s m q q' 0%N r Hs H HR H5 H128 HP (or_introl eq_refl)) as [X|[X _]]; [|congruence|congruence].
    exists a, b, c. auto.
  - right. destruct HP as (i & j & Eq).
    assert (BB : Forall bit (a ++ b ++ c)).
    { unfold read_modules in HR. apply obind_Some in HR. destruct HR as (ws & HS & _). apply (bits_of _ ws). rewrite <- E, Eq, scan_paper. exact HS. }
    destruct (scratch_right m i j a b c BB ltac:(congruence) Ia Ib Nc) as (m1 & HC & ES).
    apply (cut_after y p s m m1 r' Hs H (or_introl HC)); [|assumption]. unfold read_modules in *. now rewrite <- ES, <- E'.
  - right. destruct HP as (i & j & Eq).
    assert (BB : Forall bit (a ++ b ++ c)).
    { unfold read_modules in HR. apply obind_Some in HR. destruct HR as (ws & HS & _). apply (bits_of _ ws). rewrite <- E, Eq, scan_paper. exact HS. }
    destruct (scratch_left m i j a b c BB ltac:(congruence) Na Ib Ic) as (m1 & HC & ES).
    apply (cut_after y p s m m1 r' Hs H (or_intror HC)); [|assumption]. unfold read_modules in *. now rewrite <- ES, <- E'.
  - exfalso. destruct HP as (i & j & Eq).
    assert (BB : Forall bit (a ++ b ++ c)).
    { unfold read_modules in HR. apply obind_Some in HR. destruct HR as (ws & HS & _). apply (bits_of _ ws). rewrite <- E, Eq, scan_paper. exact HS. }
    apply Forall_app in BB. destruct BB as [Ba BB]. apply Forall_app in BB. destruct BB as [_ Bc].
    rewrite (none_light a Ba Na), (none_light c Bc Nc), <- !repeat_app in E'. subst q'. unfold read_modules in HR'. rewrite scan_lights in HR'. discriminate.
Qed.

(** ** Code 128 symbols of any length *)
Lemma c128_bars_of p s m ws u v w : barcode SCode128 p s = Ret (Ok m) -> scan m = Some ws -> ws = concat (map c128_pattern (u ++ v :: w)) ++ c128_stop ->
  m = c128_bars (u ++ v :: w).
Proof.
  intros H HS E. destruct (barcode128_values p s m H) as [vs [HN [HF ->]]]. unfold c128_bars in *. rewrite <- E. f_equal.
  assert (X : scan (render (concat (map c128_pattern vs) ++ c128_stop)) = Some (concat (map c128_pattern vs) ++ c128_stop)); [|congruence].
  pose proof (exists_last HN) as (l & z & ->). apply (symbol_with_scan l z). exact HF.
Qed.
Lemma blot_read_128 p s m q q' x r : barcode SCode128 p s = Ret (Ok m) -> read_modules SCode128 m = Some r -> on_paper m q -> bit x ->
  (exists a b c, q = a ++ b ++ c /\ q' = a ++ repeat x (length b) ++ c /\ (x = 1%N \/ In 1%N a /\ In 1%N c)) ->
  read_modules SCode128 q' = None \/ q' = q \/
  exists u v v' w, m = c128_bars (u ++ v :: w) /\ on_paper (c128_bars (u ++ v' :: w)) q' /\ v' <> v /\ weightless (length u) /\ w <> [].
Proof.
  intros H HR (i & j & Eq) Hx (a & b & c & E & -> & HC).
  destruct (read_modules SCode128 (a ++ repeat x (length b) ++ c)) as [r'|] eqn:HR'; [right | now left].
  destruct b as [|z b].
  { left. cbn [repeat length app] in *. now rewrite E. }
  remember (z :: b) as b0. assert (Hb : b0 <> []) by (subst b0; discriminate). clear Heqb0 z b.
  unfold read_modules in HR, HR'. apply obind_Some in HR, HR'. destruct HR as (ws & HS & HR). destruct HR' as (ws' & HS' & HR').
  assert (HQ : scan (a ++ b0 ++ c) = Some ws) by (rewrite <- E, Eq, scan_paper; exact HS).
  pose proof (blot_elements x a b0 c ws ws' Hx HC Hb HQ HS') as HB.
  assert (X : ws = ws' \/ (length ws = length ws' /\ ham ws ws' <= 3)).
  { pose proof (bound SCode128 ws' r' HR') as HF. destruct (counts SCode128 ws ws' r r' HR HR') as [C1 C2].
    destruct HB as [HB|[(k & e & Hk & HL & He & Hw)|HB]]; [contradiction | |].
    - exfalso. specialize (C2 k Hk HL). rewrite Forall_forall in HF. specialize (HF e He). cbn [top] in HF. lia.
    - right. split; [now apply widened_length | now apply widened_ham]. }
  destruct X as [X|[HL HH]]; [left; subst ws'; rewrite E; now apply (same_ink x a b0 c ws)|].
  destruct (c128_width_read ws ws' r r' HR HR' HL HH) as [X|(u & v & v' & w & E1 & E2 & HV & HW & HN & _)]; [left; subst ws'; rewrite E; now apply (same_ink x a b0 c ws)|].
  right. exists u, v, v', w. split; [now apply (c128_bars_of p s m ws)|]. split; [|auto].
  destruct (scan_form _ _ HS') as (g & h & ->). exists g, h. unfold c128_bars. now rewrite <- E2.
Qed.

(** ** Two-digit add-ons *)
Lemma same_width_supp ws ws' a b r' : read_as SSupp ws = Some (Digits [a; b]) -> read_as SSupp ws' = Some r' -> length ws = length ws' -> ham ws ws' <= 3 ->
  exists a' b', r' = Digits [a'; b'] /\ (a' = a \/ b' = b).
Proof.
  intros H H' HL HH. apply (supp_form ws (Digits [a; b])) in H. apply (supp_form ws' r') in H'. destruct H as (l & H & N & E0), H' as (l' & H' & N' & E0'). injection E0 as E0.
  destruct l as [|[p1 x1] [|[p2 x2] [|]]]; try discriminate. cbn [map snd] in E0. injection E0 as <- <-.
  destruct (addon_cells _ _ H) as (c & cs & E & HR); [discriminate|].
  destruct (addon_cells _ _ H') as (c' & cs' & E' & HR'); [intros ->; destruct N'; discriminate|].
  pose proof HR as T. pose proof HR' as T'. apply AB_tiles in T, T'. apply Forall_cons_iff in T, T'. destruct T as [[Lc Sc] T], T' as [[Lc' Sc'] T'].
  assert (SX : forall q : list (list nat), Forall (fun b => length b = 4 /\ list_sum b = 7) q -> Forall (fun b => length b = 6 /\ list_sum b = 9) (map (fun c => 1 :: 1 :: c) q)).
  { intros q Hq. apply Forall_map. revert Hq. apply Forall_impl. intros z [A B]. split; [cbn [length]; lia|].
    change (list_sum (1 :: 1 :: z)) with (1 + (1 + list_sum z)). lia. }
  pose proof (SX _ T) as S1. pose proof (SX _ T') as S1'.
  assert (LC : length cs = length cs').
  { rewrite E, E', !app_length, !(concat_length_const 6), !map_length in HL by (apply (sized 6 9); assumption). lia. }
  pose proof (read_all_length _ _ _ HR) as LR. pose proof (read_all_length _ _ _ HR') as LR'. cbn [length] in LR, LR'.
  destruct cs as [|e [|]]; try (cbn [length] in LR; lia). destruct cs' as [|e' [|]]; try (cbn [length] in LC; lia). cbn [length] in LR'.
  destruct l' as [|[p1' x1'] [|[p2' x2'] [|]]]; try (cbn [length] in LR'; lia). cbn [map snd] in E0'.
  exists x1', x2'. split; [assumption|].
  cbn [read_all] in HR, HR'. apply obind_Some in HR, HR'. destruct HR as (v1 & R1 & HR), HR' as (v1' & R1' & HR').
  apply obind_Some in HR, HR'. destruct HR as (v2 & R2 & HR), HR' as (v2' & R2' & HR').
  apply obind_Some in R2, R2'. destruct R2 as (v3 & R3 & R2), R2' as (v3' & R3' & R2'). injection R2 as <-. injection R2' as <-.
  injection HR as -> ->. injection HR' as -> ->.
  destruct (ham_tiles ([1;1;2] :: c :: map (fun c => 1 :: 1 :: c) [e]) ([1;1;2] :: c' :: map (fun c => 1 :: 1 :: c) [e'])) as [HT|HT].
  { constructor; [apply same_tile|]. constructor; [split; congruence|]. apply (tiles_same 6 9); [assumption | assumption | reflexivity]. }
  { cbn [concat]. now rewrite <- E, <- E'. }
  { left. cbn [map] in HT. assert (HC : c = c') by congruence. subst c'. congruence. }
  apply (one_block_app [[1;1;2]] [[1;1;2]]) in HT; [|reflexivity]. destruct HT as [[HT _]|[_ HT]]; [now apply one_block_neq in HT|].
  apply (one_block_app [c] [c']) in HT; [|reflexivity]. destruct HT as [[_ HC]|[HC _]].
  - right. cbn [map] in HC. assert (HX : e = e') by congruence. subst e'. congruence.
  - left. assert (HX : c = c') by congruence. subst c'. congruence.
Qed.
Lemma blot_read_2 p s m q q' x a b r' : barcode SSupp p s = Ret (Ok m) -> read_modules SSupp m = Some (Digits [a; b]) -> on_paper m q -> bit x ->
  (exists u v w, q = u ++ v ++ w /\ q' = u ++ repeat x (length v) ++ w /\ (x = 1%N \/ In 1%N u /\ In 1%N w)) -> read_modules SSupp q' = Some r' ->
  exists a' b', r' = Digits [a'; b'] /\ (a' = a \/ b' = b).
Proof.
  intros H HR (i & j & Eq) Hx (u & v & w & E & -> & HC) HR'.
  destruct v as [|z v].
  { cbn [repeat length app] in *. rewrite <- E, Eq in HR'. unfold read_modules in HR', HR. rewrite scan_paper, HR in HR'. injection HR' as <-. eauto. }
  remember (z :: v) as b0. assert (Hb : b0 <> []) by (subst b0; discriminate). clear Heqb0 z v.
  unfold read_modules in HR, HR'. apply obind_Some in HR, HR'. destruct HR as (ws & HS & HR). destruct HR' as (ws' & HS' & HR').
  assert (HQ : scan (u ++ b0 ++ w) = Some ws) by (rewrite <- E, Eq, scan_paper; exact HS).
  pose proof (blot_elements x u b0 w ws ws' Hx HC Hb HQ HS') as HB.
  pose proof (bound SSupp ws' r' HR') as HF. destruct (counts SSupp ws ws' _ r' HR HR') as [C1 C2].
  destruct HB as [HB|[(k & e & Hk & HL & He & Hw)|HB]]; [contradiction | |].
  - exfalso. specialize (C2 k Hk HL). rewrite Forall_forall in HF. specialize (HF e He). cbn [top] in HF. lia.
  - apply (same_width_supp ws ws'); try assumption; [now apply widened_length | now apply widened_ham].
Qed.
