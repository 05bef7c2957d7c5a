(** * Where each character is printed *)
From Verif Require Import Rust M_Error M_Helpers M_Parse M_Code39 M_Code93 M_Code11 M_Codabar M_Code128 Symbology M_Use S_Barcode S_Ean S_Text S_Linear S_Codabar S_Tf S_Code128 S_All S_Size S_Place
  P_Rust P_Barcode P_Parse P_Alphabet P_Gap P_Gs1 P_Ean P_Retail P_Retail3 P_Supp P_Code39 P_Code93 P_Code11 P_Codabar P_Tf P_Code128 P_Code128b P_All P_Width P_Pattern.
Local Open Scope nat_scope.

Lemma concat_at {A} (L : list (list A)) : forall i b, nth_error L i = Some b -> concat L = concat (firstn i L) ++ b ++ concat (skipn (S i) L).
Proof.
  induction L as [|x L IH]; intros [|i] b H; try discriminate; cbn [nth_error] in H.
  - injection H as ->. reflexivity.
  - cbn [concat firstn skipn]. rewrite (IH i b H) at 1. now rewrite <- app_assoc.
Qed.
(** ** Symbols made of tiles: [t i] printed after the tiles of [firstn i t] *)
Section Tiles.
  Context {A : Type} (f : A -> list nat) (k : nat).
  Lemma tile_at t i c : nth_error t i = Some c -> concat (map f t) = concat (map f (firstn i t)) ++ f c ++ concat (map f (skipn (S i) t)).
  Proof.
    intros H. rewrite <- firstn_map, <- skipn_map. apply concat_at. now apply map_nth_error.
  Qed.
  Lemma tile_sum w t : Forall (fun c => list_sum (f c) = w) t -> list_sum (concat (map f t)) = w * length t.
  Proof.
    induction 1 as [|c t Hc H IH]; cbn [map concat length]; [cbn; lia|]. rewrite list_sum_app, Hc, IH. lia.
  Qed.
  Lemma tile_length t : Forall (fun c => length (f c) = k) t -> length (concat (map f t)) = k * length t.
  Proof.
    induction 1 as [|c t Hc H IH]; cbn [map concat length]; [lia|]. rewrite app_length, Hc, IH. lia.
  Qed.
End Tiles.
Lemma at_length {A} (t : list A) i c : nth_error t i = Some c -> length (firstn i t) = i.
Proof. intros H. apply firstn_length_le. assert (i < length t) by (apply nth_error_Some; congruence). lia. Qed.
Lemma Forall_firstn' {A} (P : A -> Prop) t i : Forall P t -> Forall P (firstn i t).
Proof. intros H. rewrite <- (firstn_skipn i t) in H. apply Forall_app in H. tauto. Qed.
Lemma Forall_skipn' {A} (P : A -> Prop) t i : Forall P t -> Forall P (skipn i t).
Proof. intros H. rewrite <- (firstn_skipn i t) in H. apply Forall_app in H. tauto. Qed.

(** Elements [L] first, then the picture *)
Definition after (m : list N) (L : list nat) (l : list N) : Prop := exists b, m = render L ++ l ++ b.
Lemma after_printed m L l : after m L l -> printed m (list_sum L) l.
Proof. intros [b ->]. exists (render L), b. split; [reflexivity|]. apply render_from_length. Qed.
Lemma after_even L P R q : Nat.even (length L) = true -> after (render (L ++ P ++ R) ++ q) L (render P).
Proof.
  intros H. unfold after, render. rewrite render_from_app_even, render_from_app by auto. rewrite <- !app_assoc. eexists. reflexivity.
Qed.
Lemma after_odd L P R q : Nat.even (length L) = false -> after (render (L ++ P ++ R) ++ q) L (render_from 0 P).
Proof.
  intros H. unfold after, render. rewrite render_from_app_odd by auto. change (1 - 1)%N with 0%N. rewrite render_from_app by auto. rewrite <- !app_assoc. eexists. reflexivity.
Qed.

(** ** The elements before each character *)
Definition guards (n : nat) (sets : list parity) (t : list N) (i : nat) : list nat :=
  normal_guard ++ (if Nat.ltb i n then draw_left sets (firstn i t) else draw_left sets (firstn n t) ++ centre_guard ++ draw_right (firstn (i - n) (skipn n t))).
Definition lead (y : symbology) (t : list N) (i : nat) : list nat :=
  match y with
  | SEan13 => guards 6 (nth (N.to_nat (hd 0%N t)) ean13_parities []) (tl t) (i - 1)
  | SUpca => guards 6 [PA;PA;PA;PA;PA;PA] t i
  | SEan8 => guards 4 [PA;PA;PA;PA] t i
  | SSupp => addon_guard ++ concat (map (fun x => widths (set_table (fst x)) (snd x) ++ addon_separator) (firstn i (combine (addon_sets t) t)))
  | SCode39 | SCode39Checked => (c39_star ++ [1]) ++ concat (map (fun c => c39_pattern c ++ [1]) (firstn i t))
  | SCode93 => c93_star ++ concat (map c93_pattern (firstn i t))
  | SCode11 => (c11_guard ++ [1]) ++ concat (map (fun c => c11_pattern c ++ [1]) (firstn i t))
  | SCodabar => concat (map (fun c => lib_pattern c ++ [1]) (firstn i t))
  | SCode128 => concat (map c128_pattern (firstn i t))
  | SItf => [1;1;1;1] ++ concat (map (itf_pair 3) (pairs (firstn (2 * Nat.div i 2) t)))
  | SStf => stf_bars [2;2;1] ++ concat (map (fun d => stf_bars (stretch 3 (tf_digit d))) (firstn i t))
  end.

(** *** Retail *)
Lemma draw_left_at sets t i c p : nth_error t i = Some c -> nth_error sets i = Some p -> 
  draw_left sets t = draw_left sets (firstn i t) ++ widths (set_table p) c ++ draw_left (skipn (S i) sets) (skipn (S i) t).
Proof.
  revert t i. induction sets as [|q sets IH]; intros [|d t] [|i] H1 H2; try discriminate; cbn [nth_error] in *.
  - injection H1 as ->. injection H2 as ->. reflexivity.
  - unfold draw_left in *. cbn [combine map concat firstn skipn fst snd]. rewrite (IH t i H1 H2) at 1. now rewrite <- app_assoc.
Qed.
Lemma draw_left_sum sets t : Forall is_digit t -> length t <= length sets -> list_sum (draw_left sets t) = 7 * length t /\ length (draw_left sets t) = 4 * length t.
Proof.
  revert t. induction sets as [|q sets IH]; intros [|d t] H HL; cbn [length] in *; try lia; try (split; reflexivity).
  apply Forall_cons_iff in H. destruct H as [Hd H]. destruct (IH t H) as [E1 E2]; [lia|]. unfold draw_left in *. cbn [combine map concat fst snd].
  rewrite list_sum_app, app_length, E1, E2, left_sum by assumption. rewrite left_length by assumption. lia.
Qed.

Lemma draw_right_at t i c : nth_error t i = Some c -> draw_right t = draw_right (firstn i t) ++ widths setC_table c ++ draw_right (skipn (S i) t).
Proof. apply (tile_at (widths setC_table)). Qed.
Lemma draw_right_size t : Forall is_digit t -> list_sum (draw_right t) = 7 * length t /\ length (draw_right t) = 4 * length t.
Proof.
  intros H. split; [now apply draw_right_sum|]. apply tile_length. revert H. apply Forall_impl. exact right_length.
Qed.
Definition halves_symbol (n : nat) (sets : list parity) (t : list N) : list nat :=
  normal_guard ++ draw_left sets (firstn n t) ++ centre_guard ++ draw_right (skipn n t) ++ normal_guard.
Lemma even_4 k n : Nat.even (4 * n + k) = Nat.even k.
Proof. rewrite Nat.even_add, Nat.even_mul. cbn [Nat.even orb]. now destruct (Nat.even k). Qed.
Lemma nth_error_firstn {A} (t : list A) n i : i < n -> nth_error (firstn n t) i = nth_error t i.
Proof. revert n i. induction t as [|x t IH]; intros [|n] [|i] H; try reflexivity; try lia. cbn [firstn nth_error]. apply IH. lia. Qed.
Lemma nth_error_skipn {A} (t : list A) n i : nth_error (skipn n t) i = nth_error t (n + i).
Proof. revert n. induction t as [|x t IH]; intros [|n]; try reflexivity; [now destruct i | apply IH]. Qed.
Lemma halves_at n sets t i c : Forall is_digit t -> length sets = n -> n <= length t -> nth_error t i = Some c ->
  after (render (halves_symbol n sets t)) (guards n sets t i)
    (if Nat.ltb i n then render_from 0 (widths (set_table (nth i sets PA)) c) else render (widths setC_table c)) /\
  list_sum (guards n sets t i) = if Nat.ltb i n then 7 * i + 3 else 7 * i + 8.
Proof.
  intros HD HS HL H. assert (HI : i < length t) by (apply nth_error_Some; congruence).
  rewrite <- (app_nil_r (render _)). unfold guards, halves_symbol. destruct (Nat.ltb i n) eqn:E.
  - apply Nat.ltb_lt in E. destruct (nth_error sets i) as [p|] eqn:EP; [|apply nth_error_None in EP; lia].
    rewrite (nth_error_nth _ _ PA EP).
    assert (H' : nth_error (firstn n t) i = Some c) by (rewrite nth_error_firstn; assumption).
    rewrite (draw_left_at sets (firstn n t) i c p H' EP), firstn_firstn, Nat.min_l by lia.
    destruct (draw_left_sum sets (firstn i t)) as [E1 E2]; [now apply Forall_firstn' | rewrite firstn_length; lia|].
    rewrite firstn_length_le in E1, E2 by lia. split.
    + rewrite <- !app_assoc, app_assoc. apply after_odd. rewrite app_length, E2. cbn [normal_guard length]. now rewrite Nat.add_comm, even_4.
    + rewrite list_sum_app, E1. cbn. lia.
  - apply Nat.ltb_ge in E.
    assert (H' : nth_error (skipn n t) (i - n) = Some c) by (rewrite nth_error_skipn; now replace (n + (i - n)) with i by lia).
    rewrite (draw_right_at _ _ _ H').
    destruct (draw_left_sum sets (firstn n t)) as [E1 E2]; [now apply Forall_firstn' | rewrite firstn_length; lia|].
    destruct (draw_right_size (firstn (i - n) (skipn n t))) as [E3 E4]; [now apply Forall_firstn', Forall_skipn'|].
    rewrite firstn_length_le in E1, E2 by lia. rewrite (at_length _ _ _ H') in E3, E4. split.
    + replace (normal_guard ++ draw_left sets (firstn n t) ++ centre_guard ++
        (draw_right (firstn (i - n) (skipn n t)) ++ widths setC_table c ++ draw_right (skipn (S (i - n)) (skipn n t))) ++ normal_guard)
        with ((normal_guard ++ draw_left sets (firstn n t) ++ centre_guard ++ draw_right (firstn (i - n) (skipn n t))) ++ widths setC_table c ++
              (draw_right (skipn (S (i - n)) (skipn n t)) ++ normal_guard)) by (rewrite <- !app_assoc; reflexivity).
      apply after_even. rewrite !app_length, E2, E4. cbn [normal_guard centre_guard length].
      replace (3 + (4 * n + (5 + 4 * (i - n)))) with (4 * i + 8) by lia. now rewrite even_4.
    + rewrite !list_sum_app, E1, E3. cbn [normal_guard centre_guard list_sum fold_right]. lia.
Qed.

(** *** Add-ons *)
Lemma addon_at ps ds : forall i p d, nth_error (combine ps ds) i = Some (p, d) ->
  exists R, draw_addon true ps ds = concat (map (fun x => widths (set_table (fst x)) (snd x) ++ addon_separator) (firstn i (combine ps ds))) ++ widths (set_table p) d ++ R.
Proof.
  revert ds. induction ps as [|q ps IH]; intros [|e ds] [|i] p d H; try discriminate; cbn [combine nth_error] in H.
  - injection H as -> ->. eexists. reflexivity.
  - destruct (IH ds i p d H) as [R E]. exists R. cbn [combine firstn map concat fst snd]. rewrite <- !app_assoc, <- E. cbn [draw_addon app]. f_equal.
    destruct ps as [|q' ps]; [destruct i; discriminate|]. destruct ds as [|e' ds]; [destruct i; discriminate|]. reflexivity.
Qed.
Lemma addon_sum ps ds i : Forall is_digit ds -> i <= length (combine ps ds) ->
  let L := concat (map (fun x => widths (set_table (fst x)) (snd x) ++ addon_separator) (firstn i (combine ps ds))) in
  list_sum L = 9 * i /\ length L = 6 * i.
Proof.
  intros H. revert ps i. induction H as [|d ds Hd H IH]; intros [|p ps] [|i] HL; cbn [combine length] in HL; try lia; try (split; reflexivity).
  cbv zeta. cbn [combine firstn map concat fst snd]. destruct (IH ps i) as [E1 E2]; [lia|]. cbv zeta in E1, E2.
  rewrite !list_sum_app, !app_length, E1, E2, left_sum, left_length by assumption. cbn [addon_separator length list_sum fold_right]. lia.
Qed.
Lemma combine_at {A B} (a : list A) (b : list B) i d p : length a = length b -> nth_error b i = Some d -> nth_error (combine a b) i = Some (nth i a p, d).
Proof.
  revert b i. induction a as [|x a IH]; intros [|e b] [|i] HL H; try discriminate; cbn [nth_error combine nth] in *; [congruence|]. apply IH; [|assumption].
  now injection HL.
Qed.
Lemma addon_place t i c W : Forall is_digit t -> length (addon_sets t) = length t -> nth_error t i = Some c ->
  W = addon_guard ++ draw_addon true (addon_sets t) t ->
  after (render W) (lead SSupp t i) (drawing SSupp t i c) /\ list_sum (lead SSupp t i) = place SSupp t i.
Proof.
  intros HD HL H ->. pose proof (combine_at (addon_sets t) t i c PA HL H) as HC. destruct (addon_at _ _ _ _ _ HC) as [R E].
  destruct (addon_sum (addon_sets t) t i HD) as [E1 E2]; [apply Nat.lt_le_incl, nth_error_Some; congruence|].
  cbn [lead drawing place]. rewrite E. split.
  - rewrite <- (app_nil_r (render _)), app_assoc. apply after_odd. rewrite app_length, E2. cbn [addon_guard length].
    rewrite Nat.even_add, Nat.even_mul. reflexivity.
  - rewrite list_sum_app, E1. cbn [addon_guard list_sum fold_right]. lia.
Qed.

(** *** Pairs *)
Lemma pairs_at {A} (t : list A) : forall k a b, nth_error t (2 * k) = Some a -> nth_error t (2 * k + 1) = Some b ->
  nth_error (pairs t) k = Some (a, b) /\ firstn k (pairs t) = pairs (firstn (2 * k) t).
Proof.
  intros k. revert t. induction k as [|k IH]; intros t a b H1 H2.
  - destruct t as [|x [|y t]]; try discriminate. cbn in *. split; [congruence | reflexivity].
  - replace (2 * S k) with (S (S (2 * k))) in * by lia. destruct t as [|x [|y t]]; try discriminate.
    cbn [nth_error plus] in H1, H2. destruct (IH t a b H1 H2) as [E1 E2]. cbn [pairs nth_error firstn]. split; [assumption|]. now rewrite E2.
Qed.
Lemma itf_pair_size a b : is_digit a -> is_digit b -> list_sum (itf_pair 3 (a, b)) = 18 /\ length (itf_pair 3 (a, b)) = 10.
Proof.
  intros Ha Hb. assert (F : forallb (fun a => forallb (fun b => Nat.eqb (list_sum (itf_pair 3 (a, b))) 18 && Nat.eqb (length (itf_pair 3 (a, b))) 10) (range 10)) (range 10) = true) by (vm_compute; reflexivity).
  rewrite forallb_forall in F. specialize (F a (digit_In a Ha)). rewrite forallb_forall in F. specialize (F b (digit_In b Hb)).
  apply andb_true_iff in F. destruct F as [F1 F2]. apply Nat.eqb_eq in F1, F2. now split.
Qed.
Lemma pairs_digits n : forall t, length t <= n -> Forall is_digit t -> Forall (fun x : N * N => is_digit (fst x) /\ is_digit (snd x)) (pairs t).
Proof.
  induction n as [|n IH]; intros [|x [|y t]] HL H; try constructor; cbn [length] in HL; try lia.
  - apply Forall_cons_iff in H. destruct H as [Hx H]. apply Forall_cons_iff in H. now split.
  - apply IH; [lia|]. apply Forall_cons_iff in H. destruct H as [Hx H]. now apply Forall_cons_iff in H.
Qed.
Lemma itf_place t i c : Forall is_digit t -> Nat.even (length t) = true -> nth_error t i = Some c ->
  after (render (itf_symbol 3 2 t)) (lead SItf t i) (drawing SItf t i c) /\ list_sum (lead SItf t i) = place SItf t i.
Proof.
  intros HD HE H. set (k := Nat.div i 2). assert (HI : i < length t) by (apply nth_error_Some; congruence).
  assert (HK : exists a b, nth_error t (2 * k) = Some a /\ nth_error t (2 * k + 1) = Some b /\ (if Nat.even i then (c, nth (i + 1) t 0%N) else (nth (i - 1) t 0%N, c)) = (a, b)).
  { apply Nat.even_spec in HE. destruct HE as [h Eh]. pose proof (Nat.div_mod i 2 ltac:(discriminate)) as DM. fold k in DM.
    destruct (Nat.even i) eqn:Ei.
    - assert (M : i mod 2 = 0) by (apply Nat.even_spec in Ei; destruct Ei as [j ->]; rewrite Nat.mul_comm; now apply Nat.mod_mul).
      destruct (nth_error t (i + 1)) as [b|] eqn:Eb; [|apply nth_error_None in Eb; lia]. exists c, b. replace (2 * k) with i by lia.
      split; [assumption|]. split; [assumption|]. now rewrite (nth_error_nth _ _ 0%N Eb).
    - assert (M : i mod 2 = 1). { rewrite <- Nat.bit0_mod, Nat.bit0_odd, <- Nat.negb_even, Ei. reflexivity. }
      destruct (nth_error t (i - 1)) as [a|] eqn:Ea; [|apply nth_error_None in Ea; lia]. exists a, c. replace (2 * k) with (i - 1) by lia.
      replace (i - 1 + 1) with i by lia. split; [assumption|]. split; [assumption|]. now rewrite (nth_error_nth _ _ 0%N Ea). }
  destruct HK as (a & b & Ha & Hb & Ed). destruct (pairs_at t k a b Ha Hb) as [P1 P2]. cbn [lead drawing place]. fold k. rewrite Ed, <- P2.
  assert (HP : Forall (fun x : N * N => is_digit (fst x) /\ is_digit (snd x)) (firstn k (pairs t))) by (apply Forall_firstn'; now apply (pairs_digits (length t))).
  assert (S1 : list_sum (concat (map (itf_pair 3) (firstn k (pairs t)))) = 18 * k).
  { rewrite (tile_sum (itf_pair 3) 18); [now rewrite (at_length _ _ _ P1)|]. revert HP. apply Forall_impl. intros [u v] [Hu Hv]. now apply itf_pair_size. }
  assert (S2 : length (concat (map (itf_pair 3) (firstn k (pairs t)))) = 10 * k).
  { rewrite (tile_length (itf_pair 3) 10); [now rewrite (at_length _ _ _ P1)|]. revert HP. apply Forall_impl. intros [u v] [Hu Hv]. now apply itf_pair_size. }
  split.
  - unfold itf_symbol. rewrite (tile_at (itf_pair 3) _ _ _ P1), <- !app_assoc, app_assoc, <- (app_nil_r (render _)). apply after_even.
    rewrite app_length, S2, Nat.even_add, Nat.even_mul. reflexivity.
  - rewrite list_sum_app, S1. cbn [list_sum fold_right]. lia.
Qed.

(** *** Tiles of even length after a head of even length *)
Lemma tiles_place (f : N -> list nat) (g : N -> list nat) h t i c tail q : Nat.even (length h) = true -> Forall (fun c => Nat.even (length (f c)) = true) t ->
  (exists e, f c = g c ++ e) -> nth_error t i = Some c ->
  after (render (h ++ concat (map f t) ++ tail) ++ q) (h ++ concat (map f (firstn i t))) (render (g c)).
Proof.
  intros Hh HF [e He] H. rewrite (tile_at f t i c H), He, <- !app_assoc, app_assoc. apply after_even. rewrite app_length, Nat.even_add, Hh.
  assert (E : Nat.even (length (concat (map f (firstn i t)))) = true).
  { apply (Forall_firstn' _ _ i) in HF. induction HF as [|x l Hx HF IH]; [reflexivity|]. cbn [map concat]. rewrite app_length, Nat.even_add, Hx, IH. reflexivity. }
  now rewrite E.
Qed.
(** *** All symbologies *)
Definition has_place (y : symbology) (i : nat) : Prop := y = SEan13 -> i <> 0.
Definition sits (y : symbology) (m t : list N) : Prop := forall i c, has_place y i -> nth_error t i = Some c ->
  after m (lead y t i) (drawing y t i c) /\ list_sum (lead y t i) = place y t i.

Lemma tiles_sum_firstn (f : N -> list nat) w t i c : Forall (fun c => list_sum (f c) = w) t -> nth_error t i = Some c ->
  list_sum (concat (map f (firstn i t))) = w * i.
Proof. intros H E. rewrite (tile_sum f w) by now apply Forall_firstn'. now rewrite (at_length _ _ _ E). Qed.
Lemma snoc_sum a : list_sum (a ++ [1]) = list_sum a + 1.
Proof. rewrite list_sum_app. reflexivity. Qed.

Lemma sits_c39 y t : y = SCode39 \/ y = SCode39Checked -> Forall c39_in t -> sits y (render (c39_symbol t)) t.
Proof.
  intros Hy HD i c _ H. assert (E1 : after (render (c39_symbol t)) ((c39_star ++ [1]) ++ concat (map (fun c => c39_pattern c ++ [1]) (firstn i t))) (render (c39_pattern c))).
  { rewrite <- (app_nil_r (render _)). unfold c39_symbol. rewrite (app_assoc c39_star). apply tiles_place; [reflexivity | | eexists; reflexivity | assumption].
    revert HD. apply Forall_impl. intros x Hx. rewrite app_length, c39_pattern_length by assumption. reflexivity. }
  assert (E2 : list_sum ((c39_star ++ [1]) ++ concat (map (fun c => c39_pattern c ++ [1]) (firstn i t))) = 13 * i + 13).
  { rewrite list_sum_app, (tiles_sum_firstn _ 13 t i c); [change (list_sum (c39_star ++ [1])) with 13; lia | | assumption].
    revert HD. apply Forall_impl. intros x Hx. rewrite snoc_sum, c39_pattern_sum by assumption. reflexivity. }
  destruct Hy as [-> | ->]; now split.
Qed.
Lemma sits_c93 t : Forall c93_in t -> sits SCode93 (render (c93_symbol t)) t.
Proof.
  intros HD i c _ H. cbn [lead drawing place]. split.
  - rewrite <- (app_nil_r (render _)). unfold c93_symbol. apply tiles_place; [reflexivity | | exists []; now rewrite app_nil_r | assumption].
    revert HD. apply Forall_impl. intros x Hx. now rewrite c93_pattern_length.
  - rewrite list_sum_app, (tiles_sum_firstn _ 9 t i c); [change (list_sum c93_star) with 9; lia | | assumption].
    revert HD. apply Forall_impl. intros x Hx. now apply c93_pattern_sum.
Qed.
Lemma c11_run (u : str) : Forall c11_in u -> list_sum (concat (map (fun c => c11_pattern c ++ [1]) u)) + among (lit "09-") u = 8 * length u.
Proof.
  induction 1 as [|x u Hx HD IH]; [reflexivity|]. cbn [map concat length]. rewrite list_sum_app, snoc_sum, among_cons. pose proof (c11_pattern_width x Hx). lia.
Qed.
Lemma cod_run (u : str) : Forall cod_in u ->
  list_sum (concat (map (fun c => lib_pattern c ++ [1]) u)) = 10 * length u + among (lit ":/.ABCD") u + 3 * among (lit "+") u.
Proof.
  induction 1 as [|x u Hx HD IH]; [reflexivity|]. cbn [map concat length]. rewrite list_sum_app, snoc_sum, !among_cons, IH, lib_pattern_width by assumption. lia.
Qed.
Lemma sits_c11 t : Forall c11_in t -> sits SCode11 (render (c11_symbol t)) t.
Proof.
  intros HD i c _ H. cbn [lead drawing place]. split.
  - rewrite <- (app_nil_r (render _)). unfold c11_symbol. rewrite (app_assoc c11_guard). apply tiles_place; [reflexivity | | eexists; reflexivity | assumption].
    revert HD. apply Forall_impl. intros x Hx. rewrite app_length, c11_pattern_length by assumption. reflexivity.
  - rewrite list_sum_app. change (list_sum (c11_guard ++ [1])) with 8. apply (Forall_firstn' _ _ i) in HD. pose proof (at_length _ _ _ H) as HL.
    assert (E : list_sum (concat (map (fun c => c11_pattern c ++ [1]) (firstn i t))) + among (lit "09-") (firstn i t) = 8 * i).
    { pose proof (c11_run _ HD) as E. unfold str, char in *. rewrite HL in E. exact E. }
    unfold str, char in *. lia.
Qed.
Lemma lib_pattern_shown c : In c cod_chars -> lib_pattern c = if (c =? ch "+")%N then [1;1;2;2;2;2;2] else cod_pattern (exchange c).
Proof.
  intros H. destruct (c =? ch "+")%N eqn:E; [apply N.eqb_eq in E; subst c; vm_compute; reflexivity|]. apply N.eqb_neq in E. now apply lib_pattern_std.
Qed.
Lemma sits_cod t : Forall cod_in t -> sits SCodabar (render (sep_symbol lib_pattern t)) t.
Proof.
  intros HD i c _ H. cbn [lead drawing place]. assert (Hc : In c cod_chars). { rewrite Forall_forall in HD. apply HD. now apply nth_error_In in H. }
  rewrite <- (lib_pattern_shown c Hc). split.
  - assert (HN : t <> []) by (intros ->; destruct i; discriminate). pose proof (sep_symbol_blocks lib_pattern t HN) as EB. rewrite map_map in EB.
    rewrite (tile_at (fun c => lib_pattern c ++ [1]) t i c H) in EB.
    assert (HE : Nat.even (length (concat (map (fun c => lib_pattern c ++ [1]) (firstn i t)))) = true).
    { rewrite (tile_length _ 8), Nat.even_mul; [reflexivity|]. apply Forall_firstn'. revert HD. apply Forall_impl. intros x Hx. rewrite app_length, lib_pattern_length by assumption. reflexivity. }
    rewrite <- app_assoc in EB.
    destruct (map (fun c => lib_pattern c ++ [1]) (skipn (S i) t)) as [|z Z] eqn:EZ.
    + cbn [concat] in EB. rewrite app_nil_r, app_assoc in EB. apply app_inj_tail in EB. destruct EB as [-> _].
      rewrite <- (app_nil_r (render _)). rewrite <- (app_nil_r (lib_pattern c)) at 1. now apply after_even.
    + assert (HZ : exists Q, concat (z :: Z) = Q ++ [1]).
      { destruct (exists_last (l := z :: Z)) as (Y & l & EY); [discriminate|]. rewrite EY in *. rewrite concat_app. cbn [concat]. rewrite app_nil_r.
        assert (IL : In l (map (fun c => lib_pattern c ++ [1]) (skipn (S i) t))) by (rewrite EZ; apply in_or_app; right; now left).
        apply in_map_iff in IL. destruct IL as (x & <- & _). exists (concat Y ++ lib_pattern x). now rewrite app_assoc. }
      destruct HZ as [Q EQ]. rewrite EQ, !app_assoc in EB. apply app_inj_tail in EB. destruct EB as [-> _].
      rewrite <- (app_nil_r (render _)), <- !app_assoc. now apply after_even.
  - apply (Forall_firstn' _ _ i) in HD. pose proof (at_length _ _ _ H) as HL. pose proof (cod_run _ HD) as E. unfold str, char in *. rewrite HL in E. exact E.
Qed.
Lemma sits_c128 vs chk : Forall (fun v => (v < 106)%N) (vs ++ [chk]) -> sits SCode128 (render (symbol_with vs chk)) (vs ++ [chk]).
Proof.
  intros HD i c _ H. unfold symbol_with. set (t := vs ++ [chk]) in *. clearbody t. cbn [lead drawing place].
  assert (F1 : Forall (fun v => list_sum (c128_pattern v) = 11) t) by (revert HD; apply Forall_impl; intros v Hv; now apply c128_pattern_built).
  assert (F2 : Forall (fun v => Nat.even (length (c128_pattern v)) = true) t) by (revert HD; apply Forall_impl; intros v Hv; destruct (c128_pattern_built v Hv) as [-> _]; reflexivity).
  split; [|now apply (tiles_sum_firstn c128_pattern 11 t i c)].
  pose proof (tiles_place c128_pattern c128_pattern [] t i c c128_stop [] eq_refl F2) as E. rewrite app_nil_r in E. apply E; [exists []; now rewrite app_nil_r | assumption].
Qed.
Lemma stf_tile d : is_digit d -> list_sum (stf_bars (stretch 3 (tf_digit d))) = 14 /\ length (stf_bars (stretch 3 (tf_digit d))) = 10.
Proof.
  intros Hd. assert (F : forallb (fun d => Nat.eqb (list_sum (stf_bars (stretch 3 (tf_digit d)))) 14 && Nat.eqb (length (stf_bars (stretch 3 (tf_digit d)))) 10) (range 10) = true) by (vm_compute; reflexivity).
  rewrite forallb_forall in F. specialize (F d (digit_In d Hd)). apply andb_true_iff in F. destruct F as [F1 F2]. apply Nat.eqb_eq in F1, F2. now split.
Qed.
Lemma sits_stf t : Forall is_digit t -> sits SStf (render (stf_symbol 3 2 t) ++ [0%N]) t.
Proof.
  intros HD i c _ H. cbn [lead drawing place]. set (f := fun d => stf_bars (stretch 3 (tf_digit d))).
  assert (F1 : Forall (fun v => list_sum (f v) = 14) t) by (revert HD; apply Forall_impl; intros v Hv; now apply stf_tile).
  assert (F2 : Forall (fun v => Nat.even (length (f v)) = true) t) by (revert HD; apply Forall_impl; intros v Hv; destruct (stf_tile v Hv) as [_ E]; unfold f; now rewrite E).
  split.
  - unfold stf_symbol. apply (tiles_place f f); [reflexivity | assumption | exists []; now rewrite app_nil_r | assumption].
  - rewrite list_sum_app, (tiles_sum_firstn f 14 t i c F1 H). change (list_sum (stf_bars [2; 2; 1])) with 8. lia.
Qed.
Lemma sits_ean13 t : Forall is_digit t -> length t = 13 -> sits SEan13 (render (ean13_symbol t)) t.
Proof.
  intros HD HL i c HP H. destruct t as [|a t]; [discriminate|]. destruct i as [|i]; [exfalso; now apply HP|]. cbn [nth_error] in H.
  apply Forall_cons_iff in HD. destruct HD as [Ha HD]. injection HL as HL.
  cbn [lead drawing place hd tl]. replace (S i - 1) with i by lia.
  assert (HS : length (nth (N.to_nat a) ean13_parities []) = 6).
  { unfold is_digit in Ha. assert (F : Forall (fun l => length l = 6) ean13_parities) by (repeat constructor). rewrite Forall_forall in F. apply F, nth_In. change (length ean13_parities) with 10. lia. }
  destruct (halves_at 6 _ t i c HD HS ltac:(lia) H) as [E1 E2].
  change (render (ean13_symbol (a :: t))) with (render (halves_symbol 6 (nth (N.to_nat a) ean13_parities []) t)).
  change (Nat.leb (S i) 6) with (Nat.ltb i 6). split; [exact E1|]. rewrite E2. destruct (Nat.ltb i 6); lia.
Qed.
Lemma sits_upca t : Forall is_digit t -> length t = 12 -> sits SUpca (render (upca_symbol t)) t.
Proof.
  intros HD HL i c _ H. destruct (halves_at 6 [PA;PA;PA;PA;PA;PA] t i c HD eq_refl ltac:(lia) H) as [E1 E2]. cbn [lead drawing place].
  split; [|exact E2]. destruct (Nat.ltb i 6) eqn:E; [|exact E1]. apply Nat.ltb_lt in E. do 6 (destruct i as [|i]; [exact E1|]). lia.
Qed.
Lemma sits_ean8 t : Forall is_digit t -> length t = 8 -> sits SEan8 (render (ean8_symbol t)) t.
Proof.
  intros HD HL i c _ H. destruct (halves_at 4 [PA;PA;PA;PA] t i c HD eq_refl ltac:(lia) H) as [E1 E2]. cbn [lead drawing place].
  split; [|exact E2]. destruct (Nat.ltb i 4) eqn:E; [|exact E1]. apply Nat.ltb_lt in E. do 4 (destruct i as [|i]; [exact E1|]). lia.
Qed.

Lemma addon_two t : Forall is_digit t -> length t = 2 -> length (addon_sets t) = length t /\ ean2_symbol t = addon_guard ++ draw_addon true (addon_sets t) t.
Proof.
  intros HD HL. destruct t as [|a [|b [|? ?]]]; try discriminate. split; [|reflexivity].
  assert (F : Forall (fun l => length l = 2) ean2_parities) by (repeat constructor). rewrite Forall_forall in F. unfold addon_sets. apply F, nth_In.
  change (length ean2_parities) with 4. unfold ean2_variant. pose proof (N.mod_lt (10 * a + b) 4 ltac:(discriminate)). lia.
Qed.
Lemma addon_five t : Forall is_digit t -> length t = 5 -> length (addon_sets t) = length t /\ ean5_symbol t = addon_guard ++ draw_addon true (addon_sets t) t.
Proof.
  intros HD HL. destruct t as [|a [|b [|c [|d [|e [|? ?]]]]]]; try discriminate. split; [|reflexivity].
  assert (F : Forall (fun l => length l = 5) ean5_parities) by (repeat constructor). rewrite Forall_forall in F. unfold addon_sets. apply F, nth_In.
  change (length ean5_parities) with 10. unfold ean5_variant. pose proof (N.mod_lt (3 * (a + c + e) + 9 * (b + d)) 10 ltac:(discriminate)). lia.
Qed.
Lemma check_shown n s : (forall ds, ds = firstn n (digits_of s) -> exists c, ds ++ [gs1_check ds] = ds ++ [c] /\ (c < 10)%N /\ gs1_valid (ds ++ [gs1_check ds])).
Proof. intros ds _. exists (gs1_check ds). split; [reflexivity|]. split; [apply gs1_check_digit | apply gs1_check_valid]. Qed.
Lemma sits_all y p s m : (str_len s < 2 ^ 48)%N -> barcode y p s = Ret (Ok m) -> exists t, shown y s t /\ sits y m t.
Proof.
  intros Hs H. destruct y; cbn [barcode] in H; (apply run_Ret in H || apply run_Ok in H); destruct H as [b [HN HE]].
  - destruct (ean13_conform p p s b HN) as [E _]. destruct (ean13_accepted p s b HN) as (_ & HL & D).
    rewrite HE in E. injection E as ->. eexists. split; [apply (check_shown 12 s _ eq_refl)|].
    apply sits_ean13; [apply Forall_snoc; [assumption | apply gs1_check_digit] | rewrite app_length; cbn [length]; lia].
  - destruct (ean8_conform p p s b HN) as [E _]. destruct (ean8_accepted p s b HN) as (_ & HL & D).
    rewrite HE in E. injection E as ->. eexists. split; [apply (check_shown 7 s _ eq_refl)|].
    apply sits_ean8; [apply Forall_snoc; [assumption | apply gs1_check_digit] | rewrite app_length; cbn [length]; lia].
  - destruct (upca_conform p p s b HN) as [E _]. destruct (upca_accepted p s b HN) as (_ & HL & D).
    rewrite HE in E. injection E as ->. eexists. split; [apply (check_shown 11 s _ eq_refl)|].
    apply sits_upca; [apply Forall_snoc; [assumption | apply gs1_check_digit] | rewrite app_length; cbn [length]; lia].
  - destruct (eansupp_accepted p s b HN) as [m' [E HC]]. rewrite HE in E. injection E as <-.
    destruct (eansupp_new_spec s) as [r [ER [_ [_ [_ HO]]]]]. rewrite HN in ER. injection ER as <-.
    specialize (HO b). destruct HO as [HO _]. destruct (HO eq_refl) as [HD _]. apply digits_of_digits in HD.
    exists (digits_of s). split; [reflexivity|]. assert (HL : length (digits_of s) = length s) by (unfold digits_of; apply map_length). intros i c _ Hi.
    destruct HC as [[HC [_ [-> _]]]|[HC [_ [-> _]]]]; rewrite HC in HL.
    + destruct (addon_two _ HD HL) as [E1 E2]. now apply addon_place.
    + destruct (addon_five _ HD HL) as [E1 E2]. now apply addon_place.
  - destruct (code39_accepted p s b false Hs (or_introl HN)) as [m' [E [Em _]]].
    apply code39_init_Ok in HN. destruct HN as [HD [Hd Hb]]. subst b.
    cbn [c39_data] in E. rewrite HE in E. injection E as <-. subst m. exists s. split; [reflexivity|]. now apply sits_c39; [left|].
  - destruct (code39_accepted p s b true Hs (or_intror HN)) as [m' [E [Em _]]].
    apply code39_init_Ok in HN. destruct HN as [HD [Hd Hb]]. subst b.
    cbn [c39_data] in E. rewrite HE in E. injection E as <-. subst m. eexists. split; [reflexivity|]. apply sits_c39; [now right|]. exact (c39_message_in s true HD).
  - destruct (code93_accepted p s b Hs HN) as [m' [E [Em _]]]. rewrite HE in E. injection E as <-. subst m.
    apply code93_new_Ok in HN. destruct HN as [HD _]. eexists. split; [reflexivity|]. apply sits_c93. exact (c93_message_in s HD).
  - pose proof (code11_accepted p s b Hs HN) as E. rewrite HE in E. injection E as ->.
    apply code11_new_Ok in HN. destruct HN as [HD _]. eexists. split; [reflexivity|]. apply sits_c11. exact (c11_message_in s HD).
  - pose proof (codabar_encode_lib p s b HN) as E. rewrite HE in E. injection E as ->.
    apply codabar_new_Ok in HN. destruct HN as [HF [Hn _]]. exists s. split; [reflexivity|]. now apply sits_cod.
  - destruct (code128_new_Ok s b HN) as [segs [HM [HS ->]]].
    destruct (encode_returns_form p _ m (message_units_idx _ HM) HE) as [chk [HC Em]]. rewrite message_units_values in Em.
    assert (HL : Forall (fun v => (v < 106)%N) (message_values segs ++ [chk])) by (apply Forall_snoc; [now apply message_values_lt | assumption]).
    exists (message_values segs ++ [chk]). split; [|rewrite Em; now apply sits_c128]. exists segs, chk. split; [assumption|]. split; [assumption|]. split; [reflexivity|]. split; [assumption|].
    intros HF. rewrite (code128_encode_ok p segs HM HF), Em in HE. injection HE as HE. unfold c128_symbol in HE. apply symbol_with_inj in HE; [now symmetry | now apply message_check_lt | assumption].
  - assert (HV : exists ds, Forall is_digit ds /\ Nat.even (length ds) = true /\ itf_carries s ds /\ m = render (itf_symbol 3 2 ds)).
    { pose proof (itf_carried p s b HN) as HO. pose proof HN as HN'. apply tf_interleaved_Ok in HN'. destruct HN' as [_ [_ [ds [-> [HD [HV _]]]]]]. cbn in HO. exists ds. split; [assumption|]. split; [assumption|]. split; [assumption|].
      rewrite tf_encode_interleaved in HE by assumption. now injection HE. }
    destruct HV as (ds & HD & HV & HO & ->). exists ds. split; [assumption|]. intros i c _ Hi. now apply itf_place.
  - destruct (stf_accepted s b HN) as [m' [E [-> _]]]. rewrite HE in E. injection E as ->.
    apply tf_standard_Ok in HN. destruct HN as [HD _]. apply digits_of_digits in HD. exists (digits_of s). split; [reflexivity|]. now apply sits_stf.
Qed.
Lemma symbol_printed y p s m : (str_len s < 2 ^ 48)%N -> barcode y p s = Ret (Ok m) -> exists t, shown y s t /\
  forall i c, (y = SEan13 -> i <> 0) -> nth_error t i = Some c -> printed m (place y t i) (drawing y t i c).
Proof.
  intros Hs H. destruct (sits_all y p s m Hs H) as (t & HT & HA). exists t. split; [assumption|]. intros i c HP Hi.
  destruct (HA i c HP Hi) as [E <-]. now apply after_printed.
Qed.
(** ** Equal beginnings are printed equally *)
Lemma firstn_less {A} (t t' : list A) i j : j <= i -> firstn i t = firstn i t' -> firstn j t = firstn j t'.
Proof. intros H E. apply (f_equal (firstn j)) in E. rewrite !firstn_firstn, Nat.min_l in E by assumption. exact E. Qed.
Lemma firstn_skip {A} (t t' : list A) i n : n <= i -> firstn i t = firstn i t' -> firstn (i - n) (skipn n t) = firstn (i - n) (skipn n t').
Proof. intros H E. rewrite !firstn_skipn_comm. replace (n + (i - n)) with i by lia. now rewrite E. Qed.
Lemma guards_prefix n sets t t' i : firstn i t = firstn i t' -> guards n sets t i = guards n sets t' i.
Proof.
  intros E. unfold guards. destruct (Nat.ltb i n) eqn:EL; [now rewrite E|]. apply Nat.ltb_ge in EL.
  now rewrite (firstn_less t t' i n EL E), (firstn_skip t t' i n EL E).
Qed.
Lemma lead_prefix y t t' i : y <> SSupp -> (y = SEan13 -> i <> 0) -> firstn i t = firstn i t' -> lead y t i = lead y t' i.
Proof.
  intros Hy HP E. destruct y; try congruence; cbn [lead]; try (now rewrite E); try now apply guards_prefix.
  - destruct i as [|i]; [exfalso; now apply HP|]. replace (S i - 1) with i by lia.
    destruct t as [|a t], t' as [|a' t']; try discriminate; [reflexivity|]. cbn [firstn] in E. injection E as -> E. cbn [hd tl]. now apply guards_prefix.
  - rewrite (firstn_less t t' i (2 * Nat.div i 2)); [reflexivity | apply Nat.mul_div_le; discriminate | assumption].
Qed.
Lemma beginnings y p p' s s' m m' : (str_len s < 2 ^ 48)%N -> (str_len s' < 2 ^ 48)%N -> y <> SSupp -> barcode y p s = Ret (Ok m) -> barcode y p' s' = Ret (Ok m') ->
  exists t t', shown y s t /\ shown y s' t' /\ forall i, i < length t -> i < length t' -> firstn i t = firstn i t' ->
    place y t' i = place y t i /\ firstn (place y t i) m' = firstn (place y t i) m /\ place y t i <= length m.
Proof.
  intros Hs Hs' Hy H H'. destruct (sits_all y p s m Hs H) as (t & HT & HA). destruct (sits_all y p' s' m' Hs' H') as (t' & HT' & HA').
  exists t, t'. split; [assumption|]. split; [assumption|]. intros i Hi Hi' E.
  destruct (nth_error t i) as [c|] eqn:Ec; [|apply nth_error_None in Ec; lia]. destruct (nth_error t' i) as [c'|] eqn:Ec'; [|apply nth_error_None in Ec'; lia].
  assert (HZ : (y = SEan13 -> i <> 0) \/ (y = SEan13 /\ i = 0)).
  { destruct i as [|i]; [|left; discriminate]. destruct y; try (left; discriminate). right. now split. }
  destruct HZ as [HZ|[-> ->]]; [|split; [reflexivity|]; split; [reflexivity | apply Nat.le_0_l]].
  destruct (HA i c HZ Ec) as [[b ->] S1]. destruct (HA' i c' HZ Ec') as [[b' ->] S2]. rewrite <- (lead_prefix y t t' i Hy HZ E) in *.
  assert (EL : length (render (lead y t i)) = place y t i) by (rewrite <- S1; apply render_from_length).
  split; [congruence|]. split; [|rewrite app_length; lia].
  rewrite !firstn_app, EL, Nat.sub_diag, !firstn_O, !app_nil_r. reflexivity.
Qed.
