(** * Proofs: scan lines that cross from one symbol into another *)
From Verif Require Import Rust M_Error Symbology M_Code39 M_Code128 M_Use S_Barcode S_Ean S_Text S_Linear S_Codabar S_Tf S_Code128 S_All S_Size S_Skip S_Place S_Cross
  P_Rust P_Barcode P_Parse P_Alphabet P_Gap P_Weighted P_Gs1 P_Ean P_Retail P_Retail3 P_Supp P_Code39 P_Code93 P_Code11 P_Codabar P_Tf P_Code128 P_Code128b P_Check128 P_All P_Width P_Pattern P_Damage P_Place P_Skip.
Local Open Scope nat_scope.

(** ** Lists *)
Lemma crossing_app {A} (a b a' b' : list A) : crossing (length a) (length a') (a ++ b) (a' ++ b') = a ++ b'.
Proof.
  unfold crossing. rewrite firstn_app, firstn_all, Nat.sub_diag. cbn [firstn]. rewrite app_nil_r, skipn_app, skipn_all, Nat.sub_diag. reflexivity.
Qed.
Lemma crossing_Forall {A} (P : A -> Prop) i j l l' : Forall P l -> Forall P l' -> Forall P (crossing i j l l').
Proof. intros H H'. apply Forall_app. split; [now apply Forall_firstn' | now apply Forall_skipn']. Qed.
Lemma crossing_front {A} i j (l l' : list A) : i <= length l -> firstn i (crossing i j l l') = firstn i l.
Proof. intros H. unfold crossing. rewrite firstn_app, firstn_firstn, Nat.min_id, firstn_length_le, Nat.sub_diag by assumption. apply app_nil_r. Qed.
Lemma crossing_back {A} i j (l l' : list A) : i <= length l -> skipn i (crossing i j l l') = skipn j l'.
Proof.
  intros H. unfold crossing. rewrite skipn_app, skipn_all2 by (rewrite firstn_length; lia).
  rewrite firstn_length_le, Nat.sub_diag by assumption. reflexivity.
Qed.
Lemma crossing_length {A} i j (l l' : list A) : i <= length l -> length (crossing i j l l') = i + (length l' - j).
Proof. intros H. unfold crossing. rewrite app_length, firstn_length, skipn_length. lia. Qed.
Lemma crossing_snoc {A} i j (l l' z z' : list A) : i <= length l -> j <= length l' -> crossing i j (l ++ z) (l' ++ z') = crossing i j l l' ++ z'.
Proof.
  intros Hi Hj. unfold crossing. rewrite firstn_app, skipn_app. replace (i - length l) with 0 by lia. replace (j - length l') with 0 by lia.
  cbn [firstn skipn]. now rewrite app_nil_r, app_assoc.
Qed.
Lemma crossing_map {A B} (f : A -> B) i j l l' : crossing i j (map f l) (map f l') = map f (crossing i j l l').
Proof. unfold crossing. now rewrite map_app, firstn_map, skipn_map. Qed.

(** ** Elements and modules *)
Lemma render_crossing A B A' B' : Nat.even (length A) = Nat.even (length A') ->
  crossing (list_sum A) (list_sum A') (render (A ++ B)) (render (A' ++ B')) = render (A ++ B').
Proof.
  intros H. unfold render. rewrite !render_from_app by auto. unfold flip. rewrite <- H.
  rewrite <- (render_from_length 1%N A), <- (render_from_length 1%N A'). apply crossing_app.
Qed.
Lemma even_tiles {A} (f : A -> list nat) t : Forall (fun c => Nat.even (length (f c)) = true) t -> Nat.even (length (concat (map f t))) = true.
Proof. induction 1 as [|x l Hx HF IH]; [reflexivity|]. cbn [map concat]. now rewrite app_length, Nat.even_add, Hx, IH. Qed.
Lemma tiles_split {A} (f : A -> list nat) h z t i :
  h ++ concat (map f t) ++ z = (h ++ concat (map f (firstn i t))) ++ concat (map f (skipn i t)) ++ z.
Proof. rewrite <- !app_assoc. f_equal. rewrite app_assoc. f_equal. now rewrite <- concat_app, <- map_app, firstn_skipn. Qed.
Lemma tiles_crossing {A} (f : A -> list nat) h z i j t t' : Forall (fun c => Nat.even (length (f c)) = true) t -> Forall (fun c => Nat.even (length (f c)) = true) t' ->
  i <= length t ->
  crossing (list_sum (h ++ concat (map f (firstn i t)))) (list_sum (h ++ concat (map f (firstn j t')))) (render (h ++ concat (map f t) ++ z)) (render (h ++ concat (map f t') ++ z))
  = render (h ++ concat (map f (crossing i j t t')) ++ z).
Proof.
  intros F F' Hi. rewrite (tiles_split f h z t i), (tiles_split f h z t' j), (tiles_split f h z (crossing i j t t') i).
  rewrite crossing_front, crossing_back by assumption. apply render_crossing.
  rewrite !app_length, !Nat.even_add, !even_tiles by now apply Forall_firstn'. reflexivity.
Qed.
(** Places, also behind the last character *)
Lemma tiles_place_sum {A} (f : A -> list nat) w t i : Forall (fun c => list_sum (f c) = w) t -> i <= length t -> list_sum (concat (map f (firstn i t))) = w * i.
Proof. intros H E. rewrite (tile_sum f w) by now apply Forall_firstn'. now rewrite firstn_length_le. Qed.

(** ** Each symbology: crossing two symbols draws the crossing of what they show *)
Lemma c39_crossing y t t' i j : y = SCode39 \/ y = SCode39Checked -> Forall c39_in t -> Forall c39_in t' -> i <= length t -> j <= length t' ->
  crossing (place y t i) (place y t' j) (render (c39_symbol t)) (render (c39_symbol t')) = render (c39_symbol (crossing i j t t')).
Proof.
  intros Hy H H' Hi Hj. set (f := fun c => c39_pattern c ++ [1]).
  assert (G : forall t, Forall c39_in t -> Forall (fun c => Nat.even (length (f c)) = true) t /\ Forall (fun c => list_sum (f c) = 13) t).
  { intros u Hu. split; revert Hu; apply Forall_impl; intros x Hx; unfold f; [now rewrite app_length, c39_pattern_length | now rewrite snoc_sum, c39_pattern_sum]. }
  destruct (G t H) as [E1 S1]. destruct (G t' H') as [E2 S2].
  assert (EP : forall t i, Forall c39_in t -> i <= length t -> place y t i = list_sum ((c39_star ++ [1]) ++ concat (map f (firstn i t)))).
  { intros u k Hu Hk. rewrite list_sum_app, (tiles_place_sum f 13) by (assumption || apply (G u Hu)). change (list_sum (c39_star ++ [1])) with 13. destruct Hy as [-> | ->]; cbn [place]; lia. }
  rewrite (EP t i), (EP t' j) by assumption. unfold c39_symbol. fold f. rewrite !(app_assoc c39_star). now apply tiles_crossing.
Qed.
Lemma c93_crossing t t' i j : Forall c93_in t -> Forall c93_in t' -> i <= length t -> j <= length t' ->
  crossing (place SCode93 t i) (place SCode93 t' j) (render (c93_symbol t)) (render (c93_symbol t')) = render (c93_symbol (crossing i j t t')).
Proof.
  intros H H' Hi Hj.
  assert (G : forall t, Forall c93_in t -> Forall (fun c => Nat.even (length (c93_pattern c)) = true) t /\ Forall (fun c => list_sum (c93_pattern c) = 9) t).
  { intros u Hu. split; revert Hu; apply Forall_impl; intros x Hx; [now rewrite c93_pattern_length | now apply c93_pattern_sum]. }
  assert (EP : forall t i, Forall c93_in t -> i <= length t -> place SCode93 t i = list_sum (c93_star ++ concat (map c93_pattern (firstn i t)))).
  { intros u k Hu Hk. rewrite list_sum_app, (tiles_place_sum _ 9) by (assumption || apply (G u Hu)). change (list_sum c93_star) with 9. cbn [place]; lia. }
  rewrite (EP t i), (EP t' j) by assumption. apply tiles_crossing; try assumption; now apply G.
Qed.
Lemma c11_crossing t t' i j : Forall c11_in t -> Forall c11_in t' -> i <= length t -> j <= length t' ->
  crossing (place SCode11 t i) (place SCode11 t' j) (render (c11_symbol t)) (render (c11_symbol t')) = render (c11_symbol (crossing i j t t')).
Proof.
  intros H H' Hi Hj. set (f := fun c => c11_pattern c ++ [1]).
  assert (G : forall t, Forall c11_in t -> Forall (fun c => Nat.even (length (f c)) = true) t).
  { intros u Hu; revert Hu; apply Forall_impl; intros x Hx; unfold f; now rewrite app_length, c11_pattern_length. }
  assert (EP : forall t i, Forall c11_in t -> i <= length t -> place SCode11 t i = list_sum ((c11_guard ++ [1]) ++ concat (map f (firstn i t)))).
  { intros u k Hu Hk. rewrite list_sum_app. change (list_sum (c11_guard ++ [1])) with 8. apply (Forall_firstn' _ _ k) in Hu. cbn [place].
    pose proof (c11_run _ Hu) as E. unfold str, char in *. rewrite firstn_length_le in E by assumption. fold f in E. lia. }
  rewrite (EP t i), (EP t' j) by assumption. unfold c11_symbol. fold f. rewrite !(app_assoc c11_guard). apply tiles_crossing; auto.
Qed.
Lemma c128_crossing vs c vs' c' i j : let t := vs ++ [c] in let t' := vs' ++ [c'] in
  Forall (fun v => (v < 106)%N) t -> Forall (fun v => (v < 106)%N) t' -> i <= length vs -> j <= length vs' ->
  crossing (place SCode128 t i) (place SCode128 t' j) (render (symbol_with vs c)) (render (symbol_with vs' c')) = render (symbol_with (crossing i j vs vs') c').
Proof.
  cbv zeta. intros H H' Hi Hj. unfold symbol_with. rewrite <- (crossing_snoc i j vs vs' [c] [c']) by assumption.
  assert (Li : i <= length (vs ++ [c])) by (rewrite app_length; lia). assert (Lj : j <= length (vs' ++ [c'])) by (rewrite app_length; lia).
  set (t := vs ++ [c]) in *. set (t' := vs' ++ [c']) in *. clearbody t t'.
  assert (G : forall t, Forall (fun v => (v < 106)%N) t -> Forall (fun c => Nat.even (length (c128_pattern c)) = true) t /\ Forall (fun c => list_sum (c128_pattern c) = 11) t).
  { intros u Hu. split; revert Hu; apply Forall_impl; intros x Hx; destruct (c128_pattern_built x Hx) as [E1 E2]; [now rewrite E1 | tauto]. }
  assert (EP : forall t i, Forall (fun v => (v < 106)%N) t -> i <= length t -> place SCode128 t i = list_sum ([] ++ concat (map c128_pattern (firstn i t)))).
  { intros u k Hu Hk. cbn [app]. rewrite (tiles_place_sum _ 11) by (assumption || apply (G u Hu)). reflexivity. }
  rewrite (EP t i), (EP t' j) by assumption. apply (tiles_crossing c128_pattern [] c128_stop); try assumption; now apply G.
Qed.
Lemma stf_crossing t t' i j : Forall is_digit t -> Forall is_digit t' -> i <= length t -> j <= length t' ->
  crossing (place SStf t i) (place SStf t' j) (render (stf_symbol 3 2 t) ++ [0%N]) (render (stf_symbol 3 2 t') ++ [0%N]) = render (stf_symbol 3 2 (crossing i j t t')) ++ [0%N].
Proof.
  intros H H' Hi Hj. set (f := fun d => stf_bars (stretch 3 (tf_digit d))).
  assert (G : forall t, Forall is_digit t -> Forall (fun c => Nat.even (length (f c)) = true) t /\ Forall (fun c => list_sum (f c) = 14) t).
  { intros u Hu. split; revert Hu; apply Forall_impl; intros x Hx; destruct (stf_tile x Hx) as [E1 E2]; unfold f; [now rewrite E2 | assumption]. }
  assert (EP : forall t i, Forall is_digit t -> i <= length t -> place SStf t i = list_sum (stf_bars [2;2;1] ++ concat (map f (firstn i t)))).
  { intros u k Hu Hk. rewrite list_sum_app, (tiles_place_sum f 14) by (assumption || apply (G u Hu)). change (list_sum (stf_bars [2;2;1])) with 8. cbn [place]; lia. }
  assert (LE : forall t i, Forall is_digit t -> i <= length t -> place SStf t i <= length (render (stf_symbol 3 2 t))).
  { intros u k Hu Hk. rewrite (EP u k Hu Hk). unfold render. rewrite render_from_length. unfold stf_symbol. fold f. rewrite (tiles_split f _ _ u k), (list_sum_app (_ ++ _)). lia. }
  rewrite crossing_snoc by now apply LE. f_equal.
  rewrite (EP t i), (EP t' j) by assumption. unfold stf_symbol. fold f. apply tiles_crossing; try assumption; now apply G.
Qed.
Lemma pairs_app {A} (a b : list A) : Nat.even (length a) = true -> pairs (a ++ b) = pairs a ++ pairs b.
Proof.
  intros H. apply Nat.even_spec in H. destruct H as [n Hn]. revert a Hn. induction n as [|n IH]; intros a Hn.
  - destruct a; [reflexivity | discriminate].
  - destruct a as [|x [|y a]]; cbn [length] in Hn; try lia. cbn [app pairs]. f_equal. apply IH. lia.
Qed.
Lemma pairs_length {A} n : forall a : list A, length a = 2 * n -> length (pairs a) = n.
Proof. induction n as [|n IH]; intros a Hn; [destruct a; [reflexivity|discriminate]|]. destruct a as [|x [|y a]]; cbn [length] in Hn; try lia. cbn [pairs length]. f_equal. apply IH. lia. Qed.
Lemma firstn_pairs {A} (t : list A) k : 2 * k <= length t -> pairs (firstn (2 * k) t) = firstn k (pairs t) /\ pairs (skipn (2 * k) t) = skipn k (pairs t).
Proof.
  intros H. assert (HL : length (firstn (2 * k) t) = 2 * k) by (apply firstn_length_le; lia).
  assert (E : pairs t = pairs (firstn (2 * k) t) ++ pairs (skipn (2 * k) t)).
  { rewrite <- pairs_app by (rewrite HL, Nat.even_mul; reflexivity). now rewrite firstn_skipn. }
  pose proof (pairs_length k _ HL) as LP. rewrite E.
  rewrite firstn_app, skipn_app, LP, Nat.sub_diag. rewrite (firstn_all2 (pairs (firstn (2 * k) t))), (skipn_all2 (pairs (firstn (2 * k) t))) by lia. cbn [firstn skipn]. now rewrite app_nil_r.
Qed.
Lemma itf_crossing t t' i j : Forall is_digit t -> Forall is_digit t' -> Nat.even i = true -> Nat.even j = true -> i <= length t -> j <= length t' ->
  crossing (place SItf t i) (place SItf t' j) (render (itf_symbol 3 2 t)) (render (itf_symbol 3 2 t')) = render (itf_symbol 3 2 (crossing i j t t')).
Proof.
  intros H H' Ei Ej Hi Hj. apply Nat.even_spec in Ei, Ej. destruct Ei as [a ->]. destruct Ej as [b ->].
  assert (G : forall t, Forall is_digit t -> Forall (fun c => Nat.even (length (itf_pair 3 c)) = true) (pairs t) /\ Forall (fun c => list_sum (itf_pair 3 c) = 18) (pairs t)).
  { intros u Hu. pose proof (pairs_digits _ u (le_n _) Hu) as HP. split; revert HP; apply Forall_impl; intros [x x'] [Hx Hx']; destruct (itf_pair_size x x' Hx Hx') as [E1 E2]; [now rewrite E2 | assumption]. }
  assert (LP : forall (t : list N) k, 2 * k <= length t -> k <= length (pairs t)).
  { intros u k Hk. destruct (firstn_pairs u k Hk) as [E _]. assert (HL : length (firstn (2 * k) u) = 2 * k) by (apply firstn_length_le; lia).
    apply pairs_length in HL. rewrite E, firstn_length in HL. lia. }
  assert (EP : forall t k, Forall is_digit t -> 2 * k <= length t -> place SItf t (2 * k) = list_sum ([1;1;1;1] ++ concat (map (itf_pair 3) (firstn k (pairs t))))).
  { intros u k Hu Hk. rewrite list_sum_app, (tiles_place_sum _ 18) by (now apply LP || apply (G u Hu)). change (list_sum [1;1;1;1]) with 4. cbn [place].
    rewrite (Nat.mul_comm 2 k), Nat.div_mul by discriminate. lia. }
  rewrite (EP t a), (EP t' b) by assumption. unfold itf_symbol.
  assert (EC : pairs (crossing (2 * a) (2 * b) t t') = crossing a b (pairs t) (pairs t')).
  { unfold crossing. rewrite pairs_app by (rewrite firstn_length_le, Nat.even_mul by assumption; reflexivity).
    destruct (firstn_pairs t a Hi) as [-> _]. now destruct (firstn_pairs t' b Hj) as [_ ->]. }
  rewrite EC. apply tiles_crossing; try (now apply G). now apply LP.
Qed.
Lemma cod_crossing t t' i j : Forall cod_in t -> Forall cod_in t' -> i < length t -> j < length t' ->
  crossing (place SCodabar t i) (place SCodabar t' j) (render (sep_symbol lib_pattern t)) (render (sep_symbol lib_pattern t')) = render (sep_symbol lib_pattern (crossing i j t t')).
Proof.
  intros H H' Hi Hj. set (f := fun c => lib_pattern c ++ [1]).
  assert (G : forall t, Forall cod_in t -> Forall (fun c => Nat.even (length (f c)) = true) t).
  { intros u Hu; revert Hu; apply Forall_impl; intros x Hx; unfold f; now rewrite app_length, lib_pattern_length. }
  assert (EP : forall t i, Forall cod_in t -> i <= length t -> place SCodabar t i = list_sum ([] ++ concat (map f (firstn i t)))).
  { intros u k Hu Hk. apply (Forall_firstn' _ _ k) in Hu. cbn [place app].
    pose proof (cod_run _ Hu) as E. unfold str, char in *. rewrite firstn_length_le in E by assumption. fold f in E. now rewrite E. }
  assert (EB : forall t, Forall cod_in t -> t <> [] -> render ([] ++ concat (map f t) ++ []) = render (sep_symbol lib_pattern t) ++ [0%N]).
  { intros u Hu Hn. rewrite app_nil_r. cbn [app]. pose proof (sep_symbol_blocks lib_pattern u Hn) as E. rewrite map_map in E. fold f in E. rewrite <- E.
    unfold render. rewrite render_from_app_odd by (auto; now apply sep_odd; [exact lib_pattern_length | |]). reflexivity. }
  assert (N1 : t <> []) by (intros ->; cbn in Hi; lia). assert (N2 : t' <> []) by (intros ->; cbn in Hj; lia).
  assert (LE : forall t i, Forall cod_in t -> i < length t -> place SCodabar t i <= length (render (sep_symbol lib_pattern t))).
  { intros u k Hu Hk. assert (Hn : u <> []) by (intros ->; cbn in Hk; lia). pose proof (EB u Hu Hn) as E. apply (f_equal (@length N)) in E.
    rewrite app_length in E. cbn [length] in E. unfold render in E at 1. rewrite render_from_length, (tiles_split f [] [] u k), list_sum_app, <- (EP u k) in E by (assumption || lia).
    assert (1 <= list_sum (concat (map f (skipn k u)) ++ [])); [|lia].
    destruct (skipn k u) as [|x v] eqn:ES; [apply (f_equal (@length N)) in ES; rewrite skipn_length in ES; cbn in ES; lia|].
    cbn [map concat]. unfold f at 1. rewrite !list_sum_app. cbn [list_sum fold_right]. lia. }
  assert (NC : crossing i j t t' <> []).
  { intros E. apply (f_equal (@length _)) in E. unfold str, char in *. rewrite (crossing_length i j t t') in E by (apply Nat.lt_le_incl; exact Hi). cbn [length] in E. lia. }
  pose proof (tiles_crossing f [] [] i j t t' (G t H) (G t' H') ltac:(lia)) as T.
  rewrite <- (EP t i), <- (EP t' j) in T by (assumption || lia). rewrite !EB in T by (assumption || now apply crossing_Forall).
  rewrite crossing_snoc in T by now apply LE. now apply app_inj_tail in T.
Qed.

(** ** Retail symbols *)
Lemma combine_split {A B} (a b : list A) (c d : list B) : length a = length c -> combine (a ++ b) (c ++ d) = combine a c ++ combine b d.
Proof. revert c. induction a as [|x a IH]; intros [|y c] H; try discriminate; [reflexivity|]. cbn [app combine]. f_equal. apply IH. now injection H. Qed.
Lemma draw_left_app a b c d : length a = length c -> draw_left (a ++ b) (c ++ d) = draw_left a c ++ draw_left b d.
Proof. intros H. unfold draw_left. now rewrite combine_split, map_app, concat_app. Qed.
Lemma draw_right_app a b : draw_right (a ++ b) = draw_right a ++ draw_right b.
Proof. unfold draw_right. now rewrite map_app, concat_app. Qed.
Lemma halves_split_left n ps t k : k < n -> length ps = n -> n <= length t ->
  halves_symbol n ps t = (normal_guard ++ draw_left (firstn k ps) (firstn k t)) ++
    draw_left (skipn k ps) (firstn (n - k) (skipn k t)) ++ centre_guard ++ draw_right (skipn (n - k) (skipn k t)) ++ normal_guard.
Proof.
  intros Hk HP HL. unfold halves_symbol. rewrite <- !app_assoc. f_equal. rewrite (app_assoc (draw_left (firstn k ps) _)). f_equal.
  - rewrite <- draw_left_app by (rewrite !firstn_length; lia). rewrite firstn_skipn, firstn_skipn_comm. replace (k + (n - k)) with n by lia.
    f_equal. rewrite <- (firstn_skipn k (firstn n t)) at 1. now rewrite firstn_firstn, Nat.min_l by lia.
  - f_equal. f_equal. rewrite skipn_skipn'. f_equal. f_equal; lia.
Qed.
Lemma halves_split_right n ps t k : n <= k -> k <= length t -> 
  halves_symbol n ps t = (normal_guard ++ draw_left ps (firstn n (firstn k t)) ++ centre_guard ++ draw_right (skipn n (firstn k t))) ++ draw_right (skipn k t) ++ normal_guard.
Proof.
  intros Hk HL. unfold halves_symbol. rewrite <- !app_assoc. f_equal. rewrite firstn_firstn, Nat.min_l by assumption. f_equal. f_equal.
  rewrite (app_assoc (draw_right _)). f_equal. rewrite <- draw_right_app. f_equal.
  rewrite <- (firstn_skipn k t) at 1. rewrite skipn_app, firstn_length_le by assumption. now replace (n - k) with 0 by lia.
Qed.
Definition seam (n k : nat) : nat := if Nat.ltb k n then 7 * k + 3 else 7 * k + 8.
Lemma halves_crossing n ps ps' t t' k : Forall is_digit t -> Forall is_digit t' -> length ps = n -> length ps' = n -> n <= length t -> n <= length t' ->
  k <= length t -> k <= length t' ->
  crossing (seam n k) (seam n k) (render (halves_symbol n ps t)) (render (halves_symbol n ps' t'))
  = render (halves_symbol n (crossing k k ps ps') (crossing k k t t')).
Proof.
  intros HD HD' HP HP' HL HL' Hk Hk'. unfold seam. destruct (Nat.ltb_spec k n) as [L|L].
  - assert (G : forall (qs : list parity) u, Forall is_digit u -> length qs = n -> k <= length u -> 
      list_sum (normal_guard ++ draw_left (firstn k qs) (firstn k u)) = 7 * k + 3 /\ length (normal_guard ++ draw_left (firstn k qs) (firstn k u)) = 4 * k + 3).
    { intros qs u Hu HQ HK. destruct (draw_left_sum (firstn k qs) (firstn k u)) as [E1 E2]; [now apply Forall_firstn' | rewrite !firstn_length; lia|].
      rewrite firstn_length_le in E1, E2 by assumption. rewrite list_sum_app, app_length, E1, E2. split; cbn; lia. }
    destruct (G ps t HD HP Hk) as [S1 L1]. destruct (G ps' t' HD' HP' Hk') as [S2 L2].
    assert (HU : k <= length (crossing k k t t')) by (rewrite crossing_length by assumption; lia).
    rewrite (halves_split_left n ps t k), (halves_split_left n ps' t' k), (halves_split_left n (crossing k k ps ps') (crossing k k t t') k)
      by (assumption || (rewrite crossing_length; lia)).
    rewrite !crossing_front, !crossing_back by lia. rewrite <- S1 at 1. rewrite <- S2 at 1. apply render_crossing. now rewrite L1, L2.
  - assert (G : forall (qs : list parity) u, Forall is_digit u -> length qs = n -> k <= length u -> 
      let L := normal_guard ++ draw_left qs (firstn n (firstn k u)) ++ centre_guard ++ draw_right (skipn n (firstn k u)) in
      list_sum L = 7 * k + 8 /\ length L = 4 * k + 8).
    { intros qs u Hu HQ HK. cbv zeta. assert (LU : length (firstn k u) = k) by now apply firstn_length_le.
      destruct (draw_left_sum qs (firstn n (firstn k u))) as [E1 E2]; [now apply Forall_firstn', Forall_firstn' | rewrite !firstn_length; lia|].
      destruct (draw_right_size (skipn n (firstn k u))) as [E3 E4]; [now apply Forall_skipn', Forall_firstn'|].
      rewrite firstn_length_le in E1, E2 by lia. rewrite skipn_length, LU in E3, E4.
      rewrite !list_sum_app, !app_length, E1, E2, E3, E4. split; cbn [normal_guard centre_guard length list_sum fold_right]; lia. }
    destruct (G ps t HD HP Hk) as [S1 L1]. destruct (G ps' t' HD' HP' Hk') as [S2 L2].
    assert (EQ : crossing k k ps ps' = ps). { unfold crossing. rewrite firstn_all2, skipn_all2 by lia. apply app_nil_r. }
    rewrite EQ, (halves_split_right n ps t k), (halves_split_right n ps' t' k), (halves_split_right n ps (crossing k k t t') k)
      by (assumption || (rewrite crossing_length; lia)).
    rewrite crossing_front, crossing_back by assumption. rewrite <- S1 at 1. rewrite <- S2 at 1. apply render_crossing. now rewrite L1, L2.
Qed.

Definition front_sum (l : list N) : list N -> N := if Nat.even (length l) then alt_sum 3 1 else alt_sum 1 3.
Lemma gs1_from_left l : gs1_sum l = front_sum l l.
Proof. unfold gs1_sum, front_sum. rewrite alt_sum_rev. now destruct (Nat.even (length l)). Qed.
Lemma cancel_ten a b c d : ((a + b) mod 10 = 0 -> (c + d) mod 10 = 0 -> ((a + d) mod 10 =? 0) = (a mod 10 =? c mod 10))%N.
Proof.
  intros H1 H2. destruct (N.eqb_spec (a mod 10) (c mod 10)) as [E|E].
  - apply N.eqb_eq. rewrite N.add_mod by discriminate. rewrite E. now rewrite <- N.add_mod by discriminate.
  - apply N.eqb_neq. intros E'. apply E. clear E H1.
    pose proof (N.div_mod a 10 ltac:(discriminate)) as A1. pose proof (N.div_mod c 10 ltac:(discriminate)) as A2.
    pose proof (N.div_mod (a + d) 10 ltac:(discriminate)) as A3. pose proof (N.div_mod (c + d) 10 ltac:(discriminate)) as A4.
    pose proof (N.mod_lt a 10 ltac:(discriminate)) as B1. pose proof (N.mod_lt c 10 ltac:(discriminate)) as B2.
    rewrite E' in A3. rewrite H2 in A4. clear E' H2.
    generalize dependent (a mod 10)%N. generalize dependent (c mod 10)%N. generalize dependent (a / 10)%N. generalize dependent (c / 10)%N.
    generalize dependent ((a + d) / 10)%N. generalize dependent ((c + d) / 10)%N. intros. lia.
Qed.
Lemma valid_crossing t t' k : length t = length t' -> k <= length t -> gs1_valid t -> gs1_valid t' ->
  gs1_validb (crossing k k t t') = (front_sum t (firstn k t) mod 10 =? front_sum t (firstn k t') mod 10)%N.
Proof.
  intros HL Hk HV HV'. unfold gs1_valid in *. unfold gs1_validb. rewrite gs1_from_left in *.
  assert (LU : length (crossing k k t t') = length t) by (rewrite crossing_length by assumption; lia).
  assert (EF : forall l, length l = length t -> front_sum l = front_sum t) by (intros l E; unfold front_sum; now rewrite E).
  rewrite (EF _ LU). rewrite (EF t' (eq_sym HL)) in HV'. clear EF LU.
  rewrite <- (firstn_skipn k t) in HV at 2. rewrite <- (firstn_skipn k t') in HV'. unfold crossing.
  unfold front_sum in *. destruct (Nat.even (length t)); rewrite alt_sum_app in *; rewrite firstn_length_le in * by (assumption || lia); eapply cancel_ten; eassumption.
Qed.

Lemma fixed_crossing y (n : nat) t t' k : (y = SEan8 /\ n = 4 \/ y = SUpca /\ n = 6) -> Forall is_digit t -> Forall is_digit t' -> length t = 2 * n -> length t' = 2 * n ->
  gs1_valid t -> gs1_valid t' -> k <= 2 * n ->
  let draw := match y with SEan8 => ean8_symbol | _ => upca_symbol end in let u := crossing k k t t' in
  read_modules y (crossing (place y t k) (place y t' k) (render (draw t)) (render (draw t'))) =
    if (alt_sum 3 1 (firstn k t) mod 10 =? alt_sum 3 1 (firstn k t') mod 10)%N then Some (Digits u) else None.
Proof.
  intros HY HD HD' HL HL' HV HV' Hk. cbv zeta.
  assert (LU : length (crossing k k t t') = 2 * n) by (rewrite crossing_length; lia).
  assert (DU : Forall is_digit (crossing k k t t')) by now apply crossing_Forall.
  pose proof (valid_crossing t t' k ltac:(lia) ltac:(lia) HV HV') as VC. unfold front_sum in VC. rewrite HL, Nat.even_mul in VC. cbn [Nat.even orb] in VC.
  rewrite <- VC. clear VC.
  assert (EP : forall ps : list parity, length ps = n -> crossing k k ps ps = ps) by (intros; apply firstn_skipn).
  destruct HY as [[-> ->]|[-> ->]]; cbn [place].
  - fold (seam 4 k). change (ean8_symbol ?t) with (halves_symbol 4 [PA;PA;PA;PA] t).
    rewrite halves_crossing, EP by (assumption || reflexivity || lia). change (halves_symbol 4 [PA;PA;PA;PA] ?t) with (ean8_symbol t).
    unfold read_modules. rewrite ean8_scan by assumption. cbn [obind read_as]. unfold read_ean8, ean8_symbol.
    rewrite read_retail by (reflexivity || (rewrite ?firstn_length, ?skipn_length; lia) || now (apply Forall_firstn' || apply Forall_skipn')).
    cbn [obind]. rewrite map_fst_combine, map_snd_combine by (rewrite firstn_length; cbn [length]; lia). rewrite firstn_skipn.
    change (parities_eqb [PA;PA;PA;PA] [PA;PA;PA;PA]) with true. cbn [andb]. now destruct (gs1_validb _).
  - fold (seam 6 k). change (upca_symbol ?t) with (halves_symbol 6 [PA;PA;PA;PA;PA;PA] t).
    rewrite halves_crossing, EP by (assumption || reflexivity || lia). change (halves_symbol 6 [PA;PA;PA;PA;PA;PA] ?t) with (upca_symbol t).
    unfold read_modules. rewrite upca_scan by assumption. cbn [obind read_as]. unfold read_upca, upca_symbol.
    rewrite read_retail by (reflexivity || (rewrite ?firstn_length, ?skipn_length; lia) || now (apply Forall_firstn' || apply Forall_skipn')).
    cbn [obind]. rewrite map_fst_combine, map_snd_combine by (rewrite firstn_length; cbn [length]; lia). rewrite firstn_skipn.
    change (parities_eqb [PA;PA;PA;PA;PA;PA] [PA;PA;PA;PA;PA;PA]) with true. cbn [andb]. now destruct (gs1_validb _).
Qed.
