(** * What is printed of hand-built add-on values *)
From Verif Require Import Rust M_Error M_Parse M_Helpers M_Tables M_Ean13 M_EanSupp
  Symbology S_Barcode S_Ean S_Text S_Linear S_All P_Rust P_Parse P_Barcode P_Gs1 P_Ean P_Retail P_Supp.
Local Arguments N.add : simpl never.
Local Arguments N.mul : simpl never.
Local Arguments N.modulo : simpl never.

Lemma draw_firstn ps ds : forall first, draw_addon first ps ds = draw_addon first ps (firstn (length ps) ds).
Proof.
  revert ds. induction ps as [|p ps IH]; intros [|d ds] first; try reflexivity. cbn [draw_addon length firstn]. now rewrite <- IH.
Qed.
Lemma combine_firstn' {A B} (ps : list B) (ds : list A) : combine ds ps = combine (firstn (length ps) ds) ps.
Proof. revert ps. induction ds as [|d ds IH]; intros [|p ps]; try reflexivity. cbn [combine length firstn]. now rewrite <- IH. Qed.

Lemma eansupp_prints p b ps :
  eansupp_parity p b = Ret (map side ps) -> Forall is_digit (firstn (length ps) (eansupp_raw_data b)) ->
  eansupp_encode p b = Ret (render (addon_guard ++ draw_addon true ps (eansupp_raw_data b))).
Proof.
  intros Hp Hd. unfold eansupp_encode, eansupp_payload. rewrite Hp. cbn [bind].
  rewrite combine_firstn', map_length, draw_firstn. set (ds := firstn (length ps) (eansupp_raw_data b)) in *. clearbody ds.
  rewrite left_payload_gen by assumption. cbn [bind].
  destruct ps as [|q ps]; [reflexivity|]. destruct ds as [|d ds]; [reflexivity|]. cbn [combine map].
  rewrite payload_join, render_addon by assumption. f_equal. unfold join_slices. cbn [concat].
  rewrite app_nil_r, map_map. reflexivity.
Qed.

Lemma ean2_prints p a b t : Forall is_digit (firstn 5 (a :: b :: t)) ->
  eansupp_encode p (EAN2 (a :: b :: t)) =
  Ret (render (addon_guard ++ draw_addon true (nth (N.to_nat ((10 * a + b) mod 4)) ean2_parities [] ++ [PA; PA; PA]) (a :: b :: t))).
Proof.
  intros HD.
  assert (Hab : is_digit a /\ is_digit b) by (cbn [firstn] in HD; rewrite !Forall_cons_iff in HD; tauto). destruct Hab as [Ha Hb].
  assert (Hp : eansupp_parity p (EAN2 (a :: b :: t)) = index supp_EAN2_PARITY ((10 * a + b) mod 4)).
  { unfold eansupp_parity. change (index (a :: b :: t) 0) with (Ret a). change (index (a :: b :: t) 1) with (Ret b). cbn [bind].
    unfold is_digit in *. unfold mul_u, add_u. rewrite fit_u_ok by (change (2 ^ 8) with 256; lia). cbn [bind].
    rewrite fit_u_ok by (change (2 ^ 8) with 256; lia). cbn [bind].
    rewrite rem_u_ok by discriminate. cbn [bind]. now rewrite (N.mul_comm a 10). }
  destruct (mod_cases4 (10 * a + b)) as [E|[E|[E|E]]]; rewrite E in *;
    (apply (eansupp_prints p (EAN2 (a :: b :: t))); [rewrite Hp; reflexivity | exact HD]).
Qed.

Lemma supp_loop_sums l : forall i o e, exists o' e', foldM (eansupp_checksum_step Release) (enumerate_from i l) (o, e) = Ret (o', e') /\
  o' mod 256 = (o + (if i mod 2 =? 1 then alt_sum 0 1 l else alt_sum 1 0 l)) mod 256 /\
  e' mod 256 = (e + (if i mod 2 =? 1 then alt_sum 1 0 l else alt_sum 0 1 l)) mod 256.
Proof.
  induction l as [|d l IH]; intros i o e; cbn [enumerate_from foldM alt_sum].
  { exists o, e. split; [reflexivity|]. destruct (i mod 2 =? 1); now rewrite !N.add_0_r. }
  unfold eansupp_checksum_step at 1, add_u. rewrite !fit_u_release.
  destruct (i mod 2 =? 1) eqn:Ei; cbn [bind].
  - destruct (IH (i + 1) o ((e + d) mod 2 ^ 8)) as (o' & e' & E & Ho & He). exists o', e'. split; [exact E|].
    rewrite mod2_succ, Ei in Ho, He. cbn [negb] in Ho, He. change (2 ^ 8) with 256 in *. split.
    + rewrite Ho. apply (f_equal (fun x => x mod 256)); lia.
    + rewrite He, N.add_mod_idemp_l by discriminate. apply (f_equal (fun x => x mod 256)); lia.
  - destruct (IH (i + 1) ((o + d) mod 2 ^ 8) e) as (o' & e' & E & Ho & He). exists o', e'. split; [exact E|].
    rewrite mod2_succ, Ei in Ho, He. cbn [negb] in Ho, He. change (2 ^ 8) with 256 in *. split.
    + rewrite Ho, N.add_mod_idemp_l by discriminate. apply (f_equal (fun x => x mod 256)); lia.
    + rewrite He. apply (f_equal (fun x => x mod 256)); lia.
Qed.
Lemma ean5_parity_hand p d : (p = Debug -> alt_sum 3 9 d < 256) ->
  eansupp_parity p (EAN5 d) = index supp_EAN5_PARITY ((alt_sum 3 9 d mod 256) mod 10).
Proof.
  intros H. unfold eansupp_parity, eansupp_checksum_digit, enumerate. cbn [eansupp_raw_data]. rewrite (alt_sum_split 3 9 d) in *.
  assert (Hlt : forall v, (if v mod 10 =? 10 then 0 else v mod 10) = v mod 10).
  { intros v. replace (v mod 10 =? 10) with false; [reflexivity|]. symmetry. apply N.eqb_neq.
    assert (v mod 10 < 10) by (apply N.mod_lt; discriminate). lia. }
  destruct p.
  - specialize (H eq_refl). pose proof (supp_loop_debug d 0 0 0 eq_refl eq_refl) as El. cbn zeta in El.
    change (0 mod 2 =? 1) with false in El. cbv iota in El. rewrite !N.add_0_l in El. rewrite El.
    set (o := alt_sum 1 0 d) in *. set (e := alt_sum 0 1 d) in *. clearbody o e.
    replace (o <? 256) with true by (symmetry; apply N.ltb_lt; lia).
    replace (e <? 256) with true by (symmetry; apply N.ltb_lt; lia). cbn [andb bind]. unfold mul_u, add_u.
    do 3 (rewrite fit_u_ok by (change (2 ^ 8) with 256; lia); cbn [bind]).
    rewrite rem_u_ok by discriminate. cbn [bind]. rewrite Hlt, (N.mod_small (3 * o + 9 * e)) by assumption. f_equal. apply (f_equal (fun x => x mod 10)); lia.
  - clear H. destruct (supp_loop_sums d 0 0 0) as (o & e & El & Ho & He). rewrite El. cbn [bind].
    change (0 mod 2 =? 1) with false in Ho, He. cbv iota in Ho, He. rewrite N.add_0_l in Ho, He.
    unfold mul_u, add_u. rewrite !fit_u_release. cbn [bind]. rewrite fit_u_release. cbn [bind].
    rewrite rem_u_ok by discriminate. cbn [bind]. rewrite Hlt. f_equal. f_equal. change (2 ^ 8) with 256.
    rewrite <- N.add_mod by discriminate. rewrite (N.add_mod (o * 3)), (N.mul_mod o), (N.mul_mod e), Ho, He by discriminate.
    rewrite <- !N.mul_mod, <- N.add_mod by discriminate. apply (f_equal (fun x => x mod 256)); lia.
Qed.
Lemma ean5_prints p d : Forall is_digit (firstn 5 d) -> (p = Debug -> alt_sum 3 9 d < 256) ->
  eansupp_encode p (EAN5 d) =
  Ret (render (addon_guard ++ draw_addon true (nth (N.to_nat ((alt_sum 3 9 d mod 256) mod 10)) ean5_parities []) d)).
Proof.
  intros HD H. pose proof (ean5_parity_hand p d H) as Hp.
  assert (Hv : is_digit ((alt_sum 3 9 d mod 256) mod 10)) by (apply N.mod_lt; discriminate).
  set (v := (alt_sum 3 9 d mod 256) mod 10) in *. clearbody v.
  by_digit Hv; (apply (eansupp_prints p (EAN5 d)); [rewrite Hp; reflexivity | exact HD]).
Qed.

(** Nothing but the digits that were given can be read from such a symbol. *)
Lemma addon_read ps ds r : length ps = 5%nat -> Forall is_digit (firstn 5 ds) ->
  read_modules SSupp (render (addon_guard ++ draw_addon true ps ds)) = Some r -> r = Digits (firstn 5 ds).
Proof.
  intros L HD H. rewrite draw_firstn, L in H. unfold read_modules in H. rewrite addon_scan in H by assumption. cbn [obind read_as] in H.
  assert (Hl : (length (firstn 5 ds) <= 5)%nat) by (rewrite firstn_length; lia).
  set (d := firstn 5 ds) in *. clearbody d. destruct ps as [|q ps]; [discriminate|].
  destruct d as [|x d]; [vm_compute in H; discriminate H|].
  unfold read_ean2, read_ean5 in H. rewrite read_addon_ok in H by assumption. cbn [obind] in H.
  assert (E : map snd (combine (q :: ps) (x :: d)) = x :: d).
  { assert (G : (length (x :: d) <= length (q :: ps))%nat) by lia. revert G. generalize (q :: ps) as a, (x :: d) as b. clear.
    induction a as [|u a IH]; intros [|v b] G; try reflexivity; cbn [length] in G; [lia|]. cbn [combine map snd]. rewrite IH by lia. reflexivity. }
  rewrite E in H. unfold guard in H.
  destruct (which_parity ean2_parities _) as [v|]; cbn [obind option_map] in H.
  - destruct (Nat.eqb (length (x :: d)) 2 && (N.of_nat v =? ean2_variant (x :: d))); [congruence|].
    destruct (which_parity ean5_parities _) as [v'|]; cbn [obind option_map] in H; [|discriminate].
    destruct (Nat.eqb (length (x :: d)) 5 && (N.of_nat v' =? ean5_variant (x :: d))); [|discriminate]. cbn [option_map] in H. congruence.
  - destruct (which_parity ean5_parities _) as [v'|]; cbn [obind option_map] in H; [|discriminate].
    destruct (Nat.eqb (length (x :: d)) 5 && (N.of_nat v' =? ean5_variant (x :: d))); [|discriminate]. cbn [option_map] in H. congruence.
Qed.
Lemma hand_built_read p b m r : eansupp_encode p b = Ret m -> read_modules SSupp m = Some r ->
  r = Digits (firstn 5 (match b with EAN2 d => d | EAN5 d => d end)).
Proof.
  intros E H. destruct b as [d|d].
  - assert (R : returns (eansupp_encode p (EAN2 d))) by (rewrite E; eexists; reflexivity).
    apply ean2_returns in R. destruct R as [L HD]. destruct d as [|a [|b t]]; cbn [length] in L; [lia | lia|].
    rewrite ean2_prints in E by assumption. injection E as <-. refine (addon_read _ _ _ _ HD H).
    destruct (mod_cases4 (10 * a + b)) as [E|[E|[E|E]]]; rewrite E; reflexivity.
  - assert (R : returns (eansupp_encode p (EAN5 d))) by (rewrite E; eexists; reflexivity).
    assert (HD : Forall is_digit (firstn 5 d) /\ (p = Debug -> alt_sum 3 9 d < 256)).
    { destruct p; [apply ean5_returns_debug in R; tauto | apply ean5_returns_release in R; split; [assumption | discriminate]]. }
    destruct HD as [HD HS]. rewrite ean5_prints in E by assumption. injection E as <-. refine (addon_read _ _ _ _ HD H).
    assert (Hv : is_digit ((alt_sum 3 9 d mod 256) mod 10)) by (apply N.mod_lt; discriminate).
    set (v := (alt_sum 3 9 d mod 256) mod 10) in *. clearbody v. by_digit Hv; reflexivity.
Qed.
