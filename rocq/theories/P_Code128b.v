(** * Proofs about Code 128: symbols, check symbol, reader *)
From Coq Require Import ZArith.
From Verif Require Import Rust M_Error M_Tables M_Helpers M_Code128
  S_Barcode S_Linear S_Tf S_Code128 P_Rust P_Barcode P_Parse P_Alphabet P_Tf P_Code128.

(** ** Element table *)
Lemma c128_nodup : NoDup c128_table. Proof. apply nodupb_NoDup. vm_compute. reflexivity. Qed.
Lemma c128_table_length : length c128_table = 106%nat. Proof. reflexivity. Qed.
Lemma which_c128 v : v < 106 -> which c128_table (c128_pattern v) = Some (N.to_nat v).
Proof.
  intros H. apply which_nth; [exact c128_nodup|]. rewrite c128_table_length. lia.
Qed.
Lemma code128_CHARS_out v : 106 <= v -> index code128_CHARS v = Panic PanicIndex.
Proof. intros H. apply index_out. exact H. Qed.
Lemma code128_rev_start k :
  widths_eqb (skipn 1 c128_stop) (rev (c128_pattern (start_value k))) = false.
Proof. destruct k; vm_compute; reflexivity. Qed.
Lemma code128_stop_render : code128_STOP ++ code128_TERM = render c128_stop.
Proof. reflexivity. Qed.
Definition row_ok (v : N) : bool :=
  let ws := c128_pattern v in
  Nat.eqb (length ws) 6 && widths_in 4 ws && Nat.eqb (list_sum ws) 11
  && match index code128_CHARS v with Ret row => str_eqb (snd row) (render ws) | Panic _ => false end.
Lemma rows_ok : forallb row_ok (range 106) = true.
Proof. vm_compute. reflexivity. Qed.
Lemma row_ok_lt v : v < 106 -> row_ok v = true.
Proof.
  intros H. pose proof rows_ok as E. rewrite forallb_forall in E.
  exact (E v (proj2 (In_range 106 v) H)).
Qed.
Local Opaque c128_pattern code128_CHARS.
Lemma c128_row v : v < 106 ->
  length (c128_pattern v) = 6%nat /\ Forall (fun w => 1 <= w <= 4)%nat (c128_pattern v) /\
  list_sum (c128_pattern v) = 11%nat /\
  exists row, index code128_CHARS v = Ret row /\ snd row = render (c128_pattern v).
Proof.
  intros H. pose proof (row_ok_lt v H) as E. unfold row_ok in E. cbv zeta in E.
  destruct (index code128_CHARS v) as [row|] eqn:Ei; [|now rewrite andb_false_r in E].
  apply andb_prop in E. destruct E as [E E4]. apply andb_prop in E. destruct E as [E E3].
  apply andb_prop in E. destruct E as [E1 E2]. apply Nat.eqb_eq in E1, E3.
  split; [assumption|]. split; [now apply widths_in_Forall|]. split; [assumption|].
  exists row. split; [reflexivity|]. now apply str_eqb_eq.
Qed.
Local Opaque c128_pattern c128_table code128_CHARS.

(** ** Value ranges *)
Lemma char_value_bound k c : legal k c -> char_value k c <= 102.
Proof.
  intros H. apply N.leb_le. revert c H. apply legal_all. destruct k; vm_compute; reflexivity.
Qed.
Lemma pair_value_bound x y : digit x = true -> digit y = true -> pair_value x y <= 99.
Proof.
  unfold digit, pair_value. rewrite !andb_true_iff, !N.leb_le. lia.
Qed.
Lemma pair_values_bound body : Forall (legal CC) body -> forall first, 
  (match first with Some x => digit x = true | None => True end) ->
  Forall (fun v => v <= 102) (pair_values first body).
Proof.
  induction 1 as [|c body Hc H IH]; intros first Hf; cbn [pair_values]; [constructor|].
  destruct (digit c) eqn:Ed.
  - destruct first as [x|].
    + constructor; [|now apply IH]. pose proof (pair_value_bound x c Hf Ed). lia.
    + now apply IH.
  - constructor; [|now apply IH]. destruct Hc as [Hc| ->]; [congruence|]. discriminate.
Qed.
Lemma body_values_bound k body : Forall (legal k) body -> Forall (fun v => v <= 102) (body_values k body).
Proof.
  intros H. destruct k; cbn [body_values].
  - apply Forall_map. revert H. apply Forall_impl. intros c. apply char_value_bound.
  - apply Forall_map. revert H. apply Forall_impl. intros c. apply char_value_bound.
  - now apply pair_values_bound.
Qed.
Lemma rest_values_bound segs : Forall segment_ok segs ->
  Forall (fun v => v <= 102) (concat (map (fun x => switch_value (fst x) :: body_values (fst x) (snd x)) segs)).
Proof.
  induction 1 as [|[k body] segs [Hb _] H IH]; cbn [map concat fst snd]; [constructor|].
  cbn [app]. constructor; [destruct k; discriminate|]. apply Forall_app. split; [|exact IH].
  now apply body_values_bound.
Qed.
(** First value a start, the others at most 102 *)
Lemma message_values_bound segs : message_ok segs -> exists k vs,
  message_values segs = start_value k :: vs /\ Forall (fun v => v <= 102) vs.
Proof.
  intros [Hn [HF _]]. destruct segs as [|[k body] segs]; [congruence|].
  inversion HF as [|? ? [Hb _] HF']; subst. cbn [message_values]. eexists. eexists.
  split; [reflexivity|]. apply Forall_app. split; [now apply body_values_bound | now apply rest_values_bound].
Qed.
Lemma start_bound k : start_value k <= 105. Proof. destruct k; discriminate. Qed.
Lemma message_values_lt segs : message_ok segs -> Forall (fun v => v < 106) (message_values segs).
Proof.
  intros H. destruct (message_values_bound segs H) as [k [vs [-> HV]]].
  constructor; [pose proof (start_bound k); lia|]. revert HV. apply Forall_impl. intros v. lia.
Qed.

(** ** The check value in i32 *)
Fixpoint zsum (i : Z) (vs : list N) : Z :=
  match vs with
  | [] => 0
  | v :: tl => (Z.of_N v * Z.max 1 i + zsum (i + 1) tl)%Z
  end.
Lemma zsum_position vs : forall i, (1 <= i)%N -> zsum (Z.of_N i) vs = Z.of_N (position_sum i vs).
Proof.
  induction vs as [|v vs IH]; intros i Hi; cbn [zsum position_sum]; [reflexivity|].
  replace (Z.of_N i + 1)%Z with (Z.of_N (i + 1)) by lia. rewrite IH by lia.
  rewrite Z.max_r by lia. lia.
Qed.
Lemma zsum_c128 vs : zsum 0 vs = Z.of_N (c128_sum vs).
Proof.
  destruct vs as [|v vs]; [reflexivity|]. cbn [zsum c128_sum].
  change (0 + 1)%Z with (Z.of_N 1). rewrite zsum_position by lia. change (Z.max 1 0) with 1%Z. lia.
Qed.
Lemma zsum_nonneg vs : forall i, (0 <= i)%Z -> (0 <= zsum i vs)%Z.
Proof.
  induction vs as [|v vs IH]; intros i Hi; cbn [zsum]; [lia|].
  specialize (IH (i + 1)%Z ltac:(lia)). nia.
Qed.

Definition check_step p (t : Z) (x : unit128 * Z) : M Z :=
  let '(u, i) := x in
  m <- mul_i32 p (wrap_i32 (Z.of_N (u_index u))) (Z.max 1 i) ;;
  add_i32 p t m.
Definition nats_from (i : Z) (n : nat) : list Z := map (fun k => (i + Z.of_nat k)%Z) (seq 0 n).
Lemma nats_from_S i n : nats_from i (S n) = i :: nats_from (i + 1) n.
Proof.
  unfold nats_from. cbn [seq map]. rewrite <- seq_shift, map_map. f_equal; [lia|].
  apply map_ext. intros k. lia.
Qed.
Lemma range_i32_nats n : range_i32 (Z.of_nat n) = nats_from 0 n.
Proof. unfold range_i32, nats_from. rewrite Nat2Z.id. apply map_ext. intros k. lia. Qed.

Lemma fit_i32_ok p z : (- 2 ^ 31 <= z < 2 ^ 31)%Z -> fit_i32 p z = Ret z.
Proof.
  intros [H1 H2]. unfold fit_i32. apply Z.leb_le in H1. apply Z.ltb_lt in H2. now rewrite H1, H2.
Qed.
Lemma fit_i32_debug z : (2 ^ 31 <= z)%Z -> fit_i32 Debug z = Panic PanicOverflow.
Proof.
  intros H. unfold fit_i32. apply Z.ltb_ge in H. now rewrite H, andb_false_r.
Qed.
Lemma wrap_i32_small z : (- 2 ^ 31 <= z < 2 ^ 31)%Z -> wrap_i32 z = z.
Proof.
  intros H. unfold wrap_i32. rewrite Z.mod_small; [lia|].
  change (2 ^ 31)%Z with 2147483648%Z in *. change (2 ^ 32)%Z with 4294967296%Z. lia.
Qed.
Lemma fit_i32_release z : fit_i32 Release z = Ret (wrap_i32 z).
Proof.
  unfold fit_i32. destruct ((- 2 ^ 31 <=? z)%Z && (z <? 2 ^ 31)%Z) eqn:E; [|reflexivity].
  apply andb_prop in E. destruct E as [E1 E2]. apply Z.leb_le in E1. apply Z.ltb_lt in E2.
  now rewrite wrap_i32_small.
Qed.
Lemma wrap_i32_range z : (- 2 ^ 31 <= wrap_i32 z < 2 ^ 31)%Z.
Proof.
  unfold wrap_i32. pose proof (Z.mod_pos_bound (z + 2 ^ 31) (2 ^ 32) eq_refl).
  change (2 ^ 31)%Z with 2147483648%Z in *. change (2 ^ 32)%Z with 4294967296%Z in *. lia.
Qed.
Lemma wrap_i32_cong z : exists k, z = (wrap_i32 z + k * 2 ^ 32)%Z.
Proof.
  unfold wrap_i32. exists ((z + 2 ^ 31) / 2 ^ 32)%Z.
  pose proof (Z.div_mod (z + 2 ^ 31) (2 ^ 32) ltac:(discriminate)).
  change (2 ^ 31)%Z with 2147483648%Z in *. change (2 ^ 32)%Z with 4294967296%Z in *. lia.
Qed.
Lemma wrap_i32_add a k : wrap_i32 (a + k * 2 ^ 32) = wrap_i32 a.
Proof.
  unfold wrap_i32. replace (a + k * 2 ^ 32 + 2 ^ 31)%Z with (a + 2 ^ 31 + k * 2 ^ 32)%Z by lia.
  now rewrite Z.mod_add by discriminate.
Qed.
Lemma wrap_i32_plus a b : wrap_i32 (wrap_i32 a + wrap_i32 b) = wrap_i32 (a + b).
Proof.
  destruct (wrap_i32_cong a) as [x Ha], (wrap_i32_cong b) as [y Hb].
  rewrite Ha at 2. rewrite Hb at 2.
  replace (wrap_i32 a + x * 2 ^ 32 + (wrap_i32 b + y * 2 ^ 32))%Z
    with (wrap_i32 a + wrap_i32 b + (x + y) * 2 ^ 32)%Z by lia.
  now rewrite wrap_i32_add.
Qed.
Lemma wrap_i32_idem a : wrap_i32 (wrap_i32 a) = wrap_i32 a.
Proof. apply wrap_i32_small, wrap_i32_range. Qed.

Lemma index_wrap u : u_index u < 106 -> wrap_i32 (Z.of_N (u_index u)) = Z.of_N (u_index u).
Proof. intros H. apply wrap_i32_small. change (2 ^ 31)%Z with 2147483648%Z. lia. Qed.

Lemma check_loop_ok p us : Forall (fun u => u_index u < 106) us -> forall i t,
  (0 <= i)%Z -> (0 <= t)%Z -> (t + zsum i (map u_index us) < 2 ^ 31)%Z ->
  foldM (check_step p) (combine us (nats_from i (length us))) t = Ret (t + zsum i (map u_index us))%Z.
Proof.
  induction 1 as [|u us Hu H IH]; intros i t Hi Ht HS.
  - cbn. now rewrite Z.add_0_r.
  - cbn [length map zsum] in *. rewrite nats_from_S. cbn [combine foldM].
    pose proof (zsum_nonneg (map u_index us) (i + 1) ltac:(lia)) as HN.
    assert (HP : (0 <= Z.of_N (u_index u) * Z.max 1 i)%Z) by nia.
    unfold check_step at 1, mul_i32, add_i32. rewrite index_wrap by assumption.
    rewrite fit_i32_ok by lia. cbn [bind]. rewrite fit_i32_ok by lia. cbn [bind].
    rewrite IH by lia. f_equal. lia.
Qed.
Lemma check_loop_debug us : Forall (fun u => u_index u < 106) us -> forall i t,
  (0 <= i)%Z -> (0 <= t < 2 ^ 31)%Z -> (2 ^ 31 <= t + zsum i (map u_index us))%Z ->
  foldM (check_step Debug) (combine us (nats_from i (length us))) t = Panic PanicOverflow.
Proof.
  induction 1 as [|u us Hu H IH]; intros i t Hi Ht HS.
  - cbn [map zsum] in HS. lia.
  - cbn [length map zsum] in *. rewrite nats_from_S. cbn [combine foldM].
    assert (HP : (0 <= Z.of_N (u_index u) * Z.max 1 i)%Z) by nia.
    unfold check_step at 1, mul_i32, add_i32. rewrite index_wrap by assumption.
    destruct (Z.lt_ge_cases (Z.of_N (u_index u) * Z.max 1 i) (2 ^ 31)) as [L|G].
    + rewrite fit_i32_ok by lia. cbn [bind].
      destruct (Z.lt_ge_cases (t + Z.of_N (u_index u) * Z.max 1 i) (2 ^ 31)) as [L2|G2].
      * rewrite fit_i32_ok by lia. cbn [bind]. apply IH; lia.
      * rewrite fit_i32_debug by lia. reflexivity.
    + rewrite fit_i32_debug by lia. reflexivity.
Qed.
Lemma check_loop_release us : Forall (fun u => u_index u < 106) us -> forall i t,
  foldM (check_step Release) (combine us (nats_from i (length us))) (wrap_i32 t) =
  Ret (wrap_i32 (t + zsum i (map u_index us))).
Proof.
  induction 1 as [|u us Hu H IH]; intros i t.
  - cbn. now rewrite Z.add_0_r.
  - cbn [length map zsum]. rewrite nats_from_S. cbn [combine foldM].
    unfold check_step at 1, mul_i32, add_i32. rewrite index_wrap by assumption.
    rewrite !fit_i32_release. cbn [bind]. rewrite fit_i32_release. cbn [bind].
    rewrite wrap_i32_plus. rewrite IH. f_equal. f_equal. lia.
Qed.

(** The loop runs over the first [counted n] of n units: the length is cast to i32. *)
Lemma counted_le n : N.of_nat (counted n) <= n.
Proof.
  unfold counted. unfold wrap_i32. change (2 ^ 31)%Z with 2147483648%Z. change (2 ^ 32)%Z with 4294967296%Z.
  pose proof (Z.mod_le (Z.of_N n + 2147483648) 4294967296 ltac:(lia) ltac:(lia)).
  pose proof (Z.mod_pos_bound (Z.of_N n + 2147483648) 4294967296 ltac:(lia)).
  set (r := ((Z.of_N n + 2147483648) mod 4294967296)%Z) in *. clearbody r. lia.
Qed.
Lemma counted_small n : n < 2 ^ 31 -> counted n = N.to_nat n.
Proof.
  intros H. unfold counted. rewrite wrap_i32_small; [lia|].
  change (2 ^ 31)%Z with 2147483648%Z. change (2 ^ 31) with 2147483648 in H. lia.
Qed.
Lemma combine_firstn_l {A B} (l : list A) (m : list B) : combine l m = combine (firstn (length m) l) m.
Proof.
  revert m. induction l as [|x l IH]; intros [|y m]; try reflexivity. cbn [length firstn combine]. now rewrite IH.
Qed.
Lemma nats_from_length i n : length (nats_from i n) = n.
Proof. unfold nats_from. now rewrite map_length, seq_length. Qed.
Definition counted_units (us : list unit128) : list unit128 := firstn (counted (len us)) us.
Lemma counted_units_length us : length (counted_units us) = counted (len us).
Proof.
  unfold counted_units. rewrite firstn_length. pose proof (counted_le (len us)) as H.
  unfold len in H at 2. lia.
Qed.
Lemma checksum_loop p us :
  code128_checksum_value p (mkCode128 us) =
  (sum <- foldM (check_step p) (combine (counted_units us) (nats_from 0 (length (counted_units us)))) 0%Z ;;
   Ret (Z.to_N ((Z.rem sum 103) mod 256)%Z)).
Proof.
  unfold code128_checksum_value. cbn [c128_0].
  assert (E : range_i32 (wrap_i32 (Z.of_N (len us))) = nats_from 0 (counted (len us))).
  { rewrite <- range_i32_nats. unfold range_i32, counted. now rewrite Nat2Z.id. }
  rewrite E, counted_units_length.
  replace (combine us (nats_from 0 (counted (len us))))
    with (combine (counted_units us) (nats_from 0 (counted (len us)))); [reflexivity|].
  unfold counted_units. rewrite (combine_firstn_l us). now rewrite nats_from_length.
Qed.

Definition idx_ok (us : list unit128) : Prop := Forall (fun u => u_index u < 106) us.
Definition usum (us : list unit128) : N := c128_sum (map u_index us).

Lemma counted_idx us : idx_ok us -> idx_ok (counted_units us).
Proof.
  unfold idx_ok, counted_units. generalize (counted (len us)). intros n H. revert n.
  induction H as [|u us Hu H IH]; intros [|n]; cbn [firstn]; constructor; auto.
Qed.
Lemma checksum_ok p us : idx_ok us -> usum (counted_units us) < 2 ^ 31 ->
  code128_checksum_value p (mkCode128 us) = Ret (usum (counted_units us) mod 103).
Proof.
  intros HI HS. rewrite checksum_loop. apply counted_idx in HI.
  set (vs := counted_units us) in *. clearbody vs.
  assert (HZ : (0 + zsum 0 (map u_index vs) < 2 ^ 31)%Z).
  { rewrite zsum_c128. fold (usum vs). change (2 ^ 31)%Z with 2147483648%Z.
    change (2 ^ 31) with 2147483648 in HS. lia. }
  rewrite check_loop_ok by (assumption || lia). cbn [bind]. f_equal. rewrite Z.add_0_l, zsum_c128.
  fold (usum vs). rewrite Z.rem_mod_nonneg by lia.
  assert (E : (Z.of_N (usum vs) mod 103)%Z = Z.of_N (usum vs mod 103)) by (now rewrite N2Z.inj_mod).
  rewrite E. pose proof (N.mod_lt (usum vs) 103 ltac:(discriminate)) as HM.
  clear E HZ HS. set (r := usum vs mod 103) in *. clearbody r.
  rewrite Z.mod_small by lia. apply N2Z.id.
Qed.
Lemma checksum_debug us : idx_ok us -> 2 ^ 31 <= usum (counted_units us) ->
  code128_checksum_value Debug (mkCode128 us) = Panic PanicOverflow.
Proof.
  intros HI HS. rewrite checksum_loop. apply counted_idx in HI.
  rewrite check_loop_debug; [reflexivity | assumption | lia | lia |].
  rewrite zsum_c128. fold (usum (counted_units us)). change (2 ^ 31)%Z with 2147483648%Z.
  change (2 ^ 31) with 2147483648 in HS. lia.
Qed.
Lemma checksum_release us : idx_ok us ->
  code128_checksum_value Release (mkCode128 us) =
  Ret (Z.to_N ((Z.rem (wrap_i32 (Z.of_N (usum (counted_units us)))) 103) mod 256)%Z).
Proof.
  intros HI. rewrite checksum_loop. apply counted_idx in HI.
  pose proof (check_loop_release _ HI 0%Z 0%Z) as E. change (wrap_i32 0) with 0%Z in E. rewrite E.
  cbn [bind]. now rewrite Z.add_0_l, zsum_c128.
Qed.
(** What index a wrapped sum leads to *)
Lemma wrapped_index w : (0 <= w)%Z -> Z.to_N ((Z.rem w 103) mod 256)%Z = Z.to_N (w mod 103).
Proof.
  intros H. rewrite Z.rem_mod_nonneg by lia. pose proof (Z.mod_pos_bound w 103 eq_refl).
  now rewrite Z.mod_small by lia.
Qed.
Lemma wrapped_index_neg w : (w < 0)%Z ->
  (Z.rem w 103 = 0%Z -> Z.to_N ((Z.rem w 103) mod 256)%Z = 0) /\
  (Z.rem w 103 <> 0%Z -> 106 <= Z.to_N ((Z.rem w 103) mod 256)%Z).
Proof.
  intros H. split; [now intros ->|]. intros Hn.
  assert (HB2 : (-103 < Z.rem w 103 <= 0)%Z).
  { pose proof (Z.rem_bound_pos_neg w 103 ltac:(lia) ltac:(lia)). lia. }
  assert (E : ((Z.rem w 103) mod 256 = Z.rem w 103 + 256)%Z).
  { replace (Z.rem w 103) with ((Z.rem w 103 + 256) + (-1) * 256)%Z at 1 by lia.
    rewrite Z.mod_add by lia. apply Z.mod_small. lia. }
  rewrite E. lia.
Qed.

(** ** Symbols *)
Lemma unit_encoding_ok u : u_index u < 106 ->
  code128_unit_encoding u = Ret (render (c128_pattern (u_index u))).
Proof.
  intros H. unfold code128_unit_encoding.
  destruct (c128_row _ H) as [_ [_ [_ [row [E1 E2]]]]]. rewrite E1. cbn [bind]. now rewrite E2.
Qed.
Lemma payload_ok us : idx_ok us ->
  code128_payload (mkCode128 us) = Ret (concat (map (fun v => render (c128_pattern v)) (map u_index us))).
Proof.
  intros H. unfold code128_payload. cbn [c128_0].
  rewrite (mapM_Forall_Ret _ _ (fun u => render (c128_pattern (u_index u))) us (fun u Hu => unit_encoding_ok u Hu) H).
  cbn [bind]. now rewrite map_map.
Qed.
Lemma c128_symbol_with vs : c128_symbol vs = symbol_with vs (c128_check vs).
Proof. reflexivity. Qed.
Lemma c128_lengths vs : Forall (fun v => v < 106) vs ->
  Forall (fun ws => length ws = 6%nat) (map c128_pattern vs).
Proof. intros H. apply Forall_map. revert H. apply Forall_impl. intros v Hv. now apply c128_row. Qed.
Lemma concat_length_6 (bs : list (list nat)) : Forall (fun ws => length ws = 6%nat) bs ->
  length (concat bs) = (6 * length bs)%nat.
Proof.
  induction 1 as [|b bs Hb H IH]; [reflexivity|]. cbn [concat length]. rewrite app_length, Hb, IH. lia.
Qed.
Lemma render_symbol_with vs chk : Forall (fun v => v < 106) (vs ++ [chk]) ->
  render (symbol_with vs chk) =
  concat (map (fun v => render (c128_pattern v)) vs) ++ render (c128_pattern chk) ++ render c128_stop.
Proof.
  intros H. unfold symbol_with. pose proof (c128_lengths _ H) as HL. unfold render at 1.
  rewrite render_from_app_even; [|auto|].
  - rewrite render_from_concat_even; [|auto|].
    + rewrite map_map, map_app, concat_app. cbn [map concat]. rewrite app_nil_r, <- app_assoc. reflexivity.
    + revert HL. apply Forall_impl. intros b ->. reflexivity.
  - rewrite concat_length_6 by assumption. rewrite Nat.even_mul. reflexivity.
Qed.
Lemma encode_with p us chk : idx_ok us -> chk < 106 ->
  code128_checksum_value p (mkCode128 us) = Ret chk ->
  code128_encode p (mkCode128 us) = Ret (render (symbol_with (map u_index us) chk)).
Proof.
  intros HI HC HE. unfold code128_encode. rewrite payload_ok by assumption. cbn [bind].
  unfold code128_checksum_encoding. rewrite HE. cbn [bind]. rewrite unit_encoding_ok by assumption.
  cbn [bind u_index]. f_equal. unfold join_slices. cbn [concat]. rewrite app_nil_r, code128_stop_render.
  symmetry. apply render_symbol_with. apply Forall_app. split; [|now constructor].
  apply Forall_map. exact HI.
Qed.
Lemma encode_panic p us chk : idx_ok us -> 106 <= chk ->
  code128_checksum_value p (mkCode128 us) = Ret chk ->
  code128_encode p (mkCode128 us) = Panic PanicIndex.
Proof.
  intros HI HC HE. unfold code128_encode. rewrite payload_ok by assumption. cbn [bind].
  unfold code128_checksum_encoding. rewrite HE. cbn [bind]. unfold code128_unit_encoding. cbn [u_index].
  now rewrite code128_CHARS_out.
Qed.
Lemma encode_panic_sum p us r : idx_ok us ->
  code128_checksum_value p (mkCode128 us) = Panic r -> code128_encode p (mkCode128 us) = Panic r.
Proof.
  intros HI HE. unfold code128_encode. rewrite payload_ok by assumption. cbn [bind].
  unfold code128_checksum_encoding. now rewrite HE.
Qed.

Lemma message_units_idx segs : message_ok segs -> idx_ok (message_units segs).
Proof.
  intros H. unfold idx_ok. apply message_values_lt in H. rewrite <- message_units_values in H.
  apply Forall_map in H. exact H.
Qed.
Lemma message_units_len segs : len (message_units segs) = len (message_values segs).
Proof. rewrite <- message_units_values. symmetry. apply len_map. Qed.
Lemma usum_message segs : usum (message_units segs) = c128_sum (message_values segs).
Proof. unfold usum. now rewrite message_units_values. Qed.
Lemma check_lt vs : c128_check vs < 106.
Proof. unfold c128_check. pose proof (N.mod_lt (c128_sum vs) 103 ltac:(discriminate)). lia. Qed.

(** Exact behaviour of encode.  [w] is the sum over the symbols that are counted. *)
Lemma usum_counted segs : usum (counted_units (message_units segs)) = counted_sum (message_values segs).
Proof.
  unfold usum, counted_sum, counted_units. rewrite <- firstn_map, message_units_values. now rewrite message_units_len.
Qed.
Lemma counted_sum_small vs : len vs < 2 ^ 31 -> counted_sum vs = c128_sum vs.
Proof.
  intros H. unfold counted_sum. rewrite counted_small by assumption. unfold len. rewrite Nat2N.id.
  now rewrite firstn_all.
Qed.
Lemma code128_encode_exact p segs : message_ok segs ->
  let vs := message_values segs in
  let w := match p with
           | Debug => Z.of_N (counted_sum vs)
           | Release => wrap_i32 (Z.of_N (counted_sum vs))
           end in
  code128_encode p (mkCode128 (message_units segs)) =
  if (2 ^ 31 <=? w)%Z then Panic PanicOverflow
  else if (0 <=? w)%Z then Ret (render (symbol_with vs (Z.to_N (w mod 103))))
  else if (Z.rem w 103 =? 0)%Z then Ret (render (symbol_with vs 0))
  else Panic PanicIndex.
Proof.
  intros HM vs w. pose proof (message_units_idx segs HM) as HI.
  assert (EV : vs = map u_index (message_units segs)) by (symmetry; apply message_units_values).
  assert (HP : forall w, (Z.to_N (w mod 103) < 106)%N).
  { intros z. pose proof (Z.mod_pos_bound z 103 eq_refl). lia. }
  destruct p.
  - subst w. destruct (2 ^ 31 <=? Z.of_N (counted_sum vs))%Z eqn:E.
    + apply Z.leb_le in E. apply encode_panic_sum; [assumption|]. apply checksum_debug; [assumption|].
      rewrite usum_counted. fold vs. change (2 ^ 31)%Z with 2147483648%Z in E.
      change (2 ^ 31) with 2147483648. lia.
    + apply Z.leb_gt in E. replace (0 <=? Z.of_N (counted_sum vs))%Z with true by (symmetry; apply Z.leb_le; lia).
      rewrite EV. apply encode_with; [assumption | apply HP |]. rewrite <- EV.
      rewrite checksum_ok; [| assumption |].
      * rewrite usum_counted. fold vs. f_equal. change 103%Z with (Z.of_N 103). rewrite <- N2Z.inj_mod.
        now rewrite N2Z.id.
      * rewrite usum_counted. fold vs. change (2 ^ 31)%Z with 2147483648%Z in E.
        change (2 ^ 31) with 2147483648. lia.
  - pose proof (checksum_release _ HI) as HC. rewrite usum_counted in HC. fold vs in HC. fold w in HC.
    pose proof (wrap_i32_range (Z.of_N (counted_sum vs))) as HR. fold w in HR.
    replace (2 ^ 31 <=? w)%Z with false by (symmetry; apply Z.leb_gt; lia).
    destruct (0 <=? w)%Z eqn:Ew.
    + apply Z.leb_le in Ew. rewrite wrapped_index in HC by assumption.
      rewrite EV. apply encode_with; [assumption | apply HP | exact HC].
    + apply Z.leb_gt in Ew. destruct (wrapped_index_neg w Ew) as [H0 H1].
      destruct (Z.rem w 103 =? 0)%Z eqn:Er.
      * apply Z.eqb_eq in Er. rewrite (H0 Er) in HC. rewrite EV.
        apply encode_with; [assumption | reflexivity | exact HC].
      * apply Z.eqb_neq in Er. specialize (H1 Er). eapply encode_panic; eassumption.
Qed.
Lemma code128_encode_fits p segs : message_ok segs -> len (message_values segs) < 2 ^ 31 ->
  c128_sum (message_values segs) < 2 ^ 31 ->
  code128_encode p (mkCode128 (message_units segs)) = Ret (render (c128_symbol (message_values segs))).
Proof.
  intros HM HL HS. pose proof (message_units_idx segs HM) as HI.
  rewrite c128_symbol_with, <- message_units_values. apply encode_with; [assumption | apply check_lt |].
  rewrite message_units_values, checksum_ok; [| assumption |].
  - rewrite usum_counted, counted_sum_small by assumption. reflexivity.
  - now rewrite usum_counted, counted_sum_small.
Qed.

(** Messages of up to 6489 symbols fit. *)
Lemma position_sum_bound vs : Forall (fun v => v <= 102) vs -> forall i,
  2 * position_sum i vs <= 102 * (len vs * (2 * i + len vs)).
Proof.
  induction 1 as [|v vs Hv H IH]; intros i; cbn [position_sum]; [cbn; lia|].
  specialize (IH (i + 1)). rewrite len_cons. nia.
Qed.
Lemma position_sum_bound' vs : Forall (fun v => v <= 102) vs -> forall i,
  2 * position_sum i vs + 102 * len vs <= 102 * (len vs * (2 * i + len vs)).
Proof.
  induction 1 as [|v vs Hv H IH]; intros i; cbn [position_sum]; [cbn; lia|].
  specialize (IH (i + 1)). rewrite len_cons. nia.
Qed.
Lemma message_sum_bound segs : message_ok segs -> len (message_values segs) <= 6489 ->
  c128_sum (message_values segs) < 2 ^ 31.
Proof.
  intros HM HL. destruct (message_values_bound segs HM) as [k [vs [E HV]]]. rewrite E in *.
  rewrite len_cons in HL. cbn [c128_sum]. pose proof (position_sum_bound' vs HV 1) as HB.
  pose proof (start_bound k) as HK. change (2 ^ 31) with 2147483648.
  set (n := len vs) in *. clearbody n. set (q := position_sum 1 vs) in *. clearbody q.
  assert (n * (2 * 1 + n) <= 6488 * (2 + n)) by nia. nia.
Qed.
Lemma code128_encode_ok p segs : message_ok segs -> len (message_values segs) <= 6489 ->
  code128_encode p (mkCode128 (message_units segs)) = Ret (render (c128_symbol (message_values segs))).
Proof.
  intros HM HL. apply code128_encode_fits; [assumption | change (2 ^ 31) with 2147483648; lia |].
  now apply message_sum_bound.
Qed.

(** ** Scanning *)
Lemma symbol_with_widths vs chk : Forall (fun v => v < 106) (vs ++ [chk]) ->
  Forall (fun w => 1 <= w <= 4)%nat (symbol_with vs chk).
Proof.
  intros H. unfold symbol_with. apply Forall_app. split; [|repeat constructor].
  apply Forall_concat, Forall_map. revert H. apply Forall_impl. intros v Hv. now apply c128_row.
Qed.
Lemma symbol_with_odd vs chk : Forall (fun v => v < 106) (vs ++ [chk]) ->
  Nat.even (length (symbol_with vs chk)) = false.
Proof.
  intros H. unfold symbol_with. rewrite app_length, concat_length_6 by (now apply c128_lengths).
  rewrite Nat.even_add, Nat.even_mul. reflexivity.
Qed.
Lemma symbol_with_modules vs chk : Forall (fun v => v < 106) (vs ++ [chk]) ->
  length (render (symbol_with vs chk)) = (11 * (length vs + 2) + 2)%nat.
Proof.
  intros H. unfold render. rewrite render_from_length. unfold symbol_with. rewrite list_sum_app.
  change (list_sum c128_stop) with 13%nat.
  assert (E : forall l, Forall (fun v => v < 106) l -> list_sum (concat (map c128_pattern l)) = (11 * length l)%nat).
  { induction 1 as [|v l Hv Hl IH]; [reflexivity|]. cbn [map concat length]. rewrite list_sum_app, IH.
    destruct (c128_row v Hv) as [_ [_ [-> _]]]. lia. }
  rewrite E by assumption. rewrite app_length. cbn [length]. lia.
Qed.
Lemma symbol_with_scan vs chk : Forall (fun v => v < 106) (vs ++ [chk]) ->
  scan (render (symbol_with vs chk)) = Some (symbol_with vs chk).
Proof.
  intros H. apply scan_render; [|now apply symbol_with_odd]. apply (widths_pos 4). now apply symbol_with_widths.
Qed.
Lemma trim_tail (body z : list nat) : length z = 7%nat -> trim_ends 0 7 (body ++ z) = ([], body, z).
Proof. intros H. exact (trim_ends_ok [] body z 0 7 eq_refl H). Qed.
Lemma read_values_symbol vs chk : Forall (fun v => v < 106) (vs ++ [chk]) ->
  read_values (symbol_with vs chk) = Some (vs ++ [chk]).
Proof.
  intros H. unfold read_values, symbol_with.
  rewrite (trim_tail _ c128_stop eq_refl).
  change (widths_eqb c128_stop c128_stop) with true. cbn [guard].
  rewrite chop_concat; [|lia | now apply c128_lengths]. cbn [obind].
  apply read_all_map_id. intros v Hv. rewrite Forall_forall in H. rewrite which_c128 by auto.
  cbn [option_map]. now rewrite N2Nat.id.
Qed.
Lemma decode_checked_ok k vs :
  decode_checked ((start_value k :: vs) ++ [c128_check (start_value k :: vs)]) = decode k false vs.
Proof.
  unfold decode_checked. rewrite rev_app_distr. cbn [rev app].
  rewrite rev_app_distr. cbn [rev app]. rewrite rev_involutive.
  rewrite N.eqb_refl. cbn [guard]. destruct k; reflexivity.
Qed.

(** ** Reading characters back *)
Definition act_eqb (a : option action) (b : option action) : bool :=
  match a, b with
  | Some Shift, Some Shift => true
  | Some (Out [TChar x]), Some (Out [TChar y]) => x =? y
  | Some (Out [TFnc x]), Some (Out [TFnc y]) => x =? y
  | Some (Out [TChar x; TChar x']), Some (Out [TChar y; TChar y']) => (x =? y) && (x' =? y')
  | _, _ => false
  end.
Lemma act_eqb_eq a b : act_eqb a b = true -> a = b.
Proof.
  destruct a as [[[|[x|x] [|[x'|x'] [|? ?]]]| |]|]; destruct b as [[[|[y|y] [|[y'|y'] [|? ?]]]| |]|];
    cbn; intros H; try discriminate; try reflexivity.
  - apply N.eqb_eq in H. now subst.
  - apply andb_prop in H. destruct H as [H1 H2]. apply N.eqb_eq in H1, H2. now subst.
  - apply N.eqb_eq in H. now subst.
Qed.
Lemma interpret_char k c : legal k c -> (k = CC -> digit c = false) ->
  interpret k (char_value k c) = Some (if c =? SHIFT then Shift else Out [char_token c]).
Proof.
  intros H HC. apply act_eqb_eq.
  assert (E : (match k with CC => digit c | _ => false end)
     || act_eqb (interpret k (char_value k c)) (Some (if c =? SHIFT then Shift else Out [char_token c])) = true).
  { clear HC. revert c H. apply legal_all. destruct k; vm_compute; reflexivity. }
  destruct k; try exact E. rewrite HC in E by reflexivity. exact E.
Qed.
Lemma interpret_pair x y : digit x = true -> digit y = true ->
  interpret CC (pair_value x y) = Some (Out [char_token x; char_token y]).
Proof.
  intros Hx Hy. apply digit_In_list in Hx, Hy. apply act_eqb_eq.
  assert (F : forallb (fun x => forallb (fun y =>
     act_eqb (interpret CC (pair_value x y)) (Some (Out [char_token x; char_token y])))
       (map (fun x => x + 48) (range 10))) (map (fun x => x + 48) (range 10)) = true) by (vm_compute; reflexivity).
  rewrite forallb_forall in F. specialize (F x Hx). rewrite forallb_forall in F. exact (F y Hy).
Qed.
Lemma interpret_switch k k' : k <> k' -> interpret k (switch_value k') = Some (Switch k').
Proof. intros H. destruct k, k'; try congruence; reflexivity. Qed.

Definition unshifted (body : str) : str := filter (fun c => negb (c =? SHIFT)) body.
Lemma common_all (f : char -> bool) :
  forallb f (map (fun x => x + 32) (range 64) ++ [FNC1; FNC2; FNC3]) = true ->
  forall c, In c (map (fun x => x + 32) (range 64) ++ [FNC1; FNC2; FNC3]) -> common c -> f c = true.
Proof. intros F c H _. rewrite forallb_forall in F. now apply F. Qed.
Lemma interpret_common k c : k <> CC -> common c ->
  interpret (shifted k) (char_value k c) = interpret k (char_value k c).
Proof.
  intros Hk H.
  assert (HI : In c (map (fun x => x + 32) (range 64) ++ [FNC1; FNC2; FNC3])).
  { apply in_or_app. destruct H as [H|H]; [left | now right]. apply In_shifted_range. lia. }
  destruct k; [| |congruence].
  - apply act_eqb_eq. revert c HI H. apply common_all. vm_compute. reflexivity.
  - apply act_eqb_eq. revert c HI H. apply common_all. vm_compute. reflexivity.
Qed.
Lemma common_legal k c : k <> CC -> common c -> legal k c.
Proof.
  intros Hk [H|H].
  - destruct k; [left; lia | left; lia | congruence].
  - destruct k; [right | right; right | congruence].
    all: cbn [In] in *; destruct H as [->|[->|[->|[]]]]; auto.
Qed.
Lemma decode_plain k body r t : k <> CC -> Forall (legal k) body -> 
  decode k false r = Some t -> forall pending, shift_ok pending body ->
  decode k pending (map (char_value k) body ++ r) = Some (map char_token (unshifted body) ++ t).
Proof.
  intros Hk H HR. induction H as [|c body Hc H IH]; intros pending HS.
  - cbn [shift_ok] in HS. subst pending. exact HR.
  - cbn [shift_ok] in HS. cbn [map app decode unshifted filter].
    assert (HI : interpret (if pending then shifted k else k) (char_value k c) = interpret k (char_value k c)).
    { destruct pending; [|reflexivity]. destruct (c =? SHIFT) eqn:E.
      - apply N.eqb_eq in E. subst c. destruct k; reflexivity || congruence.
      - apply interpret_common; [assumption|]. now apply HS. }
    rewrite HI, interpret_char by (assumption || congruence).
    destruct (c =? SHIFT) eqn:E.
    + cbn [negb]. now apply IH.
    + cbn [negb map app]. destruct HS as [_ HS]. rewrite (IH false HS). reflexivity.
Qed.
Lemma decode_C body r t : Forall (legal CC) body -> decode CC false r = Some t -> forall first,
  (match first with Some x => digit x = true | None => True end) ->
  decode CC false (pair_values first body ++ r) = Some (map char_token (settle_body first body) ++ t).
Proof.
  intros H HR. induction H as [|c body Hc H IH]; intros first Hf; [exact HR|].
  cbn [pair_values settle_body]. destruct (digit c) eqn:Ed.
  - destruct first as [x|].
    + cbn [app decode map]. rewrite interpret_pair by assumption. rewrite IH by exact I. reflexivity.
    + apply IH. exact Ed.
  - destruct Hc as [Hc| ->]; [congruence|]. cbn [app decode map].
    change (interpret CC (fn_value CC FNC1)) with (Some (Out [TFnc 1])). cbn [obind].
    rewrite IH by assumption. reflexivity.
Qed.
Definition settled_body (x : segment) : str :=
  match fst x with CC => settle_body None (snd x) | _ => snd x end.
Lemma filter_id {A} (f : A -> bool) l : Forall (fun x => f x = true) l -> filter f l = l.
Proof. induction 1 as [|x l Hx H IH]; cbn; [reflexivity|]. now rewrite Hx, IH. Qed.
Lemma settle_body_legal first body : Forall (legal CC) body ->
  (match first with Some x => digit x = true | None => True end) ->
  Forall (legal CC) (settle_body first body).
Proof.
  intros H. revert first. induction H as [|c body Hc H IH]; intros first Hf; cbn [settle_body]; [constructor|].
  destruct (digit c) eqn:Ed.
  - destruct first as [x|]; [|now apply IH]. constructor; [now left|]. constructor; [assumption|]. now apply IH.
  - constructor; [assumption|]. now apply IH.
Qed.
Lemma unshifted_C body : Forall (legal CC) body -> unshifted body = body.
Proof.
  intros H. apply filter_id. revert H. apply Forall_impl. intros c [Hc| ->]; [|reflexivity].
  apply negb_true_iff, N.eqb_neq. intros ->. discriminate.
Qed.
Lemma decode_body k body r t : Forall (legal k) body -> shift_ok false body ->
  decode k false r = Some t ->
  decode k false (body_values k body ++ r) = Some (map char_token (unshifted (settled_body (k, body))) ++ t).
Proof.
  intros H HS HR. unfold settled_body. cbn [fst snd]. destruct k; cbn [body_values].
  - apply decode_plain; assumption || discriminate.
  - apply decode_plain; assumption || discriminate.
  - rewrite unshifted_C by (now apply settle_body_legal). now apply decode_C.
Qed.
Lemma decode_rest segs : forall k, Forall segment_ok segs -> shifts_ok segs -> all_change (k :: map fst segs) ->
  decode k false (concat (map (fun x => switch_value (fst x) :: body_values (fst x) (snd x)) segs)) =
  Some (meaning (settle segs)).
Proof.
  induction segs as [|[k' body] segs IH]; intros k HF HS HA; [reflexivity|].
  inversion HF as [|? ? [Hb _] HF']; inversion HS as [|? ? Hs HS']; subst.
  cbn [map fst] in HA. destruct HA as [Hk HA]. cbn [map concat fst snd app decode].
  rewrite interpret_switch by assumption. cbn [fst snd] in *.
  rewrite (decode_body k' body _ _ Hb Hs (IH k' HF' HS' HA)). reflexivity.
Qed.
Lemma decode_message segs : message_ok segs -> shifts_ok segs ->
  decode_checked (message_values segs ++ [c128_check (message_values segs)]) = Some (meaning (settle segs)).
Proof.
  intros [Hn [HF HA]] HS. destruct segs as [|[k body] segs]; [congruence|].
  inversion HF as [|? ? [Hb _] HF']; inversion HS as [|? ? Hs HS']; subst. cbn [fst snd] in *.
  cbn [message_values]. rewrite decode_checked_ok.
  rewrite (decode_body k body _ _ Hb Hs (decode_rest segs k HF' HS' HA)). reflexivity.
Qed.
Lemma settle_aligned_body body : forall first,
  aligned_body (match first with None => true | Some _ => false end) body ->
  Nat.even (digits_in body) = match first with None => true | Some _ => false end ->
  settle_body first body = match first with None => body | Some x => x :: body end.
Proof.
  induction body as [|c body IH]; intros first HA HE.
  - destruct first; [discriminate | reflexivity].
  - cbn [aligned_body settle_body] in *. unfold digits_in in HE. cbn [filter] in HE.
    destruct (digit c).
    + cbn [length] in HE. rewrite Nat.even_succ, <- Nat.negb_even in HE. fold (digits_in body) in HE.
      destruct first as [x|]; cbn [negb] in HA.
      * rewrite (IH None HA); [reflexivity|]. destruct (Nat.even (digits_in body)); [reflexivity|discriminate].
      * rewrite (IH (Some c) HA); [reflexivity|]. destruct (Nat.even (digits_in body)); [discriminate|reflexivity].
    + destruct HA as [H1 HA]. destruct first as [x|]; [discriminate|].
      now rewrite (IH None HA HE).
Qed.
Lemma settle_aligned segs : Forall segment_ok segs -> aligned segs -> settle segs = segs.
Proof.
  unfold aligned, settle. induction 1 as [|[k body] segs [_ HE] HF IH]; intros HA; [reflexivity|].
  inversion HA as [|? ? Ha HA']; subst. cbn [map fst snd] in *. rewrite IH by assumption.
  destruct k; try reflexivity. rewrite (settle_aligned_body body None); [reflexivity | now apply Ha | now apply HE].
Qed.

Lemma message_check_lt segs : message_ok segs ->
  Forall (fun v => v < 106) (message_values segs ++ [c128_check (message_values segs)]).
Proof.
  intros H. apply Forall_app. split; [now apply message_values_lt|]. constructor; [apply check_lt | constructor].
Qed.
Lemma code128_reads segs : message_ok segs -> shifts_ok segs ->
  obind (scan (render (c128_symbol (message_values segs)))) read_c128 = Some (meaning (settle segs)).
Proof.
  intros HM HS. pose proof (message_check_lt segs HM) as HL.
  rewrite c128_symbol_with, symbol_with_scan by assumption. cbn [obind]. unfold read_c128.
  rewrite read_values_symbol by assumption. cbn [obind].
  now apply decode_message.
Qed.
Lemma no_shift_ok segs : no_shift segs -> shifts_ok segs.
Proof.
  apply Forall_impl. intros [k body]. cbn [snd]. induction body as [|c body IH]; intros H; [reflexivity|].
  cbn [shift_ok]. destruct (c =? SHIFT) eqn:E.
  - apply N.eqb_eq in E. subst c. exfalso. apply H. now left.
  - split; [discriminate|]. apply IH. intros G. apply H. now right.
Qed.

(** ** Symbols determine the message up to the places of FNC1 in code set C *)
Definition untoken (t : token) : char :=
  match t with
  | TChar c => if c =? 127 then 247 else c
  | TFnc n => if n =? 1 then FNC1 else if n =? 2 then FNC2 else if n =? 3 then FNC3 else FNC4
  end.
Fixpoint unval (k : cset) (vs : list N) : str :=
  match vs with
  | [] => []
  | v :: tl =>
      match interpret k v with
      | None => []
      | Some (Out l) => map untoken l ++ unval k tl
      | Some Shift => SHIFT :: unval k tl
      | Some (Switch k') => set_char k' :: unval k' tl
      end
  end.
Lemma untoken_char k c : legal k c -> c <> SHIFT -> untoken (char_token c) = c.
Proof.
  intros H HS. apply N.eqb_eq.
  assert (E : (c =? SHIFT) || (untoken (char_token c) =? c) = true).
  { clear HS. revert c H. apply legal_all. destruct k; vm_compute; reflexivity. }
  apply N.eqb_neq in HS. now rewrite HS in E.
Qed.
Lemma unval_plain k body r : k <> CC -> Forall (legal k) body ->
  unval k (map (char_value k) body ++ r) = body ++ unval k r.
Proof.
  intros Hk H. induction H as [|c body Hc H IH]; [reflexivity|].
  cbn [map app unval]. rewrite interpret_char by (assumption || congruence).
  destruct (c =? SHIFT) eqn:E.
  - apply N.eqb_eq in E. subst c. now rewrite IH.
  - apply N.eqb_neq in E. cbn [map app]. rewrite (untoken_char k c Hc E). now rewrite IH.
Qed.
Lemma unval_C body r : Forall (legal CC) body -> forall first,
  (match first with Some x => digit x = true | None => True end) ->
  unval CC (pair_values first body ++ r) = settle_body first body ++ unval CC r.
Proof.
  intros H. induction H as [|c body Hc H IH]; intros first Hf; [reflexivity|].
  cbn [pair_values settle_body]. destruct (digit c) eqn:Ed.
  - destruct first as [x|].
    + cbn [app unval]. rewrite interpret_pair by assumption. rewrite IH by exact I. cbn [map app].
      rewrite (untoken_char CC x), (untoken_char CC c); try reflexivity; try (left; assumption).
      * intros ->. discriminate.
      * intros ->. discriminate.
    + apply IH. exact Ed.
  - destruct Hc as [Hc| ->]; [congruence|]. cbn [app unval].
    change (interpret CC (fn_value CC FNC1)) with (Some (Out [TFnc 1])). cbn [map app].
    change (untoken (TFnc 1)) with FNC1. now rewrite IH.
Qed.
Lemma unval_body k body r : Forall (legal k) body ->
  unval k (body_values k body ++ r) = settled_body (k, body) ++ unval k r.
Proof.
  intros H. unfold settled_body. cbn [fst snd]. destruct k; cbn [body_values].
  - apply unval_plain; assumption || discriminate.
  - apply unval_plain; assumption || discriminate.
  - now apply unval_C.
Qed.
Lemma spell_settle_cons k body segs :
  spell (settle ((k, body) :: segs)) = set_char k :: settled_body (k, body) ++ spell (settle segs).
Proof. reflexivity. Qed.
Lemma unval_rest segs : forall k, Forall segment_ok segs -> all_change (k :: map fst segs) ->
  unval k (concat (map (fun x => switch_value (fst x) :: body_values (fst x) (snd x)) segs)) =
  spell (settle segs).
Proof.
  induction segs as [|[k' body] segs IH]; intros k HF HA; [reflexivity|].
  inversion HF as [|? ? [Hb _] HF']; subst.
  cbn [map fst] in HA. destruct HA as [Hk HA]. cbn [map concat fst snd app unval].
  rewrite interpret_switch by assumption. cbn [fst snd] in *.
  rewrite unval_body by assumption. rewrite IH by assumption. now rewrite spell_settle_cons.
Qed.
Lemma values_settle segs1 segs2 : message_ok segs1 -> message_ok segs2 ->
  message_values segs1 = message_values segs2 -> spell (settle segs1) = spell (settle segs2).
Proof.
  intros [N1 [F1 A1]] [N2 [F2 A2]] E.
  destruct segs1 as [|[k1 b1] s1]; [congruence|]. destruct segs2 as [|[k2 b2] s2]; [congruence|].
  cbn [message_values] in E. injection E as Ek E.
  assert (k1 = k2) by (destruct k1, k2; discriminate || reflexivity). subst k2.
  inversion F1 as [|? ? [Hb1 _] F1']; inversion F2 as [|? ? [Hb2 _] F2']; subst. cbn [fst snd] in *.
  rewrite !spell_settle_cons. f_equal.
  apply (f_equal (unval k1)) in E. rewrite !unval_body in E by assumption.
  now rewrite !unval_rest in E by assumption.
Qed.
(** The converse: moving FNC1 out of pairs does not change the values. *)
Lemma settle_pair_values body : Forall (legal CC) body -> forall first,
  (match first with Some x => digit x = true | None => True end) ->
  pair_values None (settle_body first body) = pair_values first body.
Proof.
  induction 1 as [|c body Hc H IH]; intros first Hf; [reflexivity|].
  cbn [settle_body pair_values]. destruct (digit c) eqn:Ed.
  - destruct first as [x|].
    + cbn [pair_values]. rewrite Hf, Ed. now rewrite IH.
    + now apply IH.
  - cbn [pair_values]. rewrite Ed. now rewrite IH.
Qed.
Lemma settled_values segs : Forall segment_ok segs -> message_values (settle segs) = message_values segs.
Proof.
  intros HF.
  assert (HB : forall x, segment_ok x -> body_values (fst x) (settled_body x) = body_values (fst x) (snd x)).
  { intros [k body] [Hb _]. unfold settled_body. cbn [fst snd] in *. destruct k; try reflexivity.
    cbn [body_values]. now apply settle_pair_values. }
  destruct HF as [|[k body] segs Hx HF]; [reflexivity|]. cbn [settle map message_values fst snd].
  pose proof (HB _ Hx) as E. cbn [fst snd] in E. unfold settled_body in E. cbn [fst snd] in E. rewrite E.
  f_equal. f_equal. clear E Hx. f_equal. rewrite map_map. apply map_ext_Forall.
  revert HF. apply Forall_impl. intros [k' b'] Hx. cbn [fst snd]. f_equal. exact (HB _ Hx).
Qed.
Lemma spell_inj segs1 : forall segs2, Forall segment_ok segs1 -> Forall segment_ok segs2 ->
  spell segs1 = spell segs2 -> segs1 = segs2.
Proof.
  assert (HB : forall k1 k2 b1 b2 r1 r2, Forall (legal k1) b1 -> Forall (legal k2) b2 ->
     (r1 = [] \/ exists k t, r1 = set_char k :: t) -> (r2 = [] \/ exists k t, r2 = set_char k :: t) ->
     b1 ++ r1 = b2 ++ r2 -> b1 = b2 /\ r1 = r2).
  { intros k1 k2 b1. induction b1 as [|c b1 IH]; intros b2 r1 r2 H1 H2 R1 R2 E.
    - destruct b2 as [|d b2]; [now split|]. cbn [app] in E. exfalso.
      destruct R1 as [->|[k [t ->]]]; [discriminate|]. injection E as Ed _.
      inversion H2 as [|? ? Hd _]; subst. apply legal_not_set in Hd. now rewrite set_of_char in Hd.
    - inversion H1 as [|? ? Hc H1']; subst. destruct b2 as [|d b2].
      + cbn [app] in E. exfalso. destruct R2 as [->|[k [t ->]]]; [discriminate|]. injection E as Ed _.
        subst c. apply legal_not_set in Hc. now rewrite set_of_char in Hc.
      + inversion H2 as [|? ? Hd H2']; subst. cbn [app] in E. injection E as -> E.
        destruct (IH b2 r1 r2 H1' H2' R1 R2 E) as [-> ->]. now split. }
  assert (HR : forall segs, spell segs = [] \/ exists k t, spell segs = set_char k :: t).
  { intros [|[k b] segs]; [now left|]. right. exists k. eexists. reflexivity. }
  induction segs1 as [|[k1 b1] s1 IH]; intros [|[k2 b2] s2] F1 F2 E; try reflexivity; try discriminate.
  inversion F1 as [|? ? [H1 _] F1']; inversion F2 as [|? ? [H2 _] F2']; subst. cbn [fst snd] in *.
  unfold spell in E. cbn [map concat fst snd app] in E. injection E as Ek E.
  assert (k1 = k2) by (destruct k1, k2; discriminate || reflexivity). subst k2.
  change (concat (map (fun x => set_char (fst x) :: snd x) s1)) with (spell s1) in E.
  change (concat (map (fun x => set_char (fst x) :: snd x) s2)) with (spell s2) in E.
  destruct (HB k1 k1 b1 b2 (spell s1) (spell s2) H1 H2 (HR s1) (HR s2) E) as [-> E'].
  f_equal. now apply IH.
Qed.

(** The symbol gives the values back, whatever the check symbol. *)
Lemma symbol_with_inj vs1 c1 vs2 c2 :
  Forall (fun v => v < 106) (vs1 ++ [c1]) -> Forall (fun v => v < 106) (vs2 ++ [c2]) ->
  render (symbol_with vs1 c1) = render (symbol_with vs2 c2) -> vs1 = vs2 /\ c1 = c2.
Proof.
  intros H1 H2 E. pose proof (symbol_with_scan _ _ H1) as S1. rewrite E, symbol_with_scan in S1 by assumption.
  injection S1 as S1. pose proof (read_values_symbol _ _ H1) as R1. rewrite <- S1, read_values_symbol in R1 by assumption.
  injection R1 as R1. apply app_inj_tail in R1. destruct R1. now split.
Qed.
(** Whenever encode returns, the result is a symbol of the units with some check symbol. *)
Lemma encode_returns_form p us m : idx_ok us -> code128_encode p (mkCode128 us) = Ret m ->
  exists chk, chk < 106 /\ m = render (symbol_with (map u_index us) chk).
Proof.
  intros HI H. destruct (code128_checksum_value p (mkCode128 us)) as [chk|r] eqn:E.
  - destruct (N.lt_ge_cases chk 106) as [L|G].
    + rewrite (encode_with p us chk HI L E) in H. injection H as <-. eauto.
    + rewrite (encode_panic p us chk HI G E) in H. discriminate.
  - rewrite (encode_panic_sum p us r HI E) in H. discriminate.
Qed.
Lemma code128_same_symbol p p' segs1 segs2 m : message_ok segs1 -> message_ok segs2 ->
  code128_encode p (mkCode128 (message_units segs1)) = Ret m ->
  code128_encode p' (mkCode128 (message_units segs2)) = Ret m ->
  spell (settle segs1) = spell (settle segs2).
Proof.
  intros M1 M2 E1 E2. pose proof (message_units_idx _ M1) as I1. pose proof (message_units_idx _ M2) as I2.
  destruct (encode_returns_form p _ m I1 E1) as [c1 [L1 F1]].
  destruct (encode_returns_form p' _ m I2 E2) as [c2 [L2 F2]].
  rewrite message_units_values in F1, F2. rewrite F1 in F2.
  apply symbol_with_inj in F2.
  - destruct F2 as [F2 _]. now apply values_settle.
  - apply Forall_app. split; [now apply message_values_lt | now constructor].
  - apply Forall_app. split; [now apply message_values_lt | now constructor].
Qed.

(** ** Mirror reading *)
Lemma code128_mirror k vs chk : Forall (fun v => v < 106) ((start_value k :: vs) ++ [chk]) ->
  obind (scan (rev (render (symbol_with (start_value k :: vs) chk)))) read_c128 = None.
Proof.
  intros H. rewrite scan_rev_render;
    [|apply (widths_pos 4); now apply symbol_with_widths | now apply symbol_with_odd].
  cbn [obind]. unfold read_c128, read_values. unfold symbol_with.
  cbn [app map concat]. rewrite <- app_assoc, rev_app_distr.
  set (X := rev (concat (map c128_pattern (vs ++ [chk])) ++ c128_stop)).
  assert (L6 : length (rev (c128_pattern (start_value k))) = 6%nat).
  { rewrite rev_length. apply c128_row. pose proof (start_bound k). lia. }
  assert (HX : exists Y x, X = Y ++ [x]).
  { destruct (exists_last (l := X)) as [Y [x HY]].
    - unfold X. intros G. apply (f_equal (@length nat)) in G. rewrite rev_length, app_length in G.
      cbn [length c128_stop] in G. lia.
    - eauto. }
  destruct HX as [Y [x ->]]. rewrite <- app_assoc.
  rewrite (trim_tail Y ([x] ++ rev (c128_pattern (start_value k)))).
  2:{ rewrite app_length, L6. reflexivity. }
  match goal with |- context [guard ?b _] => replace b with false; [reflexivity|] end.
  symmetry. match goal with |- ?b = false => destruct b eqn:E; [|reflexivity] end.
  apply widths_eqb_eq in E. pose proof (code128_rev_start k) as HR. rewrite <- E in HR.
  cbn [app skipn] in HR. rewrite widths_eqb_refl in HR. discriminate.
Qed.

(** ** Statements for accepted strings *)
Lemma code128_accepted s b : code128_new s = Ok b -> exists segs,
  message_ok segs /\ s = spell segs /\
  (len (message_values segs) <= 6489 -> forall p,
     code128_encode p b = Ret (render (c128_symbol (message_values segs)))) /\
  length (render (c128_symbol (message_values segs))) = (11 * (length (message_values segs) + 2) + 2)%nat.
Proof.
  intros H. destruct (code128_new_Ok s b H) as [segs [HM [-> ->]]]. exists segs.
  split; [assumption|]. split; [reflexivity|]. split.
  - intros HL p. now apply code128_encode_ok.
  - apply symbol_with_modules. now apply message_check_lt.
Qed.
Lemma code128_settled p segs : message_ok segs ->
  code128_encode p (mkCode128 (message_units segs)) =
  (let vs := message_values (settle segs) in
   let w := match p with
           | Debug => Z.of_N (counted_sum vs)
           | Release => wrap_i32 (Z.of_N (counted_sum vs))
           end in
  if (2 ^ 31 <=? w)%Z then Panic PanicOverflow
  else if (0 <=? w)%Z then Ret (render (symbol_with vs (Z.to_N (w mod 103))))
  else if (Z.rem w 103 =? 0)%Z then Ret (render (symbol_with vs 0))
  else Panic PanicIndex).
Proof.
  intros HM. pose proof HM as [_ [HF _]]. rewrite settled_values by assumption. now apply code128_encode_exact.
Qed.
Lemma settle_segment_ok segs : Forall segment_ok segs -> Forall segment_ok (settle segs).
Proof.
  intros H. unfold settle. apply Forall_map. revert H. apply Forall_impl. intros [k body] [Hb He].
  cbn [fst snd] in *. split; cbn [fst snd].
  - destruct k; try assumption. now apply settle_body_legal.
  - intros ->. specialize (He eq_refl).
    assert (G : forall body first, (match first with Some x => digit x = true | None => True end) ->
      digits_in (settle_body first body) =
      (2 * Nat.div2 (digits_in body + match first with Some _ => 1 | None => 0 end))%nat).
    { clear. induction body as [|c body IH]; intros first Hf.
      - destruct first; reflexivity.
      - cbn [settle_body]. unfold digits_in at 2. cbn [filter]. destruct (digit c) eqn:Ed.
        + cbn [length]. fold (digits_in body). destruct first as [x|].
          * unfold digits_in at 1. cbn [filter]. rewrite Hf, Ed. cbn [length].
            fold (digits_in (settle_body None body)). rewrite (IH None I), Nat.add_0_r.
            replace (S (digits_in body) + 1)%nat with (S (S (digits_in body))) by lia. cbn [Nat.div2]. lia.
          * rewrite (IH (Some c) Ed), Nat.add_0_r. f_equal. f_equal. lia.
        + fold (digits_in body). unfold digits_in at 1. cbn [filter]. rewrite Ed.
          fold (digits_in (settle_body first body)). now apply IH. }
    rewrite (G body None I). now rewrite Nat.even_mul.
Qed.
Lemma code128_same_iff p segs1 segs2 : message_ok segs1 -> message_ok segs2 ->
  returns (code128_encode p (mkCode128 (message_units segs1))) ->
  (code128_encode p (mkCode128 (message_units segs1)) = code128_encode p (mkCode128 (message_units segs2))
   <-> spell (settle segs1) = spell (settle segs2)).
Proof.
  intros M1 M2 [m HR]. split.
  - intros E. rewrite HR in E. symmetry in E. exact (code128_same_symbol p p _ _ m M1 M2 HR E).
  - intros E. rewrite !code128_settled by assumption.
    pose proof M1 as [_ [F1 _]]. pose proof M2 as [_ [F2 _]].
    apply spell_inj in E; [| now apply settle_segment_ok | now apply settle_segment_ok]. now rewrite E.
Qed.
Lemma code128_injective p p' s1 s2 b1 b2 m : code128_new s1 = Ok b1 -> code128_new s2 = Ok b2 ->
  (forall segs, message_ok segs -> s1 = spell segs -> aligned segs) ->
  (forall segs, message_ok segs -> s2 = spell segs -> aligned segs) ->
  code128_encode p b1 = Ret m -> code128_encode p' b2 = Ret m -> s1 = s2.
Proof.
  intros H1 H2 A1 A2 E1 E2. destruct (code128_new_Ok _ _ H1) as [g1 [M1 [S1 B1]]].
  destruct (code128_new_Ok _ _ H2) as [g2 [M2 [S2 B2]]]. subst b1 b2.
  pose proof (code128_same_symbol p p' g1 g2 m M1 M2 E1 E2) as E.
  rewrite (settle_aligned g1), (settle_aligned g2) in E; [congruence | apply M2 | now apply A2 | apply M1 | now apply A1].
Qed.
Lemma code128_accepted_mirror s b p m : code128_new s = Ok b -> code128_encode p b = Ret m ->
  obind (scan (rev m)) read_c128 = None.
Proof.
  intros H E. destruct (code128_new_Ok s b H) as [segs [HM [_ ->]]].
  destruct (encode_returns_form p _ m (message_units_idx _ HM) E) as [chk [HC ->]].
  rewrite message_units_values. destruct (message_values_bound segs HM) as [k [vs [EV HV]]].
  pose proof (message_values_lt segs HM) as HL. rewrite EV in *. apply code128_mirror.
  apply Forall_app. split; [assumption | now constructor].
Qed.

(** ** A run of FNC1 in code set C *)
Lemma FNC1_values n : message_values [(CC, repeat FNC1 n)] = 105 :: repeat 102 n.
Proof.
  cbn [message_values map concat start_value]. rewrite app_nil_r. f_equal. cbn [body_values].
  induction n as [|n IH]; [reflexivity|]. cbn [repeat pair_values]. change (digit FNC1) with false. cbn iota.
  now rewrite IH.
Qed.
Lemma digits_in_FNC1 n : digits_in (repeat FNC1 n) = 0%nat.
Proof. induction n as [|n IH]; [reflexivity|]. exact IH. Qed.
Lemma len_repeat {A} (x : A) n : len (repeat x n) = N.of_nat n.
Proof. unfold len. now rewrite repeat_length. Qed.
Lemma position_sum_repeat v n : forall i,
  2 * position_sum i (repeat v n) + v * N.of_nat n = v * (N.of_nat n * (2 * i + N.of_nat n)).
Proof.
  induction n as [|n IH]; intros i; [cbn; lia|]. cbn [repeat position_sum]. specialize (IH (i + 1)).
  rewrite Nat2N.inj_succ. nia.
Qed.
