(** * Proofs about Code 11 *)
From Verif Require Import Rust M_Error M_Parse M_Helpers M_Tables M_Code11
  S_Barcode S_Linear P_Rust P_Barcode P_Parse P_Alphabet P_Gap P_Weighted P_Code39.

Lemma c11_len : length c11_chars = length c11_table. Proof. reflexivity. Qed.
Lemma c11_nodup_t : NoDup c11_table. Proof. apply nodupb_NoDup. reflexivity. Qed.
Lemma c11_nodup_c : NoDup c11_chars. Proof. apply nodup_chars_NoDup. reflexivity. Qed.
Lemma code11_CHARS_eq : code11_CHARS = mtable c11_chars c11_table.
Proof. vm_compute. reflexivity. Qed.
Lemma code11_valid_chars_eq : code11_valid_chars = c11_chars.
Proof. vm_compute. reflexivity. Qed.
Lemma c11_size : len c11_chars = 11. Proof. reflexivity. Qed.

Notation c11_in := (fun c => In c c11_chars).
Local Opaque pattern value char_of.

Lemma c11_pattern_length c : In c c11_chars -> length (c11_pattern c) = 5%nat.
Proof.
  intros H. apply Nat.eqb_eq.
  exact (forallb_pattern (fun ws => Nat.eqb (length ws) 5) c11_chars c11_table c c11_len eq_refl H).
Qed.
Lemma c11_pattern_sum c : In c c11_chars -> (6 <= list_sum (c11_pattern c) <= 7)%nat.
Proof.
  intros H.
  pose proof (forallb_pattern (fun ws => Nat.leb 6 (list_sum ws) && Nat.leb (list_sum ws) 7)
    c11_chars c11_table c c11_len eq_refl H) as E. cbv beta in E.
  apply andb_prop in E. destruct E as [E1 E2]. apply Nat.leb_le in E1, E2. split; assumption.
Qed.
Lemma c11_pattern_widths c : In c c11_chars -> Forall (fun w => 1 <= w <= 2)%nat (c11_pattern c).
Proof.
  intros H. apply widths_in_Forall.
  exact (forallb_pattern (widths_in 2) c11_chars c11_table c c11_len eq_refl H).
Qed.

Lemma c11_symbol_gap cs : c11_symbol cs = gap_symbol c11_guard c11_pattern cs.
Proof. reflexivity. Qed.
Lemma c11_lengths cs : Forall c11_in cs -> Forall (fun c => length (c11_pattern c) = 5%nat) cs.
Proof. apply Forall_impl. intros c. apply c11_pattern_length. Qed.
Lemma c11_symbol_widths cs : Forall c11_in cs -> Forall (fun w => 1 <= w <= 2)%nat (c11_symbol cs).
Proof.
  intros H. rewrite c11_symbol_gap. apply gap_symbol_Forall; [lia | now apply widths_in_Forall |].
  revert H. apply Forall_impl. intros c. apply c11_pattern_widths.
Qed.
Lemma c11_symbol_odd cs : Forall c11_in cs -> Nat.even (length (c11_symbol cs)) = false.
Proof.
  intros H. apply (gap_symbol_odd 5 c11_guard c11_pattern cs); try reflexivity. now apply c11_lengths.
Qed.
Lemma c11_symbol_scan cs : Forall c11_in cs -> scan (render (c11_symbol cs)) = Some (c11_symbol cs).
Proof.
  intros H. apply scan_render; [|now apply c11_symbol_odd].
  apply (widths_pos 2). now apply c11_symbol_widths.
Qed.
Lemma list_sum_between {A} (f : A -> nat) lo hi cs :
  Forall (fun c => lo <= f c <= hi)%nat cs ->
  (lo * length cs <= list_sum (map f cs) <= hi * length cs)%nat.
Proof.
  induction 1 as [|c cs H _ IH]; cbn [map length]; [rewrite !Nat.mul_0_r; split; apply le_n|].
  change (list_sum (f c :: map f cs)) with (f c + list_sum (map f cs))%nat. lia.
Qed.
Lemma c11_symbol_modules cs : Forall c11_in cs ->
  (7 * length cs + 15 <= length (render (c11_symbol cs)) <= 8 * length cs + 15)%nat.
Proof.
  intros H. unfold render. rewrite render_from_length, c11_symbol_gap, gap_symbol_sum.
  change (list_sum c11_guard) with 7%nat.
  assert (E : (7 * length cs <= list_sum (map (fun c => list_sum (c11_pattern c) + 1)%nat cs)
               <= 8 * length cs)%nat).
  { apply list_sum_between. revert H. apply Forall_impl. intros c Hc.
    pose proof (c11_pattern_sum c Hc). lia. }
  lia.
Qed.
Lemma c11_symbol_read_raw cs : Forall c11_in cs -> read_c11_raw (c11_symbol cs) = Some cs.
Proof.
  intros H. unfold read_c11_raw. rewrite c11_symbol_gap.
  rewrite (gap_symbol_chop 5) by (reflexivity || now apply c11_lengths). cbn [obind].
  rewrite (gap_symbol_blocks_read 5) by (reflexivity || now apply c11_lengths). cbn [obind].
  rewrite strip_ends_ok. cbn [obind]. rewrite widths_eqb_refl. cbn [andb guard].
  apply read_all_map_id. intros c Hc. rewrite Forall_forall in H.
  apply read_char_pattern; [exact c11_len | exact c11_nodup_t | now apply H].
Qed.

(** ** Check characters *)
Lemma c11_sum_lt top cs : c11_sum top cs < 11.
Proof. unfold c11_sum, check_sum. apply N.mod_lt. discriminate. Qed.
Lemma c11_value_char v : v < 11 -> c11_value (char_of c11_chars v) = v.
Proof. intros H. apply value_char_of; [exact c11_nodup_c | exact H]. Qed.
Lemma c11_char_In v : v < 11 -> In (char_of c11_chars v) c11_chars.
Proof. intros H. apply char_of_In. exact H. Qed.
Lemma c11_C_In s : In (c11_C s) c11_chars. Proof. apply c11_char_In, c11_sum_lt. Qed.
Lemma c11_K_In s : In (c11_K s) c11_chars. Proof. apply c11_char_In, c11_sum_lt. Qed.
Lemma c11_checked_in s : Forall c11_in s -> Forall c11_in (c11_checked s).
Proof.
  intros H. apply Forall_app. split; [assumption|].
  constructor; [apply c11_C_In|].
  destruct (Nat.ltb 10 (length s)); [|constructor]. constructor; [apply c11_K_In | constructor].
Qed.
Lemma c11_verify_C s : verify_last c11_chars 11 10 (s ++ [c11_C s]) = Some s.
Proof.
  rewrite verify_last_app. fold (c11_sum 10 s) c11_value. unfold c11_C.
  rewrite c11_value_char by apply c11_sum_lt. now rewrite N.eqb_refl.
Qed.
Lemma c11_verify_K s : verify_last c11_chars 11 9 ((s ++ [c11_C s]) ++ [c11_K s]) = Some (s ++ [c11_C s]).
Proof.
  rewrite verify_last_app. fold (c11_sum 9 (s ++ [c11_C s])) c11_value.
  unfold c11_K. rewrite c11_value_char by apply c11_sum_lt. now rewrite N.eqb_refl.
Qed.
Lemma c11_checked_length s :
  length (c11_checked s) = (length s + (if Nat.ltb 10 (length s) then 2 else 1))%nat.
Proof. unfold c11_checked. rewrite !app_length. destruct (Nat.ltb 10 (length s)); reflexivity. Qed.
Lemma c11_checked_long s : Nat.ltb 11 (length (c11_checked s)) = Nat.ltb 10 (length s).
Proof.
  rewrite c11_checked_length. destruct (Nat.ltb 10 (length s)) eqn:E.
  - apply Nat.ltb_lt in E. apply Nat.ltb_lt. lia.
  - apply Nat.ltb_ge in E. apply Nat.ltb_ge. lia.
Qed.
Lemma c11_verify_checked s : c11_verify (c11_checked s) = Some s.
Proof.
  unfold c11_verify. rewrite c11_checked_long. unfold c11_checked.
  destruct (Nat.ltb 10 (length s)).
  - rewrite app_assoc, c11_verify_K. cbn [obind]. apply c11_verify_C.
  - rewrite app_nil_r. cbn [obind]. apply c11_verify_C.
Qed.
Lemma c11_symbol_read s : Forall c11_in s -> read_c11 (c11_symbol (c11_checked s)) = Some s.
Proof.
  intros H. unfold read_c11. rewrite c11_symbol_read_raw by now apply c11_checked_in.
  cbn [obind]. apply c11_verify_checked.
Qed.

(** ** The model's encoder *)
Lemma code11_char_encoding_ok c : In c c11_chars ->
  code11_char_encoding c = Ret (render (c11_pattern c)).
Proof.
  intros H. unfold code11_char_encoding. rewrite code11_CHARS_eq.
  rewrite (mtable_find _ _ c c11_len H). reflexivity.
Qed.
Lemma code11_char_pos_ok c : In c c11_chars -> code11_char_pos c = Ret (c11_value c).
Proof.
  intros H. unfold code11_char_pos. rewrite code11_CHARS_eq.
  rewrite (mtable_position _ _ c c11_len H). reflexivity.
Qed.
Lemma c11_value_le c : In c c11_chars -> c11_value c <= 10.
Proof. intros H. pose proof (value_lt _ _ H) as E. rewrite c11_size in E. unfold c11_value. lia. Qed.
Lemma code11_weight_ok top i : 0 < top -> code11_weight top (i + 1) = Ret (weight_at top i).
Proof. intros Ht. unfold code11_weight. rewrite rem_u_ok by lia. reflexivity. Qed.

Definition c11_term (top : N) (x : N * char) : N := weight_at top (fst x) * c11_value (snd x).
Lemma c11_terms_sum top s : forall i,
  sum_N (map (c11_term top) (enumerate_from i s)) = wpos top i (map c11_value s).
Proof.
  induction s as [|c s IH]; intros i; [reflexivity|].
  cbn [enumerate_from map wpos]. unfold sum_N. cbn [fold_right].
  fold (sum_N (map (c11_term top) (enumerate_from (i + 1) s))). rewrite IH. reflexivity.
Qed.
Lemma weighted_bound11 top s : 0 < top -> top <= 10 -> Forall c11_in s -> len s < 2 ^ 49 ->
  weighted top (map c11_value s) < 2 ^ usize_bits.
Proof.
  intros Ht Ht2 H Hl. unfold weighted.
  assert (E : weigh top 1 (rev (map c11_value s)) <= len (rev (map c11_value s)) * (top * 10)).
  { apply weigh_bound; [lia|]. apply Forall_rev. apply Forall_map. revert H.
    apply Forall_impl. exact c11_value_le. }
  assert (E2 : len (rev (map c11_value s)) = len s).
  { unfold len. now rewrite rev_length, map_length. }
  rewrite E2 in E. unfold usize_bits.
  change (2 ^ 49) with 562949953421312 in Hl. change (2 ^ 64) with 18446744073709551616.
  change (@len char s) with (@len N s) in *. nia.
Qed.

Lemma code11_checksum_char_ok p s top : 0 < top -> top <= 10 ->
  Forall c11_in s -> len s < 2 ^ 49 ->
  code11_checksum_char p s top = Ret (Some (char_of c11_chars (c11_sum top s))).
Proof.
  intros Ht Ht2 H Hl. unfold code11_checksum_char.
  assert (Es : sum_N (map (c11_term top) (enumerate (rev s))) = weighted top (map c11_value s)).
  { unfold enumerate. rewrite c11_terms_sum, weighted_wpos by assumption. now rewrite map_rev. }
  rewrite (foldM_add p _ (c11_term top)).
  - rewrite Es. cbn [bind]. rewrite N.add_0_l.
    rewrite code11_CHARS_eq, (mtable_len _ _ c11_len), c11_size.
    rewrite rem_u_ok by discriminate. cbn [bind].
    rewrite mtable_nth; [reflexivity | exact c11_len |].
    rewrite c11_size. apply N.mod_lt. discriminate.
  - intros acc [i c] Hin. apply enumerate_from_In in Hin. destruct Hin as [Hi Hc].
    apply nth_error_In in Hc. apply in_rev in Hc. rewrite Forall_forall in H. specialize (H _ Hc).
    rewrite code11_char_pos_ok by assumption. cbn [bind].
    unfold add_u at 1. rewrite fit_u_ok.
    2:{ unfold usize_bits. change (2 ^ 64) with 18446744073709551616.
        change (2 ^ 49) with 562949953421312 in Hl.
        assert (E : len (rev s) = len s) by (unfold len; now rewrite rev_length). lia. }
    cbn [bind]. rewrite code11_weight_ok by assumption. cbn [bind].
    unfold mul_u. rewrite fit_u_ok; [reflexivity|].
    pose proof (c11_value_le c H). pose proof (weight_at_range top i Ht).
    unfold usize_bits. change (2 ^ 64) with 18446744073709551616. nia.
  - rewrite Es, N.add_0_l. now apply weighted_bound11.
Qed.

Lemma code11_payload_ok p s : Forall c11_in s -> len s < 2 ^ 48 ->
  code11_payload p (mkCode11 s) =
  Ret (concat (map (fun c => render (c11_pattern c) ++ [0]) (c11_checked s))).
Proof.
  intros H Hl. unfold code11_payload, code11_c_checksum_char, code11_k_checksum_char.
  cbn [c11_0].
  assert (E49 : 2 ^ 49 = 2 ^ 48 + 2 ^ 48) by reflexivity.
  rewrite code11_checksum_char_ok; [|lia|lia|assumption|lia].
  cbn [bind unwrap]. fold (c11_C s).
  rewrite (foldM_Ret _ (fun enc c => enc ++ (render (c11_pattern c) ++ [0]))).
  2:{ intros acc c Hc. rewrite code11_char_encoding_ok; [reflexivity|].
      rewrite Forall_forall in H. auto. }
  cbn [bind]. rewrite fold_left_app_concat. cbn [app].
  rewrite code11_char_encoding_ok by apply c11_C_In. cbn [bind].
  unfold c11_checked. rewrite map_app, concat_app.
  assert (Ei : (10 <? len s) = Nat.ltb 10 (length s)).
  { unfold len. destruct (Nat.ltb 10 (length s)) eqn:E.
    - apply Nat.ltb_lt in E. apply N.ltb_lt. lia.
    - apply Nat.ltb_ge in E. apply N.ltb_ge. lia. }
  rewrite Ei. destruct (Nat.ltb 10 (length s)).
  - rewrite code11_checksum_char_ok; [|lia|lia| |].
    2:{ apply Forall_app. split; [assumption|]. constructor; [apply c11_C_In | constructor]. }
    2:{ rewrite len_app. change (len [c11_C s]) with 1. change (2 ^ 48) with 281474976710656 in *. lia. }
    cbn [bind unwrap]. fold (c11_K s).
    rewrite code11_char_encoding_ok by apply c11_K_In. cbn [bind].
    unfold code11_push_encoding. cbn [map concat app].
    rewrite app_nil_r, <- !app_assoc. reflexivity.
  - unfold code11_push_encoding. cbn [map concat app]. rewrite app_nil_r. reflexivity.
Qed.

Lemma code11_encode_ok p s : Forall c11_in s -> len s < 2 ^ 48 ->
  code11_encode p (mkCode11 s) = Ret (render (c11_symbol (c11_checked s))).
Proof.
  intros H Hl. unfold code11_encode. rewrite code11_payload_ok by assumption. cbn [bind].
  f_equal. rewrite c11_symbol_gap, render_gap_symbol.
  - unfold join_slices. cbn [concat]. rewrite app_nil_r.
    change code11_GUARD with (render c11_guard). reflexivity.
  - reflexivity.
  - apply c11_checked_in in H. revert H. apply Forall_impl. intros c Hc.
    rewrite c11_pattern_length by assumption. reflexivity.
Qed.

(** ** Constructor *)
Lemma code11_new_spec s :
  let n := str_len s mod 2 ^ 32 in
  let r := code11_new s in
  (r = Err ELength <-> ~ (1 <= n <= 256)) /\
  (r = Err ECharacter <-> 1 <= n <= 256 /\ ~ Forall c11_in s) /\
  r <> Err EChecksum /\
  (forall b, r = Ok b <-> 1 <= n <= 256 /\ Forall c11_in s /\ b = mkCode11 s).
Proof.
  cbv zeta. unfold code11_new. rewrite code11_valid_chars_eq.
  exact (alphabet_new mkCode11 c11_chars 1 256 s).
Qed.
Lemma code11_new_Ok s b : code11_new s = Ok b -> Forall c11_in s /\ b = mkCode11 s /\ s <> [].
Proof.
  intros H. apply (code11_new_spec s) in H. destruct H as [H1 [H2 H3]].
  repeat split; try assumption. intros ->. cbn in H1. lia.
Qed.
Lemma code11_accepted p s b : str_len s < 2 ^ 48 -> code11_new s = Ok b ->
  code11_encode p b = Ret (render (c11_symbol
    (s ++ [c11_C s] ++ (if Nat.ltb 10 (length s) then [c11_K s] else [])))).
Proof.
  intros Hs Hb. apply len_lt_str in Hs. apply code11_new_Ok in Hb. destruct Hb as [H [-> _]].
  apply code11_encode_ok; assumption.
Qed.
Lemma code11_scan_back p s b : str_len s < 2 ^ 48 -> code11_new s = Ok b ->
  exists m, code11_encode p b = Ret m /\ obind (scan m) read_c11 = Some s.
Proof.
  intros Hs Hb. apply len_lt_str in Hs. apply code11_new_Ok in Hb. destruct Hb as [H [-> _]].
  eexists. split; [apply code11_encode_ok; assumption|].
  rewrite c11_symbol_scan by now apply c11_checked_in. cbn [obind]. now apply c11_symbol_read.
Qed.
Lemma code11_injective p s1 s2 b1 b2 m : str_len s1 < 2 ^ 48 -> str_len s2 < 2 ^ 48 ->
  code11_new s1 = Ok b1 -> code11_new s2 = Ok b2 ->
  code11_encode p b1 = Ret m -> code11_encode p b2 = Ret m -> s1 = s2.
Proof.
  intros Hs1 Hs2 H1 H2 E1 E2.
  destruct (code11_scan_back p s1 b1 Hs1 H1) as [m1 [E1' R1]].
  destruct (code11_scan_back p s2 b2 Hs2 H2) as [m2 [E2' R2]]. congruence.
Qed.

(** ** Error detection *)
Lemma c11_subst top u c c' v : 1 <= top <= 10 -> In c c11_chars -> In c' c11_chars -> c' <> c ->
  verify_last c11_chars 11 top (u ++ c :: v) <> None ->
  verify_last c11_chars 11 top (u ++ c' :: v) = None.
Proof. exact (verify_last_subst c11_chars 11 10 c11_size ltac:(discriminate) inv11 top u c c' v). Qed.
Lemma c11_swap top u c d v : 2 <= top <= 10 -> In c c11_chars -> In d c11_chars -> c <> d ->
  verify_last c11_chars 11 top (u ++ c :: d :: v) <> None ->
  verify_last c11_chars 11 top (u ++ d :: c :: v) = None.
Proof. exact (verify_last_swap c11_chars 11 10 c11_size ltac:(discriminate) inv11 odd11 top u c d v). Qed.

(** If changing a message in a way that keeps its length makes every single check fail,
    the reader refuses. *)
Lemma c11_verify_change s r' :
  length r' = length (c11_checked s) ->
  (forall top, 2 <= top <= 10 -> verify_last c11_chars 11 top (c11_checked s) <> None ->
     verify_last c11_chars 11 top r' = None) ->
  c11_verify r' = None.
Proof.
  intros Hl H. unfold c11_verify. rewrite Hl, c11_checked_long.
  unfold c11_checked in H. destruct (Nat.ltb 10 (length s)).
  - rewrite (H 9); [reflexivity | lia |]. rewrite app_assoc, c11_verify_K. discriminate.
  - cbn [obind]. apply H; [lia|]. rewrite app_nil_r, c11_verify_C. discriminate.
Qed.
Lemma code11_misread p s b : str_len s < 2 ^ 48 -> code11_new s = Ok b ->
  exists m r, code11_encode p b = Ret m /\ obind (scan m) read_c11_raw = Some r /\
    c11_verify r = Some s /\
    (forall u c v c', r = u ++ c :: v -> In c' c11_chars -> c' <> c ->
       c11_verify (u ++ c' :: v) = None) /\
    (forall u c d v, r = u ++ c :: d :: v -> c <> d -> c11_verify (u ++ d :: c :: v) = None).
Proof.
  intros Hs Hb. apply len_lt_str in Hs. apply code11_new_Ok in Hb. destruct Hb as [H [-> _]].
  eexists. exists (c11_checked s). split; [apply code11_encode_ok; assumption|].
  rewrite c11_symbol_scan by now apply c11_checked_in. cbn [obind].
  split; [apply c11_symbol_read_raw; now apply c11_checked_in|].
  split; [apply c11_verify_checked|].
  pose proof (c11_checked_in s H) as HF. rewrite Forall_forall in HF.
  split.
  - intros u c v c' E Hc' Hne. apply (c11_verify_change s).
    + rewrite E, !app_length. reflexivity.
    + intros top Ht V. rewrite E in V. apply c11_subst with (c := c); try assumption; [lia|].
      apply HF. rewrite E. apply in_or_app. right. now left.
  - intros u c d v E Hne. apply (c11_verify_change s).
    + rewrite E, !app_length. reflexivity.
    + intros top Ht V. rewrite E in V. apply c11_swap; try assumption.
      * apply HF. rewrite E. apply in_or_app. right. now left.
      * apply HF. rewrite E. apply in_or_app. right. right. now left.
Qed.

(** ** Right to left *)
Lemma c11_symbol_rev cs : Forall c11_in cs -> read_c11_raw (rev (c11_symbol cs)) = None.
Proof.
  intros H. unfold read_c11_raw.
  destruct (chop 6 (rev (c11_symbol cs) ++ [1%nat])) as [bs|] eqn:E; [|reflexivity]. cbn [obind].
  apply chop_sound in E. destruct E as [E HF].
  assert (Ef : firstn 5 (rev (c11_symbol cs) ++ [1%nat]) = rev c11_guard).
  { unfold c11_symbol. rewrite !rev_app_distr, <- !app_assoc. reflexivity. }
  destruct bs as [|b0 bs]; [destruct (rev (c11_symbol cs)); discriminate|].
  inversion HF as [|? ? Hb0 _]; subst.
  assert (Eb : firstn 5 b0 = rev c11_guard).
  { rewrite <- Ef, <- E. cbn [concat]. rewrite firstn_app, Hb0. cbn [Nat.sub]. now rewrite app_nil_r. }
  cbn [read_all]. unfold gap_block at 1. rewrite Eb. unfold guard at 1.
  destruct (widths_eqb (skipn 5 b0) [1%nat]); [|reflexivity].
  destruct (read_all (gap_block 5) bs) as [l|]; [|reflexivity]. cbn [obind].
  unfold strip_ends. destruct (rev l); reflexivity.
Qed.
