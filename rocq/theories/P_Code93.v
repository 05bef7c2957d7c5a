(** * Proofs about Code 93 *)
From Verif Require Import Rust M_Error M_Parse M_Helpers M_Tables M_Code93
  S_Barcode S_Linear P_Rust P_Barcode P_Parse P_Alphabet P_Gap P_Weighted P_Code39.

Lemma c93_len : length c93_chars = length c93_table. Proof. reflexivity. Qed.
Lemma c93_nodup_t : NoDup c93_table. Proof. apply nodupb_NoDup. reflexivity. Qed.
Lemma c93_nodup_c : NoDup c93_chars. Proof. apply nodup_chars_NoDup. reflexivity. Qed.
Lemma code93_CHARS_eq : code93_CHARS = mtable c93_chars c93_table.
Proof. vm_compute. reflexivity. Qed.
Lemma code93_valid_chars_eq : code93_valid_chars = c93_chars.
Proof. vm_compute. reflexivity. Qed.
Lemma c93_size : len c93_chars = 47. Proof. reflexivity. Qed.

Notation c93_in := (fun c => In c c93_chars).
Local Opaque pattern value char_of.

Lemma c93_pattern_length c : In c c93_chars -> length (c93_pattern c) = 6%nat.
Proof.
  intros H. apply Nat.eqb_eq.
  exact (forallb_pattern (fun ws => Nat.eqb (length ws) 6) c93_chars c93_table c c93_len eq_refl H).
Qed.
Lemma c93_pattern_sum c : In c c93_chars -> list_sum (c93_pattern c) = 9%nat.
Proof.
  intros H. apply Nat.eqb_eq.
  exact (forallb_pattern (fun ws => Nat.eqb (list_sum ws) 9) c93_chars c93_table c c93_len eq_refl H).
Qed.
Lemma c93_pattern_widths c : In c c93_chars -> Forall (fun w => 1 <= w <= 4)%nat (c93_pattern c).
Proof.
  intros H. apply widths_in_Forall.
  exact (forallb_pattern (widths_in 4) c93_chars c93_table c c93_len eq_refl H).
Qed.

Lemma c93_lengths cs : Forall c93_in cs -> Forall (fun b => length b = 6%nat) (map c93_pattern cs).
Proof. intros H. apply Forall_map. revert H. apply Forall_impl. intros c. apply c93_pattern_length. Qed.

Lemma concat_length_const {A} k (bs : list (list A)) :
  Forall (fun b => length b = k) bs -> length (concat bs) = (k * length bs)%nat.
Proof. induction 1; cbn [concat length]; [lia|]. rewrite app_length. lia. Qed.

Lemma c93_symbol_blocks cs :
  c93_symbol cs = concat (c93_star :: map c93_pattern cs ++ [c93_star]) ++ [1%nat].
Proof.
  unfold c93_symbol. cbn [concat]. rewrite concat_app. cbn [concat].
  rewrite app_nil_r, <- !app_assoc. reflexivity.
Qed.
Lemma c93_blocks_length cs : Forall c93_in cs ->
  Forall (fun b => length b = 6%nat) (c93_star :: map c93_pattern cs ++ [c93_star]).
Proof.
  intros H. constructor; [reflexivity|]. apply Forall_app.
  split; [now apply c93_lengths | repeat constructor].
Qed.

Lemma c93_symbol_widths cs : Forall c93_in cs -> Forall (fun w => 1 <= w <= 4)%nat (c93_symbol cs).
Proof.
  intros H. unfold c93_symbol. repeat (apply Forall_app; split).
  - now apply widths_in_Forall.
  - induction H; cbn [map concat]; [constructor|]. apply Forall_app. split; [|assumption].
    now apply c93_pattern_widths.
  - now apply widths_in_Forall.
  - repeat constructor.
Qed.
Lemma c93_symbol_odd cs : Forall c93_in cs -> Nat.even (length (c93_symbol cs)) = false.
Proof.
  intros H. rewrite c93_symbol_blocks, app_length.
  rewrite (concat_length_const 6) by now apply c93_blocks_length.
  change (length [1%nat]) with 1%nat. rewrite Nat.even_add, Nat.even_mul. reflexivity.
Qed.
Lemma c93_symbol_scan cs : Forall c93_in cs -> scan (render (c93_symbol cs)) = Some (c93_symbol cs).
Proof.
  intros H. apply scan_render; [|now apply c93_symbol_odd].
  apply (widths_pos 4). now apply c93_symbol_widths.
Qed.

Lemma render_c93_symbol cs : Forall c93_in cs ->
  render (c93_symbol cs) =
  render c93_star ++ concat (map (fun c => render (c93_pattern c)) cs) ++ render c93_star ++ [1].
Proof.
  intros H. unfold c93_symbol, render at 1.
  rewrite render_from_app_even by auto. rewrite render_from_app_even.
  - rewrite render_from_concat_even; [|auto|].
    + rewrite map_map. reflexivity.
    + pose proof (c93_lengths cs H) as HF. revert HF. apply Forall_impl. intros b ->. reflexivity.
  - auto.
  - rewrite (concat_length_const 6) by now apply c93_lengths. rewrite Nat.even_mul. reflexivity.
Qed.

Lemma length_concat_render cs : Forall c93_in cs ->
  length (concat (map (fun c => render (c93_pattern c)) cs)) = (9 * length cs)%nat.
Proof.
  intros H. rewrite (concat_length_const 9); [now rewrite map_length|].
  apply Forall_map. revert H. apply Forall_impl. intros c Hc. unfold render.
  rewrite render_from_length. now apply c93_pattern_sum.
Qed.
Lemma c93_symbol_modules cs : Forall c93_in cs ->
  length (render (c93_symbol cs)) = (9 * (length cs + 2) + 1)%nat.
Proof.
  intros H. rewrite render_c93_symbol by assumption. rewrite !app_length, length_concat_render by assumption.
  change (length (render c93_star)) with 9%nat. change (length [1]) with 1%nat. lia.
Qed.

Lemma c93_symbol_read_raw cs : Forall c93_in cs -> read_c93_raw (c93_symbol cs) = Some cs.
Proof.
  intros H. unfold read_c93_raw. rewrite c93_symbol_blocks, rev_app_distr.
  cbn [rev app firstn skipn widths_eqb Nat.eqb andb guard]. rewrite rev_involutive.
  rewrite chop_concat; [|lia | now apply c93_blocks_length]. cbn [obind].
  rewrite strip_ends_ok. cbn [obind]. rewrite widths_eqb_refl. cbn [andb guard].
  apply read_all_map_id. intros c Hc. rewrite Forall_forall in H.
  apply read_char_pattern; [exact c93_len | exact c93_nodup_t | now apply H].
Qed.

(** ** Check characters *)
Lemma c93_sum_lt top cs : c93_sum top cs < 47.
Proof. unfold c93_sum, check_sum. apply N.mod_lt. discriminate. Qed.
Lemma c93_value_char v : v < 47 -> c93_value (char_of c93_chars v) = v.
Proof. intros H. apply value_char_of; [exact c93_nodup_c | exact H]. Qed.
Lemma c93_char_In v : v < 47 -> In (char_of c93_chars v) c93_chars.
Proof. intros H. apply char_of_In. exact H. Qed.
Lemma c93_C_In s : In (c93_C s) c93_chars. Proof. apply c93_char_In, c93_sum_lt. Qed.
Lemma c93_K_In s : In (c93_K s) c93_chars. Proof. apply c93_char_In, c93_sum_lt. Qed.

Definition c93_message (s : str) : list char := s ++ [c93_C s; c93_K s].
Lemma c93_message_in s : Forall c93_in s -> Forall c93_in (c93_message s).
Proof.
  intros H. apply Forall_app. split; [assumption|].
  constructor; [apply c93_C_In|]. constructor; [apply c93_K_In | constructor].
Qed.
Lemma c93_message_split s : c93_message s = (s ++ [c93_C s]) ++ [c93_K s].
Proof. unfold c93_message. now rewrite <- app_assoc. Qed.

Lemma c93_verify_C s : verify_last c93_chars 47 20 (s ++ [c93_C s]) = Some s.
Proof.
  rewrite verify_last_app. fold (c93_sum 20 s) c93_value. unfold c93_C.
  rewrite c93_value_char by apply c93_sum_lt. now rewrite N.eqb_refl.
Qed.
Lemma c93_verify_K s : verify_last c93_chars 47 15 (c93_message s) = Some (s ++ [c93_C s]).
Proof.
  rewrite c93_message_split, verify_last_app. fold (c93_sum 15 (s ++ [c93_C s])) c93_value.
  unfold c93_K. rewrite c93_value_char by apply c93_sum_lt. now rewrite N.eqb_refl.
Qed.
Lemma c93_verify_message s : c93_verify (c93_message s) = Some s.
Proof. unfold c93_verify. rewrite c93_verify_K. cbn [obind]. apply c93_verify_C. Qed.

Lemma c93_symbol_read s : Forall c93_in s -> read_c93 (c93_symbol (c93_message s)) = Some s.
Proof.
  intros H. unfold read_c93. rewrite c93_symbol_read_raw by now apply c93_message_in.
  cbn [obind]. apply c93_verify_message.
Qed.

(** ** The model's encoder *)
Lemma code93_char_encoding_ok c : In c c93_chars ->
  code93_char_encoding c = Ret (render (c93_pattern c)).
Proof.
  intros H. unfold code93_char_encoding. rewrite code93_CHARS_eq.
  rewrite (mtable_find _ _ c c93_len H). reflexivity.
Qed.
Lemma code93_char_pos_ok c : In c c93_chars -> code93_char_pos c = Ret (c93_value c).
Proof.
  intros H. unfold code93_char_pos. rewrite code93_CHARS_eq.
  rewrite (mtable_position _ _ c c93_len H). reflexivity.
Qed.
Lemma c93_value_le c : In c c93_chars -> c93_value c <= 46.
Proof. intros H. pose proof (value_lt _ _ H) as E. rewrite c93_size in E. unfold c93_value. lia. Qed.

Lemma code93_weight_ok p n top i : 0 < top -> i < n ->
  code93_weight p n top i = Ret (weight_at top (n - i - 1)).
Proof.
  intros Ht Hi. unfold code93_weight. rewrite sub_u_ok by lia. cbn [bind].
  rewrite rem_u_ok by lia. cbn [bind]. unfold weight_at.
  replace (n - i - 1 + 1) with (n - i) by lia. reflexivity.
Qed.

(** The positional terms added by the model *)
Definition c93_term (n top : N) (x : N * char) : N :=
  weight_at top (n - fst x - 1) * c93_value (snd x).
Lemma c93_terms_sum top s : 0 < top -> forall i n, n = i + len s ->
  sum_N (map (c93_term n top) (enumerate_from i s)) = weighted top (map c93_value s).
Proof.
  intros Ht. induction s as [|c s IH]; intros i n E.
  - reflexivity.
  - cbn [enumerate_from map]. unfold sum_N. cbn [fold_right].
    fold (sum_N (map (c93_term n top) (enumerate_from (i + 1) s))).
    rewrite IH by (rewrite E, len_cons; lia).
    rewrite !weighted_wpos by assumption. cbn [rev]. rewrite wpos_app. cbn [wpos].
    unfold c93_term. cbn [fst snd].
    assert (E2 : n - i - 1 = 0 + len (rev (map c93_value s))).
    { unfold len. rewrite rev_length, map_length. fold (len s). rewrite E, len_cons. lia. }
    rewrite E2. lia.
Qed.

Lemma weighted_bound top s : 0 < top -> top <= 20 -> Forall c93_in s -> len s < 2 ^ 49 ->
  weighted top (map c93_value s) < 2 ^ usize_bits.
Proof.
  intros Ht Ht2 H Hl. unfold weighted.
  assert (E : weigh top 1 (rev (map c93_value s)) <= len (rev (map c93_value s)) * (top * 46)).
  { apply weigh_bound; [lia|]. apply Forall_rev. apply Forall_map. revert H.
    apply Forall_impl. exact c93_value_le. }
  assert (E2 : len (rev (map c93_value s)) = len s).
  { unfold len. now rewrite rev_length, map_length. }
  rewrite E2 in E. unfold usize_bits.
  change (2 ^ 49) with 562949953421312 in Hl. change (2 ^ 64) with 18446744073709551616.
  change (@len char s) with (@len N s) in *. nia.
Qed.

Lemma code93_checksum_char_ok p s top : 0 < top -> top <= 20 ->
  Forall c93_in s -> len s < 2 ^ 49 ->
  code93_checksum_char p s top = Ret (Some (char_of c93_chars (c93_sum top s))).
Proof.
  intros Ht Ht2 H Hl. unfold code93_checksum_char.
  pose proof (c93_terms_sum top s Ht 0 (len s) (eq_sym (N.add_0_l _))) as Es.
  rewrite (foldM_add p _ (c93_term (len s) top)).
  - unfold enumerate. rewrite Es. cbn [bind]. rewrite N.add_0_l.
    rewrite code93_CHARS_eq, (mtable_len _ _ c93_len), c93_size.
    rewrite rem_u_ok by discriminate. cbn [bind].
    rewrite mtable_nth; [reflexivity | exact c93_len |].
    rewrite c93_size. apply N.mod_lt. discriminate.
  - intros acc [i c] Hin. apply enumerate_from_In in Hin. destruct Hin as [Hi Hc].
    apply nth_error_In in Hc. rewrite Forall_forall in H. specialize (H _ Hc).
    rewrite code93_char_pos_ok by assumption. cbn [bind].
    rewrite code93_weight_ok by (assumption || lia). cbn [bind].
    unfold mul_u. rewrite fit_u_ok; [reflexivity|].
    pose proof (c93_value_le c H). pose proof (weight_at_range top (len s - i - 1) Ht).
    unfold usize_bits. change (2 ^ 64) with 18446744073709551616. nia.
  - unfold enumerate. rewrite Es, N.add_0_l. now apply weighted_bound.
Qed.

Lemma code93_payload_ok p s : Forall c93_in s -> len s < 2 ^ 48 ->
  code93_payload p (mkCode93 s) =
  Ret (concat (map (fun c => render (c93_pattern c)) (c93_message s))).
Proof.
  intros H Hl. unfold code93_payload, code93_c_checksum_char, code93_k_checksum_char.
  cbn [c93_0].
  assert (E49 : 2 ^ 49 = 2 ^ 48 + 2 ^ 48) by reflexivity.
  rewrite code93_checksum_char_ok; [|lia|lia|assumption|lia].
  cbn [bind unwrap]. fold (c93_C s).
  rewrite code93_checksum_char_ok; [|lia|lia| |].
  2:{ apply Forall_app. split; [assumption|]. constructor; [apply c93_C_In | constructor]. }
  2:{ rewrite len_app. change (len [c93_C s]) with 1. change (2 ^ 48) with 281474976710656 in *. lia. }
  cbn [bind unwrap]. fold (c93_K s).
  rewrite (foldM_Ret _ (fun enc c => enc ++ render (c93_pattern c))).
  - cbn [bind]. rewrite fold_left_app_concat. cbn [app].
    rewrite !code93_char_encoding_ok by (apply c93_C_In || apply c93_K_In). cbn [bind].
    unfold code93_push_encoding, c93_message. rewrite map_app, concat_app. cbn [map concat].
    rewrite app_nil_r, <- !app_assoc. reflexivity.
  - intros acc c Hc. rewrite code93_char_encoding_ok; [reflexivity|].
    rewrite Forall_forall in H. auto.
Qed.

Lemma code93_encode_ok p s : Forall c93_in s -> len s < 2 ^ 48 ->
  code93_encode p (mkCode93 s) = Ret (render (c93_symbol (c93_message s))).
Proof.
  intros H Hl. unfold code93_encode. rewrite code93_payload_ok by assumption. cbn [bind].
  f_equal. rewrite render_c93_symbol by now apply c93_message_in.
  unfold join_slices. cbn [concat]. rewrite app_nil_r.
  change code93_GUARD with (render c93_star). reflexivity.
Qed.

(** ** Constructor *)
Lemma code93_new_spec s :
  let n := str_len s mod 2 ^ 32 in
  let r := code93_new s in
  (r = Err ELength <-> ~ (1 <= n <= 256)) /\
  (r = Err ECharacter <-> 1 <= n <= 256 /\ ~ Forall c93_in s) /\
  r <> Err EChecksum /\
  (forall b, r = Ok b <-> 1 <= n <= 256 /\ Forall c93_in s /\ b = mkCode93 s).
Proof.
  cbv zeta. unfold code93_new. rewrite code93_valid_chars_eq.
  exact (alphabet_new mkCode93 c93_chars 1 256 s).
Qed.
Lemma code93_new_Ok s b : code93_new s = Ok b -> Forall c93_in s /\ b = mkCode93 s /\ s <> [].
Proof.
  intros H. apply (code93_new_spec s) in H. destruct H as [H1 [H2 H3]].
  repeat split; try assumption. intros ->. cbn in H1. lia.
Qed.

Lemma code93_accepted p s b : str_len s < 2 ^ 48 -> code93_new s = Ok b ->
  exists m, code93_encode p b = Ret m /\
    m = render (c93_symbol (s ++ [c93_C s; c93_K s])) /\
    length m = (9 * (length s + 4) + 1)%nat.
Proof.
  intros Hs Hb. apply len_lt_str in Hs. apply code93_new_Ok in Hb. destruct Hb as [H [-> _]].
  eexists. split; [apply code93_encode_ok; assumption|]. split; [reflexivity|].
  rewrite c93_symbol_modules by now apply c93_message_in.
  unfold c93_message. rewrite app_length. cbn [length]. lia.
Qed.
Lemma code93_scan_back p s b : str_len s < 2 ^ 48 -> code93_new s = Ok b ->
  exists m, code93_encode p b = Ret m /\ obind (scan m) read_c93 = Some s.
Proof.
  intros Hs Hb. apply len_lt_str in Hs. apply code93_new_Ok in Hb. destruct Hb as [H [-> _]].
  eexists. split; [apply code93_encode_ok; assumption|].
  rewrite c93_symbol_scan by now apply c93_message_in. cbn [obind]. now apply c93_symbol_read.
Qed.
Lemma code93_injective p s1 s2 b1 b2 m : str_len s1 < 2 ^ 48 -> str_len s2 < 2 ^ 48 ->
  code93_new s1 = Ok b1 -> code93_new s2 = Ok b2 ->
  code93_encode p b1 = Ret m -> code93_encode p b2 = Ret m -> s1 = s2.
Proof.
  intros Hs1 Hs2 H1 H2 E1 E2.
  destruct (code93_scan_back p s1 b1 Hs1 H1) as [m1 [E1' R1]].
  destruct (code93_scan_back p s2 b2 Hs2 H2) as [m2 [E2' R2]]. congruence.
Qed.

(** ** Error detection *)
Lemma c93_subst top u c c' v : 1 <= top <= 20 -> In c c93_chars -> In c' c93_chars -> c' <> c ->
  verify_last c93_chars 47 top (u ++ c :: v) <> None ->
  verify_last c93_chars 47 top (u ++ c' :: v) = None.
Proof. exact (verify_last_subst c93_chars 47 20 c93_size ltac:(discriminate) inv47 top u c c' v). Qed.
Lemma c93_swap top u c d v : 2 <= top <= 20 -> In c c93_chars -> In d c93_chars -> c <> d ->
  verify_last c93_chars 47 top (u ++ c :: d :: v) <> None ->
  verify_last c93_chars 47 top (u ++ d :: c :: v) = None.
Proof. exact (verify_last_swap c93_chars 47 20 c93_size ltac:(discriminate) inv47 odd47 top u c d v). Qed.

(** A data character replaced, C and K kept: the C check fails (and the K check too). *)
Lemma code93_typo p s b u c v c' : str_len s < 2 ^ 48 -> code93_new s = Ok b ->
  s = u ++ c :: v -> In c' c93_chars -> c' <> c ->
  exists m kept, code93_encode p b = Ret m /\
    obind (scan m) read_c93_raw = Some (s ++ kept) /\ length kept = 2%nat /\
    verify_last c93_chars 47 20 ((u ++ c' :: v) ++ firstn 1 kept) = None /\
    verify_last c93_chars 47 15 ((u ++ c' :: v) ++ kept) = None.
Proof.
  intros Hs Hb E Hc' Hne. apply len_lt_str in Hs. apply code93_new_Ok in Hb. destruct Hb as [H [-> _]].
  eexists. exists [c93_C s; c93_K s]. split; [apply code93_encode_ok; assumption|].
  rewrite c93_symbol_scan by now apply c93_message_in. cbn [obind].
  split; [apply c93_symbol_read_raw; now apply c93_message_in|]. split; [reflexivity|].
  assert (Hc : In c c93_chars).
  { rewrite Forall_forall in H. apply H. rewrite E. apply in_or_app. right. now left. }
  cbn [firstn]. rewrite <- !app_assoc. cbn [app]. split.
  - apply c93_subst with (c := c); try assumption; [lia|].
    pose proof (c93_verify_C s) as V. rewrite E in V at 1.
    rewrite <- app_assoc in V. cbn [app] in V. rewrite V. discriminate.
  - apply c93_subst with (c := c); try assumption; [lia|].
    pose proof (c93_verify_K s) as V. unfold c93_message in V. rewrite E in V at 1.
    rewrite <- app_assoc in V. cbn [app] in V. rewrite V. discriminate.
Qed.

(** Any printed character misread, or two neighbours exchanged: the reader refuses. *)
Lemma code93_misread p s b : str_len s < 2 ^ 48 -> code93_new s = Ok b ->
  exists m r, code93_encode p b = Ret m /\ obind (scan m) read_c93_raw = Some r /\
    c93_verify r = Some s /\
    (forall u c v c', r = u ++ c :: v -> In c' c93_chars -> c' <> c ->
       c93_verify (u ++ c' :: v) = None) /\
    (forall u c d v, r = u ++ c :: d :: v -> c <> d -> c93_verify (u ++ d :: c :: v) = None).
Proof.
  intros Hs Hb. apply len_lt_str in Hs. apply code93_new_Ok in Hb. destruct Hb as [H [-> _]].
  eexists. exists (c93_message s). split; [apply code93_encode_ok; assumption|].
  rewrite c93_symbol_scan by now apply c93_message_in. cbn [obind].
  split; [apply c93_symbol_read_raw; now apply c93_message_in|].
  split; [apply c93_verify_message|].
  pose proof (c93_message_in s H) as HF. rewrite Forall_forall in HF.
  split.
  - intros u c v c' E Hc' Hne. unfold c93_verify. rewrite c93_subst with (c := c); try assumption.
    + reflexivity.
    + lia.
    + apply HF. rewrite E. apply in_or_app. right. now left.
    + rewrite <- E, c93_verify_K. discriminate.
  - intros u c d v E Hne. unfold c93_verify. rewrite c93_swap with (c := c); try assumption.
    + reflexivity.
    + lia.
    + apply HF. rewrite E. apply in_or_app. right. now left.
    + apply HF. rewrite E. apply in_or_app. right. right. now left.
    + rewrite <- E, c93_verify_K. discriminate.
Qed.

(** ** Right to left *)
Lemma c93_symbol_rev cs : Forall c93_in cs -> read_c93_raw (rev (c93_symbol cs)) = None.
Proof.
  intros H. unfold read_c93_raw. rewrite rev_involutive.
  unfold guard at 1. destruct (widths_eqb (firstn 1 (c93_symbol cs)) [1%nat]); [|reflexivity].
  destruct (chop 6 (rev (skipn 1 (c93_symbol cs)))) as [bs|] eqn:E; [|reflexivity]. cbn [obind].
  apply chop_sound in E. destruct E as [E HF].
  assert (Ef : firstn 6 (rev (skipn 1 (c93_symbol cs))) = [1; 1; 4; 1; 1; 1]%nat).
  { unfold c93_symbol. set (x := concat _ ++ _). change (skipn 1 (c93_star ++ x)) with (skipn 1 c93_star ++ x).
    subst x. rewrite !rev_app_distr, <- !app_assoc. reflexivity. }
  destruct bs as [|b0 bs]; [rewrite <- E in Ef; discriminate|].
  inversion HF as [|? ? Hb0 _]; subst.
  assert (Eb : b0 = [1; 1; 4; 1; 1; 1]%nat).
  { rewrite <- Ef, <- E. cbn [concat]. rewrite firstn_app, Hb0, Nat.sub_diag.
    rewrite firstn_all2 by lia. now rewrite app_nil_r. }
  rewrite Eb. unfold strip_ends. destruct (rev bs); reflexivity.
Qed.
