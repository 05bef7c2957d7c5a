(** * Proofs about Code 39 *)
From Verif Require Import Rust M_Error M_Parse M_Helpers M_Tables M_Code39
  S_Barcode S_Linear P_Rust P_Barcode P_Parse P_Alphabet P_Gap.

Lemma c39_len : length c39_chars = length c39_table. Proof. reflexivity. Qed.
Lemma c39_nodup_t : NoDup c39_table. Proof. apply nodupb_NoDup. reflexivity. Qed.
Lemma c39_nodup_c : NoDup c39_chars. Proof. apply nodup_chars_NoDup. reflexivity. Qed.
Lemma code39_CHARS_eq : code39_CHARS = mtable c39_chars c39_table.
Proof. vm_compute. reflexivity. Qed.
Lemma code39_valid_chars_eq : code39_valid_chars = c39_chars.
Proof. vm_compute. reflexivity. Qed.

Notation c39_in := (fun c => In c c39_chars).
Local Opaque pattern value char_of.

Lemma c39_pattern_length c : In c c39_chars -> length (c39_pattern c) = 9%nat.
Proof.
  intros H. apply Nat.eqb_eq.
  exact (forallb_pattern (fun ws => Nat.eqb (length ws) 9) c39_chars c39_table c c39_len eq_refl H).
Qed.
Lemma c39_pattern_sum c : In c c39_chars -> list_sum (c39_pattern c) = 12%nat.
Proof.
  intros H. apply Nat.eqb_eq.
  exact (forallb_pattern (fun ws => Nat.eqb (list_sum ws) 12) c39_chars c39_table c c39_len eq_refl H).
Qed.
Lemma c39_pattern_widths c : In c c39_chars -> Forall (fun w => 1 <= w <= 2)%nat (c39_pattern c).
Proof.
  intros H. apply widths_in_Forall.
  exact (forallb_pattern (widths_in 2) c39_chars c39_table c c39_len eq_refl H).
Qed.

Lemma c39_symbol_gap cs : c39_symbol cs = gap_symbol c39_star c39_pattern cs.
Proof. reflexivity. Qed.

Lemma c39_lengths cs : Forall c39_in cs -> Forall (fun c => length (c39_pattern c) = 9%nat) cs.
Proof. apply Forall_impl. intros c. apply c39_pattern_length. Qed.

Lemma c39_symbol_widths cs : Forall c39_in cs -> Forall (fun w => 1 <= w <= 2)%nat (c39_symbol cs).
Proof.
  intros H. rewrite c39_symbol_gap. apply gap_symbol_Forall; [lia | now apply widths_in_Forall |].
  revert H. apply Forall_impl. intros c. apply c39_pattern_widths.
Qed.
Lemma c39_symbol_odd cs : Forall c39_in cs -> Nat.even (length (c39_symbol cs)) = false.
Proof.
  intros H. apply (gap_symbol_odd 9 c39_star c39_pattern cs); try reflexivity. now apply c39_lengths.
Qed.
Lemma c39_symbol_scan cs : Forall c39_in cs -> scan (render (c39_symbol cs)) = Some (c39_symbol cs).
Proof.
  intros H. apply scan_render; [|now apply c39_symbol_odd].
  apply (widths_pos 2). now apply c39_symbol_widths.
Qed.
Lemma c39_symbol_modules cs : Forall c39_in cs ->
  length (render (c39_symbol cs)) = (13 * length cs + 25)%nat.
Proof.
  intros H. unfold render. rewrite render_from_length, c39_symbol_gap, gap_symbol_sum.
  change (list_sum c39_star) with 12%nat.
  assert (E : list_sum (map (fun c => list_sum (c39_pattern c) + 1)%nat cs) = (13 * length cs)%nat).
  { apply list_sum_const. revert H. apply Forall_impl. intros c Hc.
    rewrite c39_pattern_sum by assumption. reflexivity. }
  rewrite E. lia.
Qed.

Lemma c39_symbol_read cs : Forall c39_in cs -> read_c39 (c39_symbol cs) = Some cs.
Proof.
  intros H. unfold read_c39. rewrite c39_symbol_gap.
  rewrite (gap_symbol_chop 9) by (reflexivity || now apply c39_lengths). cbn [obind].
  rewrite (gap_symbol_blocks_read 9) by (reflexivity || now apply c39_lengths). cbn [obind].
  rewrite strip_ends_ok. cbn [obind]. rewrite widths_eqb_refl. cbn [andb guard].
  apply read_all_map_id. intros c Hc. rewrite Forall_forall in H.
  apply read_char_pattern; [exact c39_len | exact c39_nodup_t | now apply H].
Qed.

(** ** The model's encoder *)
Lemma code39_char_encoding_ok c : In c c39_chars ->
  code39_char_encoding c = Ret (render (c39_pattern c)).
Proof.
  intros H. unfold code39_char_encoding. rewrite code39_CHARS_eq.
  rewrite (mtable_find _ _ c c39_len H). reflexivity.
Qed.
Lemma code39_char_pos_ok c : In c c39_chars -> code39_char_pos c = Ret (c39_value c).
Proof.
  intros H. unfold code39_char_pos. rewrite code39_CHARS_eq.
  rewrite (mtable_position _ _ c c39_len H). reflexivity.
Qed.
Lemma c39_sum_eq s : c39_sum s = sum_N (map c39_value s). Proof. reflexivity. Qed.

Lemma c39_value_le c : In c c39_chars -> c39_value c <= 42.
Proof. intros H. pose proof (value_lt _ _ H) as E. change (len c39_chars) with 43 in E. unfold c39_value. lia. Qed.

Lemma c39_sum_bound s : Forall c39_in s -> len s < 2 ^ 48 -> c39_sum s < 2 ^ usize_bits.
Proof.
  intros H Hl. rewrite c39_sum_eq.
  assert (E : sum_N (map c39_value s) <= len (map c39_value s) * 42).
  { apply sum_N_bound. apply Forall_map. revert H. apply Forall_impl. exact c39_value_le. }
  rewrite len_map in E. unfold usize_bits. change (2 ^ 48) with 281474976710656 in Hl.
  change (2 ^ 64) with 18446744073709551616. change (@len char s) with (@len N s) in *. lia.
Qed.

Lemma code39_checksum_char_ok p s f : Forall c39_in s -> len s < 2 ^ 48 ->
  code39_checksum_char p (mkCode39 s f) = Ret (Some (c39_check s)).
Proof.
  intros H Hl. unfold code39_checksum_char. cbn [c39_data].
  rewrite (foldM_add p _ c39_value).
  - cbn [bind]. rewrite N.add_0_l. rewrite code39_CHARS_eq, (mtable_len _ _ c39_len).
    change (len c39_chars) with 43. rewrite rem_u_ok by discriminate. cbn [bind].
    rewrite <- c39_sum_eq. rewrite mtable_nth; [reflexivity | exact c39_len |].
    apply N.mod_lt. discriminate.
  - intros acc c Hc. rewrite code39_char_pos_ok; [reflexivity|]. rewrite Forall_forall in H. auto.
  - rewrite N.add_0_l. now apply c39_sum_bound.
Qed.

Lemma c39_check_In s : In (c39_check s) c39_chars.
Proof. apply char_of_In. apply N.mod_lt. discriminate. Qed.

(** What is printed for a value with the given flag *)
Definition c39_message (s : str) (flag : bool) : list char := if flag then s ++ [c39_check s] else s.
Lemma c39_message_in s f : Forall c39_in s -> Forall c39_in (c39_message s f).
Proof.
  intros H. destruct f; [|exact H]. apply Forall_app. split; [assumption|].
  constructor; [apply c39_check_In | constructor].
Qed.

Lemma code39_payload_ok p s f : Forall c39_in s -> len s < 2 ^ 48 ->
  code39_payload p (mkCode39 s f) =
  Ret ([0] ++ concat (map (fun c => render (c39_pattern c) ++ [0]) (c39_message s f))).
Proof.
  intros H Hl. unfold code39_payload. cbn [c39_data c39_checksum].
  rewrite (foldM_Ret _ (fun enc c => enc ++ (render (c39_pattern c) ++ [0]))).
  - cbn [bind]. rewrite fold_left_app_concat. destruct f; [|reflexivity].
    unfold code39_checksum_encoding. rewrite code39_checksum_char_ok by assumption. cbn [bind].
    rewrite code39_char_encoding_ok by apply c39_check_In. cbn [bind].
    unfold code39_push_encoding, c39_message. rewrite map_app, concat_app. cbn [map concat].
    rewrite app_nil_r, <- !app_assoc. reflexivity.
  - intros acc c Hc. rewrite code39_char_encoding_ok; [reflexivity|].
    rewrite Forall_forall in H. auto.
Qed.

Lemma code39_encode_ok p s f : Forall c39_in s -> len s < 2 ^ 48 ->
  code39_encode p (mkCode39 s f) = Ret (render (c39_symbol (c39_message s f))).
Proof.
  intros H Hl. unfold code39_encode. rewrite code39_payload_ok by assumption. cbn [bind].
  f_equal. rewrite c39_symbol_gap, render_gap_symbol.
  - unfold join_slices. cbn [concat]. rewrite app_nil_r, <- !app_assoc.
    change code39_GUARD with (render c39_star). reflexivity.
  - reflexivity.
  - apply (c39_message_in s f) in H. revert H. apply Forall_impl. intros c Hc.
    rewrite c39_pattern_length by assumption. reflexivity.
Qed.

(** ** Constructors *)
Lemma code39_init_spec f s :
  let n := str_len s mod 2 ^ 32 in
  let r := code39_init s f in
  (r = Err ELength <-> ~ (1 <= n <= 256)) /\
  (r = Err ECharacter <-> 1 <= n <= 256 /\ ~ Forall c39_in s) /\
  r <> Err EChecksum /\
  (forall b, r = Ok b <-> 1 <= n <= 256 /\ Forall c39_in s /\ b = mkCode39 s f).
Proof.
  cbv zeta. unfold code39_init. rewrite code39_valid_chars_eq.
  exact (alphabet_new (fun d => mkCode39 d f) c39_chars 1 256 s).
Qed.

Lemma code39_init_Ok f s b : code39_init s f = Ok b -> Forall c39_in s /\ b = mkCode39 s f /\ s <> [].
Proof.
  intros H. apply (code39_init_spec f s) in H. destruct H as [H1 [H2 H3]].
  repeat split; try assumption. intros ->. cbn in H1. lia.
Qed.

Lemma len_lt_str s k : str_len s < k -> len s < k.
Proof. pose proof (str_len_ge s). lia. Qed.

Lemma code39_accepted p s b0 flag : str_len s < 2 ^ 48 ->
  code39_new s = Ok b0 \/ code39_with_checksum s = Ok b0 ->
  exists m, code39_encode p (mkCode39 (c39_data b0) flag) = Ret m /\
    m = render (c39_symbol (if flag then s ++ [c39_check s] else s)) /\
    length m = (if flag then 13 * (length s + 3) - 1 else 13 * (length s + 2) - 1)%nat.
Proof.
  intros Hs Hb. apply len_lt_str in Hs.
  assert (E : Forall c39_in s /\ c39_data b0 = s).
  { destruct Hb as [Hb|Hb]; apply code39_init_Ok in Hb; destruct Hb as [H [-> _]]; auto. }
  destruct E as [H ->]. eexists. split; [apply code39_encode_ok; assumption|].
  split; [reflexivity|]. rewrite c39_symbol_modules by now apply c39_message_in.
  unfold c39_message. destruct flag; [rewrite app_length; cbn [length]|]; lia.
Qed.

Lemma code39_scan_back p s b0 flag : str_len s < 2 ^ 48 ->
  code39_new s = Ok b0 \/ code39_with_checksum s = Ok b0 ->
  exists m, code39_encode p (mkCode39 (c39_data b0) flag) = Ret m /\
    obind (scan m) read_c39 = Some (if flag then s ++ [c39_check s] else s).
Proof.
  intros Hs Hb. apply len_lt_str in Hs.
  assert (E : Forall c39_in s /\ c39_data b0 = s).
  { destruct Hb as [Hb|Hb]; apply code39_init_Ok in Hb; destruct Hb as [H [-> _]]; auto. }
  destruct E as [H ->]. eexists. split; [apply code39_encode_ok; assumption|].
  pose proof (c39_message_in s flag H) as Hm.
  rewrite c39_symbol_scan by assumption. cbn [obind].
  rewrite c39_symbol_read by assumption. reflexivity.
Qed.

(** ** The modulo-43 check *)
Lemma c39_sum_app a b : c39_sum (a ++ b) = c39_sum a + c39_sum b.
Proof. rewrite !c39_sum_eq, map_app. apply sum_N_app. Qed.
Lemma c39_sum_cons c b : c39_sum (c :: b) = c39_value c + c39_sum b.
Proof. reflexivity. Qed.

Lemma c39_check_value s : c39_value (c39_check s) = c39_sum s mod 43.
Proof.
  unfold c39_value, c39_check. apply value_char_of; [exact c39_nodup_c|].
  apply N.mod_lt. discriminate.
Qed.
Lemma c39_check_valid s : c39_valid (s ++ [c39_check s]).
Proof. exists s, (c39_check s). split; [reflexivity | apply c39_check_value]. Qed.

Lemma mod43_cancel a x y : x <= 42 -> y <= 42 -> (a + x) mod 43 = (a + y) mod 43 -> x = y.
Proof.
  intros Hx Hy H.
  pose proof (N.div_mod (a + x) 43 ltac:(discriminate)) as E1.
  pose proof (N.div_mod (a + y) 43 ltac:(discriminate)) as E2.
  rewrite H in E1. set (q := (a + x) / 43) in *. set (q' := (a + y) / 43) in *.
  set (r := (a + y) mod 43) in *. clearbody q q' r. lia.
Qed.

Lemma c39_typo u c v c' : Forall c39_in (u ++ c :: v) -> In c' c39_chars -> c' <> c ->
  c39_valid (u ++ c :: v) -> ~ c39_valid (u ++ c' :: v).
Proof.
  intros HF Hc' Hne [d [k [E V]]] [d' [k' [E' V']]].
  assert (Hc : In c c39_chars).
  { rewrite Forall_forall in HF. apply HF. apply in_or_app. right. left. reflexivity. }
  apply Hne. apply (value_inj c39_chars); try assumption.
  fold c39_value. pose proof (c39_value_le _ Hc). pose proof (c39_value_le _ Hc').
  destruct (list_eq_dec N.eq_dec v []) as [->|Hv].
  - apply app_inj_tail in E, E'. destruct E as [-> ->], E' as [-> ->]. congruence.
  - destruct (exists_last Hv) as [w [z ->]].
    assert (E1 : u ++ c :: w ++ [z] = (u ++ c :: w) ++ [z]) by now rewrite <- app_assoc.
    assert (E2 : u ++ c' :: w ++ [z] = (u ++ c' :: w) ++ [z]) by now rewrite <- app_assoc.
    change (c :: w ++ [z]) with (c :: (w ++ [z])) in E1. 
    rewrite E1 in E. rewrite E2 in E'. apply app_inj_tail in E, E'.
    destruct E as [<- <-], E' as [<- <-].
    apply (mod43_cancel (c39_sum u + c39_sum w)); try assumption.
    rewrite V in V'. rewrite !c39_sum_app, !c39_sum_cons in V'.
    replace (c39_sum u + c39_sum w + c39_value c') with (c39_sum u + (c39_value c' + c39_sum w)) by lia.
    replace (c39_sum u + c39_sum w + c39_value c) with (c39_sum u + (c39_value c + c39_sum w)) by lia.
    congruence.
Qed.

Lemma code39_typo p s b : str_len s < 2 ^ 48 -> code39_with_checksum s = Ok b ->
  exists m r, code39_encode p b = Ret m /\ obind (scan m) read_c39 = Some r /\
    c39_valid r /\
    forall u c v c', r = u ++ c :: v -> In c' c39_chars -> c' <> c -> ~ c39_valid (u ++ c' :: v).
Proof.
  intros Hs Hb. destruct (code39_scan_back p s b true Hs (or_intror Hb)) as [m [Hm Hr]].
  apply code39_init_Ok in Hb. destruct Hb as [HF [-> _]]. cbn [c39_data] in Hm.
  exists m. eexists. split; [exact Hm|]. split; [exact Hr|]. split; [apply c39_check_valid|].
  intros u c v c' E Hc' Hne. apply (c39_typo u c v c'); try assumption.
  - rewrite <- E. exact (c39_message_in s true HF).
  - rewrite <- E. apply c39_check_valid.
Qed.

(** Equal symbols come from equal data (for one setting of the flag). *)
Lemma code39_injective p s1 s2 b1 b2 f m : str_len s1 < 2 ^ 48 -> str_len s2 < 2 ^ 48 ->
  code39_init s1 f = Ok b1 -> code39_init s2 f = Ok b2 ->
  code39_encode p b1 = Ret m -> code39_encode p b2 = Ret m -> s1 = s2.
Proof.
  intros Hs1 Hs2 H1 H2 E1 E2. apply len_lt_str in Hs1, Hs2.
  apply code39_init_Ok in H1, H2. destruct H1 as [F1 [-> _]], H2 as [F2 [-> _]].
  rewrite code39_encode_ok in E1, E2 by assumption.
  assert (E : c39_message s1 f = c39_message s2 f).
  { assert (G : obind (scan m) read_c39 = Some (c39_message s1 f)).
    { inversion E1. rewrite c39_symbol_scan by now apply c39_message_in. cbn [obind].
      apply c39_symbol_read. now apply c39_message_in. }
    inversion E2 as [E2']. rewrite <- E2' in G.
    rewrite c39_symbol_scan in G by now apply c39_message_in. cbn [obind] in G.
    rewrite c39_symbol_read in G by now apply c39_message_in. congruence. }
  destruct f; [|exact E]. apply app_inj_tail in E. tauto.
Qed.

(** ** Right to left *)
Lemma c39_symbol_rev cs : Forall c39_in cs -> read_c39 (rev (c39_symbol cs)) = None.
Proof.
  intros H. unfold read_c39.
  destruct (chop 10 (rev (c39_symbol cs) ++ [1%nat])) as [bs|] eqn:E; [|reflexivity]. cbn [obind].
  apply chop_sound in E. destruct E as [E HF].
  assert (Ef : firstn 9 (rev (c39_symbol cs) ++ [1%nat]) = rev c39_star).
  { unfold c39_symbol. rewrite !rev_app_distr, <- !app_assoc. reflexivity. }
  destruct bs as [|b0 bs]; [destruct (rev (c39_symbol cs)); discriminate|].
  inversion HF as [|? ? Hb0 _]; subst.
  assert (Eb : firstn 9 b0 = rev c39_star).
  { rewrite <- Ef, <- E. cbn [concat]. rewrite firstn_app, Hb0. cbn [Nat.sub]. now rewrite app_nil_r. }
  cbn [read_all]. unfold gap_block at 1. rewrite Eb. unfold guard at 1.
  destruct (widths_eqb (skipn 9 b0) [1%nat]); [|reflexivity].
  destruct (read_all (gap_block 9) bs) as [l|]; [|reflexivity]. cbn [obind].
  unfold strip_ends. destruct (rev l); reflexivity.
Qed.

(** ** The check character does not depend on the order of the data. *)
From Coq Require Import Permutation.
Lemma c39_sum_perm a b : Permutation a b -> c39_sum a = c39_sum b.
Proof.
  induction 1; [reflexivity | | |]; rewrite ?c39_sum_cons.
  - congruence.
  - lia.
  - congruence.
Qed.
Lemma code39_order s s' b : Permutation s s' -> code39_with_checksum s = Ok b ->
  c39_check s' = c39_check s /\ c39_valid (s' ++ [c39_check s]).
Proof.
  intros H _. assert (E : c39_check s' = c39_check s).
  { unfold c39_check. now rewrite (c39_sum_perm s s' H). }
  split; [exact E|]. rewrite <- E. apply c39_check_valid.
Qed.

(** The same on the printed symbols *)
Lemma str_len_perm s s' : Permutation s s' -> str_len s = str_len s'.
Proof.
  induction 1 as [|x l l' _ IH|x y l|l l' l'' _ IH1 _ IH2]; [reflexivity | | | congruence].
  - cbn [str_len fold_right]. exact (f_equal (N.add (utf8_len x)) IH).
  - cbn [str_len fold_right]. lia.
Qed.
Lemma code39_order_printed p s s' b : str_len s < 2 ^ 48 -> Permutation s s' -> code39_with_checksum s = Ok b ->
  exists b' m m' c, code39_with_checksum s' = Ok b' /\
    code39_encode p b = Ret m /\ obind (scan m) read_c39 = Some (s ++ [c]) /\
    code39_encode p b' = Ret m' /\ obind (scan m') read_c39 = Some (s' ++ [c]) /\
    c39_valid (s ++ [c]) /\ c39_valid (s' ++ [c]).
Proof.
  intros Hs HP Hb. destruct (code39_order s s' b HP Hb) as [E HV].
  assert (Hb' : code39_with_checksum s' = Ok (mkCode39 s' true)).
  { destruct (code39_init_spec true s) as (_ & _ & _ & H1). destruct (code39_init_spec true s') as (_ & _ & _ & H2).
    apply H2. apply H1 in Hb. destruct Hb as [Hn [HF _]].
    rewrite <- (str_len_perm s s' HP). split; [exact Hn|]. split; [|reflexivity]. rewrite Forall_forall in *. intros x Hx. apply HF.
    now apply (Permutation_in x (Permutation_sym HP)). }
  assert (Eb : b = mkCode39 s true). { destruct (code39_init_spec true s) as (_ & _ & _ & H1). apply H1 in Hb. apply Hb. }
  destruct (code39_scan_back p s b true Hs (or_intror Hb)) as [m [Em Rm]].
  destruct (code39_scan_back p s' (mkCode39 s' true) true) as [m' [Em' Rm']].
  { now rewrite <- (str_len_perm s s' HP). }
  { right. exact Hb'. }
  exists (mkCode39 s' true), m, m', (c39_check s). split; [assumption|].
  split; [rewrite Eb in *; exact Em|]. split; [exact Rm|]. split; [exact Em'|]. split; [now rewrite <- E|].
  split; [apply c39_check_valid | assumption].
Qed.
