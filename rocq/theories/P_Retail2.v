(** * EAN-13/EAN-8/UPC-A: oversized strings, UPC-A inside EAN-13, mirrored symbols *)
From Verif Require Import Rust M_Error M_Parse M_Helpers M_Tables M_Ean13 M_Ean8 M_Upca
  S_Barcode S_Ean S_Text P_Rust P_Parse P_Barcode P_Gs1 P_Ean P_Retail.
Local Arguments N.add : simpl never.
Local Arguments N.mul : simpl never.

(** ** Strings of 4 GiB and more: the length check sees the length modulo 2^32 *)
Section Huge.
Context {B : Type} (mk : list N -> B) (n : nat).
Hypothesis Hn : (1 <= n <= 13)%nat.
Local Notation new := (retail_new mk n).

Theorem retail_new_huge p s :
  2 ^ 32 <= str_len s ->
  exists r, new p s = Ret r /\
    (r = Err ELength <-> str_len s mod 2 ^ 32 <> N.of_nat n /\ str_len s mod 2 ^ 32 <> N.of_nat (S n)) /\
    (r = Err ECharacter <->
      (str_len s mod 2 ^ 32 = N.of_nat n \/ str_len s mod 2 ^ 32 = N.of_nat (S n)) /\ ~ Forall digit_char s) /\
    (forall b, r = Ok b <->
      (str_len s mod 2 ^ 32 = N.of_nat n \/ str_len s mod 2 ^ 32 = N.of_nat (S n)) /\
      Forall digit_char s /\ b = mk (firstn n (digits_of s))).
Proof.
  intros Hs. unfold retail_new.
  destruct (parse_cases digit_chars (N.of_nat n) (N.of_nat (S n)) s) as [[H E]|[[H [HC E]]|[H [HC E]]]];
    rewrite E; rewrite ?Forall_In_digit_chars in *; set (m := str_len s mod 2 ^ 32) in *.
  - eexists. split; [reflexivity|]. repeat split; try discriminate; lia.
  - eexists. split; [reflexivity|]. repeat split; try discriminate; try tauto; lia.
  - rewrite to_digits_ok by assumption. cbn [bind].
    assert (L : 2 ^ 32 <= len (digits_of s)) by (rewrite len_digits_of, <- str_len_digits; assumption).
    change (2 ^ 32) with 4294967296 in L.
    rewrite (retail_parts n Hn) by (unfold len in L; lia). cbn [bind].
    replace (len (digits_of s) =? N.of_nat (S n)) with false by (symmetry; apply N.eqb_neq; lia).
    eexists. split; [reflexivity|]. repeat split; try discriminate; try tauto.
    + lia.
    + lia.
    + congruence.
    + intros (_ & _ & ->). reflexivity.
Qed.

(** A string of 2^32 + n zeros is accepted. *)
Lemma zeros_accepted p k :
  k = N.of_nat n ->
  exists s, str_len s = 2 ^ 32 + k /\ exists b, new p s = Ret (Ok b).
Proof.
  intros ->.
  set (s := repeat 48 (N.to_nat (2 ^ 32 + N.of_nat n))). exists s.
  assert (F : Forall digit_char s).
  { subst s. apply Forall_forall. intros x Hx. apply repeat_spec in Hx. subst x. unfold digit_char. lia. }
  assert (L : str_len s = 2 ^ 32 + N.of_nat n).
  { rewrite str_len_digits by assumption. unfold len. subst s. now rewrite repeat_length, N2Nat.id. }
  split; [exact L|]. clearbody s.
  destruct (retail_new_huge p s) as (r & E & _ & _ & HO); [rewrite L; lia|].
  exists (mk (firstn n (digits_of s))). rewrite E. f_equal. apply HO.
  split; [|split; [assumption | reflexivity]]. left. rewrite L.
  replace (2 ^ 32 + N.of_nat n) with (N.of_nat n + 1 * 2 ^ 32) by lia.
  rewrite N.mod_add by discriminate. apply N.mod_small. change (2 ^ 32) with 4294967296. lia.
Qed.
End Huge.

(** ** UPC-A is EAN-13 with a leading zero *)
Lemma gs1_check_zero ds : gs1_check (0 :: ds) = gs1_check ds.
Proof.
  unfold gs1_check. simpl rev. rewrite alt_sum_app. cbn [alt_sum].
  replace (if Nat.even (length (rev ds)) then 3 * 0 + 0 else 1 * 0 + 0) with 0; [now rewrite N.add_0_r|].
  now destruct (Nat.even _).
Qed.
Lemma gs1_valid_zero ds : gs1_valid (0 :: ds) <-> gs1_valid ds.
Proof.
  unfold gs1_valid, gs1_sum. simpl rev. rewrite alt_sum_app. cbn [alt_sum].
  replace (if Nat.even (length (rev ds)) then 1 * 0 + 0 else 3 * 0 + 0) with 0; [now rewrite N.add_0_r|].
  now destruct (Nat.even _).
Qed.

Lemma upca_ean13_encode p ds :
  length ds = 11%nat -> Forall is_digit ds ->
  ean13_encode p (mkEAN13 (0 :: ds)) = upca_encode p (mkUPCA ds).
Proof.
  intros L D.
  rewrite ean13_encode_spec by (simpl; auto using Forall_cons; lia || (constructor; [reflexivity|assumption])).
  rewrite upca_encode_spec by assumption. cbn [app]. rewrite gs1_check_zero. reflexivity.
Qed.

(** Same verdict, same error; when accepted, same modules. *)
Definition same_verdict (p : profile) (u : M (result UPCA)) (e : M (result EAN13)) : Prop :=
  (exists err, u = Ret (Err err) /\ e = Ret (Err err)) \/
  (exists bu be m, u = Ret (Ok bu) /\ e = Ret (Ok be) /\
     upca_encode p bu = Ret m /\ ean13_encode p be = Ret m).

Theorem upca_ean13 p s :
  str_len s + 1 < 2 ^ 32 -> same_verdict p (upca_new p s) (ean13_new p (48 :: s)).
Proof.
  intros Hs.
  assert (L0 : str_len (48 :: s) = 1 + str_len s) by reflexivity.
  assert (T : forall ds, text_of (0 :: ds) = 48 :: text_of ds) by reflexivity.
  rewrite upca_new_retail, ean13_new_retail.
  destruct (retail_new_cases mkUPCA 11 ltac:(lia) p s ltac:(lia))
    as [[H E]|[[H [HC E]]|[(ds&L&D&->&E)|(ds&c&L&D&Dc&->&HV)]]].
  - left. exists ELength. split; [exact E|]. apply retail_new_length; rewrite L0; lia.
  - left. exists ECharacter. split; [exact E|]. apply retail_new_character; rewrite ?L0; try lia.
    rewrite Forall_cons_iff. tauto.
  - right. assert (D0 : Forall is_digit (0 :: ds)) by (constructor; [reflexivity|assumption]).
    exists (mkUPCA ds), (mkEAN13 (0 :: ds)), (render (upca_symbol (ds ++ [gs1_check ds]))).
    split; [exact E|]. split; [rewrite <- T; apply retail_new_bare; auto; simpl; lia|].
    rewrite upca_ean13_encode by assumption. rewrite upca_encode_spec by assumption. auto.
  - assert (D0 : Forall is_digit (0 :: ds)) by (constructor; [reflexivity|assumption]).
    rewrite <- T. change (0 :: ds ++ [c]) with ((0 :: ds) ++ [c]).
    rewrite (retail_new_checked mkEAN13 12) by (auto; simpl; lia). rewrite gs1_check_zero.
    pose proof (gs1_check_unique ds c Dc) as U.
    destruct HV as [[V E]|[V E]].
    + apply U in V. rewrite V in *. rewrite N.eqb_refl. right.
      exists (mkUPCA ds), (mkEAN13 (0 :: ds)), (render (upca_symbol (ds ++ [gs1_check ds]))).
      split; [exact E|]. split; [reflexivity|].
      rewrite upca_ean13_encode by assumption. rewrite upca_encode_spec by assumption. auto.
    + rewrite U in V. apply N.eqb_neq in V. rewrite V. left. exists EChecksum. auto.
Qed.

(** ** Mirrored symbols *)
Lemma rev_concat {A} (l : list (list A)) : rev (concat l) = concat (rev (map (@rev A) l)).
Proof.
  induction l as [|x l IH]; [reflexivity|].
  simpl. rewrite rev_app_distr, IH, concat_app. simpl. now rewrite app_nil_r.
Qed.

Lemma combine_repeat {A} (p : A) (l : list N) : combine (repeat p (length l)) l = map (fun d => (p, d)) l.
Proof. induction l as [|x l IH]; [reflexivity|]. simpl. now rewrite IH. Qed.

Lemma rev_draw_right ds : Forall is_digit ds ->
  rev (draw_right ds) = draw_left (repeat PB (length ds)) (rev ds).
Proof.
  intros H. unfold draw_right, draw_left. rewrite rev_concat.
  rewrite <- rev_length, combine_repeat, !map_map, <- map_rev.
  f_equal. apply map_ext_Forall. apply Forall_rev. revert H. apply Forall_impl.
  intros d Hd. now apply rev_right.
Qed.

Lemma read_halves_left n ps l X rd r :
  length ps = n -> length l = n -> Forall is_digit l ->
  read_halves n (normal_guard ++ draw_left ps l ++ X) = Some (rd, r) -> rd = combine ps l.
Proof.
  intros Hp Hl Hd H. unfold read_halves in H.
  destruct (_ && _ && _ && _) in H; [|discriminate]. cbn [guard] in H.
  assert (HF : Forall (fun b => length b = 4%nat)
     (map (fun x => widths (set_table (fst x)) (snd x)) (combine ps l))).
  { apply Forall_map. eapply Forall_impl; [|apply (Forall_combine_r is_digit ps l Hd)].
    intros x Hx. now apply left_length. }
  assert (Ll : length (draw_left ps l) = (4 * n)%nat).
  { unfold draw_left. rewrite (length_concat_4 _ 4) by exact HF.
    rewrite map_length, combine_length. lia. }
  change (skipn 3 (normal_guard ++ draw_left ps l ++ X)) with (draw_left ps l ++ X) in H.
  rewrite firstn_app, <- Ll, Nat.sub_diag, firstn_all in H. cbn [firstn] in H. rewrite app_nil_r in H.
  unfold draw_left in H at 1. rewrite chop_concat in H by (assumption || lia). cbn [obind] in H.
  destruct (chop 4 _) in H; [|discriminate]. cbn [obind] in H.
  rewrite (read_all_map_id read_AB) in H.
  - cbn [obind] in H. destruct (read_all read_C _) in H; [|discriminate]. cbn [obind] in H. congruence.
  - intros [p d] Hin. apply read_left. apply in_combine_r in Hin. rewrite Forall_forall in Hd. auto.
Qed.

(** Seen in a mirror, the left half has only even parities. *)
Lemma read_halves_mirror n ps l r rd rr :
  length r = n -> Forall is_digit r ->
  read_halves n (rev (normal_guard ++ draw_left ps l ++ centre_guard ++ draw_right r ++ normal_guard))
    = Some (rd, rr) ->
  map fst rd = repeat PB n.
Proof.
  intros Hr Hd H. rewrite !rev_app_distr in H. rewrite <- !app_assoc in H.
  change (rev normal_guard) with normal_guard in H.
  rewrite rev_draw_right in H by assumption.
  apply read_halves_left in H.
  - subst rd. rewrite map_fst_combine; [now rewrite Hr|]. now rewrite repeat_length, rev_length.
  - now rewrite repeat_length.
  - now rewrite rev_length.
  - now apply Forall_rev.
Qed.

Theorem ean13_mirror ds : length ds = 13%nat -> Forall is_digit ds ->
  read_ean13 (rev (ean13_symbol ds)) = None.
Proof.
  intros L D. unfold read_ean13, ean13_symbol.
  destruct (read_halves 6 _) as [[rd rr]|] eqn:E; [|reflexivity]. cbn [obind].
  apply read_halves_mirror in E.
  - rewrite E. reflexivity.
  - rewrite skipn_length. lia.
  - now apply Forall_skipn.
Qed.
Theorem upca_mirror ds : length ds = 12%nat -> Forall is_digit ds ->
  read_upca (rev (upca_symbol ds)) = None.
Proof.
  intros L D. unfold read_upca, upca_symbol.
  destruct (read_halves 6 _) as [[rd rr]|] eqn:E; [|reflexivity]. cbn [obind].
  apply read_halves_mirror in E.
  - rewrite E. reflexivity.
  - rewrite skipn_length. lia.
  - now apply Forall_skipn.
Qed.
Theorem ean8_mirror ds : length ds = 8%nat -> Forall is_digit ds ->
  read_ean8 (rev (ean8_symbol ds)) = None.
Proof.
  intros L D. unfold read_ean8, ean8_symbol.
  destruct (read_halves 4 _) as [[rd rr]|] eqn:E; [|reflexivity]. cbn [obind].
  apply read_halves_mirror in E.
  - rewrite E. reflexivity.
  - rewrite skipn_length. lia.
  - now apply Forall_skipn.
Qed.

Theorem upca_mirror_ean13 ds : length ds = 12%nat -> Forall is_digit ds ->
  read_ean13 (rev (upca_symbol ds)) = None.
Proof.
  intros L D. unfold read_ean13, upca_symbol.
  destruct (read_halves 6 _) as [[rd rr]|] eqn:E; [|reflexivity]. cbn [obind].
  apply read_halves_mirror in E.
  - rewrite E. reflexivity.
  - rewrite skipn_length. lia.
  - now apply Forall_skipn.
Qed.

Lemma length_check_refuted p :
  (exists s, str_len s = 2 ^ 32 + 12 /\ exists b, ean13_new p s = Ret (Ok b)) /\
  (exists s, str_len s = 2 ^ 32 + 7 /\ exists b, ean8_new p s = Ret (Ok b)) /\
  (exists s, str_len s = 2 ^ 32 + 11 /\ exists b, upca_new p s = Ret (Ok b)).
Proof.
  split; [|split].
  - apply (zeros_accepted mkEAN13 12 ltac:(lia) p). reflexivity.
  - apply (zeros_accepted mkEAN8 7 ltac:(lia) p). reflexivity.
  - apply (zeros_accepted mkUPCA 11 ltac:(lia) p). reflexivity.
Qed.
