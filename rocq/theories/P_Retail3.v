(** * EAN-13/EAN-8/UPC-A: statements about strings *)
From Verif Require Import Rust M_Error M_Parse M_Helpers M_Tables M_Ean13 M_Ean8 M_Upca
  S_Barcode S_Ean S_Text P_Rust P_Parse P_Barcode P_Gs1 P_Ean P_Retail P_Retail2.
Local Arguments N.add : simpl never.
Local Arguments N.mul : simpl never.

Lemma str_len_le s : str_len s <= 4 * len s.
Proof.
  induction s as [|c s IH]; [discriminate|].
  change (str_len (c :: s)) with (utf8_len c + str_len s). rewrite len_cons.
  pose proof (utf8_len_pos c). lia.
Qed.

Lemma text_of_cons d ds : text_of (d :: ds) = (d + 48) :: text_of ds.
Proof. reflexivity. Qed.

Section Strings.
Context {B : Type} (mk : list N -> B) (n : nat).
Hypothesis Hn : (1 <= n <= 13)%nat.
Local Notation new := (retail_new mk n).

(** Every accepted string, of any size. *)
Lemma retail_accepted p s b :
  new p s = Ret (Ok b) ->
  b = mk (firstn n (digits_of s)) /\
  length (firstn n (digits_of s)) = n /\ Forall is_digit (firstn n (digits_of s)).
Proof.
  intros H. destruct (N.lt_ge_cases (str_len s) (2 ^ 32)) as [L|G].
  - destruct (retail_new_Ok mk n Hn p s b L H) as (ds & Ld & Dd & -> & [-> | ->]);
      rewrite digits_of_text_of.
    + rewrite <- Ld, firstn_all. auto.
    + rewrite firstn_app, <- Ld, Nat.sub_diag, firstn_all. cbn [firstn]. rewrite app_nil_r. auto.
  - destruct (retail_new_huge mk n Hn p s G) as (r & E & _ & _ & HO).
    rewrite H in E. injection E as <-. destruct (HO b) as [H1 _]. specialize (H1 eq_refl).
    destruct H1 as (_ & F & ->). split; [reflexivity|]. split.
    + rewrite firstn_length. unfold digits_of. rewrite map_length.
      rewrite str_len_digits in G by assumption. unfold len in G.
      change (2 ^ 32) with 4294967296 in G. change (@length char s) with (@length N s) in G. lia.
    + apply Forall_firstn. now apply digits_of_digits.
Qed.

Lemma retail_full_digits p s b :
  length s = S n -> new p s = Ret (Ok b) -> Forall digit_char s.
Proof.
  intros L H.
  assert (Hs : str_len s < 2 ^ 32).
  { pose proof (str_len_le s) as B1. unfold len in B1. rewrite L in B1.
    change (2 ^ 32) with 4294967296. lia. }
  destruct (retail_new_spec mk n Hn p s Hs) as (r & E & _ & _ & _ & HO).
  rewrite H in E. injection E as <-. apply (HO b). reflexivity.
Qed.

Theorem retail_typo p u c v c' b :
  length (u ++ c :: v) = S n -> new p (u ++ c :: v) = Ret (Ok b) ->
  digit_char c' -> c' <> c -> new p (u ++ c' :: v) = Ret (Err EChecksum).
Proof.
  intros L H Hc Hne. pose proof (retail_full_digits p _ b L H) as F.
  apply Forall_app in F. destruct F as [Fu F]. apply Forall_cons_iff in F. destruct F as [Fc Fv].
  destruct (digit_text u Fu) as (du & Du & ->). destruct (digit_text v Fv) as (dv & Dv & ->).
  set (x := c - 48). set (y := c' - 48). unfold digit_char in *.
  assert (Ex : c = x + 48) by lia. assert (Ey : c' = y + 48) by lia. clearbody x y. subst c c'.
  assert (T : forall z, text_of du ++ (z + 48) :: text_of dv = text_of (du ++ z :: dv)).
  { intros z. now rewrite text_of_app, text_of_cons. }
  rewrite T in *. unfold text_of in L. rewrite map_length in L.
  apply (retail_substitution mk n Hn p du x dv); auto.
  - apply Forall_app. split; [assumption|]. constructor; [unfold is_digit; lia|assumption].
  - eauto.
  - unfold is_digit. lia.
  - lia.
Qed.

Theorem retail_swap p u c c' v b :
  length (u ++ c :: c' :: v) = S n -> new p (u ++ c :: c' :: v) = Ret (Ok b) -> c <> c' ->
  (differ_by_5 c c' -> exists b', new p (u ++ c' :: c :: v) = Ret (Ok b')) /\
  (~ differ_by_5 c c' -> new p (u ++ c' :: c :: v) = Ret (Err EChecksum)).
Proof.
  intros L H Hne. pose proof (retail_full_digits p _ b L H) as F.
  apply Forall_app in F. destruct F as [Fu F]. rewrite !Forall_cons_iff in F. destruct F as (Fc & Fc' & Fv).
  destruct (digit_text u Fu) as (du & Du & ->). destruct (digit_text v Fv) as (dv & Dv & ->).
  set (x := c - 48). set (y := c' - 48). unfold digit_char in *.
  assert (Ex : c = x + 48) by lia. assert (Ey : c' = y + 48) by lia. clearbody x y. subst c c'.
  assert (T : forall z w, text_of du ++ (z + 48) :: (w + 48) :: text_of dv = text_of (du ++ z :: w :: dv)).
  { intros z w. now rewrite text_of_app, !text_of_cons. }
  rewrite !T in *. unfold text_of in L. rewrite map_length in L.
  assert (D : Forall is_digit (du ++ x :: y :: dv)).
  { apply Forall_app. split; [assumption|]. constructor; [unfold is_digit; lia|].
    constructor; [unfold is_digit; lia|assumption]. }
  destruct (retail_transposition mk n Hn p du x y dv L D) as [T1 T2]; [lia | eauto |].
  assert (E : differ_by_5 (x + 48) (y + 48) <-> differ_by_5 x y) by (unfold differ_by_5; lia).
  rewrite E. split; assumption.
Qed.

(** Exactly one tail digit is accepted, and it changes nothing. *)
Theorem retail_unique_check p s :
  length s = n -> Forall digit_char s ->
  exists b c, new p s = Ret (Ok b) /\ digit_char c /\ new p (s ++ [c]) = Ret (Ok b) /\
    forall c', digit_char c' -> c' <> c -> new p (s ++ [c']) = Ret (Err EChecksum).
Proof.
  intros L F. destruct (digit_text s F) as (ds & D & ->).
  unfold text_of in L. rewrite map_length in L.
  destruct (retail_check_digit mk n Hn p ds L D) as (H1 & c & Hc & H2 & H3).
  exists (mk ds), (c + 48).
  assert (T : forall z, text_of ds ++ [z + 48] = text_of (ds ++ [z])) by (intros z; now rewrite text_of_app).
  rewrite T. split; [exact H1|]. split; [unfold is_digit, digit_char in *; lia|]. split; [exact H2|].
  intros c' Hc' Hne. unfold digit_char, is_digit in *. replace c' with ((c' - 48) + 48) by lia.
  rewrite T. apply H3; [unfold is_digit|]; lia.
Qed.
End Strings.

(** ** Symbol lengths *)
Lemma left_sum p d : is_digit d -> list_sum (widths (set_table p) d) = 7%nat.
Proof. intros H. destruct p; by_digit H; reflexivity. Qed.
Lemma right_sum d : is_digit d -> list_sum (widths setC_table d) = 7%nat.
Proof. intros H. by_digit H; reflexivity. Qed.
Lemma list_sum_concat (l : list (list nat)) k :
  Forall (fun b => list_sum b = k) l -> list_sum (concat l) = (k * length l)%nat.
Proof.
  induction 1 as [|b l Hb _ IH]; [simpl; lia|]. cbn [concat]. rewrite list_sum_app, IH, Hb. simpl length. lia.
Qed.
Lemma draw_left_sum ps ds : Forall is_digit ds -> length ps = length ds ->
  list_sum (draw_left ps ds) = (7 * length ds)%nat.
Proof.
  intros D L. unfold draw_left. rewrite (list_sum_concat _ 7).
  - rewrite map_length, combine_length. lia.
  - apply Forall_map. eapply Forall_impl; [|apply (Forall_combine_r is_digit ps ds D)].
    intros x Hx. now apply left_sum.
Qed.
Lemma draw_right_sum ds : Forall is_digit ds -> list_sum (draw_right ds) = (7 * length ds)%nat.
Proof.
  intros D. unfold draw_right. rewrite (list_sum_concat _ 7).
  - now rewrite map_length.
  - apply Forall_map. revert D. apply Forall_impl. intros d. apply right_sum.
Qed.

Lemma ean13_length ds : length ds = 13%nat -> Forall is_digit ds ->
  length (render (ean13_symbol ds)) = 95%nat.
Proof.
  intros L D. unfold render. rewrite render_from_length. unfold ean13_symbol.
  destruct ds as [|d ds]; [discriminate|]. inversion D; subst.
  change (skipn 1 (d :: ds)) with ds. change (skipn 7 (d :: ds)) with (skipn 6 ds). cbn [hd].
  simpl in L. destruct (parity_row_shape d H1) as (t & -> & Lt).
  rewrite !list_sum_app, draw_left_sum, draw_right_sum.
  - rewrite firstn_length, skipn_length. simpl list_sum. lia.
  - now apply Forall_skipn.
  - now apply Forall_firstn.
  - rewrite firstn_length. simpl length. lia.
Qed.
Lemma upca_length ds : length ds = 12%nat -> Forall is_digit ds ->
  length (render (upca_symbol ds)) = 95%nat.
Proof.
  intros L D. unfold render. rewrite render_from_length. unfold upca_symbol.
  rewrite !list_sum_app, draw_left_sum, draw_right_sum.
  - rewrite firstn_length, skipn_length. simpl list_sum. lia.
  - now apply Forall_skipn.
  - now apply Forall_firstn.
  - rewrite firstn_length. cbn [length]. lia.
Qed.
Lemma ean8_length ds : length ds = 8%nat -> Forall is_digit ds ->
  length (render (ean8_symbol ds)) = 67%nat.
Proof.
  intros L D. unfold render. rewrite render_from_length. unfold ean8_symbol.
  rewrite !list_sum_app, draw_left_sum, draw_right_sum.
  - rewrite firstn_length, skipn_length. simpl list_sum. lia.
  - now apply Forall_skipn.
  - now apply Forall_firstn.
  - rewrite firstn_length. cbn [length]. lia.
Qed.

(** ** Encoding of accepted strings *)
Definition with_check (ds : list N) : list N := ds ++ [gs1_check ds].
Lemma with_check_ok ds n : length ds = n -> Forall is_digit ds ->
  length (with_check ds) = S n /\ Forall is_digit (with_check ds) /\ gs1_valid (with_check ds).
Proof.
  intros L D. unfold with_check. rewrite app_length. split; [simpl; lia|]. split.
  - apply Forall_app. split; [assumption|]. constructor; [apply gs1_check_digit|constructor].
  - apply gs1_check_valid.
Qed.

Lemma ean13_accepted p s b : ean13_new p s = Ret (Ok b) ->
  let ds := firstn 12 (digits_of s) in
  b = mkEAN13 ds /\ length ds = 12%nat /\ Forall is_digit ds.
Proof. intros H. apply (retail_accepted mkEAN13 12 ltac:(lia) p). exact H. Qed.
Lemma ean8_accepted p s b : ean8_new p s = Ret (Ok b) ->
  let ds := firstn 7 (digits_of s) in
  b = mkEAN8 ds /\ length ds = 7%nat /\ Forall is_digit ds.
Proof. intros H. apply (retail_accepted mkEAN8 7 ltac:(lia) p). exact H. Qed.
Lemma upca_accepted p s b : upca_new p s = Ret (Ok b) ->
  let ds := firstn 11 (digits_of s) in
  b = mkUPCA ds /\ length ds = 11%nat /\ Forall is_digit ds.
Proof. intros H. apply (retail_accepted mkUPCA 11 ltac:(lia) p). exact H. Qed.

Theorem ean13_conform p p' s b : ean13_new p s = Ret (Ok b) ->
  let ds := firstn 12 (digits_of s) in
  ean13_encode p' b = Ret (render (ean13_symbol (ds ++ [gs1_check ds]))) /\
  length (render (ean13_symbol (ds ++ [gs1_check ds]))) = 95%nat.
Proof.
  intros H ds. destruct (ean13_accepted p s b H) as (-> & L & D). fold ds in L, D. fold ds.
  split; [now apply ean13_encode_spec|].
  destruct (with_check_ok ds 12 L D) as (L1 & D1 & _). now apply ean13_length.
Qed.
Theorem ean8_conform p p' s b : ean8_new p s = Ret (Ok b) ->
  let ds := firstn 7 (digits_of s) in
  ean8_encode p' b = Ret (render (ean8_symbol (ds ++ [gs1_check ds]))) /\
  length (render (ean8_symbol (ds ++ [gs1_check ds]))) = 67%nat.
Proof.
  intros H ds. destruct (ean8_accepted p s b H) as (-> & L & D). fold ds in L, D. fold ds.
  split; [now apply ean8_encode_spec|].
  destruct (with_check_ok ds 7 L D) as (L1 & D1 & _). now apply ean8_length.
Qed.
Theorem upca_conform p p' s b : upca_new p s = Ret (Ok b) ->
  let ds := firstn 11 (digits_of s) in
  upca_encode p' b = Ret (render (upca_symbol (ds ++ [gs1_check ds]))) /\
  length (render (upca_symbol (ds ++ [gs1_check ds]))) = 95%nat.
Proof.
  intros H ds. destruct (upca_accepted p s b H) as (-> & L & D). fold ds in L, D. fold ds.
  split; [now apply upca_encode_spec|].
  destruct (with_check_ok ds 11 L D) as (L1 & D1 & _). now apply upca_length.
Qed.

Lemma ean13_scan ds : Forall is_digit ds -> scan (render (ean13_symbol ds)) = Some (ean13_symbol ds).
Proof.
  intros D. apply scan_render.
  - now apply width14_pos, ean13_symbol_width.
  - now apply ean13_symbol_odd.
Qed.
Lemma ean8_scan ds : Forall is_digit ds -> scan (render (ean8_symbol ds)) = Some (ean8_symbol ds).
Proof.
  intros D. apply scan_render.
  - now apply width14_pos, ean8_symbol_width.
  - now apply ean8_symbol_odd.
Qed.
Lemma upca_scan ds : Forall is_digit ds -> scan (render (upca_symbol ds)) = Some (upca_symbol ds).
Proof.
  intros D. apply scan_render.
  - now apply width14_pos, upca_symbol_width.
  - now apply upca_symbol_odd.
Qed.

Theorem ean13_round_trip p p' s b : ean13_new p s = Ret (Ok b) ->
  exists m c, ean13_encode p' b = Ret m /\
    obind (scan m) read_ean13 = Some (firstn 12 (digits_of s) ++ [c]) /\
    is_digit c /\ gs1_valid (firstn 12 (digits_of s) ++ [c]).
Proof.
  intros H. destruct (ean13_conform p p' s b H) as [E _]. destruct (ean13_accepted p s b H) as (_ & L & D).
  set (ds := firstn 12 (digits_of s)) in *.
  destruct (with_check_ok ds 12 L D) as (L1 & D1 & V1).
  exists (render (ean13_symbol (with_check ds))), (gs1_check ds). split; [exact E|].
  rewrite ean13_scan by assumption. cbn [obind]. split; [now apply ean13_symbol_read|]. split; [apply gs1_check_digit | exact V1].
Qed.
Theorem ean8_round_trip p p' s b : ean8_new p s = Ret (Ok b) ->
  exists m c, ean8_encode p' b = Ret m /\
    obind (scan m) read_ean8 = Some (firstn 7 (digits_of s) ++ [c]) /\
    is_digit c /\ gs1_valid (firstn 7 (digits_of s) ++ [c]).
Proof.
  intros H. destruct (ean8_conform p p' s b H) as [E _]. destruct (ean8_accepted p s b H) as (_ & L & D).
  set (ds := firstn 7 (digits_of s)) in *.
  destruct (with_check_ok ds 7 L D) as (L1 & D1 & V1).
  exists (render (ean8_symbol (with_check ds))), (gs1_check ds). split; [exact E|].
  rewrite ean8_scan by assumption. cbn [obind]. split; [now apply ean8_symbol_read|]. split; [apply gs1_check_digit | exact V1].
Qed.
Theorem upca_round_trip p p' s b : upca_new p s = Ret (Ok b) ->
  exists m c, upca_encode p' b = Ret m /\
    obind (scan m) read_upca = Some (firstn 11 (digits_of s) ++ [c]) /\
    is_digit c /\ gs1_valid (firstn 11 (digits_of s) ++ [c]).
Proof.
  intros H. destruct (upca_conform p p' s b H) as [E _]. destruct (upca_accepted p s b H) as (_ & L & D).
  set (ds := firstn 11 (digits_of s)) in *.
  destruct (with_check_ok ds 11 L D) as (L1 & D1 & V1).
  exists (render (upca_symbol (with_check ds))), (gs1_check ds). split; [exact E|].
  rewrite upca_scan by assumption. cbn [obind]. split; [now apply upca_symbol_read|]. split; [apply gs1_check_digit | exact V1].
Qed.

Theorem ean13_injective p s s' b b' m :
  ean13_new p s = Ret (Ok b) -> ean13_new p s' = Ret (Ok b') ->
  ean13_encode p b = Ret m -> ean13_encode p b' = Ret m ->
  firstn 12 s = firstn 12 s'.
Proof.
  intros H H' E E'.
  destruct (ean13_round_trip p p s b H) as (m1 & c1 & E1 & R1 & _).
  destruct (ean13_round_trip p p s' b' H') as (m2 & c2 & E2 & R2 & _).
  assert (m1 = m2) by congruence. subst m2. rewrite R1 in R2.
  apply (f_equal (fun o => match o with Some x => x | None => [] end)) in R2. cbv beta iota in R2.
  apply app_inj_tail in R2. destruct R2 as [R2 _].
  assert (F : forall s b, ean13_new p s = Ret (Ok b) -> text_of (firstn 12 (digits_of s)) = firstn 12 s).
  { clear. intros s b H. unfold digits_of. rewrite firstn_map. 
    assert (FD : Forall digit_char s).
    { unfold ean13_new in H. destruct (parse_cases digit_chars 12 13 s) as [[_ E]|[[_ [_ E]]|[_ [F _]]]].
      - rewrite E in H. discriminate.
      - rewrite E in H. discriminate.
      - now apply Forall_In_digit_chars. }
    apply text_of_digits_of. now apply Forall_firstn. }
  rewrite <- (F _ _ H), <- (F _ _ H'), R2. reflexivity.
Qed.
