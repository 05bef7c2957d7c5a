(** * Proofs: item numbers with a digit left out or added, or given to the wrong symbology *)
From Verif Require Import Rust M_Error M_Ean13 M_Ean8 M_Upca M_Tf Symbology M_Use S_Barcode S_Ean S_Text S_All S_Errors S_Exact S_Item
  P_Rust P_Parse P_Gs1 P_Ean P_Retail P_Retail2 P_Retail3 P_Tf P_All P_Exact P_Item P_Errors.

Lemma item_small y s : carrier y -> Forall digit_char s -> (length s <= 14)%nat -> str_len s < 2 ^ 32.
Proof.
  intros _ HD HL. rewrite str_len_digits by assumption. unfold len, str, char in *. change (2 ^ 32) with 4294967296. lia.
Qed.
Lemma full_read y p s m : carrier y -> full_item y s -> barcode y p s = Ret (Ok m) ->
  read_modules y m = Some (Digits (digits_of s)) /\ (verifying y -> gs1_valid (digits_of s)).
Proof.
  intros HC HF HB.
  assert (V : verifying y -> gs1_valid (digits_of s)).
  { intros HV. destruct (full_accepted y p s HV HF) as [_ H]. destruct (gs1_valid_dec (digits_of s)) as [G|G]; [assumption|].
    rewrite (H G) in HB. discriminate. }
  split; [|assumption]. destruct HF as [HD HL].
  assert (HS : str_len s < 2 ^ 48).
  { apply N.lt_trans with (2 ^ 32); [|reflexivity]. apply (item_small y); try assumption. destruct y; try destruct HC; cbn in HL; lia. }
  assert (FN : forall n, length s = S n -> gs1_valid (digits_of s) -> full_number n (digits_of s) = digits_of s).
  { intros n Hn G. unfold full_number. assert (LD : length (digits_of s) = S n) by (unfold digits_of; rewrite map_length; exact Hn).
    apply digits_of_digits in HD. set (l := digits_of s) in *.
    assert (X : exists c, l = firstn n l ++ [c]).
    { pose proof (firstn_skipn n l) as FS. destruct (skipn n l) as [|c [|c' tl]] eqn:E.
      - apply (f_equal (@length N)) in E. rewrite skipn_length in E. unfold str, char in *. rewrite LD in E. cbn [length] in E. lia.
      - exists c. now symmetry.
      - apply (f_equal (@length N)) in E. rewrite skipn_length in E. unfold str, char in *. rewrite LD in E. cbn [length] in E. lia. }
    destruct X as [c X]. rewrite X in G. assert (C : c < 10).
    { rewrite X in HD. apply Forall_app in HD. destruct HD as [_ HD]. now inversion HD. }
    apply gs1_check_unique in G; [|assumption]. rewrite <- G. now symmetry. }
  pose proof (barcode_exact y p s m HS ltac:(intros ->; destruct HC) HB) as R.
  destruct y; try destruct HC; cbn [reads_back item_digits verifying] in *; rewrite R.
  - now rewrite FN by auto.
  - now rewrite FN by auto.
  - now rewrite FN by auto.
  - unfold str, char in *. now rewrite HL.
Qed.

(** ** One digit left out *)
Lemma same_tail (c : char) v k : v ++ [k] = c :: v <-> Forall (fun d => d = c) v /\ k = c.
Proof.
  revert c. induction v as [|d v IH]; intros c; cbn [app].
  - split; [intros H; injection H as ->; auto | intros [_ ->]; reflexivity].
  - split.
    + intros H. injection H as -> H. apply IH in H. destruct H as [H ->]. auto.
    + intros [H ->]. inversion H as [|? ? A B]; subst. f_equal. apply IH. auto.
Qed.
Lemma digit_missing y p u c v m : carrier y -> full_item y (u ++ c :: v) -> barcode y p (u ++ c :: v) = Ret (Ok m) ->
  exists m' k, barcode y p (u ++ v) = Ret (Ok m') /\
    read_modules y m' = Some (Digits (digits_of (u ++ v) ++ [k])) /\ gs1_valid (digits_of (u ++ v) ++ [k]) /\
    (read_modules y m' = read_modules y m <-> Forall (fun d => d = c) v /\ gs1_valid (digits_of (u ++ c :: v))).
Proof.
  intros HC HF HB. destruct (full_read y p _ m HC HF HB) as [R V]. destruct HF as [HD HL].
  apply Forall_app in HD. destruct HD as [HU HV]. inversion HV as [|? ? Hc HV']; subst.
  assert (UI : unchecked_item y (u ++ v)).
  { split; [apply Forall_app; auto|]. rewrite <- HL, !app_length. cbn [length]. lia. }
  destruct (item_printed y p _ HC UI) as (m' & HB' & R'). exists m', (gs1_check (digits_of (u ++ v))).
  split; [assumption|]. split; [assumption|]. split; [apply gs1_check_valid|].
  rewrite R, R'.
  assert (E : digits_of (u ++ c :: v) = digits_of u ++ (c - 48) :: digits_of v) by (unfold digits_of; now rewrite map_app).
  assert (E' : digits_of (u ++ v) = digits_of u ++ digits_of v) by (unfold digits_of; now rewrite map_app).
  assert (FV : Forall (fun d => d = c) v <-> Forall (fun d => d = c - 48) (digits_of v)).
  { unfold digits_of. rewrite Forall_map. unfold digit_char in Hc. clear -Hc HV'. unfold digit_char in HV'.
    induction HV' as [|d v A _ IH]; [split; constructor|]. split; intros H; inversion H; subst; constructor; try tauto; lia. }
  split.
  - intros H. assert (X : digits_of (u ++ v) ++ [gs1_check (digits_of (u ++ v))] = digits_of (u ++ c :: v)) by congruence.
    split; [|rewrite <- X; apply gs1_check_valid].
    rewrite E in X. rewrite E' in X at 1. rewrite <- app_assoc in X. apply app_inv_head in X.
    apply same_tail in X. apply FV. tauto.
  - intros [H G]. apply FV in H. do 2 f_equal. rewrite E. rewrite E' at 1. rewrite <- app_assoc. f_equal.
    apply same_tail. split; [assumption|].
    assert (X : digits_of (u ++ c :: v) = digits_of (u ++ v) ++ [c - 48]).
    { rewrite E, E', <- app_assoc. f_equal. symmetry. apply same_tail. auto. }
    rewrite X in G. apply gs1_check_unique in G; [now symmetry|]. unfold digit_char in Hc. lia.
Qed.

(** ** One digit too many *)
Lemma gs1_place a b : exists x, x < 10 /\ gs1_valid (a ++ x :: b).
Proof.
  destruct (gs1_sum_replace a 0 b) as (w & Hw & E). set (s := gs1_sum (a ++ 0 :: b)) in *.
  pose proof (N.div_mod s 10 ltac:(discriminate)) as DM. pose proof (N.mod_lt s 10 ltac:(discriminate)) as ML.
  set (r := s mod 10) in *. set (q := s / 10) in *. unfold gs1_valid.
  assert (G : exists x k, x < 10 /\ r + w * x = 10 * k).
  { assert (D : r = 0 \/ r = 1 \/ r = 2 \/ r = 3 \/ r = 4 \/ r = 5 \/ r = 6 \/ r = 7 \/ r = 8 \/ r = 9) by lia.
    destruct Hw as [->| ->].
    - destruct D as [D|D]; [exists 0, 0; lia|]. exists (10 - r), 1. lia.
    - repeat destruct D as [D|D]; rewrite D.
      + exists 0, 0; lia.
      + exists 3, 1; lia.
      + exists 6, 2; lia.
      + exists 9, 3; lia.
      + exists 2, 1; lia.
      + exists 5, 2; lia.
      + exists 8, 3; lia.
      + exists 1, 1; lia.
      + exists 4, 2; lia.
      + exists 7, 3; lia. }
  destruct G as (x & k & Hx & G). exists x. split; [assumption|]. specialize (E x). rewrite N.mul_0_r, N.add_0_r in E.
  replace (gs1_sum (a ++ x :: b)) with ((q + k) * 10) by lia. apply N.mod_mul. discriminate.
Qed.
Lemma digit_added y p u v : verifying y -> unchecked_item y (u ++ v) ->
  exists c, digit_char c /\
    (exists m, barcode y p (u ++ c :: v) = Ret (Ok m) /\ read_modules y m = Some (Digits (digits_of (u ++ c :: v)))) /\
    forall d, digit_char d -> d <> c -> barcode y p (u ++ d :: v) = Ret (Err EChecksum).
Proof.
  intros HV [HD HL]. destruct (gs1_place (digits_of u) (digits_of v)) as (x & Hx & G).
  apply Forall_app in HD. destruct HD as [HU HD].
  assert (ED : forall d, digits_of (u ++ d :: v) = digits_of u ++ (d - 48) :: digits_of v) by (intros d; unfold digits_of; now rewrite map_app).
  assert (FI : forall d, digit_char d -> full_item y (u ++ d :: v)).
  { intros d Hd. split; [apply Forall_app; split; [assumption|]; now constructor|].
    rewrite <- HL, !app_length. cbn [length]. lia. }
  assert (Hc : digit_char (x + 48)) by (unfold digit_char; lia).
  assert (HC : carrier y) by (destruct y; try destruct HV; exact I).
  exists (x + 48). split; [assumption|]. split.
  - destruct (full_accepted y p _ HV (FI _ Hc)) as [A _]. rewrite ED in A. replace (x + 48 - 48) with x in A by lia.
    destruct (A G) as [m HB]. exists m. split; [assumption|]. now apply (full_read y p _ m HC (FI _ Hc)).
  - intros d Hd Hn. destruct (full_accepted y p _ HV (FI _ Hd)) as [_ A]. apply A. rewrite ED.
    unfold digit_char in Hd. apply (gs1_substitution _ x); [assumption | lia | lia | assumption].
Qed.

(** ** A number given to another symbology *)
Lemma shifted (l : list N) k : 0 :: l = l ++ [k] -> Forall (fun d => d = 0) l /\ k = 0.
Proof. intros H. symmetry in H. now apply (same_tail 0 l k). Qed.
Definition next_carrier (y : symbology) : option symbology :=
  match y with SUpca => Some SEan13 | SEan13 => Some SItf | _ => None end.
Lemma wrong_carrier y y' p s : next_carrier y = Some y' -> full_item y s ->
  exists m k, barcode y' p s = Ret (Ok m) /\ read_modules y' m = Some (Digits (digits_of s ++ [k])) /\
    gs1_valid (digits_of s ++ [k]) /\
    (digits_of s ++ [k] = in_digits (item_digits y') (digits_of s) <-> Forall (fun c => c = 48) s).
Proof.
  intros HN [HD HL].
  assert (HC : carrier y' /\ item_digits y' = S (item_digits y)).
  { destruct y; try discriminate; injection HN as <-; split; reflexivity || exact I. }
  destruct HC as [HC EI].
  assert (UI : unchecked_item y' s) by (split; [assumption | now rewrite EI, HL]).
  destruct (item_printed y' p s HC UI) as (m & HB & R). exists m, (gs1_check (digits_of s)).
  split; [assumption|]. split; [assumption|]. split; [apply gs1_check_valid|].
  assert (EP : in_digits (item_digits y') (digits_of s) = 0 :: digits_of s).
  { unfold in_digits. rewrite EI. replace (length (digits_of s)) with (item_digits y) by (rewrite <- HL; symmetry; apply map_length).
    replace (S (item_digits y) - item_digits y)%nat with 1%nat by lia. reflexivity. }
  rewrite EP.
  assert (FZ : Forall (fun c => c = 48) s <-> Forall (fun d => d = 0) (digits_of s)).
  { unfold digits_of. rewrite Forall_map. clear -HD. unfold digit_char in HD.
    induction HD as [|d v A _ IH]; [split; constructor|]. split; intros H; inversion H; subst; constructor; try tauto; lia. }
  rewrite FZ. split.
  - intros H. symmetry in H. now apply shifted in H.
  - intros H. apply same_tail. split; [assumption|]. clear -H. induction H as [|d l -> _ IH]; [reflexivity|].
    now rewrite gs1_check_zero.
Qed.
Lemma wrong_length y y' p s : verifying y -> verifying y' -> y <> y' -> next_carrier y <> Some y' -> full_item y s ->
  barcode y' p s = Ret (Err ELength).
Proof.
  intros HV HV' HN HX [HD HL].
  assert (K : known y' s).
  { unfold known. replace (alphabet y') with (lit "0123456789") by (destruct y'; try destruct HV'; reflexivity).
    now apply known_digits. }
  assert (HS : str_len s < 2 ^ 32).
  { apply (item_small y); [destruct y; try destruct HV; exact I | assumption | destruct y; try destruct HV; cbn in HL; lia]. }
  assert (H8 : y' <> SCode128) by (intros ->; destruct HV').
  apply (v_length y' p s (verdict y' p s H8 HS) K).
  unfold str, char in *. rewrite HL. destruct y, y'; try destruct HV; try destruct HV'; cbn; try congruence; try lia;
    exfalso; apply HX; reflexivity.
Qed.
