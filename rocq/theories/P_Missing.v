(** * Proofs: a missing digit of an item number *)
From Verif Require Import Rust M_Error M_Ean13 M_Ean8 M_Upca S_Barcode S_Ean S_Text P_Rust P_Parse P_Gs1 P_Retail.

Lemma solve_digit k w : w = 1 \/ w = 3 -> exists d, d < 10 /\ forall d', d' < 10 -> ((k + w * d') mod 10 = 0 <-> d' = d).
Proof.
  intros HW. assert (HK : k mod 10 < 10) by (apply N.mod_lt; lia).
  exists (if w =? 1 then (10 - k mod 10) mod 10 else (7 * (10 - k mod 10)) mod 10). split; [destruct (w =? 1); apply N.mod_lt; lia|].
  intros d' Hd. rewrite N.add_mod by lia. revert HK. generalize (k mod 10). intros q HK.
  assert (HQ : In q [0;1;2;3;4;5;6;7;8;9]) by (cbn [In]; lia). assert (HD : In d' [0;1;2;3;4;5;6;7;8;9]) by (cbn [In]; lia). clear HK Hd.
  destruct HW as [->| ->]; cbn [In] in HQ, HD; repeat (destruct HQ as [<-|HQ]; [repeat (destruct HD as [<-|HD]; [vm_compute; split; (reflexivity || discriminate)|]); destruct HD|]); destruct HQ.
Qed.
Lemma sum_hole u v : exists k w, (w = 1 \/ w = 3) /\ forall d', gs1_sum (u ++ d' :: v) = k + w * d'.
Proof.
  unfold gs1_sum. exists (alt_sum 1 3 (rev v) + (if Nat.even (length v) then alt_sum 3 1 (rev u) else alt_sum 1 3 (rev u))), (if Nat.even (length v) then 1 else 3).
  split; [destruct (Nat.even (length v)); [now left | now right]|]. intros d'. rewrite rev_app_distr. cbn [rev]. rewrite <- app_assoc, alt_sum_app, rev_length. cbn [app alt_sum].
  destruct (Nat.even (length v)); lia.
Qed.
Lemma hole_digit u v : exists d, d < 10 /\ forall d', d' < 10 -> (gs1_valid (u ++ d' :: v) <-> d' = d).
Proof.
  destruct (sum_hole u v) as (k & w & HW & HS). destruct (solve_digit k w HW) as (d & Hd & HD). exists d. split; [exact Hd|]. intros d' Hd'. unfold gs1_valid. rewrite (HS d'). now apply HD.
Qed.
Lemma hole_char {B} (mk : list N -> B) n (Hn : (1 <= n <= 13)%nat) u v : Forall digit_char u -> Forall digit_char v -> (length u + length v = n)%nat ->
  exists c, digit_char c /\ forall p c', digit_char c' -> ((exists b, retail_new mk n p (u ++ c' :: v) = Ret (Ok b)) <-> c' = c) /\ (c' <> c -> retail_new mk n p (u ++ c' :: v) = Ret (Err EChecksum)).
Proof.
  intros HU HV HL. destruct (hole_digit (digits_of u) (digits_of v)) as (d & Hd & HD). exists (48 + d). split; [unfold digit_char; lia|]. intros p c' Hc.
  set (s := u ++ c' :: v). assert (HF : Forall digit_char s) by (apply Forall_app; split; [exact HU | now apply Forall_cons]).
  assert (LS : length s = S n) by (unfold s; rewrite app_length; cbn [length]; lia).
  assert (HS : str_len s < 2 ^ 32) by (rewrite (str_len_digits s HF); unfold len; rewrite LS; lia).
  destruct (retail_new_spec mk n Hn p s HS) as (r & E & _ & _ & H3 & H4). rewrite E.
  assert (ED : digits_of s = digits_of u ++ (c' - 48) :: digits_of v) by (unfold s, digits_of; rewrite map_app; reflexivity).
  assert (HV' : gs1_valid (digits_of s) <-> c' = 48 + d) by (rewrite ED, HD by (unfold digit_char in Hc; lia); unfold digit_char in Hc; lia).
  split; [split|].
  - intros [b Eb]. injection Eb as ->. apply HV'. destruct (proj1 (H4 b) eq_refl) as (_ & _ & [L|[_ G]]); [lia | exact G].
  - intros Ec. exists (mk (firstn n (digits_of s))). f_equal. apply H4. split; [exact HF|]. split; [reflexivity|]. right. split; [exact LS | now apply HV'].
  - intros Hc'. f_equal. apply H3. split; [exact LS|]. split; [exact HF|]. intros G. apply Hc'. now apply HV'.
Qed.
