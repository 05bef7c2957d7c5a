(** * Lemmas about parse and digit texts *)
From Verif Require Import Rust M_Error M_Parse M_Helpers S_Text P_Rust.

Lemma find_none_Forall {A} (f : A -> bool) l :
  find f l = None <-> Forall (fun x => f x = false) l.
Proof.
  induction l as [|x l IH]; simpl; [split; auto|].
  destruct (f x) eqn:E; split; intros H; try discriminate.
  - inversion H; congruence.
  - constructor; [assumption | now apply IH].
  - inversion H; subst. now apply IH.
Qed.

Lemma existsb_eqb_In l (c : N) : existsb (fun v => v =? c) l = true <-> In c l.
Proof.
  rewrite existsb_exists. split.
  - intros [x [Hx E]]. apply N.eqb_eq in E. now subst.
  - intros H. exists c. split; [assumption | apply N.eqb_refl].
Qed.

(** The truncated length, whatever the size of the string. *)
Lemma parse_cases vc lo hi s :
  let n := str_len s mod 2 ^ 32 in
  (~ (lo <= n <= hi) /\ parse vc lo hi s = Err ELength) \/
  (lo <= n <= hi /\ ~ Forall (fun c => In c vc) s /\ parse vc lo hi s = Err ECharacter) \/
  (lo <= n <= hi /\ Forall (fun c => In c vc) s /\ parse vc lo hi s = Ok s).
Proof.
  intros n. unfold parse, cast_u. fold n.
  destruct (n <? lo) eqn:E1; simpl.
  { left. apply N.ltb_lt in E1. split; [lia | reflexivity]. }
  destruct (hi <? n) eqn:E2.
  { left. apply N.ltb_lt in E2. split; [lia | reflexivity]. }
  apply N.ltb_ge in E1, E2. right.
  destruct (find (fun c => negb (existsb (fun v => v =? c) vc)) s) eqn:E.
  - left. split; [lia|]. split; [|reflexivity]. intros HF.
    apply find_some in E. destruct E as [Hin E].
    rewrite Forall_forall in HF. specialize (HF _ Hin).
    apply existsb_eqb_In in HF. rewrite HF in E. discriminate.
  - right. split; [lia|]. split; [|reflexivity].
    apply find_none_Forall in E. revert E. apply Forall_impl. intros c Hc.
    apply negb_false_iff in Hc. now apply existsb_eqb_In.
Qed.

Lemma parse_ok vc lo hi s :
  str_len s < 2 ^ 32 -> lo <= str_len s <= hi -> Forall (fun c => In c vc) s ->
  parse vc lo hi s = Ok s.
Proof.
  intros Hs Hl Hc. destruct (parse_cases vc lo hi s) as [[H _]|[[_ [H _]]|[_ [_ H]]]].
  - rewrite N.mod_small in H by assumption. tauto.
  - tauto.
  - exact H.
Qed.

Lemma parse_length vc lo hi s :
  str_len s < 2 ^ 32 -> ~ (lo <= str_len s <= hi) -> parse vc lo hi s = Err ELength.
Proof.
  intros Hs Hl. destruct (parse_cases vc lo hi s) as [[_ H]|[[H _]|[H _]]].
  - exact H.
  - rewrite N.mod_small in H by assumption. tauto.
  - rewrite N.mod_small in H by assumption. tauto.
Qed.

Lemma parse_character vc lo hi s :
  str_len s < 2 ^ 32 -> lo <= str_len s <= hi -> ~ Forall (fun c => In c vc) s ->
  parse vc lo hi s = Err ECharacter.
Proof.
  intros Hs Hl Hc. destruct (parse_cases vc lo hi s) as [[H _]|[[_ [_ H]]|[_ [H _]]]].
  - rewrite N.mod_small in H by assumption. tauto.
  - exact H.
  - tauto.
Qed.

Lemma In_digit_chars c : In c digit_chars <-> digit_char c.
Proof.
  unfold digit_chars, digit_char. simpl. split.
  - intros H. repeat (destruct H as [<-|H]; [lia|]). tauto.
  - intros H.
    assert (E : c = 48 \/ c = 49 \/ c = 50 \/ c = 51 \/ c = 52 \/ c = 53 \/ c = 54 \/ c = 55
                \/ c = 56 \/ c = 57) by lia.
    intuition.
Qed.

Lemma Forall_In_digit_chars s :
  Forall (fun c => In c digit_chars) s <-> Forall digit_char s.
Proof.
  split; apply Forall_impl; intros c; apply In_digit_chars.
Qed.

Lemma to_digits_ok s : Forall digit_char s -> to_digits s = Ret (digits_of s).
Proof.
  intros H. unfold to_digits, digits_of.
  apply mapM_Forall_Ret with (P := digit_char); [|assumption].
  intros c [H1 H2]. unfold to_digit_u8, to_digit10.
  apply N.leb_le in H1 as E1. apply N.leb_le in H2 as E2. rewrite E1, E2. simpl.
  rewrite cast_u_small; [reflexivity|]. simpl. lia.
Qed.

Lemma digits_of_digits s : Forall digit_char s -> Forall is_digit (digits_of s).
Proof.
  intros H. unfold digits_of. apply Forall_map. revert H. apply Forall_impl.
  unfold digit_char, is_digit. intros. lia.
Qed.

Lemma text_of_digit_char ds : Forall is_digit ds -> Forall digit_char (text_of ds).
Proof.
  intros H. unfold text_of. apply Forall_map. revert H. apply Forall_impl.
  unfold digit_char, is_digit. intros. lia.
Qed.

Lemma digits_of_text_of ds : digits_of (text_of ds) = ds.
Proof.
  unfold digits_of, text_of. rewrite map_map. rewrite <- (map_id ds) at 2.
  apply map_ext. intros. lia.
Qed.

Lemma text_of_digits_of s : Forall digit_char s -> text_of (digits_of s) = s.
Proof.
  intros H. unfold digits_of, text_of. rewrite map_map. rewrite <- (map_id s) at 2.
  apply map_ext_Forall. revert H. apply Forall_impl. unfold digit_char. intros. lia.
Qed.

Lemma str_len_digits s : Forall digit_char s -> str_len s = len s.
Proof.
  intros H. apply str_len_ascii. revert H. apply Forall_impl. unfold digit_char. intros. lia.
Qed.

Lemma len_digits_of s : len (digits_of s) = len s.
Proof. apply len_map. Qed.
Lemma len_text_of s : len (text_of s) = len s.
Proof. apply len_map. Qed.
Lemma str_len_text_of ds : Forall is_digit ds -> str_len (text_of ds) = len ds.
Proof. intros H. rewrite str_len_digits by now apply text_of_digit_char. apply len_text_of. Qed.

(** Every digit text is the text of its digits. *)
Lemma digit_text s : Forall digit_char s -> exists ds, Forall is_digit ds /\ s = text_of ds.
Proof.
  intros H. exists (digits_of s). split; [now apply digits_of_digits|].
  symmetry. now apply text_of_digits_of.
Qed.

Lemma text_of_inj a b : text_of a = text_of b -> a = b.
Proof. intros H. rewrite <- (digits_of_text_of a), H. apply digits_of_text_of. Qed.
