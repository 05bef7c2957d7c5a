(** * Proofs about numbers written as text *)
From Verif Require Import Rust S_Barcode S_Text S_Num P_Rust.

Lemma dec_digits_acc fuel : forall n acc, dec_digits fuel n acc = dec_digits fuel n [] ++ acc.
Proof.
  induction fuel as [|f IH]; intros n acc; [reflexivity|]. cbn [dec_digits].
  destruct (n / 10 =? 0); [reflexivity|]. rewrite IH, (IH _ [_]), <- app_assoc. reflexivity.
Qed.
Lemma dec_digits_S f n acc : dec_digits (S f) n acc =
  if n / 10 =? 0 then (n mod 10 + 48) :: acc else dec_digits f (n / 10) ((n mod 10 + 48) :: acc).
Proof. reflexivity. Qed.
Lemma decimal_snoc ds d : decimal (ds ++ [d]) = 10 * decimal ds + d.
Proof. unfold decimal. now rewrite fold_left_app. Qed.
Lemma digits_of_app a b : digits_of (a ++ b) = digits_of a ++ digits_of b.
Proof. apply map_app. Qed.
(** A decimal text: digits, non-empty, no leading zero unless alone, value [n] *)
Definition numeral (n : N) (s : str) : Prop :=
  Forall digit_char s /\ s <> [] /\ (n = 0 -> s = [48]) /\ (n <> 0 -> hd 0 s <> 48) /\ decimal (digits_of s) = n.
Lemma dec_digits_numeral fuel : forall n, n < 2 ^ N.of_nat fuel -> numeral n (dec_digits (S fuel) n []).
Proof.
  induction fuel as [|f IH]; intros n Hn.
  - assert (n = 0) as -> by (cbn in Hn; lia). cbn. unfold numeral. repeat split; try congruence.
    constructor; [unfold digit_char; lia | constructor].
  - rewrite dec_digits_S. pose proof (N.mod_lt n 10 ltac:(lia)) as Hm. pose proof (N.div_mod n 10 ltac:(lia)) as Hd.
    set (q := n / 10) in *. set (r := n mod 10) in *. destruct (N.eqb_spec q 0) as [E|E].
    + assert (En : n = r) by lia. unfold numeral. split; [constructor; [unfold digit_char; lia | constructor]|].
      split; [discriminate|]. split; [intros ->; f_equal; lia|]. split; [cbn [hd]; lia|].
      cbn. lia.
    + rewrite dec_digits_acc. assert (Hq : q < 2 ^ N.of_nat f).
      { rewrite Nat2N.inj_succ, N.pow_succ_r' in Hn. lia. }
      specialize (IH q Hq).
      destruct IH as (HF & Hne & _ & Hz & HV). unfold numeral. split; [apply Forall_app; split; [assumption|]|].
      { constructor; [unfold digit_char; lia | constructor]. }
      split; [now intros H; apply app_eq_nil in H|]. split; [lia|].
      split.
      { intros _. destruct (dec_digits (S f) q []); [congruence|]. now apply Hz. }
      rewrite digits_of_app. change (digits_of [r + 48]) with [r + 48 - 48]. rewrite decimal_snoc, HV. lia.
Qed.
Lemma fmt_dec_numeral n : numeral n (fmt_dec n).
Proof. apply dec_digits_numeral. rewrite N2Nat.id. apply N.size_gt. Qed.
Lemma forallb_digitb s : Forall digit_char s -> forallb digitb s = true.
Proof.
  intros H. apply forallb_forall. rewrite Forall_forall in H. intros c Hc. specialize (H c Hc).
  unfold digitb, digit_char in *. apply andb_true_iff. split; apply N.leb_le; lia.
Qed.
Lemma numeral_read n s : numeral n s -> read_dec s = Some n.
Proof.
  intros (HF & Hne & H0 & Hz & HV). destruct s as [|c tl]; [congruence|]. unfold read_dec.
  rewrite forallb_digitb by assumption. cbn [andb]. rewrite HV. destruct tl as [|d tl]; [reflexivity|].
  destruct (N.eqb_spec c 48) as [->|]; [|reflexivity]. destruct (N.eq_dec n 0) as [E|E].
  - specialize (H0 E). congruence.
  - now specialize (Hz E).
Qed.
Lemma read_fmt_dec n : read_dec (fmt_dec n) = Some n.
Proof. apply numeral_read, fmt_dec_numeral. Qed.
Lemma fmt_dec_digits n : Forall digit_char (fmt_dec n).
Proof. apply fmt_dec_numeral. Qed.
Lemma fmt_dec_nonempty n : fmt_dec n <> [].
Proof. apply fmt_dec_numeral. Qed.
Lemma fmt_dec_cons n : exists c tl, fmt_dec n = c :: tl /\ digit_char c.
Proof.
  pose proof (fmt_dec_digits n) as H. pose proof (fmt_dec_nonempty n) as Hn.
  destruct (fmt_dec n) as [|c tl]; [congruence|]. exists c, tl. split; [reflexivity|]. now inversion H.
Qed.
Lemma fmt_dec_inj a b : fmt_dec a = fmt_dec b -> a = b.
Proof. intros H. pose proof (read_fmt_dec a) as E. rewrite H, read_fmt_dec in E. congruence. Qed.

(** ** Texts *)
Lemma span_app f a b : forallb f a = true -> (match b with c :: _ => f c = false | [] => True end) ->
  span f (a ++ b) = (a, b).
Proof.
  intros Ha Hb. induction a as [|c tl IH].
  - cbn [app]. destruct b as [|c tl]; [reflexivity|]. cbn [span]. now rewrite Hb.
  - cbn [forallb] in Ha. apply andb_true_iff in Ha. destruct Ha as [Hc Ha]. cbn [app span]. rewrite Hc, IH; auto.
Qed.
Lemma eat_app pre s : eat pre (pre ++ s) = Some s.
Proof. induction pre as [|a pre IH]; [reflexivity|]. cbn [app eat]. now rewrite N.eqb_refl. Qed.
Lemma split_on_none sep s : Forall (fun c => c <> sep) s -> split_on sep s = [s].
Proof.
  induction s as [|c tl IH]; intros H; [reflexivity|]. inversion H; subst. cbn [split_on].
  destruct (N.eqb_spec c sep); [congruence|]. now rewrite IH.
Qed.
Lemma split_on_app sep a b : Forall (fun c => c <> sep) a -> split_on sep (a ++ sep :: b) = a :: split_on sep b.
Proof.
  induction a as [|c tl IH]; intros H.
  - cbn [app split_on]. now rewrite N.eqb_refl.
  - inversion H; subst. cbn [app split_on]. destruct (N.eqb_spec c sep); [congruence|]. now rewrite IH.
Qed.
Lemma skip_space_id s : (match s with c :: _ => is_space c = false | [] => True end) -> skip_space s = s.
Proof. destruct s as [|c tl]; [reflexivity|]. intros H. cbn [skip_space]. now rewrite H. Qed.
Lemma digit_not_space c : digit_char c -> is_space c = false.
Proof.
  unfold digit_char, is_space. intros H.
  destruct (N.eqb_spec c 32), (N.eqb_spec c 10), (N.eqb_spec c 13), (N.eqb_spec c 9); try lia; reflexivity.
Qed.
