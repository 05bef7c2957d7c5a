(** * Lemmas about the Rust layer *)
From Verif Require Import Rust.

Lemma bind_Ret {A B} (a : A) (f : A -> M B) : bind (Ret a) f = f a.
Proof. reflexivity. Qed.

Lemma bind_Ret_inv {A B} (m : M A) (f : A -> M B) b :
  bind m f = Ret b -> exists a, m = Ret a /\ f a = Ret b.
Proof. destruct m; simpl; intros H; [eauto | discriminate]. Qed.

Lemma mapM_ext {A B} (f g : A -> M B) l :
  (forall x, In x l -> f x = g x) -> mapM f l = mapM g l.
Proof.
  induction l as [|x tl IH]; simpl; intros H; [reflexivity|].
  rewrite H by auto. rewrite IH by auto. reflexivity.
Qed.

Lemma mapM_Ret {A B} (f : A -> M B) (g : A -> B) l :
  (forall x, In x l -> f x = Ret (g x)) -> mapM f l = Ret (map g l).
Proof.
  induction l as [|x tl IH]; simpl; intros H; [reflexivity|].
  rewrite H by auto. simpl. rewrite IH by auto. reflexivity.
Qed.

Lemma mapM_Forall_Ret {A B} (P : A -> Prop) (f : A -> M B) (g : A -> B) l :
  (forall x, P x -> f x = Ret (g x)) -> Forall P l -> mapM f l = Ret (map g l).
Proof.
  intros H HF. apply mapM_Ret. intros x Hx. apply H.
  rewrite Forall_forall in HF. auto.
Qed.

Lemma mapM_Panic {A B} (f : A -> M B) l x :
  In x l -> panics (f x) -> panics (mapM f l).
Proof.
  induction l as [|y tl IH]; simpl; intros Hin Hp; [tauto|].
  destruct (f y) as [b|q] eqn:E; simpl; [|eexists; reflexivity].
  destruct Hin as [->|Hin].
  - destruct Hp as [q Hq]. congruence.
  - destruct (IH Hin Hp) as [q Hq]. rewrite Hq. simpl. eexists; reflexivity.
Qed.

Lemma foldM_Ret {A B} (f : B -> A -> M B) (g : B -> A -> B) l : forall acc,
  (forall acc x, In x l -> f acc x = Ret (g acc x)) ->
  foldM f l acc = Ret (fold_left g l acc).
Proof.
  induction l as [|x tl IH]; simpl; intros acc H; [reflexivity|].
  rewrite H by auto. simpl. apply IH. auto.
Qed.

Lemma foldM_Panic {A B} (f : B -> A -> M B) l x : forall acc,
  In x l -> (forall acc, panics (f acc x)) -> panics (foldM f l acc).
Proof.
  induction l as [|y tl IH]; simpl; intros acc Hin Hp; [tauto|].
  destruct Hin as [->|Hin].
  - destruct (Hp acc) as [q Hq]. rewrite Hq. simpl. eexists; reflexivity.
  - destruct (f acc y); simpl; [auto | eexists; reflexivity].
Qed.

(** Appending chunks in a loop is one concatenation. *)
Lemma fold_left_app_concat {A B} (g : A -> list B) l : forall acc,
  fold_left (fun acc x => acc ++ g x) l acc = acc ++ concat (map g l).
Proof.
  induction l as [|x tl IH]; simpl; intros acc; [now rewrite app_nil_r|].
  rewrite IH. now rewrite app_assoc.
Qed.

Lemma fit_u_ok bits p n : n < 2 ^ bits -> fit_u bits p n = Ret n.
Proof. unfold fit_u. intros H. apply N.ltb_lt in H. now rewrite H. Qed.

Lemma fit_u_debug bits n : 2 ^ bits <= n -> fit_u bits Debug n = Panic PanicOverflow.
Proof. unfold fit_u. intros H. apply N.ltb_ge in H. now rewrite H. Qed.

Lemma fit_u_release bits n : fit_u bits Release n = Ret (n mod 2 ^ bits).
Proof.
  unfold fit_u. destruct (n <? 2 ^ bits) eqn:E; [|reflexivity].
  apply N.ltb_lt in E. now rewrite N.mod_small.
Qed.

Lemma sub_u_ok bits p a b : b <= a -> sub_u bits p a b = Ret (a - b).
Proof. unfold sub_u. intros H. apply N.leb_le in H. now rewrite H. Qed.

Lemma rem_u_ok a b : b <> 0 -> rem_u a b = Ret (a mod b).
Proof. unfold rem_u. intros H. apply N.eqb_neq in H. now rewrite H. Qed.

Lemma cast_u_small bits n : n < 2 ^ bits -> cast_u bits n = n.
Proof. unfold cast_u. apply N.mod_small. Qed.

Lemma index_nth {A} (l : list A) (i : N) d :
  i < len l -> index l i = Ret (nth (N.to_nat i) l d).
Proof.
  unfold index, len. intros H.
  destruct (nth_error l (N.to_nat i)) eqn:E.
  - erewrite nth_error_nth by eassumption. reflexivity.
  - apply nth_error_None in E. lia.
Qed.

Lemma index_out {A} (l : list A) (i : N) : len l <= i -> index l i = Panic PanicIndex.
Proof.
  unfold index, len. intros H.
  destruct (nth_error l (N.to_nat i)) eqn:E; [|reflexivity].
  assert (nth_error l (N.to_nat i) <> None) by congruence.
  apply nth_error_Some in H0. lia.
Qed.

Lemma slice_ok {A} (l : list A) lo hi :
  lo <= hi -> hi <= len l ->
  slice l lo hi = Ret (firstn (N.to_nat (hi - lo)) (skipn (N.to_nat lo) l)).
Proof.
  unfold slice. intros H1 H2. apply N.leb_le in H1, H2. now rewrite H1, H2.
Qed.

Lemma slice_from_ok {A} (l : list A) lo :
  lo <= len l -> slice_from l lo = Ret (skipn (N.to_nat lo) l).
Proof. unfold slice_from. intros H. apply N.leb_le in H. now rewrite H. Qed.

Lemma str_eqb_eq a b : str_eqb a b = true <-> a = b.
Proof.
  revert b. induction a as [|x a IH]; destruct b as [|y b]; simpl; split;
    try congruence; try discriminate.
  - rewrite andb_true_iff, N.eqb_eq, IH. intros [-> ->]; reflexivity.
  - intros H. inversion H; subst. rewrite N.eqb_refl. simpl. now apply IH.
Qed.

Lemma str_eqb_refl a : str_eqb a a = true.
Proof. now apply str_eqb_eq. Qed.

Lemma len_nil {A} : len (@nil A) = 0. Proof. reflexivity. Qed.
Lemma len_cons {A} (x : A) l : len (x :: l) = 1 + len l.
Proof. unfold len. simpl length. lia. Qed.
Lemma len_app {A} (a b : list A) : len (a ++ b) = len a + len b.
Proof. unfold len. rewrite app_length. lia. Qed.
Lemma len_map {A B} (f : A -> B) l : len (map f l) = len l.
Proof. unfold len. now rewrite map_length. Qed.

Lemma enumerate_from_length {A} (l : list A) : forall i,
  length (enumerate_from i l) = length l.
Proof. induction l; simpl; auto. Qed.

Lemma enumerate_from_app {A} (a b : list A) : forall i,
  enumerate_from i (a ++ b) = enumerate_from i a ++ enumerate_from (i + len a) b.
Proof.
  induction a as [|x a IH]; intros i; simpl.
  - rewrite len_nil. f_equal. lia.
  - rewrite IH, len_cons. replace (i + (1 + len a)) with (i + 1 + len a) by lia. reflexivity.
Qed.

Lemma enumerate_from_In {A} (l : list A) : forall i j x,
  In (j, x) (enumerate_from i l) -> i <= j < i + len l /\ nth_error l (N.to_nat (j - i)) = Some x.
Proof.
  induction l as [|y l IH]; simpl; intros i j x H; [tauto|].
  rewrite len_cons. destruct H as [H|H].
  - inversion H; subst. rewrite N.sub_diag. split; [lia | reflexivity].
  - apply IH in H. destruct H as [H1 H2]. split; [lia|].
    replace (N.to_nat (j - i)) with (S (N.to_nat (j - (i + 1)))) by lia. exact H2.
Qed.

Lemma str_len_app a b : str_len (a ++ b) = str_len a + str_len b.
Proof. induction a; simpl; [reflexivity|]. rewrite IHa. lia. Qed.

Lemma utf8_len_pos c : 1 <= utf8_len c <= 4.
Proof.
  unfold utf8_len. destruct (c <? 128); [lia|].
  destruct (c <? 2048); [lia|]. destruct (c <? 65536); lia.
Qed.

Lemma str_len_ge s : len s <= str_len s.
Proof.
  induction s; simpl; [unfold len; simpl; lia|]. rewrite len_cons.
  pose proof (utf8_len_pos a). lia.
Qed.

Lemma str_len_ascii s : Forall (fun c => c < 128) s -> str_len s = len s.
Proof.
  induction 1; simpl; [reflexivity|]. rewrite len_cons, IHForall.
  unfold utf8_len. apply N.ltb_lt in H. rewrite H. reflexivity.
Qed.

Lemma In_range n x : In x (range n) <-> x < n.
Proof.
  unfold range. rewrite in_map_iff. split.
  - intros [k [<- Hk]]. apply in_seq in Hk. lia.
  - intros H. exists (N.to_nat x). split; [lia|]. apply in_seq. lia.
Qed.

Lemma position_lt {A} (f : A -> bool) l i : position f l = Some i -> i < len l.
Proof.
  revert i. induction l as [|x l IH]; simpl; intros i H; [discriminate|].
  rewrite len_cons. destruct (f x); [inversion H; lia|].
  destruct (position f l); simpl in H; [|discriminate].
  inversion H; subst. specialize (IH n eq_refl). lia.
Qed.
