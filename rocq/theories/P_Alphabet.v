(** * Lemmas about alphabets with tables of element widths *)
From Verif Require Import Rust M_Error M_Parse S_Barcode S_Linear P_Rust P_Barcode P_Parse.

(** ** Values and characters *)
Lemma value_in_Some l c v : value_in l c = Some v -> nth_error l v = Some c.
Proof.
  revert v. induction l as [|x l IH]; simpl; intros v H; [discriminate|].
  destruct (x =? c) eqn:E.
  - inversion H. apply N.eqb_eq in E. now subst.
  - destruct (value_in l c) as [w|]; [|discriminate]. inversion H. simpl. now apply IH.
Qed.

Lemma value_in_In l c : In c l -> exists v, value_in l c = Some v /\ (v < length l)%nat.
Proof.
  induction l as [|x l IH]; simpl; intros H; [tauto|].
  destruct (x =? c) eqn:E; [exists O; split; [reflexivity | lia]|].
  destruct H as [H|H]; [subst; rewrite N.eqb_refl in E; discriminate|].
  destruct (IH H) as [v [Hv Hl]]. rewrite Hv. exists (S v). split; [reflexivity | lia].
Qed.

Lemma value_in_nth l v d : NoDup l -> (v < length l)%nat -> value_in l (nth v l d) = Some v.
Proof.
  revert v. induction l as [|x l IH]; simpl; intros v Hn Hv; [lia|].
  inversion Hn as [|? ? Hx Hn']; subst. destruct v as [|v]; [now rewrite N.eqb_refl|].
  destruct (x =? nth v l d) eqn:E.
  - apply N.eqb_eq in E. exfalso. apply Hx. rewrite E. apply nth_In. lia.
  - rewrite IH by (assumption || lia). reflexivity.
Qed.

Lemma value_lt l c : In c l -> value l c < len l.
Proof.
  intros H. unfold value, len. destruct (value_in_In l c H) as [v [-> Hv]]. lia.
Qed.

Lemma char_of_value l c : In c l -> char_of l (value l c) = c.
Proof.
  intros H. unfold value, char_of. destruct (value_in_In l c H) as [v [Hv _]]. rewrite Hv.
  rewrite Nat2N.id. apply nth_error_nth. now apply value_in_Some.
Qed.

Lemma value_char_of l v : NoDup l -> v < len l -> value l (char_of l v) = v.
Proof.
  unfold value, char_of, len. intros Hn Hv. rewrite value_in_nth by (assumption || lia). lia.
Qed.

Lemma char_of_In l v : v < len l -> In (char_of l v) l.
Proof. unfold char_of, len. intros H. apply nth_In. lia. Qed.

Lemma value_inj l a b : In a l -> In b l -> value l a = value l b -> a = b.
Proof.
  intros Ha Hb E. rewrite <- (char_of_value l a Ha), <- (char_of_value l b Hb). now rewrite E.
Qed.

(** ** Patterns *)
Lemma pattern_In l t c : length l = length t -> In c l -> In (pattern l t c) t.
Proof.
  intros Hl H. unfold pattern. apply nth_In. pose proof (value_lt l c H) as Hv.
  unfold len in Hv. lia.
Qed.

Lemma read_char_pattern l t c :
  length l = length t -> NoDup t -> In c l -> read_char l t (pattern l t c) = Some c.
Proof.
  intros Hl Hn H. unfold read_char, pattern.
  pose proof (value_lt l c H) as Hv. unfold len in Hv.
  rewrite which_nth by (assumption || lia).
  unfold value. destruct (value_in_In l c H) as [v [E _]]. rewrite E, Nat2N.id.
  now apply value_in_Some.
Qed.

Lemma read_char_sound l t ws c :
  NoDup l -> length l = length t -> read_char l t ws = Some c ->
  In c l /\ pattern l t c = ws.
Proof.
  unfold read_char. intros Hn Hl H. destruct (which t ws) as [v|] eqn:E; [|discriminate].
  apply which_sound in E. pose proof (nth_error_In _ _ H) as Hin. split; [assumption|].
  pose proof (nth_error_nth _ _ 0 H) as Hc.
  assert (Hv : (v < length l)%nat) by (apply nth_error_Some; congruence).
  unfold pattern, value. rewrite <- Hc, value_in_nth by assumption.
  rewrite Nat2N.id. now apply nth_error_nth.
Qed.

(** ** The model's look-ups in a table of (character, modules) pairs *)
Definition mtable (l : list char) (t : list (list nat)) : list (char * list N) :=
  combine l (map render t).

Lemma mtable_fst l t : length l = length t -> map fst (mtable l t) = l.
Proof.
  unfold mtable. revert t. induction l as [|x l IH]; destruct t; simpl; intros H; try discriminate.
  - reflexivity.
  - rewrite IH by congruence. reflexivity.
Qed.

Lemma mtable_len l t : length l = length t -> len (mtable l t) = len l.
Proof.
  intros H. unfold mtable, len. rewrite combine_length, map_length. f_equal. lia.
Qed.

Lemma mtable_find l t c : length l = length t -> In c l ->
  find (fun x => fst x =? c) (mtable l t) = Some (c, render (pattern l t c)).
Proof.
  unfold pattern, value, mtable. revert t.
  induction l as [|x l IH]; destruct t as [|w t]; simpl; intros Hl H; try tauto; try discriminate.
  destruct (x =? c) eqn:E.
  - apply N.eqb_eq in E. now subst.
  - destruct H as [H|H]; [subst; rewrite N.eqb_refl in E; discriminate|].
    rewrite IH by (congruence || assumption).
    destruct (value_in_In l c H) as [v [-> _]]. simpl option_map. cbv iota.
    rewrite !Nat2N.id. reflexivity.
Qed.

Lemma mtable_find_none l t c : length l = length t -> ~ In c l ->
  find (fun x => fst x =? c) (mtable l t) = None.
Proof.
  intros Hl H. apply find_none_Forall. apply Forall_forall. intros [x ws] Hx. simpl.
  apply N.eqb_neq. intros ->. apply H. unfold mtable in Hx. now apply in_combine_l in Hx.
Qed.

Lemma mtable_position l t c : length l = length t -> In c l ->
  position (fun x => fst x =? c) (mtable l t) = Some (value l c).
Proof.
  unfold value, mtable. revert t.
  induction l as [|x l IH]; destruct t as [|w t]; simpl; intros Hl H; try tauto; try discriminate.
  destruct (x =? c) eqn:E; [reflexivity|].
  destruct H as [H|H]; [subst; rewrite N.eqb_refl in E; discriminate|].
  rewrite IH by (congruence || assumption).
  destruct (value_in_In l c H) as [v [-> _]]. simpl. f_equal. lia.
Qed.

Lemma mtable_nth l t v : length l = length t -> v < len l ->
  option_map fst (nth_error (mtable l t) (N.to_nat v)) = Some (char_of l v).
Proof.
  intros Hl Hv.
  assert (E : option_map fst (nth_error (mtable l t) (N.to_nat v))
              = nth_error (map fst (mtable l t)) (N.to_nat v)).
  { generalize (N.to_nat v). induction (mtable l t) as [|x m IH]; intros [|n]; simpl; auto. }
  rewrite E, mtable_fst by assumption. unfold char_of. unfold len in Hv.
  apply nth_error_nth'. lia.
Qed.

(** ** parse over an alphabet, for strings of any size *)
Lemma alphabet_new {B} (mk : str -> B) vc lo hi s :
  let n := str_len s mod 2 ^ 32 in
  let r := result_map mk (parse vc lo hi s) in
  (r = Err ELength <-> ~ (lo <= n <= hi)) /\
  (r = Err ECharacter <-> lo <= n <= hi /\ ~ Forall (fun c => In c vc) s) /\
  r <> Err EChecksum /\
  (forall b, r = Ok b <-> lo <= n <= hi /\ Forall (fun c => In c vc) s /\ b = mk s).
Proof.
  intros n r. subst r.
  destruct (parse_cases vc lo hi s) as [[H E]|[[H [H' E]]|[H [H' E]]]]; rewrite E; simpl;
    fold n in H; (split; [|split; [|split; [discriminate|intros b]]]); split; intros G;
    try discriminate; try tauto; try (inversion G; tauto).
  destruct G as [_ [_ ->]]. reflexivity.
Qed.

Lemma alphabet_new_Ok {B} (mk : str -> B) vc lo hi s b :
  result_map mk (parse vc lo hi s) = Ok b -> Forall (fun c => In c vc) s /\ b = mk s
    /\ lo <= str_len s mod 2 ^ 32.
Proof.
  intros H. apply (alphabet_new mk vc lo hi s) in H. tauto.
Qed.

(** ** Weighted sums *)
Lemma weigh_bound top m vs : forall w, 1 <= w <= top -> Forall (fun v => v <= m) vs ->
  weigh top w vs <= len vs * (top * m).
Proof.
  induction vs as [|v vs IH]; intros w Hw H; cbn [weigh]; [apply N.le_0_l|].
  inversion H as [|? ? H1 H2]; subst. pose proof (len_cons v vs) as E.
  set (n := len (v :: vs)) in *. rewrite E.
  assert (Hw' : 1 <= (if w =? top then 1 else w + 1) <= top).
  { destruct (w =? top) eqn:E'; [lia|]. apply N.eqb_neq in E'. lia. }
  specialize (IH _ Hw' H2). assert (w * v <= top * m) by (apply N.mul_le_mono; lia). lia.
Qed.

(** The weights as a function of the position from the right *)
Definition weight_at (top k : N) : N := let r := (k + 1) mod top in if r =? 0 then top else r.
Lemma weight_at_range top k : 0 < top -> 1 <= weight_at top k <= top.
Proof.
  intros H. unfold weight_at. pose proof (N.mod_lt (k + 1) top ltac:(lia)).
  set (r := (k + 1) mod top) in *. clearbody r.
  destruct (r =? 0) eqn:E; [lia|]. apply N.eqb_neq in E. lia.
Qed.
Lemma weight_at_0 top : 0 < top -> weight_at top 0 = 1.
Proof.
  intros H. unfold weight_at. simpl. destruct (N.eq_dec top 1) as [->|Ht]; [reflexivity|].
  rewrite N.mod_small by lia. reflexivity.
Qed.
Lemma weight_at_succ top k : 0 < top ->
  weight_at top (k + 1) = (if weight_at top k =? top then 1 else weight_at top k + 1).
Proof.
  intros H. unfold weight_at. set (a := k + 1).
  pose proof (N.mod_lt a top ltac:(lia)) as Hlt.
  rewrite <- (N.add_mod_idemp_l a 1 top) by lia.
  set (r := a mod top) in *. clearbody r.
  destruct (r =? 0) eqn:E.
  - apply N.eqb_eq in E. rewrite E, N.eqb_refl. simpl.
    destruct (N.eq_dec top 1) as [->|Ht]; [reflexivity|]. rewrite N.mod_small by lia. reflexivity.
  - apply N.eqb_neq in E. destruct (r =? top) eqn:E2; [apply N.eqb_eq in E2; lia|].
    destruct (N.eq_dec (r + 1) top) as [Ht|Ht].
    + rewrite Ht, N.mod_same by lia. reflexivity.
    + rewrite N.mod_small by lia. destruct (r + 1 =? 0) eqn:E3; [apply N.eqb_eq in E3; lia|].
      reflexivity.
Qed.

Fixpoint wpos (top k : N) (vs : list N) : N :=
  match vs with
  | [] => 0
  | v :: tl => weight_at top k * v + wpos top (k + 1) tl
  end.
Lemma weigh_wpos top vs : 0 < top -> forall k, weigh top (weight_at top k) vs = wpos top k vs.
Proof.
  intros H. induction vs as [|v vs IH]; intros k; simpl; [reflexivity|].
  now rewrite <- weight_at_succ, IH.
Qed.
Lemma weighted_wpos top vs : 0 < top -> weighted top vs = wpos top 0 (rev vs).
Proof. intros H. unfold weighted. rewrite <- weigh_wpos by assumption. now rewrite weight_at_0. Qed.

Lemma wpos_app top a b : forall k, wpos top k (a ++ b) = wpos top k a + wpos top (k + len a) b.
Proof.
  induction a as [|x a IH]; intros k; simpl.
  - rewrite len_nil, N.add_0_r. reflexivity.
  - rewrite IH, len_cons. rewrite (N.add_assoc k 1). lia.
Qed.
(** Changing one value *)
Lemma weighted_app top u v w : 0 < top ->
  weighted top (u ++ v :: w) =
  wpos top 0 (rev w) + (weight_at top (len w) * v + wpos top (len w + 1) (rev u)).
Proof.
  intros H. rewrite weighted_wpos by assumption. rewrite rev_app_distr. simpl rev.
  rewrite <- !app_assoc. rewrite wpos_app. simpl wpos.
  unfold len. rewrite rev_length. reflexivity.
Qed.

(** ** Sums of usize terms *)
Definition sum_N (l : list N) : N := fold_right N.add 0 l.
Lemma foldM_add {A} p (step : N -> A -> M N) (g : A -> N) l : forall acc,
  (forall acc x, In x l -> step acc x = add_u usize_bits p acc (g x)) ->
  acc + sum_N (map g l) < 2 ^ usize_bits ->
  foldM step l acc = Ret (acc + sum_N (map g l)).
Proof.
  unfold sum_N. induction l as [|x l IH]; cbn [map fold_right foldM]; intros acc H Hs.
  - now rewrite N.add_0_r.
  - rewrite H by (left; reflexivity). unfold add_u at 1. rewrite fit_u_ok by lia. cbn [bind].
    rewrite IH; [f_equal; lia | intros; apply H; now right | lia].
Qed.
Lemma sum_N_bound m l : Forall (fun v => v <= m) l -> sum_N l <= len l * m.
Proof.
  unfold sum_N, len. induction 1; cbn [fold_right length]; [lia|]. lia.
Qed.
Lemma sum_N_app a b : sum_N (a ++ b) = sum_N a + sum_N b.
Proof. unfold sum_N. induction a; cbn [app fold_right]; [reflexivity|]. rewrite IHa. lia. Qed.

Lemma forallb_pattern (P : list nat -> bool) l t c :
  length l = length t -> forallb P t = true -> In c l -> P (pattern l t c) = true.
Proof.
  intros Hl H Hc. rewrite forallb_forall in H. apply H. now apply pattern_In.
Qed.
(** Decidable absence of duplicates among characters *)
Fixpoint nodup_chars (l : list char) : bool :=
  match l with
  | [] => true
  | c :: tl => negb (existsb (N.eqb c) tl) && nodup_chars tl
  end.
Lemma nodup_chars_NoDup l : nodup_chars l = true -> NoDup l.
Proof.
  induction l as [|c l IH]; simpl; intros H; constructor.
  - apply andb_prop in H. destruct H as [H _]. apply negb_true_iff in H.
    intros Hin. rewrite <- not_true_iff_false in H. apply H.
    apply existsb_exists. exists c. split; [assumption | apply N.eqb_refl].
  - apply IH. apply andb_prop in H. tauto.
Qed.
(** Widths between 1 and [m] *)
Definition widths_in (m : nat) (ws : list nat) : bool :=
  forallb (fun w => Nat.leb 1 w && Nat.leb w m) ws.
Lemma widths_in_Forall m ws : widths_in m ws = true -> Forall (fun w => 1 <= w <= m)%nat ws.
Proof.
  unfold widths_in. rewrite forallb_forall, Forall_forall. intros H w Hw.
  specialize (H w Hw). apply andb_prop in H. destruct H as [H1 H2].
  apply Nat.leb_le in H1, H2. lia.
Qed.
Lemma widths_pos m ws : Forall (fun w => 1 <= w <= m)%nat ws -> Forall (fun w => 1 <= w)%nat ws.
Proof. apply Forall_impl. intros; lia. Qed.
