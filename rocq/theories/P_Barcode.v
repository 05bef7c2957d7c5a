(** * Lemmas about printing and scanning *)
From Coq Require Import NArith List Bool Lia Arith.
From Verif Require Import S_Barcode.
Local Arguments N.sub : simpl never.
Import ListNotations.

Definition flip (b : N) (n : nat) : N := if Nat.even n then b else (1 - b)%N.

Lemma render_from_app b ws1 ws2 :
  (b = 0 \/ b = 1)%N ->
  render_from b (ws1 ++ ws2) = render_from b ws1 ++ render_from (flip b (length ws1)) ws2.
Proof.
  revert b. induction ws1 as [|w ws1 IH]; intros b Hb; simpl; [reflexivity|].
  rewrite IH by lia. rewrite <- app_assoc. do 3 f_equal.
  unfold flip. simpl length. rewrite Nat.even_succ, <- Nat.negb_even.
  destruct (Nat.even (length ws1)); simpl; [reflexivity|]. lia.
Qed.

(** Pieces of even length do not change the colour. *)
Lemma render_from_app_even b ws1 ws2 :
  (b = 0 \/ b = 1)%N -> Nat.even (length ws1) = true ->
  render_from b (ws1 ++ ws2) = render_from b ws1 ++ render_from b ws2.
Proof. intros Hb He. rewrite render_from_app by assumption. unfold flip. now rewrite He. Qed.

Lemma render_from_app_odd b ws1 ws2 :
  (b = 0 \/ b = 1)%N -> Nat.even (length ws1) = false ->
  render_from b (ws1 ++ ws2) = render_from b ws1 ++ render_from (1 - b) ws2.
Proof. intros Hb He. rewrite render_from_app by assumption. unfold flip. now rewrite He. Qed.

Lemma render_from_concat_even b (bs : list (list nat)) :
  (b = 0 \/ b = 1)%N -> Forall (fun ws => Nat.even (length ws) = true) bs ->
  render_from b (concat bs) = concat (map (render_from b) bs).
Proof.
  intros Hb. induction 1 as [|ws bs H _ IH]; simpl; [reflexivity|].
  rewrite render_from_app_even by assumption. now rewrite IH.
Qed.

Lemma render_from_length b ws : length (render_from b ws) = list_sum ws.
Proof.
  revert b. induction ws; intros b; simpl; [reflexivity|].
  now rewrite app_length, repeat_length, IHws.
Qed.

Lemma render_from_modules b ws :
  (b = 0 \/ b = 1)%N -> Forall (fun x => (x = 0 \/ x = 1)%N) (render_from b ws).
Proof.
  revert b. induction ws; intros b Hb; simpl; [constructor|].
  apply Forall_app. split; [|apply IHws; lia].
  apply Forall_forall. intros x Hx. apply repeat_spec in Hx. now subst.
Qed.

Lemma runs_repeat b n m l : runs b n (repeat b m ++ l) = runs b (n + m) l.
Proof.
  revert n. induction m; intros n; simpl; [f_equal; lia|].
  rewrite N.eqb_refl, IHm. f_equal. lia.
Qed.

Lemma runs_render b n ws :
  (b = 0 \/ b = 1)%N -> Forall (fun w => 1 <= w) ws ->
  runs b n (render_from (1 - b) ws) = n :: ws.
Proof.
  revert b n. induction ws as [|w ws IH]; intros b n Hb H; simpl; [reflexivity|].
  inversion H as [|? ? Hw Hws]; subst.
  destruct w as [|w]; [lia|]. simpl.
  replace (1 - b =? b)%N with false by (symmetry; apply N.eqb_neq; lia).
  f_equal. rewrite runs_repeat. rewrite IH by (assumption || lia). reflexivity.
Qed.

Lemma forallb_is_module l :
  Forall (fun x => (x = 0 \/ x = 1)%N) l -> forallb is_module l = true.
Proof.
  intros H. apply forallb_forall. rewrite Forall_forall in H.
  intros x Hx. destruct (H x Hx); subst; reflexivity.
Qed.

Lemma drop_light_bar l : drop_light (1%N :: l) = 1%N :: l.
Proof. reflexivity. Qed.

Lemma drop_light_repeat k l : drop_light (repeat 0%N k ++ l) = drop_light l.
Proof. induction k; simpl; auto. Qed.

(** The last module of an odd number of elements, the first being a bar, is a bar. *)
Lemma render_last b ws :
  Forall (fun w => 1 <= w) ws -> ws <> [] -> (b = 0 \/ b = 1)%N ->
  exists l, render_from b ws = l ++ [flip (1 - b) (length ws)].
Proof.
  revert b. induction ws as [|w ws IH]; intros b H Hne Hb; [congruence|].
  inversion H as [|? ? Hw Hws]; subst. simpl.
  destruct ws as [|w' ws'].
  - exists (repeat b (w - 1)). simpl. rewrite app_nil_r.
    replace w with (w - 1 + 1) at 1 by lia. rewrite repeat_app. simpl.
    unfold flip. simpl. replace (1 - (1 - b))%N with b by lia. reflexivity.
  - destruct (IH (1 - b)%N Hws) as [l Hl]; [discriminate | lia |].
    exists (repeat b w ++ l). rewrite Hl, app_assoc. f_equal. f_equal.
    unfold flip. simpl length. rewrite (Nat.even_succ (S (length ws'))), <- Nat.negb_even.
    destruct (Nat.even (S (length ws'))); simpl; lia.
Qed.

Lemma rev_repeat {A} (x : A) n : rev (repeat x n) = repeat x n.
Proof.
  induction n; simpl; [reflexivity|]. rewrite IHn.
  change [x] with (repeat x 1). rewrite <- repeat_app, Nat.add_1_r. reflexivity.
Qed.

Lemma trim_render ws j k :
  Forall (fun w => 1 <= w) ws -> Nat.even (length ws) = false ->
  trim (repeat 0%N j ++ render ws ++ repeat 0%N k) = render ws.
Proof.
  intros H Ho. unfold trim, render.
  destruct ws as [|w ws]; [discriminate|].
  assert (Hw : 1 <= w) by (inversion H; auto).
  rewrite drop_light_repeat.
  assert (E : render_from 1%N (w :: ws) = 1%N :: repeat 1%N (w - 1) ++ render_from 0%N ws).
  { simpl. destruct w; [lia|]. simpl. now rewrite Nat.sub_0_r. }
  rewrite E at 1. rewrite <- app_comm_cons, drop_light_bar, app_comm_cons, <- E.
  rewrite rev_app_distr, rev_repeat, drop_light_repeat.
  destruct (render_last 1%N (w :: ws) H) as [l Hl]; [discriminate | auto |].
  rewrite Hl. rewrite rev_app_distr.
  unfold flip. rewrite Ho. simpl rev at 2. cbn [app]. rewrite drop_light_bar.
  cbn [rev]. now rewrite rev_involutive.
Qed.

(** Scanning a printed symbol, quiet zones included, measures its elements. *)
Lemma scan_render_quiet ws j k :
  Forall (fun w => 1 <= w) ws -> Nat.even (length ws) = false ->
  scan (repeat 0%N j ++ render ws ++ repeat 0%N k) = Some ws.
Proof.
  intros H Ho. unfold scan.
  rewrite forallb_is_module.
  2:{ repeat (apply Forall_app; split); try apply render_from_modules; auto;
      apply Forall_forall; intros x Hx; apply repeat_spec in Hx; auto. }
  rewrite trim_render by assumption. unfold render.
  destruct ws as [|w ws]; [discriminate|].
  inversion H as [|? ? Hw Hws]; subst. destruct w as [|w]; [lia|]. simpl.
  rewrite runs_repeat. rewrite (runs_render 1%N) by auto. reflexivity.
Qed.

Lemma scan_render ws :
  Forall (fun w => 1 <= w) ws -> Nat.even (length ws) = false ->
  scan (render ws) = Some ws.
Proof.
  intros H Ho. rewrite <- (scan_render_quiet ws 0 0 H Ho). simpl. now rewrite app_nil_r.
Qed.

Lemma scan_render_tail ws k :
  Forall (fun w => 1 <= w) ws -> Nat.even (length ws) = false ->
  scan (render ws ++ repeat 0%N k) = Some ws.
Proof. intros H Ho. exact (scan_render_quiet ws 0 k H Ho). Qed.

Lemma render_rev ws :
  Nat.even (length ws) = false -> rev (render ws) = render (rev ws).
Proof.
  unfold render. intros Ho.
  assert (G : forall b, (b = 0 \/ b = 1)%N ->
    rev (render_from b ws) = render_from (flip (1 - b) (length ws)) (rev ws)).
  { clear Ho. induction ws as [|w ws IH]; intros b Hb; [reflexivity|]. simpl.
    rewrite rev_app_distr, rev_repeat, IH by lia.
    rewrite render_from_app.
    2:{ unfold flip. destruct (Nat.even _); lia. }
    rewrite rev_length. cbn [render_from]. rewrite app_nil_r.
    assert (E1 : flip (1 - b) (S (length ws)) = flip (1 - (1 - b)) (length ws)).
    { unfold flip. rewrite Nat.even_succ, <- Nat.negb_even.
      destruct (Nat.even (length ws)); simpl; lia. }
    rewrite E1. do 2 f_equal.
    unfold flip. destruct (Nat.even (length ws)); lia. }
  rewrite G by auto. unfold flip. rewrite Ho. reflexivity.
Qed.

Lemma scan_rev_render ws :
  Forall (fun w => 1 <= w) ws -> Nat.even (length ws) = false ->
  scan (rev (render ws)) = Some (rev ws).
Proof.
  intros H Ho. rewrite render_rev by assumption. apply scan_render.
  - now apply Forall_rev.
  - now rewrite rev_length.
Qed.

(** ** Reading helpers *)
Lemma chop_fuel_concat {A} n (bs : list (list A)) : forall fuel,
  0 < n -> Forall (fun b => length b = n) bs -> length (concat bs) <= fuel ->
  chop_fuel fuel n (concat bs) = Some bs.
Proof.
  induction bs as [|b bs IH]; intros fuel Hn H Hf; simpl.
  - destruct fuel; reflexivity.
  - inversion H as [|? ? Hb Hbs]; subst. simpl in Hf. rewrite app_length in Hf.
    destruct b as [|x b]; [simpl in Hn; lia|]. simpl length in *.
    destruct fuel as [|fuel]; [lia|].
    cbn [app chop_fuel].
    replace (Nat.ltb (length (x :: b ++ concat bs)) (S (length b))) with false.
    2:{ symmetry. apply Nat.ltb_ge. simpl. rewrite app_length. lia. }
    cbn [skipn firstn].
    rewrite skipn_app, skipn_all, Nat.sub_diag. simpl.
    rewrite IH by (assumption || lia).
    rewrite firstn_app, firstn_all, Nat.sub_diag. simpl. now rewrite app_nil_r.
Qed.

Lemma chop_concat {A} n (bs : list (list A)) :
  0 < n -> Forall (fun b => length b = n) bs -> chop n (concat bs) = Some bs.
Proof. intros Hn H. apply chop_fuel_concat; auto. Qed.

Lemma chop_fuel_sound {A} n (l : list A) : forall fuel bs,
  chop_fuel fuel n l = Some bs -> concat bs = l /\ Forall (fun b => length b = n) bs.
Proof.
  intros fuel. revert l. induction fuel as [|fuel IH]; intros l bs H; simpl in H.
  - destruct l; [|discriminate]. inversion H. split; [reflexivity|constructor].
  - destruct l as [|x l]; [inversion H; split; [reflexivity|constructor]|].
    destruct (Nat.ltb (length (x :: l)) n) eqn:E; [discriminate|].
    destruct (chop_fuel fuel n (skipn n (x :: l))) as [bs'|] eqn:E'; [|discriminate].
    inversion H; subst. apply IH in E'. destruct E' as [E1 E2].
    apply Nat.ltb_ge in E. split.
    + cbn [concat]. rewrite E1. apply firstn_skipn.
    + constructor; [|assumption]. rewrite firstn_length. lia.
Qed.

Lemma chop_sound {A} n (l : list A) bs :
  chop n l = Some bs -> concat bs = l /\ Forall (fun b => length b = n) bs.
Proof. apply chop_fuel_sound. Qed.

Lemma read_all_map {A B C} (f : B -> option C) (g : A -> B) (h : A -> C) l :
  (forall x, In x l -> f (g x) = Some (h x)) -> read_all f (map g l) = Some (map h l).
Proof.
  induction l as [|x l IH]; simpl; intros H; [reflexivity|].
  rewrite H by auto. rewrite IH by auto. reflexivity.
Qed.

Lemma read_all_map_id {A B} (f : B -> option A) (g : A -> B) l :
  (forall x, In x l -> f (g x) = Some x) -> read_all f (map g l) = Some l.
Proof. intros H. rewrite (read_all_map f g (fun x => x)) by assumption. now rewrite map_id. Qed.

Lemma read_all_length {A B} (f : A -> option B) l r :
  read_all f l = Some r -> length r = length l.
Proof.
  revert r. induction l as [|x l IH]; simpl; intros r H; [now inversion H|].
  destruct (f x); [|discriminate]. destruct (read_all f l); [|discriminate].
  inversion H; subst. simpl. now rewrite (IH l0).
Qed.

Lemma widths_eqb_eq a b : widths_eqb a b = true <-> a = b.
Proof.
  revert b. induction a as [|x a IH]; destruct b as [|y b]; simpl; split;
    try congruence; try discriminate.
  - rewrite andb_true_iff, Nat.eqb_eq, IH. intros [-> ->]; reflexivity.
  - intros H. inversion H; subst. rewrite Nat.eqb_refl. simpl. now apply IH.
Qed.

Lemma widths_eqb_refl a : widths_eqb a a = true.
Proof. now apply widths_eqb_eq. Qed.

Lemma which_sound t ws i : which t ws = Some i -> nth_error t i = Some ws.
Proof.
  revert i. induction t as [|p t IH]; simpl; intros i H; [discriminate|].
  destruct (widths_eqb p ws) eqn:E.
  - inversion H; subst. apply widths_eqb_eq in E. now subst.
  - destruct (which t ws) as [j|]; [|discriminate]. inversion H; subst. simpl. auto.
Qed.

Lemma which_nth t i d :
  NoDup t -> i < length t -> which t (nth i t d) = Some i.
Proof.
  revert i. induction t as [|p t IH]; simpl; intros i Hn Hi; [lia|].
  inversion Hn as [|? ? Hnin Hn']; subst. destruct i as [|i].
  - now rewrite widths_eqb_refl.
  - assert (E : widths_eqb p (nth i t d) = false).
    { destruct (widths_eqb p (nth i t d)) eqn:E; [|reflexivity].
      apply widths_eqb_eq in E. exfalso. apply Hnin. rewrite E. apply nth_In. lia. }
    rewrite E, IH by (assumption || lia). reflexivity.
Qed.

(** Decidable absence of duplicates, for tables. *)
Fixpoint nodupb (t : list (list nat)) : bool :=
  match t with
  | [] => true
  | p :: tl => negb (existsb (widths_eqb p) tl) && nodupb tl
  end.
Lemma nodupb_NoDup t : nodupb t = true -> NoDup t.
Proof.
  induction t as [|p t IH]; simpl; intros H; constructor.
  - apply andb_prop in H. destruct H as [H _]. apply negb_true_iff in H.
    intros Hin. rewrite <- not_true_iff_false in H. apply H.
    apply existsb_exists. exists p. split; [assumption | apply widths_eqb_refl].
  - apply IH. apply andb_prop in H. tauto.
Qed.
