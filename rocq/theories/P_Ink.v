(** * Proofs: ink added or lost all over a symbol *)
From Verif Require Import Rust M_Error Symbology M_Use S_Barcode S_Ean S_Text S_Linear S_Codabar S_Tf S_Code128 S_All S_Damage S_Ink
  P_Rust P_Barcode P_Tf P_All P_Apart P_Damage P_Cell P_Cut P_Wrong P_Part.
Local Open Scope nat_scope.

(** ** Counting dark modules *)
Definition dk (l : list N) : nat := length (filter (N.eqb 1) l).
Lemma dk_app a b : dk (a ++ b) = dk a + dk b.
Proof. unfold dk. now rewrite filter_app, app_length. Qed.
Lemma inked_length a b : inked a b -> length a = length b.
Proof. induction 1; cbn [length]; congruence. Qed.
Lemma inked_dk a b : inked a b -> dk a <= dk b /\ (dk b = dk a -> a = b) /\ (dk b = S (dk a) -> exists l r, a = l ++ 0%N :: r /\ b = l ++ 1%N :: r).
Proof.
  induction 1 as [|x y a b Hxy H (IH1 & IH2 & IH3)]; [repeat split; try reflexivity; discriminate|].
  unfold dk in *. cbn [filter]. destruct Hxy as [<-|[-> ->]].
  - destruct (1 =? x)%N; cbn [length].
    + split; [lia|]. split; intros E; [f_equal; apply IH2; lia|]. destruct IH3 as (l & r & -> & ->); [lia|]. now exists (x :: l), r.
    + split; [lia|]. split; intros E; [f_equal; apply IH2; lia|]. destruct IH3 as (l & r & -> & ->); [lia|]. now exists (x :: l), r.
  - change (1 =? 0)%N with false. change (1 =? 1)%N with true. cbn [length]. split; [lia|]. split; [lia|]. intros E. exists [], a. split; [reflexivity|].
    cbn [app]. f_equal. symmetry. apply IH2. lia.
Qed.

(** ** Sums over the bars or over the spaces *)
Fixpoint alt (f : nat -> nat) (on : bool) (ws : list nat) : nat :=
  match ws with
  | [] => 0
  | w :: tl => (if on then f w else 0) + alt f (negb on) tl
  end.
Lemma alt_app f a : forall on b, alt f on (a ++ b) = alt f on a + alt f (if Nat.even (length a) then on else negb on) b.
Proof.
  induction a as [|x a IH]; intros on b; [reflexivity|]. cbn [app alt length]. rewrite IH, Nat.even_succ, <- Nat.negb_even.
  destruct (Nat.even (length a)), on; cbn [negb]; lia.
Qed.
Lemma alt_app_even f a on b : Nat.even (length a) = true -> alt f on (a ++ b) = alt f on a + alt f on b.
Proof. intros E. now rewrite alt_app, E. Qed.
Lemma alt_both ws : alt (fun w => w) true ws + alt (fun w => w) false ws = list_sum ws.
Proof.
  enough (G : forall on, alt (fun w => w) on ws + alt (fun w => w) (negb on) ws = list_sum ws) by apply (G true).
  induction ws as [|w ws IH]; intros on; [reflexivity|]. cbn [alt]. specialize (IH (negb on)). change (list_sum (w :: ws)) with (w + list_sum ws). destruct on; cbn [negb] in *; lia.
Qed.
Lemma dk_repeat b w : (b = 0 \/ b = 1)%N -> dk (repeat b w) = if (b =? 1)%N then w else 0.
Proof. intros [-> | ->]; unfold dk; induction w as [|w IH]; try reflexivity; [exact IH|]. exact (f_equal S IH). Qed.
Lemma dk_render_from ws : forall b, (b = 0 \/ b = 1)%N -> dk (render_from b ws) = alt (fun w => w) (b =? 1)%N ws.
Proof.
  induction ws as [|w ws IH]; intros b Hb; [reflexivity|]. cbn [render_from alt]. rewrite dk_app, IH by (destruct Hb as [-> | ->]; auto). rewrite (dk_repeat b w Hb).
  destruct Hb as [-> | ->]; reflexivity.
Qed.
Lemma dk_render ws : dk (render ws) = alt (fun w => w) true ws.
Proof. apply (dk_render_from ws 1%N). now right. Qed.

(** ** Counting wide bars or wide spaces on the modules *)
Definition wide (w : nat) : nat := if 2 <=? w then 1 else 0.
(** Runs of [x] that reach two modules; [k] modules of a run are already behind *)
Fixpoint wd (x : N) (k : nat) (l : list N) : nat :=
  match l with
  | [] => 0
  | y :: tl => if (y =? x)%N then (if k =? 1 then 1 else 0) + wd x (S k) tl else wd x 0 tl
  end.
Fixpoint short (x : N) (k : nat) (l : list N) : bool :=
  match l with
  | [] => true
  | y :: tl => if (y =? x)%N then (S k <=? 3) && short x (S k) tl else short x 0 tl
  end.
Lemma wd_le x a : forall b u v, Forall2 (fun p q => p = x -> q = x) a b -> v <= u <= 3 -> short x u b = true ->
  wd x v a <= wd x u b + (if (u =? 2) && (v =? 1) then 1 else 0).
Proof.
  induction a as [|p a IH]; intros b u v H HU HS; [cbn [wd]; lia|]. inversion H as [|? q ? b' Hpq H']; subst. cbn [wd short] in *.
  destruct (N.eqb_spec q x) as [->|Nq].
  - apply andb_prop in HS. destruct HS as [HU3 HS]. apply Nat.leb_le in HU3. destruct (N.eqb_spec p x) as [->|Np].
    + specialize (IH b' (S u) (S v) H' ltac:(lia) HS). revert IH.
      destruct u as [|[|[|u]]]; [| | |lia]; destruct v as [|[|[|v]]]; try lia; cbn [Nat.eqb andb]; lia.
    + specialize (IH b' (S u) 0 H' ltac:(lia) HS). revert IH.
      destruct u as [|[|[|u]]]; [| | |lia]; destruct v as [|[|[|v]]]; try lia; cbn [Nat.eqb andb]; lia.
  - destruct (N.eqb_spec p x) as [->|Np]; [exfalso; auto|]. specialize (IH b' 0 0 H' ltac:(lia) HS). cbn [Nat.eqb andb] in IH. destruct ((u =? 2) && (v =? 1)); lia.
Qed.
Lemma wd_repeat x w : forall k l, wd x k (repeat x w ++ l) = (if (k <=? 1) && (2 <=? k + w) then 1 else 0) + wd x (k + w) l.
Proof.
  induction w as [|w IH]; intros k l; cbn [repeat app wd].
  - rewrite Nat.add_0_r. destruct (Nat.leb_spec k 1), (Nat.leb_spec 2 k); cbn [andb]; lia.
  - rewrite N.eqb_refl, IH, Nat.add_succ_r. cbn [Nat.add].
    destruct (Nat.eqb_spec k 1), (Nat.leb_spec (S k) 1), (Nat.leb_spec k 1), (Nat.leb_spec 2 (S (k + w))); cbn [andb]; try lia.
Qed.
Lemma wd_other x y w l : y <> x -> 1 <= w -> forall k, wd x k (repeat y w ++ l) = wd x 0 l.
Proof.
  intros Hy. induction w as [|w IH]; intros Hw k; [lia|]. cbn [repeat app wd]. apply N.eqb_neq in Hy. rewrite Hy.
  destruct w as [|w]; [reflexivity|]. apply IH. lia.
Qed.
Lemma wd_render x : (x = 0 \/ x = 1)%N -> forall ws b, (b = 0 \/ b = 1)%N -> Forall (fun w => 1 <= w) ws -> forall k, (b = x -> k = 0) ->
  wd x k (render_from b ws) = alt wide (b =? x)%N ws.
Proof.
  intros Hx. induction ws as [|w ws IH]; intros b Hb P k Hk; [reflexivity|]. inversion P as [|? ? P1 P2]; subst. cbn [render_from alt].
  assert (Hb' : (1 - b = 0 \/ 1 - b = 1)%N) by (destruct Hb as [-> | ->]; auto).
  destruct (N.eqb_spec b x) as [->|N].
  - rewrite (Hk eq_refl), wd_repeat. cbn [Nat.leb andb Nat.add]. rewrite IH; [|assumption..|destruct Hx as [-> | ->]; discriminate].
    unfold wide. f_equal. f_equal. destruct Hx as [-> | ->]; reflexivity.
  - rewrite wd_other by assumption. rewrite IH; [|assumption..|reflexivity]. cbn [Nat.add]. f_equal. destruct Hx as [-> | ->], Hb as [-> | ->]; try reflexivity; congruence.
Qed.
Lemma short_repeat x w : forall k l, k + w <= 3 -> short x k (repeat x w ++ l) = short x (k + w) l.
Proof.
  induction w as [|w IH]; intros k l H; cbn [repeat app short]; [now rewrite Nat.add_0_r|].
  rewrite N.eqb_refl, IH by lia. rewrite (proj2 (Nat.leb_le (S k) 3)) by lia. cbn [andb]. f_equal. lia.
Qed.
Lemma short_other x y w l : y <> x -> 1 <= w -> forall k, short x k (repeat y w ++ l) = short x 0 l.
Proof.
  intros Hy. induction w as [|w IH]; intros Hw k; [lia|]. cbn [repeat app short]. apply N.eqb_neq in Hy. rewrite Hy.
  destruct w as [|w]; [reflexivity|]. apply IH. lia.
Qed.
Lemma short_render x : (x = 0 \/ x = 1)%N -> forall ws b, (b = 0 \/ b = 1)%N -> Forall (fun w => 1 <= w <= 3) ws -> forall k, (b = x -> k = 0) ->
  short x k (render_from b ws) = true.
Proof.
  intros Hx. induction ws as [|w ws IH]; intros b Hb P k Hk; [reflexivity|]. inversion P as [|? ? P1 P2]; subst. cbn [render_from].
  assert (Hb' : (1 - b = 0 \/ 1 - b = 1)%N) by (destruct Hb as [-> | ->]; auto).
  destruct (N.eqb_spec b x) as [->|N].
  - rewrite (Hk eq_refl), short_repeat by lia. apply IH; [assumption..|destruct Hx as [-> | ->]; discriminate].
  - rewrite short_other by (assumption || lia). now apply IH.
Qed.
(** The one picture has a subset of the other's modules of colour [x]: it has no more wide elements of that colour, as long as
    the other has none wider than three. *)
Lemma wides_le x ws zs : (x = 0 \/ x = 1)%N -> Forall2 (fun p q => p = x -> q = x) (render ws) (render zs) ->
  Forall (fun w => 1 <= w) ws -> Forall (fun w => 1 <= w <= 3) zs -> alt wide (1 =? x)%N ws <= alt wide (1 =? x)%N zs.
Proof.
  intros Hx F P Q.
  assert (Q' : Forall (fun w => 1 <= w) zs) by (revert Q; apply Forall_impl; lia).
  pose proof (wd_le x (render ws) (render zs) 0 0 F ltac:(lia) (short_render x Hx zs 1%N (or_intror eq_refl) Q 0 (fun _ => eq_refl))) as H.
  unfold render in H. rewrite (wd_render x Hx ws 1%N (or_intror eq_refl) P 0 (fun _ => eq_refl)), (wd_render x Hx zs 1%N (or_intror eq_refl) Q' 0 (fun _ => eq_refl)) in H.
  cbn [Nat.eqb andb] in H. lia.
Qed.
Lemma inked_dark a b : inked a b -> Forall2 (fun p q => p = 1%N -> q = 1%N) a b.
Proof. induction 1 as [|x y a b H _ IH]; constructor; [|assumption]. intros ->. destruct H as [<-|[E _]]; [reflexivity | discriminate]. Qed.
Lemma inked_light a b : inked a b -> Forall2 (fun p q => p = 0%N -> q = 0%N) b a.
Proof. induction 1 as [|x y a b H _ IH]; constructor; [|assumption]. intros ->. destruct H as [->|[_ E]]; [reflexivity | discriminate]. Qed.
