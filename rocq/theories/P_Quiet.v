(** * Proofs: quiet zones *)
From Verif Require Import Rust M_Error Symbology M_Use S_Barcode S_Ean S_Linear S_All S_Quiet P_Rust P_Barcode P_All.

Lemma light_before_repeat k l : light_before (repeat 0 k ++ l) = (k + light_before l)%nat.
Proof. induction k as [|k IH]; [reflexivity|]. cbn [repeat app light_before]. now rewrite IH. Qed.
Lemma rev_zeros k : rev (repeat 0 k) = repeat 0 k.
Proof. induction k as [|k IH]; [reflexivity|]. cbn [repeat rev]. rewrite IH. symmetry. apply repeat_cons. Qed.
Lemma tail_zeros y : tail y = repeat 0 (length (tail y)).
Proof. destruct y; reflexivity. Qed.
Lemma render_starts ws : ws <> [] -> Forall (fun w => 1 <= w)%nat ws -> exists t, render ws = 1 :: t.
Proof. intros Hn HP. destruct ws as [|[|w] ws]; [congruence | inversion HP; lia |]. eexists. reflexivity. Qed.
Lemma margins_shape y m a b : Shape y m ->
  light_before (with_margins a b m) = a /\ light_after (with_margins a b m) = (b + length (tail y))%nat /\
  read_modules y (with_margins a b m) = read_modules y m /\ Forall (fun x => x = 0 \/ x = 1) (with_margins a b m).
Proof.
  intros HS. destruct (shape_modules y m HS) as (HM & (t & Et) & _). destruct HS as (ws & E & HD). pose proof (shape_pos y ws HD) as HP. destruct HD as [Ho _].
  assert (Hn : ws <> []) by (intros ->; discriminate).
  assert (W : with_margins a b m = repeat 0 a ++ render ws ++ repeat 0 (length (tail y) + b)).
  { unfold with_margins. rewrite repeat_app, <- (tail_zeros y), E, <- app_assoc. reflexivity. }
  split; [|split; [|split]].
  - unfold with_margins. rewrite light_before_repeat, Et. cbn [app light_before]. lia.
  - unfold light_after. rewrite W, !rev_app_distr, !rev_zeros, <- app_assoc, light_before_repeat.
    rewrite render_rev by assumption. destruct (render_starts (rev ws)) as [u ->].
    + intros C. apply (f_equal (@rev nat)) in C. rewrite rev_involutive in C. contradiction.
    + now apply Forall_rev.
    + cbn [app light_before]. lia.
  - unfold read_modules. f_equal. rewrite W, E. rewrite scan_render_quiet by assumption. destruct (tail_repeat y) as [k ->].
    now rewrite scan_render_tail.
  - unfold with_margins. apply Forall_app. split; [|apply Forall_app; split; [exact HM|]]; apply Forall_forall; intros x Hx; left; now apply repeat_spec in Hx.
Qed.
Definition enough (y : symbology) (a b : nat) : bool :=
  Nat.leb (fst (quiet_zones y)) a && Nat.leb (snd (quiet_zones y)) (b + length (tail y)).
Lemma read_quiet_margins y m a b : Shape y m ->
  read_quiet y (with_margins a b m) = if enough y a b then read_modules y m else None.
Proof.
  intros HS. destruct (margins_shape y m a b HS) as (E1 & E2 & E3 & _). unfold read_quiet, enough, guard. cbv zeta. now rewrite E1, E2, E3.
Qed.
