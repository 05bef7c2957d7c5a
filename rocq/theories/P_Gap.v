(** * Symbols made of characters separated by a narrow space *)
From Verif Require Import Rust S_Barcode S_Linear P_Rust P_Barcode.
Local Open Scope nat_scope.

Definition gap_symbol (g : list nat) (pt : char -> list nat) (cs : list char) : list nat :=
  g ++ [1] ++ concat (map (fun c => pt c ++ [1]) cs) ++ g.

Lemma render_gap_block ws : Nat.even (length ws) = false -> render (ws ++ [1]) = render ws ++ [0%N].
Proof. intros H. unfold render. rewrite render_from_app_odd by auto. reflexivity. Qed.

Lemma even_S_app ws : Nat.even (length ws) = false -> Nat.even (length (ws ++ [1])) = true.
Proof.
  intros H. rewrite app_length. cbn [length]. rewrite Nat.add_1_r, Nat.even_succ.
  now rewrite <- Nat.negb_even, H.
Qed.

Lemma render_gap_symbol g (pt : char -> list nat) (cs : list char) :
  Nat.even (length g) = false -> Forall (fun c => Nat.even (length (pt c)) = false) cs ->
  render (gap_symbol g pt cs) =
  render g ++ [0%N] ++ concat (map (fun c => render (pt c) ++ [0%N]) cs) ++ render g.
Proof.
  intros Hg H. unfold gap_symbol. rewrite !app_assoc. unfold render at 1.
  rewrite render_from_app_even.
  - rewrite render_from_app_even by (auto using even_S_app).
    fold (render (g ++ [1])). rewrite render_gap_block by assumption.
    rewrite render_from_concat_even.
    + rewrite map_map. fold (render g). do 3 f_equal.
      apply map_ext_Forall. revert H. apply Forall_impl. intros c. apply render_gap_block.
    + auto.
    + apply Forall_map. revert H. apply Forall_impl. intros c. apply even_S_app.
  - auto.
  - rewrite app_length, Nat.even_add, even_S_app by assumption.
    apply Bool.eqb_true_iff. symmetry.
    induction H; simpl; [reflexivity|].
    rewrite app_length, Nat.even_add, even_S_app, IHForall by assumption. reflexivity.
Qed.

Lemma gap_symbol_blocks g (pt : char -> list nat) (cs : list char) :
  gap_symbol g pt cs ++ [1] = concat (map (fun ws => ws ++ [1]) (g :: map pt cs ++ [g])).
Proof.
  unfold gap_symbol. cbn [map concat]. rewrite map_app, map_map, concat_app. cbn [map concat].
  rewrite app_nil_r, <- !app_assoc. reflexivity.
Qed.

Lemma gap_symbol_chop k g (pt : char -> list nat) (cs : list char) :
  length g = k -> Forall (fun c => length (pt c) = k) cs ->
  chop (S k) (gap_symbol g pt cs ++ [1]) = Some (map (fun ws => ws ++ [1]) (g :: map pt cs ++ [g])).
Proof.
  intros Hg H. rewrite gap_symbol_blocks. apply chop_concat; [lia|].
  apply Forall_map. assert (HF : Forall (fun ws => length ws = k) (g :: map pt cs ++ [g])).
  { constructor; [assumption|]. apply Forall_app. split; [now apply Forall_map | now repeat constructor]. }
  revert HF. apply Forall_impl. intros ws <-. rewrite app_length. simpl. lia.
Qed.

Lemma gap_block_ok k ws : length ws = k -> gap_block k (ws ++ [1]) = Some ws.
Proof.
  intros <-. unfold gap_block. rewrite skipn_app, skipn_all, Nat.sub_diag. simpl.
  rewrite firstn_app, firstn_all, Nat.sub_diag. simpl. now rewrite app_nil_r.
Qed.

Lemma strip_ends_ok {A} (a z : A) mid : strip_ends (a :: mid ++ [z]) = Some (a, mid, z).
Proof. unfold strip_ends. rewrite rev_app_distr. simpl. now rewrite rev_involutive. Qed.

Lemma gap_symbol_blocks_read k g (pt : char -> list nat) (cs : list char) :
  length g = k -> Forall (fun c => length (pt c) = k) cs ->
  read_all (gap_block k) (map (fun ws => ws ++ [1]) (g :: map pt cs ++ [g])) = Some (g :: map pt cs ++ [g]).
Proof.
  intros Hg H. apply read_all_map_id. intros ws [<-|Hin]; [now apply gap_block_ok|].
  apply gap_block_ok. apply in_app_or in Hin. destruct Hin as [Hin|[<-|[]]]; [|assumption].
  apply in_map_iff in Hin. destruct Hin as [c [<- Hc]]. rewrite Forall_forall in H. auto.
Qed.

Lemma gap_symbol_length k g (pt : char -> list nat) (cs : list char) :
  length g = k -> Forall (fun c => length (pt c) = k) cs ->
  length (gap_symbol g pt cs) + 1 = S k * (length cs + 2).
Proof.
  intros Hg H. unfold gap_symbol. rewrite !app_length. cbn [length].
  assert (E : length (concat (map (fun c => pt c ++ [1]) cs)) = S k * length cs).
  { induction H; simpl; [lia|]. rewrite !app_length, H, IHForall. simpl. lia. }
  rewrite E. lia.
Qed.

Lemma gap_symbol_odd k g (pt : char -> list nat) (cs : list char) :
  Nat.even k = false -> length g = k -> Forall (fun c => length (pt c) = k) cs ->
  Nat.even (length (gap_symbol g pt cs)) = false.
Proof.
  intros Hk Hg H. pose proof (gap_symbol_length k g pt cs Hg H) as E.
  assert (E2 : Nat.even (length (gap_symbol g pt cs) + 1) = true).
  { rewrite E, Nat.even_mul, Nat.even_succ, <- Nat.negb_even, Hk. reflexivity. }
  rewrite Nat.add_1_r, Nat.even_succ, <- Nat.negb_even in E2.
  now apply negb_true_iff in E2.
Qed.

Lemma gap_symbol_Forall (P : nat -> Prop) g (pt : char -> list nat) (cs : list char) :
  P 1 -> Forall P g -> Forall (fun c => Forall P (pt c)) cs -> Forall P (gap_symbol g pt cs).
Proof.
  intros H1 Hg H. unfold gap_symbol. apply Forall_app. split; [assumption|].
  constructor; [assumption|]. apply Forall_app. split; [|assumption].
  induction H; simpl; [constructor|]. repeat (apply Forall_app; split); auto.
Qed.

Lemma gap_symbol_sum g (pt : char -> list nat) (cs : list char) :
  list_sum (gap_symbol g pt cs) =
  2 * list_sum g + 1 + list_sum (map (fun c => list_sum (pt c) + 1) cs).
Proof.
  unfold gap_symbol. rewrite !list_sum_app.
  assert (E : list_sum (concat (map (fun c => pt c ++ [1]) cs)) =
              list_sum (map (fun c => list_sum (pt c) + 1) cs)).
  { induction cs; simpl; [reflexivity|]. rewrite !list_sum_app, IHcs. reflexivity. }
  rewrite E. change (list_sum [1]) with 1. lia.
Qed.
Lemma list_sum_const {A} (f : A -> nat) k cs :
  Forall (fun c => f c = k) cs -> list_sum (map f cs) = k * length cs.
Proof.
  induction 1 as [|c cs H _ IH]; cbn [map length]; [now rewrite Nat.mul_0_r|].
  change (list_sum (f c :: map f cs)) with (f c + list_sum (map f cs)). lia.
Qed.
