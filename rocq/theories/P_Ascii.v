(** * Proofs about the ASCII generator *)
From Verif Require Import Rust M_Error M_Ascii S_Barcode S_Text S_Num S_Ascii P_Rust P_Barcode P_Num.

Definition module (x : N) : Prop := x = 0 \/ x = 1.

Lemma ascii_row g b : Forall module b -> ascii_generate_row g b = Ret (text_line (ascii_xdim g) b).
Proof.
  intros H. unfold ascii_generate_row, text_line.
  rewrite (mapM_Forall_Ret module _ (fun d => repeat (if d =? 1 then bar_char else space_char) (N.to_nat (ascii_xdim g))))
    by (assumption || (intros d [->| ->]; reflexivity)).
  cbn [bind]. now rewrite flat_map_concat_map.
Qed.
Definition ascii_step (p : profile) (h : N) (row : str) (output : str) (x : N * N) : M str :=
  let '(i, _) := x in
  let output := output ++ row in
  last <- sub_u usize_bits p h 1 ;;
  Ret (if i <? last then output ++ [10] else output).
Lemma ascii_loop p h row l : forall i acc, i + len l = h ->
  foldM (ascii_step p h row) (enumerate_from i l) acc = Ret (acc ++ join_lines (repeat row (length l))).
Proof.
  induction l as [|x l IH]; intros i acc H.
  - cbn. now rewrite app_nil_r.
  - rewrite len_cons in H. cbn [enumerate_from foldM length]. cbn [ascii_step].
    rewrite sub_u_ok by lia. cbn [bind]. rewrite IH by lia. f_equal.
    destruct l as [|y l].
    + cbn [length repeat join_lines]. rewrite len_nil in H.
      replace (i <? h - 1) with false by (symmetry; apply N.ltb_ge; lia). now rewrite app_nil_r.
    + rewrite len_cons in H. replace (i <? h - 1) with true by (symmetry; apply N.ltb_lt; lia).
      change (join_lines (repeat row (S (length (y :: l))))) with (row ++ 10 :: join_lines (repeat row (length (y :: l)))).
      now rewrite <- !app_assoc.
Qed.
Lemma range_length n : length (range n) = N.to_nat n.
Proof. unfold range. now rewrite map_length, seq_length. Qed.
Lemma ascii_generate_join p g b : Forall module b ->
  ascii_generate p g b = Ret (Ok (join_lines (repeat (text_line (ascii_xdim g) b) (N.to_nat (ascii_height g))))).
Proof.
  intros H. unfold ascii_generate. rewrite ascii_row by assumption. cbn [bind].
  change (fun output x => _) with (ascii_step p (ascii_height g) (text_line (ascii_xdim g) b)).
  unfold enumerate. rewrite ascii_loop.
  - cbn [bind app]. now rewrite range_length.
  - unfold len. rewrite range_length, N2Nat.id. lia.
Qed.

(** ** Reading it back *)
Lemma text_line_no_newline x b : Forall (fun c => c <> 10) (text_line x b).
Proof.
  unfold text_line. apply Forall_flat_map, Forall_forall. intros d _. apply Forall_forall. intros c Hc.
  apply repeat_spec in Hc. subst c. destruct (d =? 1); discriminate.
Qed.
Lemma split_join_repeat l n : Forall (fun c => c <> 10) l -> split_on 10 (join_lines (repeat l (S n))) = repeat l (S n).
Proof.
  intros H. induction n as [|n IH]; [now apply split_on_none|].
  change (join_lines (repeat l (S (S n)))) with (l ++ 10 :: join_lines (repeat l (S n))).
  rewrite split_on_app by assumption. now rewrite IH.
Qed.
Lemma forallb_repeat {A} (f : A -> bool) x n : f x = true -> forallb f (repeat x n) = true.
Proof. intros H. induction n; [reflexivity|]. cbn. now rewrite H. Qed.
Lemma read_text_line x b : 1 <= x -> Forall module b ->
  obind (chop (N.to_nat x) (text_line x b)) (read_all read_module) = Some b.
Proof.
  intros Hx H. unfold text_line. rewrite flat_map_concat_map, chop_concat.
  - cbn [obind]. apply read_all_map_id. intros d Hd. rewrite Forall_forall in H. specialize (H d Hd).
    destruct (N.to_nat x) as [|n] eqn:E; [lia|]. cbn [repeat read_module].
    rewrite forallb_repeat by apply N.eqb_refl. destruct H as [->| ->]; reflexivity.
  - lia.
  - apply Forall_map, Forall_forall. intros d _. apply repeat_length.
Qed.
Lemma ascii_generate_spec p h x b : Forall module b ->
  exists out, ascii_generate p (mkASCII h x) b = Ret (Ok out) /\
    (h = 0 -> out = []) /\ (1 <= h -> split_on 10 out = repeat (text_line x b) (N.to_nat h)).
Proof.
  intros H. eexists. split; [now apply ascii_generate_join|]. cbn [ascii_height ascii_xdim]. split.
  - intros ->. reflexivity.
  - intros Hh. destruct (N.to_nat h) as [|n] eqn:E; [lia|]. apply split_join_repeat, text_line_no_newline.
Qed.
Lemma ascii_read p h x b : 1 <= h -> 1 <= x -> Forall module b ->
  exists out, ascii_generate p (mkASCII h x) b = Ret (Ok out) /\ read_ascii x out = Some b.
Proof.
  intros Hh Hx H. destruct (ascii_generate_spec p h x b H) as [out [E [_ HS]]]. exists out. split; [assumption|].
  unfold read_ascii. rewrite HS by assumption. destruct (N.to_nat h) as [|n] eqn:En; [lia|]. cbn [repeat].
  rewrite forallb_repeat by apply str_eqb_refl. now apply read_text_line.
Qed.

(** ** Panics *)
Lemma ascii_panics p h x b : panics (ascii_generate p (mkASCII h x) b) <-> Exists (fun d => 2 <= d) b.
Proof.
  split.
  - intros [q Hq]. destruct (Forall_Exists_dec (fun d => d < 2) (fun d => match N.ltb_spec0 d 2 with ReflectT _ H => left H | ReflectF _ H => right H end) b) as [HF|HE].
    all: try (rewrite ascii_generate_join in Hq; [discriminate|]; eapply Forall_impl; [|exact HF]; unfold module; intros; lia).
    eapply Exists_impl; [|exact HE]. cbn. lia.
  - intros H. apply Exists_exists in H. destruct H as [d [Hd H2]]. unfold ascii_generate, ascii_generate_row.
    destruct (mapM_Panic (fun d => c <- index ascii_CHARS d ;; Ret (repeat c (N.to_nat x))) b d Hd) as [q Hq].
    + exists PanicIndex. rewrite index_out; [reflexivity|]. exact H2.
    + exists q. cbn [ascii_xdim]. now rewrite Hq.
Qed.
