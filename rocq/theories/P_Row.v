(** * Proofs about symbols printed next to each other *)
From Verif Require Import Rust M_Error Symbology M_Use S_Barcode S_Ean S_All S_Row P_Rust P_Barcode P_All.
Local Open Scope nat_scope.

(** A symbol: widths and the light modules after them *)
Definition small (ws : list nat) : Prop := Nat.even (length ws) = false /\ Forall (fun w => 1 <= w <= 4) ws.
Lemma drawn_small y ws : drawn y ws -> small ws.
Proof. intros [HO H]. split; [assumption|]. revert H. apply Forall_impl. intros w Hw. destruct y; cbn [max_width] in Hw; lia. Qed.
Fixpoint joined (xs : list (list nat * nat)) : list nat :=
  match xs with
  | [] => []
  | [x] => fst x
  | x :: tl => fst x ++ snd x :: joined tl
  end.
Lemma joined_cons x x' tl : joined (x :: x' :: tl) = fst x ++ snd x :: joined (x' :: tl).
Proof. reflexivity. Qed.
Definition spaced (xs : list (list nat * nat)) : Prop := Forall (fun x => small (fst x) /\ 5 <= snd x) xs.
Lemma joined_ok xs : xs <> [] -> spaced xs ->
  Nat.even (length (joined xs)) = false /\ Forall (fun w => 1 <= w) (joined xs) /\
  flat_map (fun x => render (fst x) ++ repeat 0%N (snd x)) xs = render (joined xs) ++ repeat 0%N (snd (last xs ([], 0))).
Proof.
  intros Hn H. induction H as [|x xs [[HO HW] Hg] H IH]; [congruence|].
  assert (HP : Forall (fun w => 1 <= w) (fst x)) by (revert HW; apply Forall_impl; lia).
  destruct xs as [|x' xs]; [cbn [joined flat_map last]; rewrite app_nil_r; auto|].
  destruct IH as (IO & IP & IE); [discriminate|]. rewrite joined_cons. split; [|split].
  - rewrite app_length. cbn [length]. rewrite Nat.even_add, Nat.even_succ, <- Nat.negb_even, HO, IO. reflexivity.
  - apply Forall_app. split; [assumption|]. constructor; [lia | assumption].
  - change (last (x :: x' :: xs) ([], 0)) with (last (x' :: xs) ([], 0)).
    change (flat_map (fun x => render (fst x) ++ repeat 0%N (snd x)) (x :: x' :: xs)) with
      ((render (fst x) ++ repeat 0%N (snd x)) ++ flat_map (fun x => render (fst x) ++ repeat 0%N (snd x)) (x' :: xs)).
    rewrite IE. unfold render. rewrite render_from_app_odd by (auto; now right). cbn [N.sub render_from Pos.sub_mask Pos.pred_double].
    replace (1 - 1)%N with 0%N by reflexivity. cbn [render_from]. rewrite <- !app_assoc. reflexivity.
Qed.
Lemma part_small ws acc tl g : Forall (fun w => 1 <= w <= 4) ws -> 5 <= g -> part acc (ws ++ g :: tl) = (acc ++ ws) :: part [] tl.
Proof.
  intros H Hg. revert acc. induction H as [|w ws Hw H IH]; intros acc.
  - cbn [app part]. replace (Nat.ltb 4 g) with true by (symmetry; apply Nat.ltb_lt; lia). now rewrite app_nil_r.
  - cbn [app part]. replace (Nat.ltb 4 w) with false by (symmetry; apply Nat.ltb_ge; lia). rewrite IH. now rewrite <- app_assoc.
Qed.
Lemma part_end ws acc : Forall (fun w => 1 <= w <= 4) ws -> part acc ws = [acc ++ ws].
Proof.
  intros H. revert acc. induction H as [|w ws Hw H IH]; intros acc; [cbn [part]; now rewrite app_nil_r|].
  cbn [part]. replace (Nat.ltb 4 w) with false by (symmetry; apply Nat.ltb_ge; lia). rewrite IH. now rewrite <- app_assoc.
Qed.
Lemma part_joined xs : xs <> [] -> spaced xs -> part [] (joined xs) = map fst xs.
Proof.
  intros Hn H. induction H as [|x xs [[HO HW] Hg] H IH]; [congruence|].
  destruct xs as [|x' xs]; [now apply part_end|]. rewrite joined_cons, part_small by assumption. rewrite IH by discriminate. reflexivity.
Qed.

(** Printed symbols with their gaps *)
Lemma row_read (its : list (symbology * list N * nat)) : its <> [] ->
  Forall (fun it => Shape (fst (fst it)) (snd (fst it)) /\ 5 <= snd it) its ->
  read_row (map (fun it => fst (fst it)) its) (in_a_row (map (fun it => (snd (fst it), snd it)) its)) =
  Some (map (fun it => read_modules (fst (fst it)) (snd (fst it))) its).
Proof.
  intros Hn H.
  assert (HX : exists xs, spaced xs /\ length xs = length its /\
    in_a_row (map (fun it => (snd (fst it), snd it)) its) = flat_map (fun x => render (fst x) ++ repeat 0%N (snd x)) xs /\
    map (fun z => read_as (fst z) (snd z)) (combine (map (fun it => fst (fst it)) its) (map fst xs)) =
    map (fun it => read_modules (fst (fst it)) (snd (fst it))) its).
  { clear Hn. induction H as [|[[y m] g] its [HS Hg] H IH]; [exists []; repeat split; constructor|].
    destruct IH as (xs & HX & HL & HR & HM). cbn [fst snd] in HS, Hg.
    destruct (shape_scan y m HS) as (ws & HC & Em & HD). destruct (tail_repeat y) as [k Ek].
    exists ((ws, k + g) :: xs). split; [|split; [|split]].
    - constructor; [|assumption]. cbn [fst snd]. split; [now apply (drawn_small y) | lia].
    - cbn [length]. now rewrite HL.
    - unfold in_a_row in *. cbn [map flat_map fst snd]. rewrite HR, Em, Ek. rewrite repeat_app, <- !app_assoc. reflexivity.
    - cbn [map combine fst snd]. rewrite HM. f_equal. unfold read_modules. now rewrite HC. }
  destruct HX as (xs & HX & HL & HR & HM).
  assert (Hx : xs <> []) by (intros ->; destruct its; [congruence | discriminate]).
  destruct (joined_ok xs Hx HX) as (HO & HP & HE). unfold read_row. rewrite HR, HE, scan_render_tail by assumption. cbn [obind].
  rewrite part_joined by assumption. rewrite !map_length, HL, Nat.eqb_refl. cbn [guard]. now rewrite HM.
Qed.
