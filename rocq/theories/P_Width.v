(** * Exact widths of Code 11 and Codabar symbols *)
From Verif Require Import Rust M_Error M_Helpers M_Parse M_Code11 M_Codabar Symbology M_Use S_Barcode S_Text S_Linear S_Codabar S_All S_Size
  P_Rust P_Barcode P_Parse P_Alphabet P_Gap P_Code11 P_Codabar P_All.

Lemma among_app l a b : among l (a ++ b) = (among l a + among l b)%nat.
Proof. unfold among. now rewrite filter_app, app_length. Qed.
Lemma among_cons l c s : among l (c :: s) = ((if existsb (N.eqb c) l then 1 else 0) + among l s)%nat.
Proof. unfold among. cbn [filter]. now destruct (existsb (N.eqb c) l). Qed.
Lemma c11_pattern_width c : c11_in c -> (list_sum (c11_pattern c) + (if existsb (N.eqb c) (lit "09-") then 1 else 0) = 7)%nat.
Proof.
  intros H. apply Nat.eqb_eq. revert c H. apply (forallb_forall (fun c => Nat.eqb (list_sum (c11_pattern c) + (if existsb (N.eqb c) (lit "09-") then 1 else 0)) 7)).
  vm_compute. reflexivity.
Qed.
Lemma c11_width cs : Forall c11_in cs -> (length (render (c11_symbol cs)) + among (lit "09-") cs = 8 * length cs + 15)%nat.
Proof.
  intros H. unfold render. rewrite render_from_length, c11_symbol_gap, gap_symbol_sum. change (list_sum c11_guard) with 7%nat.
  assert (E : (list_sum (map (fun c => list_sum (c11_pattern c) + 1)%nat cs) + among (lit "09-") cs = 8 * length cs)%nat).
  { induction H as [|c cs Hc H IH]; [reflexivity|]. rewrite among_cons. cbn [map list_sum fold_right length].
    change (fold_right Nat.add 0%nat (map (fun c => list_sum (c11_pattern c) + 1)%nat cs)) with (list_sum (map (fun c => list_sum (c11_pattern c) + 1)%nat cs)).
    pose proof (c11_pattern_width c Hc). lia. }
  lia.
Qed.
Lemma lib_pattern_width c : In c cod_chars ->
  (list_sum (lib_pattern c) = 9 + (if existsb (N.eqb c) (lit ":/.ABCD") then 1 else 0) + 3 * (if existsb (N.eqb c) (lit "+") then 1 else 0))%nat.
Proof.
  intros H. apply Nat.eqb_eq. revert c H.
  apply (forallb_forall (fun c => Nat.eqb (list_sum (lib_pattern c))
    (9 + (if existsb (N.eqb c) (lit ":/.ABCD") then 1 else 0) + 3 * (if existsb (N.eqb c) (lit "+") then 1 else 0)))).
  vm_compute. reflexivity.
Qed.
Lemma lib_width s : Forall cod_in s -> s <> [] ->
  (length (render (sep_symbol lib_pattern s)) + 1 = 10 * length s + among (lit ":/.ABCD") s + 3 * among (lit "+") s)%nat.
Proof.
  intros H Hn. unfold render. rewrite render_from_length. destruct s as [|c s]; [congruence|]. cbn [sep_symbol].
  inversion H as [|? ? Hc Hs]; subst. rewrite list_sum_app, !among_cons. cbn [length].
  pose proof (lib_pattern_width c Hc) as HW. rewrite HW. clear Hn H HW Hc.
  assert (E : (list_sum (concat (map (fun d => 1%nat :: lib_pattern d) s)) = 10 * length s + among (lit ":/.ABCD") s + 3 * among (lit "+") s)%nat).
  { induction Hs as [|d s Hd Hs IH]; [reflexivity|]. cbn [map concat]. rewrite list_sum_app, IH, !among_cons. cbn [length].
    change (list_sum (1%nat :: lib_pattern d)) with (1 + list_sum (lib_pattern d))%nat. rewrite (lib_pattern_width d Hd). lia. }
  rewrite E. lia.
Qed.
Lemma code11_exact p s m : str_len s < 2 ^ 48 -> barcode SCode11 p s = Ret (Ok m) ->
  let t := s ++ c11_C s :: (if Nat.ltb 10 (length s) then [c11_K s] else []) in
  (length m + among (lit "09-") t = 8 * length t + 15)%nat.
Proof.
  intros Hs H. cbn [barcode] in H. apply run_Ret in H. destruct H as [b [HN HE]]. pose proof (code11_accepted p s b Hs HN) as E.
  rewrite HE in E. injection E as ->. apply code11_new_Ok in HN. destruct HN as [HD _]. pose proof (c11_message_in s HD) as HM.
  cbv zeta. exact (c11_width _ HM).
Qed.
Lemma codabar_exact p s m : barcode SCodabar p s = Ret (Ok m) ->
  (length m + 1 = 10 * length s + among (lit ":/.ABCD") s + 3 * among (lit "+") s)%nat.
Proof.
  intros H. cbn [barcode] in H. apply run_Ok in H. destruct H as [b [HN HE]]. pose proof (codabar_encode_lib p s b HN) as E.
  rewrite HE in E. injection E as ->. apply codabar_new_Ok in HN. destruct HN as [HF [Hn _]]. now apply lib_width.
Qed.
