(** * Proofs: two Codabar symbols side by side *)
From Verif Require Import Rust M_Error Symbology M_Codabar M_Use S_Barcode S_Text S_Linear S_Codabar S_All S_Cross
  P_Rust P_Barcode P_Codabar P_All P_Apart P_Damage P_Side.
Local Open Scope nat_scope.

Lemma sep_app s s' : s <> [] -> s' <> [] -> sep_symbol lib_pattern (s ++ s') = sep_symbol lib_pattern s ++ 1 :: sep_symbol lib_pattern s'.
Proof.
  intros N N'. apply (app_inj_tail _ _ 1 1). rewrite <- app_assoc. cbn [app].
  change (1 :: sep_symbol lib_pattern s' ++ [1]) with ([1] ++ sep_symbol lib_pattern s' ++ [1]). rewrite app_assoc.
  rewrite !sep_symbol_blocks by (assumption || (destruct s; [congruence | discriminate])). now rewrite !map_app, concat_app.
Qed.
Lemma codabar_side p p' s s' m m' g : barcode SCodabar p s = Ret (Ok m) -> barcode SCodabar p' s' = Ret (Ok m') ->
  read_modules SCodabar (m ++ repeat 0%N g ++ m') = if Nat.eqb g 1 then report SCodabar (s ++ s') else None.
Proof.
  intros H H'. cbn [barcode] in H, H'. apply run_Ok in H, H'. destruct H as (b & HN & HE); destruct H' as (b' & HN' & HE').
  pose proof (codabar_encode_lib p s b HN) as E. rewrite HE in E. injection E as ->. apply codabar_new_Ok in HN. destruct HN as [HF [Hn _]].
  pose proof (codabar_encode_lib p' s' b' HN') as E. rewrite HE' in E. injection E as ->. apply codabar_new_Ok in HN'. destruct HN' as [HF' [Hn' _]].
  set (ws := sep_symbol lib_pattern s). set (ws' := sep_symbol lib_pattern s').
  assert (L : length ws + 1 = 8 * length s) by now apply (sep_length lib_pattern lib_pattern_length).
  assert (L' : length ws' + 1 = 8 * length s') by now apply (sep_length lib_pattern lib_pattern_length).
  assert (O : Nat.even (length ws) = false) by now apply (sep_odd lib_pattern lib_pattern_length).
  assert (O' : Nat.even (length ws') = false) by now apply (sep_odd lib_pattern lib_pattern_length).
  destruct (Nat.eqb_spec g 1) as [->|Hg].
  - assert (ER : render ws ++ repeat 0%N 1 ++ render ws' = render (sep_symbol lib_pattern (s ++ s'))).
    { rewrite sep_app by assumption. fold ws ws'. unfold render. rewrite render_from_app_odd by (assumption || now right). reflexivity. }
    rewrite ER. assert (HU : Forall cod_in (s ++ s')) by (apply Forall_app; now split). assert (NU : s ++ s' <> []) by (destruct s; [congruence | discriminate]).
    unfold read_modules. rewrite lib_symbol_scan by assumption. cbn [obind read_as]. unfold read_cod.
    rewrite sep_chop by (exact lib_pattern_length || assumption). cbn [obind].
    rewrite sep_blocks_read by (exact lib_pattern_length || assumption). cbn [obind]. rewrite read_all_lib by assumption. cbn [report].
    match goal with |- option_map _ (if ?b then _ else _) = _ => change (option_map Text (if b then None else Some (map exchange (s ++ s'))) = if b then None else Some (Text (map exchange (s ++ s')))); destruct b; reflexivity end.
  - destruct (read_modules _ _) as [r|] eqn:R; [exfalso | reflexivity]. unfold read_modules in R. apply obind_Some in R. destruct R as (zs & HS & R). cbn [read_as] in R. apply option_map_Some in R. destruct R as (t & R & _).
    assert (P : forall s, Forall cod_in s -> Forall (fun w => 1 <= w) (sep_symbol lib_pattern s)).
    { intros u Hu. pose proof (lib_symbol_widths u Hu) as W. revert W. apply Forall_impl. intros w Hw. lia. }
    assert (B : beside g ws ws' zs).
    { apply (beside_scan ws ws' 0 0 g zs (P s HF) O (P s' HF') O'). cbn [repeat]. now rewrite !app_nil_r. }
    destruct (beside_length _ _ _ _ B) as [B1 B2]. apply obind_Some in R. destruct R as [bs [R1 R]]. apply obind_Some in R. destruct R as [cs [R2 _]].
    destruct (gap_blocks 7 zs bs cs R1 R2) as (_ & F7 & EZ & LZ).
    destruct B as [[G EB]|[G _]]; [|specialize (B2 G); lia]. specialize (B1 G).
    rewrite <- (firstn_skipn (length s) cs), map_app, concat_app, EB in EZ.
    change (g :: ws') with ([g] ++ ws') in EZ. rewrite app_assoc, <- (app_assoc (ws ++ [g])) in EZ.
    assert (NS : length s <= length cs) by lia. assert (FS : Forall (fun c => length c = 7) (firstn (length s) cs)).
    { rewrite <- (firstn_skipn (length s) cs) in F7. now apply Forall_app in F7. }
    apply split_same in EZ.
    + destruct EZ as [EZ _]. destruct (firstn (length s) cs) as [|c0 d] eqn:ED using rev_ind.
      * apply (f_equal (@length _)) in ED. rewrite firstn_length_le in ED by assumption. cbn [length] in ED. destruct s; [congruence | discriminate].
      * rewrite map_app, concat_app in EZ. cbn [map concat] in EZ. rewrite app_nil_r, app_assoc in EZ. apply app_inj_tail in EZ. destruct EZ. congruence.
    + rewrite app_length, (concat_length_const 8).
      * rewrite map_length, firstn_length_le by assumption. cbn [length]. lia.
      * apply Forall_map. revert FS. apply Forall_impl. intros x Hx. rewrite app_length, Hx. reflexivity.
Qed.
From Verif Require Import S_Ean S_Tf S_Code128 P_Cell P_Cut P_Part.
Lemma printed_128 p s m : barcode SCode128 p s = Ret (Ok m) -> exists bs, m = render (concat bs ++ c128_stop) /\ Forall (fun b => length b = 6) bs /\
  Forall (fun w => 1 <= w) (concat bs ++ c128_stop) /\ Nat.even (length (concat bs ++ c128_stop)) = false.
Proof.
  intros HB. destruct (c128_printed p s m HB) as (bs & st0 & vs & Ew & FG & RG & _). exists bs. split; [assumption|]. split; [assumption|]. split.
  - apply Forall_app. split; [|repeat constructor]. apply Forall_concat. pose proof (c128_values_In _ _ RG) as IG. revert IG. apply Forall_impl. intros b Hb.
    assert (TP : forallb (forallb (fun x => 1 <=? x)) c128_table = true) by (vm_compute; reflexivity).
    pose proof (proj1 (forallb_forall _ _) TP b Hb) as T1. apply Forall_forall. intros x Hx. apply Nat.leb_le. exact (proj1 (forallb_forall _ _) T1 x Hx).
  - rewrite app_length, (concat_length_const 6 _ FG). change (length c128_stop) with 7. rewrite Nat.even_add, Nat.even_mul. reflexivity.
Qed.
Lemma code128_side p p' s s' m m' g : barcode SCode128 p s = Ret (Ok m) -> barcode SCode128 p' s' = Ret (Ok m') -> read_modules SCode128 (m ++ repeat 0%N g ++ m') = None.
Proof.
  intros HB HB'. destruct (printed_128 p s m HB) as (bs & -> & F & P & O). destruct (printed_128 p' s' m' HB') as (bs' & -> & F' & P' & O').
  destruct (read_modules _ _) as [r|] eqn:R; [exfalso | reflexivity]. unfold read_modules in R. apply obind_Some in R. destruct R as (zs & HS & R). cbn [read_as] in R. apply option_map_Some in R. destruct R as (t & R & _).
  assert (B : beside g (concat bs ++ c128_stop) (concat bs' ++ c128_stop) zs).
  { apply (beside_scan _ _ 0 0 g zs P O P' O'). cbn [repeat]. now rewrite !app_nil_r. }
  destruct (c128_form _ _ R) as (c & vs1 & Ez & Fz & Rz & _).
  assert (L' : length (concat bs' ++ c128_stop) = 6 * (length bs' + 1) + 1) by (rewrite app_length, (concat_length_const 6) by assumption; change (length c128_stop) with 7; lia).
  assert (SP : forall l, concat l ++ c128_stop = concat (l ++ [[2;3;3;1;1;1]]) ++ [2]) by (intros l; rewrite concat_app, <- app_assoc; reflexivity).
  assert (SQ : forall l, Forall (fun b : list nat => length b = 6) l -> Forall (fun b => length b = 6) (l ++ [[2;3;3;1;1;1]])) by (intros l Fl; apply Forall_app; split; [assumption | repeat constructor]).
  rewrite SP in Ez. destruct (closed_side _ _ _ _ _ _ _ _ _ (SP bs) (SQ _ F) L' Ez (SQ _ Fz) B) as (D & ED & LD). rewrite <- app_assoc in ED.
  apply inner_end in ED; [|intros ->; cbn [length] in LD; lia]. apply (not_among [2;3;3;1;1;1] c128_table); [reflexivity|]. exact (proj1 (Forall_forall _ _) (c128_values_In _ _ Rz) _ ED).
Qed.
Lemma side_by_side y p p' s s' m m' g : (str_len s < 2 ^ 48)%N -> (str_len s' < 2 ^ 48)%N -> barcode y p s = Ret (Ok m) -> barcode y p' s' = Ret (Ok m') ->
  y <> SCodabar -> read_modules y (m ++ repeat 0%N g ++ m') = None.
Proof.
  intros Hs Hs' HB HB' HY.
  assert (RD : y <> SCode128 -> forall p s m, (str_len s < 2 ^ 48)%N -> barcode y p s = Ret (Ok m) -> read_modules y m <> None).
  { clear - HY. intros NY p s m Hs HB. pose proof (barcode_meant y p s m Hs HB) as M. destruct y; cbn [meant] in M; try congruence; try (rewrite M; discriminate); destruct M as (c & _ & ->); discriminate. }
  assert (C : y = SCode128 \/ y <> SCode128) by (destruct y; (left; reflexivity) || (right; discriminate)). destruct C as [->|NY].
  - now apply (code128_side p p' s s').
  - apply (side_read y p p' s s'); eauto.
Qed.
