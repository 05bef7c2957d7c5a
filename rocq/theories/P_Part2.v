(** * Proofs: parts of a symbol report fewer characters *)
From Verif Require Import Rust M_Error Symbology M_Code11 M_Use S_Barcode S_Ean S_Text S_Linear S_Codabar S_Tf S_Code128 S_All S_Cut S_Part
  P_Rust P_Barcode P_Tf P_Code11 P_All P_Apart P_Damage P_Cell P_Cut P_Stretch P_Wrong P_Part P_Reprint.
Local Open Scope nat_scope.

Lemma inside_ends ws ws' : inside ws ws' -> length ws' = length ws -> hd 0 ws' = hd 0 ws -> List.last ws' 0 = List.last ws 0 -> False.
Proof.
  intros (P & w1 & mid & w2 & Q & w1' & w2' & -> & -> & _ & H1 & H2 & HV) L. rewrite !app_length in L. cbn [length] in L. rewrite !app_length in L. cbn [length] in L.
  destruct P; [|cbn [length] in L; lia]. destruct Q; [|cbn [length] in L; lia]. rewrite app_nil_r. cbn [app hd].
  rewrite !app_comm_cons, !last_last. intros -> ->. destruct HV as [HV|[HV|[HV|HV]]]; try congruence; lia.
Qed.
(** Number of elements and what is reported *)
Lemma c39_size ws r : read_c39 ws = Some r -> length ws + 1 = 10 * length r + 20.
Proof. intros H. destruct (c39_form _ _ H) as (mid & _ & L & _ & HR). apply read_all_length in HR. lia. Qed.
Lemma c11_size ws r : read_c11 ws = Some r -> exists n, length ws + 1 = 6 * n + 12 /\ n = length r + (if Nat.ltb 11 n then 2 else 1).
Proof.
  intros H. destruct (c11_form _ _ H) as (mid & raw & _ & L & _ & HR & HV). apply read_all_length in HR. exists (length mid). split; [lia|].
  unfold c11_verify in HV. rewrite <- HR. destruct (Nat.ltb 11 (length raw)).
  - apply obind_Some in HV. destruct HV as (f & H1 & H2). apply verify_last_inv in H1, H2. destruct H1 as (k & -> & _). destruct H2 as (k2 & -> & _).
    rewrite !app_length. cbn [length]. lia.
  - cbn [obind] in HV. apply verify_last_inv in HV. destruct HV as (k & -> & _). rewrite !app_length. cbn [length]. lia.
Qed.
Lemma itf_size ws r : read_itf ws = Some r -> length ws = 5 * length r + 7.
Proof.
  intros H. destruct (itf_form _ _ H) as (bs & g & ds & -> & HF & HR & ->). rewrite !app_length, (concat_length_const 10) by assumption. cbn [length].
  pose proof (read_all_length _ _ _ HR) as L. assert (F : Forall (fun d => length d = 2) ds).
  { clear - HR. revert ds HR. induction bs as [|b bs IH]; intros ds HR; [apply read_all_nil in HR; now subst|].
    apply read_all_cons in HR. destruct HR as (d & ds' & Hd & HR & ->). constructor; [now apply itf_block_two in Hd | now apply IH]. }
  rewrite (concat_length_const 2 ds) by assumption. lia.
Qed.
Lemma itf_rims ws r : read_itf ws = Some r -> hd 0 ws = 1 /\ List.last ws 0 = 1.
Proof.
  intros H. destruct (itf_form _ _ H) as (bs & g & ds & -> & _). split; [reflexivity|]. change ([g; 1; 1]) with ([g; 1] ++ [1]). now rewrite !app_assoc, last_last.
Qed.
Lemma stf_size ws r : read_stf ws = Some r -> length ws = 10 * length r + 11.
Proof.
  intros H. destruct (stf_form _ _ H) as (a & bs & z & -> & Ha & Hz & HF & HR). rewrite !app_length, (concat_length_const 10) by assumption.
  rewrite (squash_length _ _ Ha), (squash_length _ _ Hz). apply read_all_length in HR. cbn [length]. lia.
Qed.
Lemma stf_rims ws r : read_stf ws = Some r -> 2 <= hd 0 ws /\ 2 <= List.last ws 0.
Proof.
  intros H. destruct (stf_form _ _ H) as (a & bs & z & -> & Ha & Hz & _). split.
  - destruct a as [|a0 a]; [discriminate|]. cbn [app hd]. cbn [squash map] in Ha. injection Ha as Ha _. now apply squash_two in Ha.
  - destruct z as [|z0 z _] using rev_ind; [discriminate|]. rewrite !app_assoc, last_last. unfold squash in Hz. rewrite map_app in Hz. cbn [map] in Hz.
    change [2;1;1;1;2] with ([2;1;1;1] ++ [2]) in Hz. apply app_inj_tail in Hz. destruct Hz as [_ Hz]. now apply squash_two in Hz.
Qed.
Lemma supp_size ws r : read_as SSupp ws = Some r -> length ws = 6 * reported r + 1.
Proof.
  intros H. apply supp_form in H. destruct H as (l & H & HL & ->). cbn [reported]. rewrite map_length.
  assert (G : forall cs l, read_all read_AB cs = Some l -> Forall (fun c => length c = 4) cs).
  { intros cs l0 HR. apply (read_all_Forall _ _ _ _ (fun x y E => match AB_sum x y E with conj P Q => Q end) HR). }
  destruct (supp_shape ws l H HL) as [(-> & c1 & c2 & -> & HR)|(-> & c1 & c2 & c3 & c4 & c5 & -> & HR)]; apply G in HR.
  - inversion HR as [|? ? A1 HR1]; subst. inversion HR1 as [|? ? A2 _]; subst. repeat rewrite app_length. rewrite A1, A2. reflexivity.
  - inversion HR as [|? ? A1 HR1]; subst. inversion HR1 as [|? ? A2 HR2]; subst. inversion HR2 as [|? ? A3 HR3]; subst. inversion HR3 as [|? ? A4 HR4]; subst. inversion HR4 as [|? ? A5 _]; subst.
    repeat rewrite app_length. rewrite A1, A2, A3, A4, A5. reflexivity.
Qed.

(** Codabar: no two characters differ only in first and last bars that are narrower in the one. *)
Definition mid5 (p : list nat) : list nat := firstn 5 (tl p).
Definition clip_apart (t : list (list nat)) : bool :=
  forallb (fun p => forallb (fun q => negb (widths_eqb (mid5 p) (mid5 q) && (hd 0 q <=? hd 0 p) && (List.last q 0 <=? List.last p 0)) || widths_eqb p q) t) t.
Lemma cod_clip_apart : clip_apart cod_table = true.
Proof. vm_compute. reflexivity. Qed.
Lemma cod_clip p q : In p cod_table -> In q cod_table -> mid5 p = mid5 q -> hd 0 q <= hd 0 p -> List.last q 0 <= List.last p 0 -> p = q.
Proof.
  intros Hp Hq E H1 H2. pose proof (proj1 (forallb_forall _ _) (proj1 (forallb_forall _ _) cod_clip_apart p Hp) q Hq) as C. cbv beta in C.
  rewrite E, widths_eqb_refl in C. apply Nat.leb_le in H1, H2. rewrite H1, H2 in C. now apply widths_eqb_eq in C.
Qed.
Lemma cod_table_at ws r : read_cod ws = Some r -> length ws = 8 * length r - 1 /\ 7 <= length ws /\ In (firstn 7 ws) cod_table /\ In (skipn (length ws - 7) ws) cod_table.
Proof.
  intros H. apply obind_Some in H. destruct H as [bs [H1 H]]. apply obind_Some in H. destruct H as [cs [H2 HR]].
  destruct (gap_blocks 7 ws bs cs H1 H2) as (_ & HF & HE & HL). pose proof (read_all_length _ _ _ HR) as LR.
  assert (HT : Forall (fun c => In c cod_table) cs).
  { refine (read_all_Forall (read_char cod_chars cod_table) (fun c => In c cod_table) cs r _ HR). intros x c E. apply read_char_sound in E. destruct E as (v & E & _). now apply nth_error_In in E. }
  split; [lia|]. assert (L7 : 7 <= length ws) by lia. split; [assumption|]. split.
  - destruct cs as [|c cs]; [cbn [length] in HL; lia|]. inversion HF; subst. inversion HT; subst.
    cbn [map concat] in HE. rewrite <- app_assoc in HE.
    assert (E : firstn 7 ws = c); [|now rewrite E].
    apply (f_equal (firstn 7)) in HE. rewrite !firstn_app in HE. replace (7 - length ws) with 0 in HE by lia. replace (7 - length c) with 0 in HE by lia.
    rewrite !firstn_O, !app_nil_r in HE. rewrite HE. apply firstn_all2. lia.
  - destruct cs as [|c cs _] using rev_ind; [cbn [length] in HL; lia|]. apply Forall_app in HF, HT. destruct HF as [_ HF]. destruct HT as [_ HT]. inversion HF; subst. inversion HT; subst.
    rewrite map_app, concat_app in HE. cbn [map concat] in HE. rewrite app_nil_r, app_assoc in HE. apply app_inj_tail in HE. destruct HE as [-> _].
    rewrite app_length. match goal with |- In (skipn (?a + ?b - 7) (?x ++ ?y)) _ => replace (a + b - 7) with a by lia end.
    rewrite skipn_app, skipn_all, Nat.sub_diag. cbn [skipn app]. assumption.
Qed.
Lemma cod_same ws ws' r r' : read_cod ws = Some r -> read_cod ws' = Some r' -> inside ws ws' -> length r' < length r.
Proof.
  intros H H' IN. destruct (cod_table_at _ _ H) as (L & L7 & A1 & A2). destruct (cod_table_at _ _ H') as (L' & L7' & B1 & B2).
  destruct (inside_same _ _ IN) as [LE _]. destruct (Nat.eq_dec (length ws') (length ws)) as [EL|NE]; [exfalso | lia].
  destruct IN as (P & w1 & mid & w2 & Q & w1' & w2' & E1 & E2 & _ & H1 & H2 & HV).
  assert (P = [] /\ Q = []) as [-> ->].
  { rewrite E1, E2, !app_length in EL. cbn [length] in EL. rewrite !app_length in EL. cbn [length] in EL. split; [destruct P | destruct Q]; try reflexivity; cbn [length] in EL; lia. }
  cbn [app] in E1. rewrite app_nil_r in E1.
  assert (LM : length ws = length mid + 2) by (rewrite E1; cbn [length]; rewrite app_length; cbn [length]; lia).
  rewrite EL in B2. clear L L' L7' EL LE H H'.
  assert (w1' = w1 /\ w2' = w2) as [-> ->].
  { destruct (Nat.eq_dec (length ws) 7) as [E7|N7].
    - rewrite E7, Nat.sub_diag in A2, B2. cbn [skipn] in A2, B2. assert (E : ws = ws'); [|rewrite E1, E2 in E; injection E as -> E; apply app_inj_tail in E; destruct E; auto].
      apply cod_clip; [assumption | assumption| | |].
      + rewrite E1, E2. unfold mid5. cbn [tl]. assert (length mid = 5) by lia. rewrite !firstn_app, !(firstn_all2 mid) by lia. replace (5 - length mid) with 0 by lia. reflexivity.
      + rewrite E1, E2. cbn [hd]. lia.
      + rewrite E1, E2, !app_comm_cons, !last_last. lia.
    - assert (LL : 6 <= length mid) by lia. split.
      + rewrite E1 in A1. rewrite E2 in B1. change (firstn 7 (w1 :: mid ++ [w2])) with (w1 :: firstn 6 (mid ++ [w2])) in A1. change (firstn 7 (w1' :: mid ++ [w2'])) with (w1' :: firstn 6 (mid ++ [w2'])) in B1.
        rewrite firstn_app in A1, B1. replace (6 - length mid) with 0 in A1, B1 by lia. rewrite firstn_O, app_nil_r in A1, B1.
        assert (E : w1 :: firstn 6 mid = w1' :: firstn 6 mid); [|now injection E].
        apply cod_clip; [assumption | assumption | reflexivity | cbn [hd]; lia|].
        change (firstn 6 mid) with (firstn (S 5) mid). destruct mid as [|a mid]; [cbn [length] in LL; lia|]. cbn [firstn]. cbn [List.last]. lia.
      + rewrite LM in A2, B2. rewrite E1 in A2. rewrite E2 in B2. replace (length mid + 2 - 7) with (S (length mid - 6)) in A2, B2 by lia. cbn [skipn] in A2, B2.
        rewrite skipn_app in A2, B2. replace (length mid - 6 - length mid) with 0 in A2, B2 by lia. cbn [skipn] in A2, B2.
        set (t := skipn (length mid - 6) mid) in *. assert (Lt : length t = 6) by (unfold t; rewrite skipn_length; lia). clearbody t.
        assert (E : t ++ [w2] = t ++ [w2']); [|apply app_inj_tail in E; destruct E; auto].
        apply cod_clip; [assumption | assumption| | |].
        * unfold mid5. destruct t as [|t0 t]; [discriminate|]. cbn [app tl length] in *. rewrite !firstn_app. replace (5 - length t) with 0 by lia. reflexivity.
        * destruct t as [|t0 t]; [discriminate|]. cbn [app hd]. lia.
        * rewrite !last_last. lia. }
  destruct HV as [HV|[HV|[HV|HV]]]; try congruence; lia.
Qed.

Lemma parts_shorter y p s m l r r' : (str_len s < 2 ^ 48)%N -> barcode y p s = Ret (Ok m) -> read_modules y m = Some r ->
  proper_part m l -> read_modules y l = Some r' -> reported r' < reported r.
Proof.
  intros Hs HB HR HP HR'.
  assert (W : whole_only y s -> y <> SCodabar -> reported r' < reported r).
  { intros W HY. exfalso. refine (part_read y p s m l r' Hs HB W HP HR' _). destruct y; try exact I. congruence. }
  destruct HP as (u & v & E & HI). destruct (shape_scan _ m (barcode_shape _ p s m Hs HB)) as (ws & HS & Em & HD).
  unfold read_modules in HR, HR'. rewrite HS in HR. cbn [obind] in HR. apply obind_Some in HR'. destruct HR' as (ws' & HS' & HR').
  destruct (tail_repeat y) as [k Hk]. rewrite Hk in Em. rewrite Em in E.
  pose proof (part_inside ws k u l v ws' (shape_pos _ ws HD) (proj1 HD) E HI HS') as IN.
  destruct y; try (apply W; [exact I | discriminate]); clear W.
  - pose proof (supp_size _ _ HR) as L. pose proof (supp_size _ _ HR') as L'. pose proof (supp_sum _ _ HR) as S1. pose proof (supp_sum _ _ HR') as S2.
    destruct IN as [IN|IN]; [lia|]. destruct (inside_same _ _ IN). lia.
  - cbn [read_as] in HR, HR'. apply option_map_Some in HR, HR'. destruct HR as (t & HR & ->), HR' as (t' & HR' & ->). cbn [reported].
    pose proof (c39_size _ _ HR) as L. pose proof (c39_size _ _ HR') as L'. destruct (c39_sum _ _ HR) as (n & N1 & N2). destruct (c39_sum _ _ HR') as (n' & N1' & N2').
    destruct IN as [IN|IN]; [lia|]. destruct (inside_same _ _ IN). lia.
  - cbn [read_as] in HR, HR'. apply option_map_Some in HR, HR'. destruct HR as (t & HR & ->), HR' as (t' & HR' & ->). cbn [reported].
    pose proof (c39_size _ _ HR) as L. pose proof (c39_size _ _ HR') as L'. destruct (c39_sum _ _ HR) as (n & N1 & N2). destruct (c39_sum _ _ HR') as (n' & N1' & N2').
    destruct IN as [IN|IN]; [lia|]. destruct (inside_same _ _ IN). lia.
  - cbn [read_as] in HR, HR'. apply option_map_Some in HR, HR'. destruct HR as (t & HR & ->), HR' as (t' & HR' & ->). cbn [reported].
    destruct (c11_size _ _ HR) as (n & N1 & N2). destruct (c11_size _ _ HR') as (n' & N1' & N2').
    destruct IN as [IN|IN]; [lia|]. destruct (inside_same _ _ IN) as [LE _].
    destruct (Nat.eq_dec (length ws') (length ws)) as [EL|NE].
    + exfalso. destruct (c11_ends _ _ HR), (c11_ends _ _ HR'). apply (inside_ends ws ws' IN EL); congruence.
    + assert (LS : n <> 12); [|destruct (Nat.ltb_spec 11 n), (Nat.ltb_spec 11 n'); lia].
      cbn [barcode] in HB. apply run_Ok in HB. destruct HB as (b & HN & HE). injection HN as HN.
      pose proof (code11_accepted p s b Hs HN) as EE. rewrite HE in EE. injection EE as EE. apply code11_new_Ok in HN. destruct HN as [HD' _].
      pose proof (c11_checked_in s HD') as HM. fold (c11_checked s) in EE.
      assert (ws = c11_symbol (c11_checked s)). { rewrite EE in HS. rewrite c11_symbol_scan in HS by assumption. now injection HS. }
      subst ws. pose proof (c11_symbol_read_raw _ HM) as RR. unfold read_c11 in HR. rewrite RR in HR. cbn [obind] in HR.
      assert (LN : n = length (c11_checked s)).
      { assert (LL : length (c11_symbol (c11_checked s)) + 1 = 6 * length (c11_checked s) + 12); [|lia].
        unfold c11_symbol. rewrite !app_length, (concat_length_const 6); [rewrite map_length; change (length c11_guard) with 5; cbn [length]; lia|].
        apply Forall_map. pose proof (c11_lengths _ HM) as F5. revert F5. apply Forall_impl. intros c Hc. rewrite app_length, Hc. reflexivity. }
      rewrite LN. unfold c11_checked. rewrite !app_length. destruct (Nat.ltb_spec 10 (length s)); cbn [length]; lia.
  - cbn [read_as] in HR, HR'. apply option_map_Some in HR, HR'. destruct HR as (t & HR & ->), HR' as (t' & HR' & ->). cbn [reported].
    destruct IN as [IN|IN]; [destruct (cod_table_at _ _ HR') as (_ & L & _); lia|]. exact (cod_same _ _ _ _ HR HR' IN).
  - cbn [read_as] in HR, HR'. apply option_map_Some in HR, HR'. destruct HR as (t & HR & ->), HR' as (t' & HR' & ->). cbn [reported].
    pose proof (itf_size _ _ HR) as L. pose proof (itf_size _ _ HR') as L'. destruct IN as [IN|IN]; [lia|]. destruct (inside_same _ _ IN) as [LE _].
    destruct (Nat.eq_dec (length ws') (length ws)) as [EL|NE]; [exfalso | lia].
    destruct (itf_rims _ _ HR), (itf_rims _ _ HR'). apply (inside_ends ws ws' IN EL); congruence.
  - cbn [read_as] in HR, HR'. apply option_map_Some in HR, HR'. destruct HR as (t & HR & ->), HR' as (t' & HR' & ->). cbn [reported].
    pose proof (stf_size _ _ HR) as L. pose proof (stf_size _ _ HR') as L'. destruct IN as [IN|IN]; [lia|]. destruct (inside_same _ _ IN) as [LE _].
    destruct (Nat.eq_dec (length ws') (length ws)) as [EL|NE]; [exfalso | lia].
    destruct (stf_rims _ _ HR) as [A1 A2], (stf_rims _ _ HR') as [B1 B2].
    destruct (stf_ends p s m HB) as (w & Ew & Dw & D1 & D2).
    assert (w = ws). { rewrite Ew in HS. change [0%N] with (repeat 0%N 1) in HS. rewrite scan_render_tail in HS; [now injection HS | exact (shape_pos SStf w Dw) | exact (proj1 Dw)]. }
    subst w. destruct IN as (P & w1 & mid & w2 & Q & w1' & w2' & E1 & E2 & _ & H1 & H2 & HV). subst ws ws'. rewrite !app_length in EL. cbn [length] in EL. rewrite !app_length in EL. cbn [length] in EL.
    destruct P; [|cbn [length] in EL; lia]. destruct Q; [|cbn [length] in EL; lia]. rewrite app_nil_r in *. cbn [app hd] in *.
    rewrite app_comm_cons, last_last in D2. rewrite app_comm_cons, last_last in B2. destruct HV as [HV|[HV|[HV|HV]]]; try congruence; lia.
Qed.
