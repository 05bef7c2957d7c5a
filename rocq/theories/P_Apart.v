(** * Symbols of different symbologies are told apart *)
From Verif Require Import Rust M_Error M_Helpers M_Parse M_Ean13 M_Ean8 M_Upca M_EanSupp M_Code39 M_Code93 M_Code11
  M_Codabar M_Code128 M_Tf Symbology M_Use S_Barcode S_Ean S_Text S_Linear S_Codabar S_Tf S_Code128 S_All
  P_Rust P_Barcode P_Codabar P_Code128 P_Code128b P_All.
Local Open Scope nat_scope.

Definition cod_starts : list (list nat) := [[1;1;2;2;1;2;1]; [1;2;1;2;1;1;2]; [1;1;1;2;1;2;2]; [1;1;1;2;2;2;1]].
(** What is common to all symbols of a symbology: some first elements, the number of
    elements, the third element from the end *)
Definition starts (l ws : list nat) : Prop := exists t, ws = l ++ t.
Definition sig_of (y : symbology) (ws : list nat) (n z : nat) : Prop :=
  match y with
  | SEan13 | SUpca => starts [1;1;1] ws /\ n = 59
  | SEan8 => starts [1;1;1] ws /\ n = 43 /\ z = 1
  | SSupp => exists a b c d, starts [1;1;2;a;b;c;d] ws /\ (n = 13 \/ n = 31) /\ [a;b;c;d] <> [2;1;2;1]
  | SCode39 | SCode39Checked => starts [1;2;1;1] ws
  | SCode93 => starts [1;1;1;1] ws /\ n mod 6 = 1 /\ z = 4
  | SCode11 => starts [1;1;2;2;1;1] ws /\ n mod 6 = 5
  | SCodabar => exists l, In l cod_starts /\ starts l ws /\ n mod 8 = 7
  | SCode128 => starts [2;1;1] ws
  | SItf => starts [1;1;1;1] ws /\ n mod 10 = 7 /\ z <> 4
  | SStf => exists a b, starts [a;1;b] ws /\ a <> 1 /\ b <> 1
  end.
Definition sig (y : symbology) (ws : list nat) : Prop := sig_of y ws (length ws) (nth 2 (rev ws) 0).

Lemma sig_apart y y' ws : sig y ws -> sig y' ws -> same_kind y y'.
Proof.
  unfold sig. generalize (length ws) as n, (nth 2 (rev ws) 0) as z. intros n z. unfold sig_of, starts, cod_starts. intros H H'.
  destruct y, y'; cbn [same_kind]; try exact I; try reflexivity; exfalso;
    repeat match goal with
    | H : _ /\ _ |- _ => destruct H
    | H : exists _, _ |- _ => destruct H
    | H : In _ _ |- _ => destruct H
    | H : False |- _ => contradiction
    | H : _ \/ _ |- _ => destruct H
    end; subst; cbn [app] in *; try discriminate;
    repeat match goal with
    | H : _ :: _ = _ :: _ |- _ => injection H; clear H; intros; subst
    end;
    try discriminate; try congruence.
Qed.

(** ** Readers accept only symbols with the signature *)
Lemma starts_firstn k l (ws : list nat) : firstn k ws = l -> starts l ws.
Proof. intros <-. exists (skipn k ws). now rewrite firstn_skipn. Qed.
Lemma starts_shorter l l' ws : starts (l ++ l') ws -> starts l ws.
Proof. intros [t ->]. exists (l' ++ t). now rewrite app_assoc. Qed.
Lemma guard_Some {A} b (o : option A) r : guard b o = Some r -> b = true /\ o = Some r.
Proof. destruct b; [auto | discriminate]. Qed.
Lemma obind_Some {A B} (o : option A) (f : A -> option B) r : obind o f = Some r -> exists a, o = Some a /\ f a = Some r.
Proof. destruct o; [eauto | discriminate]. Qed.
Lemma option_map_Some {A B} (f : A -> B) o r : option_map f o = Some r -> exists a, o = Some a /\ r = f a.
Proof. destruct o; cbn; [intros H; injection H as <-; eauto | discriminate]. Qed.
Lemma concat_length_const {A} n (bs : list (list A)) : Forall (fun b => length b = n) bs -> length (concat bs) = n * length bs.
Proof. induction 1 as [|b bs H _ IH]; [cbn; lia|]. cbn [concat length]. rewrite app_length, IH, H. lia. Qed.
Lemma chop_length {A} n (l : list A) bs : chop n l = Some bs -> length l = n * length bs.
Proof. intros H. apply chop_sound in H. destruct H as [<- H]. now apply concat_length_const. Qed.

Lemma halves_sig k ws r : read_halves k ws = Some r ->
  starts [1;1;1] ws /\ length ws = 8 * k + 11 /\ nth 2 (rev ws) 0 = 1.
Proof.
  intros H. apply guard_Some in H. destruct H as [H _].
  apply andb_prop in H. destruct H as [H H4]. apply andb_prop in H. destruct H as [H _].
  apply andb_prop in H. destruct H as [H1 H2]. apply Nat.eqb_eq in H1. apply widths_eqb_eq in H2, H4.
  split; [now apply (starts_firstn 3)|]. split; [lia|].
  rewrite <- (firstn_skipn (3 + 4 * k + 5 + 4 * k) ws), H4, rev_app_distr. reflexivity.
Qed.

Lemma addon_sig ws l : read_addon_blocks ws = Some l -> l <> [] ->
  exists a b c d, starts [1;1;2;a;b;c;d] ws /\ length ws = 6 * length l + 1 /\ [a;b;c;d] <> [2;1;2;1].
Proof.
  intros H Hn. apply guard_Some in H. destruct H as [H1 H]. apply widths_eqb_eq in H1.
  apply obind_Some in H. destruct H as [bs [HC HR]].
  pose proof (read_all_length _ _ _ HR) as HL. pose proof (chop_length _ _ _ HC) as HN.
  apply chop_sound in HC. destruct HC as [HC HF].
  destruct bs as [|b0 bs]; [destruct l; [congruence | discriminate]|].
  inversion HF as [|? ? H6 _]; subst.
  destruct b0 as [|x0 [|x1 [|a [|b [|c [|d [|? ?]]]]]]]; try discriminate.
  remember (skipn 3 ws) as t eqn:Et. cbn [concat app addon_separator] in HC. injection HC as _ _ HC.
  exists a, b, c, d. split; [|split].
  - exists (concat bs). rewrite <- (firstn_skipn 3 ws), H1, <- Et, <- HC. reflexivity.
  - rewrite app_length, Et, skipn_length in HN. rewrite HL. cbn [length addon_separator] in HN |- *.
    assert (3 <= length ws); [|lia]. rewrite <- (firstn_skipn 3 ws), H1, app_length. cbn. lia.
  - intros E. injection E as -> -> -> ->. cbn [read_all] in HR. cbn [firstn skipn] in HR.
    destruct (widths_eqb [x0; x1] addon_separator); cbn [guard] in HR; [|discriminate].
    change (read_AB [2;1;2;1]) with (@None (parity * N)) in HR. discriminate.
Qed.
Lemma supp_sig ws r : read_as SSupp ws = Some r -> sig SSupp ws.
Proof.
  cbn [read_as]. intros H.
  assert (HL : exists l, read_addon_blocks ws = Some l /\ (length l = 2 \/ length l = 5)).
  { destruct (read_ean2 ws) as [ds|] eqn:E.
    - clear H. apply obind_Some in E. destruct E as [l [E1 E]]. exists l. split; [assumption|]. left.
      apply obind_Some in E. destruct E as [v [_ E]]. apply guard_Some in E. destruct E as [E _].
      apply andb_prop in E. destruct E as [E _]. apply Nat.eqb_eq in E. now rewrite map_length in E.
    - apply option_map_Some in H. destruct H as [ds [H _]].
      apply obind_Some in H. destruct H as [l [E1 H]]. exists l. split; [assumption|]. right.
      apply obind_Some in H. destruct H as [v [_ H]]. apply guard_Some in H. destruct H as [H _].
      apply andb_prop in H. destruct H as [H _]. apply Nat.eqb_eq in H. now rewrite map_length in H. }
  destruct HL as [l [HB HL]]. destruct (addon_sig ws l HB) as (a & b & c & d & HS & HN & HD).
  { intros ->. destruct HL; discriminate. }
  exists a, b, c, d. split; [assumption|]. split; [|assumption]. destruct HL as [E|E]; rewrite E in HN; [left | right]; exact HN.
Qed.

(** Readers whose symbols are cut into equal blocks with a gap *)
Lemma gap_first k ws bs cs a mid z : chop (S k) (ws ++ [1]) = Some bs -> read_all (gap_block k) bs = Some cs ->
  strip_ends cs = Some (a, mid, z) -> starts (a ++ [1]) ws /\ length a = k /\ length ws mod S k = k.
Proof.
  intros HC HR HE. pose proof (chop_length _ _ _ HC) as HN. rewrite app_length in HN. cbn [length] in HN.
  pose proof (read_all_length _ _ _ HR) as HL.
  apply chop_sound in HC. destruct HC as [HC HF].
  destruct cs as [|c0 cs]; [discriminate|]. cbn [strip_ends] in HE.
  destruct (rev cs) as [|c1 m] eqn:ER; [discriminate|]. injection HE as -> _ _.
  destruct bs as [|b0 bs]; [discriminate|]. cbn [read_all] in HR.
  destruct (gap_block k b0) as [g|] eqn:EG; [|discriminate].
  destruct (read_all (gap_block k) bs) as [gs|] eqn:ES; [|discriminate]. injection HR as -> ->.
  apply guard_Some in EG. destruct EG as [EG EA]. injection EA as EA. apply widths_eqb_eq in EG.
  inversion HF as [|? ? H6 HF']; subst.
  assert (E0 : b0 = firstn k b0 ++ [1]) by (rewrite <- EG; now rewrite firstn_skipn).
  assert (Hbs : bs <> []). { intros ->. destruct cs; [discriminate ER | discriminate HL]. }
  destruct (exists_last Hbs) as [bs' [b1 E1]].
  assert (HW : ws = b0 ++ concat bs' ++ removelast b1).
  { cbn [concat] in HC. rewrite E1, concat_app in HC. cbn [concat] in HC. rewrite app_nil_r in HC.
    assert (Hb1 : b1 <> []). { intros ->. rewrite E1 in HF'. apply Forall_app in HF'. destruct HF' as [_ HF'].
      inversion HF' as [|? ? HX _]. discriminate HX. }
    rewrite (app_removelast_last 0 Hb1) in HC. rewrite !app_assoc in HC. apply app_inj_tail in HC.
    destruct HC as [HC _]. rewrite <- HC. now rewrite !app_assoc. }
  split; [|split].
  - exists (concat bs' ++ removelast b1). rewrite <- E0. exact HW.
  - rewrite firstn_length, H6. lia.
  - cbn [length] in HN. assert (E : length ws = k + (length bs) * S k) by lia. rewrite E, Nat.mod_add by discriminate.
    apply Nat.mod_small. lia.
Qed.
Lemma c39_sig ws r : read_c39 ws = Some r -> starts [1;2;1;1] ws.
Proof.
  intros H. apply obind_Some in H. destruct H as [bs [H1 H]]. apply obind_Some in H. destruct H as [cs [H2 H]].
  apply obind_Some in H. destruct H as [[[a mid] z] [H3 H]]. apply guard_Some in H. destruct H as [H _].
  apply andb_prop in H. destruct H as [H _]. apply widths_eqb_eq in H.
  destruct (gap_first 9 ws bs cs a mid z H1 H2 H3) as [HS _]. subst a.
  exact (starts_shorter [1;2;1;1] [2;1;2;1;1;1] ws HS).
Qed.
Lemma c11_sig ws r : read_c11 ws = Some r -> starts [1;1;2;2;1;1] ws /\ length ws mod 6 = 5.
Proof.
  intros H. apply obind_Some in H. destruct H as [raw [H _]].
  apply obind_Some in H. destruct H as [bs [H1 H]]. apply obind_Some in H. destruct H as [cs [H2 H]].
  apply obind_Some in H. destruct H as [[[a mid] z] [H3 H]]. apply guard_Some in H. destruct H as [H _].
  apply andb_prop in H. destruct H as [H _]. apply widths_eqb_eq in H.
  destruct (gap_first 5 ws bs cs a mid z H1 H2 H3) as [HS [_ HM]]. subst a. split; assumption.
Qed.
Lemma strip_ends_form {A} (l : list A) a mid z : strip_ends l = Some (a, mid, z) -> l = a :: mid ++ [z].
Proof.
  destruct l as [|x l]; [discriminate|]. cbn [strip_ends]. destruct (rev l) as [|y m] eqn:E; [discriminate|].
  intros H. injection H as -> <- ->. f_equal. rewrite <- (rev_involutive l), E. reflexivity.
Qed.
Lemma c93_sig ws r : read_c93 ws = Some r ->
  starts [1;1;1;1] ws /\ length ws mod 6 = 1 /\ nth 2 (rev ws) 0 = 4.
Proof.
  intros H. apply obind_Some in H. destruct H as [raw [H _]]. apply guard_Some in H. destruct H as [H1 H].
  apply obind_Some in H. destruct H as [bs [H2 H]]. apply obind_Some in H. destruct H as [[[a mid] z] [H3 H]].
  apply guard_Some in H. destruct H as [H _]. apply andb_prop in H. destruct H as [Ha Hz].
  apply widths_eqb_eq in H1, Ha, Hz. subst a z. apply strip_ends_form in H3. subst bs.
  pose proof (chop_length _ _ _ H2) as HL. apply chop_sound in H2. destruct H2 as [HC _].
  assert (HW : ws = concat (c93_star :: mid ++ [c93_star]) ++ [1]).
  { rewrite HC. rewrite <- (rev_involutive ws) at 1. rewrite <- (firstn_skipn 1 (rev ws)) at 1. rewrite H1. reflexivity. }
  split; [|split].
  - rewrite HW. eexists. reflexivity.
  - rewrite HW, app_length, HC, HL. cbn [length]. rewrite Nat.mul_comm, Nat.add_comm, Nat.mod_add by discriminate. reflexivity.
  - rewrite HW. cbn [concat]. rewrite concat_app, !rev_app_distr. reflexivity.
Qed.

Lemma read_char_sound l t ws c : read_char l t ws = Some c -> exists v, nth_error t v = Some ws /\ nth_error l v = Some c.
Proof.
  unfold read_char. destruct (which t ws) as [v|] eqn:E; [|discriminate]. intros H. exists v.
  split; [now apply which_sound | assumption].
Qed.
Lemma cod_stop_shape ws a : read_char cod_chars cod_table ws = Some a -> cod_stop a -> In ws cod_starts.
Proof.
  intros H Ha. apply read_char_sound in H. destruct H as [v [H1 H2]]. unfold cod_stop in Ha.
  assert (Hv : v < 20). { change 20 with (length cod_chars). apply nth_error_Some. now rewrite H2. }
  do 20 (destruct v as [|v]; [vm_compute in H1, H2; injection H1 as <-; injection H2 as <-; vm_compute in Ha |- *; intuition (discriminate || auto)|]).
  lia.
Qed.
Lemma two_ends {A} (c0 : A) cs : cs <> [] -> exists m y, strip_ends (c0 :: cs) = Some (c0, m, y).
Proof.
  intros H. cbn [strip_ends]. destruct (rev cs) as [|y m] eqn:E; [|eauto].
  apply (f_equal (@rev A)) in E. rewrite rev_involutive in E. now destruct H.
Qed.
Lemma cod_first ws t : read_cod ws = Some t -> exists cs, read_all (read_char cod_chars cod_table) cs = Some t /\
  forall c0 c1 tl, cs = c0 :: c1 :: tl -> starts c0 ws /\ length ws mod 8 = 7.
Proof.
  intros H. apply obind_Some in H. destruct H as [bs [H1 H]]. apply obind_Some in H. destruct H as [cs [H2 H]].
  exists cs. split; [assumption|]. intros c0 c1 tl ->.
  destruct (two_ends c0 (c1 :: tl)) as [m [y HE]]; [discriminate|].
  destruct (gap_first 7 ws bs _ c0 m y H1 H2 HE) as [HS [_ HM]]. split; [now apply starts_shorter in HS | exact HM].
Qed.
Lemma read_all_cons {A B} (f : A -> option B) x l r : read_all f (x :: l) = Some r ->
  exists y ys, f x = Some y /\ read_all f l = Some ys /\ r = y :: ys.
Proof.
  cbn [read_all]. destruct (f x) as [y|]; [|discriminate]. destruct (read_all f l) as [ys|]; [|discriminate].
  intros H. injection H as <-. eauto.
Qed.
Lemma read_all_nil {A B} (f : A -> option B) r : read_all f [] = Some r -> r = [].
Proof. intros H. injection H as <-. reflexivity. Qed.
Lemma cod_sig ws t : read_cod ws = Some t -> cod_framed t -> sig SCodabar ws.
Proof.
  intros H HF. destruct HF as (a & mid & z & -> & Ha & _ & _).
  apply cod_first in H. destruct H as [cs [HR HC]].
  destruct cs as [|c0 [|c1 tl]].
  - apply read_all_nil in HR. discriminate HR.
  - apply read_all_cons in HR. destruct HR as (y & ys & _ & HR & E). apply read_all_nil in HR. subst ys.
    injection E as _ E. now destruct mid.
  - destruct (HC c0 c1 tl eq_refl) as [HS HM].
    apply read_all_cons in HR. destruct HR as (y & ys & E0 & _ & E). injection E as E _. subst y.
    pose proof (cod_stop_shape c0 a E0 Ha) as HI. unfold sig, sig_of. exists c0. split; [exact HI | split; [exact HS | exact HM]].
Qed.

Lemma trim_ends_whole n k (ws : list nat) a b z : trim_ends n k ws = (a, b, z) -> ws = a ++ b ++ z /\ a = firstn n ws.
Proof.
  unfold trim_ends. intros H. injection H as <- <- <-. split; [|reflexivity].
  rewrite <- rev_app_distr, firstn_skipn, rev_involutive. now rewrite firstn_skipn.
Qed.
Lemma c128_start_shape b st : (st = 103 \/ st = 104 \/ st = 105)%N ->
  option_map N.of_nat (which c128_table b) = Some st -> starts [2;1;1] b.
Proof.
  intros Hs H. apply option_map_Some in H. destruct H as [v [H E]]. apply which_sound in H.
  assert (Hv : v = 103 \/ v = 104 \/ v = 105) by lia.
  destruct Hv as [->|[->| ->]]; vm_compute in H; injection H as <-; eexists; reflexivity.
Qed.
Lemma c128_sig ws r : read_c128 ws = Some r -> starts [2;1;1] ws.
Proof.
  intros H. apply obind_Some in H. destruct H as [vs [H HD]]. unfold read_values in H.
  destruct (trim_ends 0 7 ws) as [[a body] z] eqn:ET. apply trim_ends_whole in ET. destruct ET as [HW Ea].
  cbn [firstn] in Ea. subst a. cbn [app] in HW. apply guard_Some in H. destruct H as [_ H].
  apply obind_Some in H. destruct H as [bs [HC H]]. apply chop_sound in HC. destruct HC as [HC _].
  assert (HS : exists st tl, vs = st :: tl /\ (st = 103 \/ st = 104 \/ st = 105)%N).
  { unfold decode_checked in HD. destruct (rev vs) as [|chk front] eqn:E1; [discriminate|].
    destruct (rev front) as [|st data] eqn:E2; [discriminate|]. exists st, (data ++ [chk]).
    split. { rewrite <- (rev_involutive vs), E1. cbn [rev]. now rewrite E2. }
    apply guard_Some in HD. destruct HD as [_ HD].
    destruct (st =? 103)%N eqn:A; [apply N.eqb_eq in A; auto|]. destruct (st =? 104)%N eqn:B; [apply N.eqb_eq in B; auto|].
    destruct (st =? 105)%N eqn:C; [apply N.eqb_eq in C; auto | discriminate]. }
  destruct HS as (st & tl & -> & Hst). destruct bs as [|b0 bs]; [apply read_all_nil in H; discriminate H|].
  apply read_all_cons in H. destruct H as (y & ys & E0 & _ & E). injection E as E _. subst y.
  destruct (c128_start_shape b0 st Hst E0) as [t Et]. exists (t ++ concat bs ++ z).
  rewrite HW, <- HC. cbn [concat]. rewrite Et, <- !app_assoc. reflexivity.
Qed.

Definition narrow_or_wide (x : nat) : nat := match x with 1 => 1 | 2 | 3 => 2 | _ => 0 end.
Lemma squash_cons x ws : squash (x :: ws) = narrow_or_wide x :: squash ws.
Proof. reflexivity. Qed.
Lemma narrow x : narrow_or_wide x = 1 -> x = 1.
Proof. destruct x as [|[|[|[|x]]]]; cbn; congruence. Qed.
Lemma wide x : narrow_or_wide x = 2 -> x = 2 \/ x = 3.
Proof. destruct x as [|[|[|[|x]]]]; cbn; auto; discriminate. Qed.
Lemma itf_sig ws r : read_itf ws = Some r -> sig SItf ws.
Proof.
  unfold read_itf. destruct (trim_ends 4 3 ws) as [[a body] z] eqn:ET. apply trim_ends_whole in ET. destruct ET as [HW _].
  intros H. apply guard_Some in H. destruct H as [H HR]. apply andb_prop in H. destruct H as [Ha Hz].
  apply widths_eqb_eq in Ha, Hz. subst a. apply obind_Some in HR. destruct HR as [bs [HC _]]. apply chop_length in HC.
  destruct z as [|x [|y [|w [|? ?]]]]; try discriminate. rewrite !squash_cons in Hz. injection Hz as Hx Hy Hw.
  apply wide in Hx. subst ws. unfold sig, sig_of. split; [eexists; reflexivity|]. split.
  - rewrite !app_length, HC. cbn [length]. replace (4 + (10 * length bs + 3)) with (7 + length bs * 10) by lia.
    now rewrite Nat.mod_add.
  - rewrite !rev_app_distr. cbn [rev app nth]. destruct Hx; subst x; discriminate.
Qed.
Lemma stf_sig ws r : read_stf ws = Some r -> sig SStf ws.
Proof.
  unfold read_stf. destruct (trim_ends 6 5 ws) as [[a body] z] eqn:ET. apply trim_ends_whole in ET. destruct ET as [HW _].
  intros H. apply guard_Some in H. destruct H as [H _]. apply andb_prop in H. destruct H as [Ha _].
  apply widths_eqb_eq in Ha.
  destruct a as [|x [|y [|w a]]]; try discriminate. rewrite !squash_cons in Ha. injection Ha as Hx Hy Hw _.
  exists x, w. split. { exists (a ++ body ++ z). rewrite HW. now rewrite (narrow y). }
  apply wide in Hx, Hw. lia.
Qed.

Lemma read_sig y ws r : read_as y ws = Some r -> (y = SCodabar -> exists t, r = Text t /\ cod_framed t) -> sig y ws.
Proof.
  intros H HF. destruct y; try (now apply supp_sig in H);
    (apply option_map_Some in H; destruct H as [l [H E]]).
  - apply obind_Some in H. destruct H as [[? ?] [H _]]. apply halves_sig in H. cbn in H. unfold sig, sig_of. tauto.
  - apply obind_Some in H. destruct H as [[? ?] [H _]]. apply halves_sig in H. cbn in H. unfold sig, sig_of. tauto.
  - apply obind_Some in H. destruct H as [[? ?] [H _]]. apply halves_sig in H. cbn in H. unfold sig, sig_of. tauto.
  - now apply c39_sig in H.
  - now apply c39_sig in H.
  - now apply c93_sig in H.
  - now apply c11_sig in H.
  - destruct (HF eq_refl) as [t [Et Ht]]. rewrite E in Et. injection Et as ->. now apply (cod_sig ws t).
  - now apply c128_sig in H.
  - now apply itf_sig in H.
  - now apply stf_sig in H.
Qed.

(** ** Printed symbols have the signature *)
Lemma lib_stop_shape a : cod_stop a -> In (lib_pattern a) cod_starts.
Proof.
  unfold cod_stop. intros H. vm_compute in H.
  repeat destruct H as [<-|H]; try contradiction; vm_compute; tauto.
Qed.
Lemma sep_mod s : Forall cod_in s -> s <> [] -> length (sep_symbol lib_pattern s) mod 8 = 7.
Proof.
  intros H Hn. destruct H as [|c s Hc H]; [congruence|]. cbn [sep_symbol]. rewrite app_length, lib_pattern_length by exact Hc.
  rewrite (concat_length_const 8).
  - rewrite map_length, Nat.mul_comm, Nat.mod_add by discriminate. reflexivity.
  - apply Forall_map. revert H. apply Forall_impl. intros d Hd. cbn [length]. now rewrite lib_pattern_length.
Qed.
Lemma print_sig y p s m : (str_len s < 2 ^ 48)%N -> (y = SCodabar -> cod_framed s) -> barcode y p s = Ret (Ok m) ->
  exists ws, scan m = Some ws /\ sig y ws.
Proof.
  intros Hs HF H. destruct (barcode_widths y p s m Hs H) as [ws [HW _]]. exists ws. split; [assumption|].
  pose proof (barcode_meant y p s m Hs H) as HM. unfold read_modules in HM. rewrite HW in HM. cbn [obind] in HM.
  destruct y; cbn [meant] in HM;
    try (destruct HM as [c [_ HM]]; apply (read_sig _ _ _ HM); discriminate);
    try (apply (read_sig _ _ _ HM); discriminate).
  - specialize (HF eq_refl). cbn [barcode] in H. apply run_Ok in H. destruct H as [b [HN HE]].
    pose proof (codabar_encode_lib p s b HN) as E. rewrite HE in E. injection E as ->.
    apply codabar_new_Ok in HN. destruct HN as [HC [Hn _]]. rewrite lib_symbol_scan in HW by assumption. injection HW as <-.
    pose proof (sep_mod s HC Hn) as H8. destruct HF as (a & mid & z & -> & Ha & _).
    unfold sig, sig_of. exists (lib_pattern a). split; [now apply lib_stop_shape|]. split; [|exact H8]. eexists. reflexivity.
  - cbn [barcode] in H. apply run_Ret in H. destruct H as [b [HN HE]].
    destruct (code128_new_Ok s b HN) as [segs [HS [_ ->]]].
    destruct (encode_returns_form p _ m (message_units_idx _ HS) HE) as [chk [HC ->]].
    rewrite message_units_values in HW.
    assert (HL : Forall (fun v => (v < 106)%N) (message_values segs ++ [chk])).
    { apply Forall_snoc; [now apply message_values_lt | assumption]. }
    rewrite scan_render in HW; [injection HW as <-| |now apply symbol_with_odd].
    + destruct segs as [|[k body] segs]; [now destruct (proj1 HS)|]. cbn [message_values]. unfold symbol_with. cbn [app map concat].
      destruct k; eexists; reflexivity.
    + pose proof (symbol_with_widths (message_values segs) chk HL) as W. revert W. apply Forall_impl. lia.
Qed.

Lemma symbols_apart y y' p s m r : (str_len s < 2 ^ 48)%N -> (y = SCodabar -> cod_framed s) ->
  barcode y p s = Ret (Ok m) ->
  read_modules y' m = Some r -> (y' = SCodabar -> exists t, r = Text t /\ cod_framed t) -> same_kind y y'.
Proof.
  intros Hs HF H HR HF'. destruct (print_sig y p s m Hs HF H) as [ws [HW HS]].
  unfold read_modules in HR. rewrite HW in HR. cbn [obind] in HR. apply (sig_apart y y' ws HS). now apply (read_sig y' ws r).
Qed.

(** ** UPC-A against EAN-13 *)
Lemma parity6 l : which_parity ean13_parities l = Some 0 <-> parities_eqb l [PA;PA;PA;PA;PA;PA] = true.
Proof.
  unfold ean13_parities. cbn [which_parity]. destruct (parities_eqb [PA;PA;PA;PA;PA;PA] l) eqn:E.
  - split; [intros _|reflexivity]. destruct l as [|[] [|[] [|[] [|[] [|[] [|[] [|? ?]]]]]]]; try discriminate. reflexivity.
  - split.
    + intros H. exfalso. match goal with H : option_map S ?x = Some 0 |- _ => destruct x; discriminate end.
    + intros H. destruct l as [|[] [|[] [|[] [|[] [|[] [|[] [|? ?]]]]]]]; discriminate.
Qed.
Lemma gs1_leading_zero ds : gs1_validb (0%N :: ds) = gs1_validb ds.
Proof.
  unfold gs1_validb, gs1_sum. cbn [rev].
  assert (E : forall l w w', alt_sum w w' (l ++ [0%N]) = alt_sum w w' l).
  { induction l as [|x l IH]; intros w w'; cbn [app alt_sum]; [lia|]. now rewrite IH. }
  now rewrite E.
Qed.
Lemma upca_is_ean13 ws ds : read_upca ws = Some ds <-> read_ean13 ws = Some (0%N :: ds).
Proof.
  unfold read_upca, read_ean13. destruct (read_halves 6 ws) as [[l r]|]; cbn [obind]; [|split; discriminate].
  split.
  - intros H. apply guard_Some in H. destruct H as [H E]. injection E as <-. apply andb_prop in H. destruct H as [H1 H2].
    apply parity6 in H1. rewrite H1. cbn [obind N.of_nat]. rewrite gs1_leading_zero, H2. reflexivity.
  - intros H. apply obind_Some in H. destruct H as [f [H1 H]]. apply guard_Some in H. destruct H as [H2 E].
    injection E as Ef E. assert (f = 0) by lia. subst f. apply parity6 in H1. rewrite H1.
    rewrite E in *. cbn [N.of_nat] in H2. rewrite gs1_leading_zero in H2. rewrite H2. reflexivity.
Qed.
