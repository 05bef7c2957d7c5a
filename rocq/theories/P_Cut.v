(** * Scan lines that miss one end of the symbol *)
From Verif Require Import Rust M_Error Symbology M_Use S_Barcode S_Ean S_Text S_Linear S_Codabar S_Tf S_Code128 S_All S_Cut
  P_Rust P_Barcode P_Parse P_Tf P_All P_Apart P_Damage P_Check128 P_Cell.
Local Open Scope nat_scope.

(** ** What is left, as element widths *)
Lemma first_bar (b : list N) : In 1%N b -> exists i x c, b = i ++ 1%N :: c /\ i = repeat x (length i) /\ x = 0%N \/ ~ Forall (fun y => y = 0 \/ y = 1)%N b.
Proof.
  induction b as [|y b IH]; intros H; [contradiction|].
  destruct (N.eq_dec y 1) as [->|H1]; [exists [], 0%N, b; left; auto|].
  destruct H as [H|H]; [congruence|]. destruct (IH H) as (i & x & c & [(-> & Hi & ->)|HN]).
  - destruct (N.eq_dec y 0) as [->|H0].
    + exists (0%N :: i), 0%N, c. left. split; [reflexivity|]. split; [cbn [length repeat]; now rewrite <- Hi | reflexivity].
    + exists i, 0%N, c. right. intros HF. inversion HF as [|? ? [?|?] ?]; congruence.
  - exists i, x, c. right. intros HF. inversion HF; subst. contradiction.
Qed.
Lemma lights_off (X M : list N) i : forall s, X ++ 1%N :: repeat 0%N s = M ++ repeat 0%N i -> i <= s /\ M = X ++ 1%N :: repeat 0%N (s - i).
Proof.
  induction i as [|i IH]; intros s H.
  - rewrite app_nil_r in H. split; [lia|]. now rewrite Nat.sub_0_r.
  - replace (S i) with (i + 1) in H by lia. rewrite repeat_app in H. cbn [repeat] in H. rewrite app_assoc in H.
    destruct s as [|s].
    + change (X ++ [1%N] = (M ++ repeat 0%N i) ++ [0%N]) in H. apply app_inj_tail in H. destruct H; discriminate.
    + replace (S s) with (s + 1) in H by lia. rewrite repeat_app, app_comm_cons, app_assoc in H. cbn [repeat] in H.
      apply app_inj_tail in H. destruct H as [H _]. destruct (IH s H) as [H1 H2]. split; [lia | exact H2].
Qed.

(** The remaining elements: the last bar may have become narrower. *)
Definition short_right (ws ws' : list nat) : Prop :=
  exists u w w' v, ws = u ++ w :: v /\ ws' = u ++ [w'] /\ Nat.even (length u) = true /\ 1 <= w' <= w /\ (w' < w \/ v <> []).
Definition short_left (ws ws' : list nat) : Prop :=
  exists v w w' u, ws = v ++ w :: u /\ ws' = w' :: u /\ Nat.even (length v) = true /\ 1 <= w' <= w /\ (w' < w \/ v <> []).

Lemma cut_render ws k m' : Forall (fun w => 1 <= w) ws -> Nat.even (length ws) = false ->
  cut_right (render ws ++ repeat 0%N k) m' ->
  m' = [] \/ exists ws' j, m' = render ws' ++ repeat 0%N j /\ short_right ws ws' /\ Forall (fun w => 1 <= w) ws' /\ Nat.even (length ws') = false.
Proof.
  intros HP HO (b & E & Hb).
  assert (HM : Forall (fun y => y = 0 \/ y = 1)%N b).
  { assert (G : Forall (fun y => y = 0 \/ y = 1)%N (render ws ++ repeat 0%N k)).
    { apply Forall_app. split; [apply render_from_modules; auto|]. apply Forall_forall. intros x Hx. apply repeat_spec in Hx. auto. }
    rewrite E in G. apply Forall_app in G. tauto. }
  destruct (first_bar b Hb) as (i & x & c & [(-> & Hi & ->)|HN]); [|contradiction].
  remember (length i) as n. clear Heqn. subst i. rewrite app_assoc in E. rewrite <- app_assoc in E.
  assert (HL : exists A B, render ws = A ++ 1%N :: B /\ A = m' ++ repeat 0%N n).
  { clear - E. remember (m' ++ repeat 0%N n) as A. rewrite app_assoc, <- HeqA in E. clear HeqA. revert A E.
    induction (render ws) as [|y l IH]; intros A E.
    - exfalso. cbn [app] in E. assert (HI : In 1%N (repeat 0%N k)) by (rewrite E; apply in_or_app; right; now left).
      apply repeat_spec in HI. discriminate.
    - destruct A as [|a A]; cbn [app] in E; injection E as E1 E2.
      + subst y. exists [], l. auto.
      + subst y. destruct (IH A E2) as (A' & B & E3 & ->). exists (a :: A), B. split; [cbn [app]; now rewrite E3 | reflexivity]. }
  destruct HL as (A & B & EA & EM).
  destruct (render_locate ws 1%N A 1%N B (or_intror eq_refl) EA) as (u & w & v & j & EW & Hj & Hx & EA' & _).
  assert (HU : Nat.even (length u) = true).
  { unfold flip in Hx. destruct (Nat.even (length u)); [reflexivity | discriminate]. }
  rewrite EM in EA'. subst ws. apply Forall_app in HP. destruct HP as [HPu HPw].
  destruct j as [|j].
  - cbn [repeat] in EA'. rewrite app_nil_r in EA'.
    destruct u as [|s u] using rev_ind.
    + left. change (render_from 1 []) with (@nil N) in EA'. now destruct m'.
    + clear IHu. destruct u as [|b u] using rev_ind; [discriminate HU|]. clear IHu. right.
      rewrite <- app_assoc in EA'. rewrite !app_length in HU. cbn [length] in HU. rewrite <- Nat.add_assoc, Nat.even_add in HU. cbn in HU.

      assert (HU0 : Nat.even (length u) = true) by (now destruct (Nat.even (length u))). clear HU.
      apply Forall_app in HPu. destruct HPu as [HPu HPs]. pose proof HPu as HPub. apply Forall_app in HPu. destruct HPu as [HPu HPb].
      assert (Hb1 : 1 <= b) by (inversion HPb; assumption).
      assert (ER : render_from 1 (u ++ [b] ++ [s]) = (render_from 1 u ++ repeat 1%N (b - 1)) ++ 1%N :: repeat 0%N s).
      { rewrite render_from_app_even by auto. cbn [app render_from]. rewrite app_nil_r, <- app_assoc. f_equal.
        replace b with (b - 1 + 1) at 1 by lia. rewrite repeat_plus, <- app_assoc. reflexivity. }
      rewrite ER in EA'. symmetry in EA'. apply lights_off in EA'. destruct EA' as [_ EA'].
      exists (u ++ [b]), (s - n). split; [|split; [|split]].
      * rewrite EA'. unfold render. rewrite render_from_app_even by auto. cbn [render_from]. rewrite app_nil_r.
        replace b with (b - 1 + 1) at 2 by lia. rewrite repeat_plus, <- !app_assoc. reflexivity.
      * exists u, b, b, (s :: w :: v). rewrite <- !app_assoc. split; [reflexivity|]. split; [reflexivity|]. split; [assumption|].
        split; [lia | right; discriminate].
      * assumption.
      * rewrite app_length, Nat.even_add, HU0. reflexivity.
  - right. assert (n = 0).
    { destruct n as [|n]; [reflexivity|]. exfalso. replace (S n) with (n + 1) in EA' by lia. replace (S j) with (j + 1) in EA' by lia.
      rewrite !repeat_plus, !app_assoc in EA'. cbn [repeat] in EA'. apply app_inj_tail in EA'. destruct EA'; discriminate. }
    subst n. cbn [repeat] in EA'. rewrite app_nil_r in EA'. exists (u ++ [S j]), 0. split; [|split; [|split]].
    + rewrite EA'. unfold render. rewrite render_from_app_even by auto. cbn [repeat render_from]. now rewrite !app_nil_r.
    + exists u, w, (S j), v. split; [reflexivity|]. split; [reflexivity|]. split; [assumption|]. split; [lia | left; lia].
    + apply Forall_app. split; [assumption|]. constructor; [lia | constructor].
    + rewrite app_length, Nat.even_add, HU. reflexivity.
Qed.
Lemma scan_lights k : scan (repeat 0%N k) = None.
Proof.
  unfold scan. replace (trim (repeat 0%N k)) with (@nil N); [now destruct (forallb _ _)|].
  unfold trim. replace (drop_light (repeat 0%N k)) with (@nil N); [reflexivity|]. induction k; [reflexivity | exact IHk].
Qed.
Lemma cut_right_scan ws k m' : Forall (fun w => 1 <= w) ws -> Nat.even (length ws) = false ->
  cut_right (render ws ++ repeat 0%N k) m' -> scan m' = None \/ exists ws', scan m' = Some ws' /\ short_right ws ws'.
Proof.
  intros HP HO H. destruct (cut_render ws k m' HP HO H) as [->|(ws' & j & -> & HS & HP' & HO')]; [left; reflexivity|].
  right. exists ws'. split; [now apply scan_render_tail | assumption].
Qed.
Lemma short_rev ws ws' : Nat.even (length ws) = false -> short_right (rev ws) ws' -> short_left ws (rev ws').
Proof.
  intros HO (u & w & w' & v & E & -> & HU & Hw & HV). apply (f_equal (@rev nat)) in E. rewrite rev_involutive in E.
  rewrite rev_app_distr in E. cbn [rev] in E. rewrite <- app_assoc in E. cbn [app] in E. exists (rev v), w, w', (rev u).
  split; [assumption|]. split; [now rewrite rev_app_distr|]. split.
  - rewrite E, app_length in HO. cbn [length] in HO. rewrite !rev_length in HO. rewrite rev_length.
    rewrite Nat.even_add, Nat.even_succ, <- Nat.negb_even, HU in HO. now destruct (Nat.even (length v)).
  - split; [assumption|]. destruct HV as [HV|HV]; [now left|]. right. intros E'. apply HV.
    apply (f_equal (@rev nat)) in E'. now rewrite rev_involutive in E'.
Qed.
Lemma cut_left_scan ws k m' : Forall (fun w => 1 <= w) ws -> Nat.even (length ws) = false ->
  cut_left (render ws ++ repeat 0%N k) m' -> scan m' = None \/ exists ws', scan m' = Some ws' /\ short_left ws ws'.
Proof.
  intros HP HO (a & E & Ha). apply (f_equal (@rev N)) in E. rewrite !rev_app_distr, rev_repeat, render_rev in E by assumption.
  assert (HC : (exists j, rev m' = repeat 0%N j) \/ exists m1, rev m' = repeat 0%N k ++ m1 /\ render (rev ws) = m1 ++ rev a).
  { clear - E. revert k E. induction (rev m') as [|x l IH]; intros k E; [left; now exists 0|].
    destruct k as [|k].
    - right. exists (x :: l). cbn [repeat app] in *. auto.
    - cbn [repeat app] in E. injection E as <- E. destruct (IH k E) as [(j & ->)|(m1 & -> & E1)].
      + left. now exists (S j).
      + right. exists m1. auto. }
  destruct HC as [(j & HC)|(m1 & HC & E1)].
  - left. apply (f_equal (@rev N)) in HC. rewrite rev_involutive, rev_repeat in HC. subst m'. apply scan_lights.
  - assert (HR : cut_right (render (rev ws) ++ repeat 0%N 0) m1).
    { exists (rev a). rewrite app_nil_r. split; [assumption | now apply -> in_rev]. }
    apply cut_render in HR; [|now apply Forall_rev | now rewrite rev_length].
    destruct HR as [->|(ws' & j & -> & HS & HP' & HO')].
    + left. rewrite app_nil_r in HC. apply (f_equal (@rev N)) in HC. rewrite rev_involutive, rev_repeat in HC. subst m'. apply scan_lights.
    + right. exists (rev ws'). split; [|now apply short_rev].
      apply (f_equal (@rev N)) in HC. rewrite rev_involutive, !rev_app_distr, !rev_repeat, render_rev, <- app_assoc in HC by assumption. subst m'.
      apply scan_render_quiet; [now apply Forall_rev | now rewrite rev_length].
Qed.

(** ** Blocks *)
Lemma blocks_split {A} K (B : list (list A)) i : Forall (fun b => length b = K) B -> i <= length B ->
  exists x y, B = x ++ y /\ length x = i /\ Forall (fun b => length b = K) x /\ Forall (fun b => length b = K) y /\ length (concat x) = K * i.
Proof.
  intros HF Hi. exists (firstn i B), (skipn i B). rewrite <- (firstn_skipn i B) in HF. apply Forall_app in HF.
  assert (HL : length (firstn i B) = i) by (rewrite firstn_length; lia).
  split; [now rewrite firstn_skipn|]. split; [assumption|]. split; [tauto|]. split; [tauto|].
  rewrite (concat_length_const K) by tauto. now rewrite HL.
Qed.
Lemma concat_blocks_inj {A} K (B B' : list (list A)) : 0 < K -> Forall (fun b => length b = K) B -> Forall (fun b => length b = K) B' ->
  concat B = concat B' -> B = B'.
Proof.
  intros HK H. revert B'. induction H as [|b B Hb HB IH]; intros B' H' E; destruct H' as [|b' B' Hb' HB'].
  - reflexivity.
  - exfalso. apply (f_equal (@length A)) in E. cbn [concat] in E. rewrite app_length in E. cbn [length] in E. lia.
  - exfalso. apply (f_equal (@length A)) in E. cbn [concat] in E. rewrite app_length in E. cbn [length] in E. lia.
  - cbn [concat] in E. apply split_same in E; [|congruence]. destruct E as [-> E]. f_equal. now apply IH.
Qed.
(** A text that starts with whole blocks *)
Lemma blocks_prefix {A} K (B B' : list (list A)) t z : 0 < K -> Forall (fun b => length b = K) B -> Forall (fun b => length b = K) B' ->
  concat B' ++ t = concat B ++ z -> length B' <= length B -> exists B2, B = B' ++ B2 /\ t = concat B2 ++ z /\ Forall (fun b => length b = K) B2.
Proof.
  intros HK HF HF' E HL. destruct (blocks_split K B (length B') HF HL) as (x & y & -> & Lx & Fx & Fy & Lc).
  rewrite concat_app, <- app_assoc in E. apply split_same in E.
  - destruct E as [E1 E2]. apply (concat_blocks_inj K) in E1; try assumption. subst x. exists y. auto.
  - rewrite Lc. now apply concat_length_const.
Qed.
(** A text that ends with whole blocks *)
Lemma blocks_suffix {A} K (B B' : list (list A)) t z : 0 < K -> Forall (fun b => length b = K) B -> Forall (fun b => length b = K) B' ->
  t ++ concat B' ++ z = concat B ++ z -> exists B1, B = B1 ++ B' /\ t = concat B1.
Proof.
  intros HK HF HF' E. rewrite app_assoc in E. apply app_inv_tail in E.
  assert (HL : length B' <= length B).
  { apply (f_equal (@length A)) in E. rewrite app_length, !(concat_length_const K) in E by assumption. nia. }
  destruct (blocks_split K B (length B - length B') HF) as (x & y & -> & Lx & Fx & Fy & Lc); [lia|].
  rewrite app_length in *. rewrite concat_app in E. apply split_same in E.
  - destruct E as [-> E2]. apply (concat_blocks_inj K) in E2; try assumption. subst y. exists x. auto.
  - apply (f_equal (@length A)) in E. rewrite !app_length, (concat_length_const K x), (concat_length_const K y), (concat_length_const K B') in E by assumption.
    rewrite (concat_length_const K x) by assumption. nia.
Qed.

(** ** Characters separated by gaps *)
Local Notation gapped cs := (concat (map (fun c : list nat => c ++ [1]) cs)).
Lemma gap_inj (l l' : list (list nat)) : map (fun c => c ++ [1]) l = map (fun c => c ++ [1]) l' -> l = l'.
Proof.
  revert l'. induction l as [|h l IH]; intros [|h' l'] Q; try discriminate; [reflexivity|]. cbn [map] in Q. injection Q as Q1 Q2.
  apply app_inj_tail in Q1. destruct Q1 as [-> _]. f_equal. now apply IH.
Qed.
Lemma gap_sizes k (l : list (list nat)) : Forall (fun c => length c = k) l -> Forall (fun c => length c = S k) (map (fun c => c ++ [1]) l).
Proof. intros Hl. apply Forall_map. revert Hl. apply Forall_impl. intros c Hc. rewrite app_length, Hc. cbn [length]. lia. Qed.
Lemma gapped_right k ws ws' cs cs' : 0 < k -> Forall (fun c => length c = k) cs -> Forall (fun c => length c = k) cs' ->
  ws ++ [1] = gapped cs -> ws' ++ [1] = gapped cs' -> short_right ws ws' ->
  exists x c0 w w' y, cs = x ++ (c0 ++ [w]) :: y /\ cs' = x ++ [c0 ++ [w']] /\ w' <= w /\ (w' < w \/ y <> []).
Proof.
  intros Hk HF HF' E E' (u & w & w' & v & -> & -> & _ & Hw & HV).
  destruct cs' as [|c' x] using rev_ind; [destruct u; discriminate|]. clear IHx.
  apply Forall_app in HF'. destruct HF' as [HFx HFc]. assert (Hc' : length c' = k) by (inversion HFc; assumption). clear HFc.
  destruct c' as [|e c0] using rev_ind; [cbn [length] in Hc'; lia|]. clear IHc0.
  rewrite map_app, concat_app in E'. cbn [map concat] in E'. rewrite app_nil_r, !app_assoc in E'.
  apply app_inj_tail in E'. destruct E' as [E' _]. apply app_inj_tail in E'. destruct E' as [-> <-].
  rewrite app_length in Hc'. cbn [length] in Hc'.
  assert (E2 : gapped x ++ (c0 ++ w :: v ++ [1]) = concat (map (fun c => c ++ [1]) cs) ++ []).
  { rewrite app_nil_r, <- E, <- !app_assoc. reflexivity. }
  destruct (blocks_prefix (S k) _ (map (fun c => c ++ [1]) x) _ _ (Nat.lt_0_succ k) (gap_sizes k cs HF) (gap_sizes k x HFx) E2) as (B2 & EB & ET & FB).
  { apply (f_equal (@length nat)) in E2. rewrite !app_length, !(concat_length_const (S k)) in E2 by now apply gap_sizes.
    cbn [length] in E2. rewrite !map_length in *. nia. }
  apply map_eq_app in EB. destruct EB as (x1 & y1 & -> & EX & EY). apply gap_inj in EX. subst x1.
  destruct y1 as [|c y]; [subst B2; cbn [map concat app] in ET; now destruct c0|].
  subst B2. cbn [map concat] in ET. rewrite app_nil_r, <- app_assoc in ET.
  apply Forall_app in HF. destruct HF as [_ HF]. assert (Hc : length c = k) by (inversion HF; assumption).
  replace (c0 ++ w :: v ++ [1]) with ((c0 ++ [w]) ++ v ++ [1]) in ET by (now rewrite <- app_assoc).
  apply split_same in ET; [|rewrite app_length, Hc; cbn [length]; lia]. destruct ET as [<- ET].
  exists x, c0, w, w', y. split; [reflexivity|]. split; [reflexivity|]. split; [lia|]. destruct HV as [HV|HV]; [now left|].
  right. intros ->. apply HV. cbn [map concat app] in ET. now apply (app_inj_tail v []) in ET.
Qed.
Lemma gapped_left k ws ws' cs cs' : 0 < k -> Forall (fun c => length c = k) cs -> Forall (fun c => length c = k) cs' ->
  ws ++ [1] = gapped cs -> ws' ++ [1] = gapped cs' -> short_left ws ws' ->
  exists x c0 w w' y, cs = x ++ (w :: c0) :: y /\ cs' = (w' :: c0) :: y /\ w' <= w /\ (w' < w \/ x <> []).
Proof.
  intros Hk HF HF' E E' (v & w & w' & u & -> & -> & _ & Hw & HV).
  destruct cs' as [|c' y]; [discriminate|]. inversion HF' as [|? ? Hc' HFy]; subst.
  destruct c' as [|e c0]; [cbn [length] in *; lia|]. cbn [map concat app] in E'. injection E' as <- E'.
  set (k := length (w' :: c0)) in *.
  assert (E2 : v ++ concat ((w :: c0 ++ [1]) :: map (fun c => c ++ [1]) y) ++ [] = concat (map (fun c => c ++ [1]) cs) ++ []).
  { rewrite !app_nil_r, <- E, <- app_assoc. cbn [concat app]. now rewrite <- E'. }
  apply (blocks_suffix (S k)) in E2; [|lia|now apply gap_sizes|].
  - destruct E2 as (B1 & EB & EV). apply map_eq_app in EB. destruct EB as (x & y1 & -> & EX & EY).
    apply map_eq_cons in EY. destruct EY as (c & y2 & -> & EC & EY). apply gap_inj in EY. subst y2.
    apply (app_inj_tail c (w :: c0)) in EC. destruct EC as [-> _]. exists x, c0, w, w', y.
    split; [reflexivity|]. split; [reflexivity|]. split; [lia|]. destruct HV as [HV|HV]; [now left|]. right. intros ->.
    apply HV. now rewrite EV, <- EX.
  - constructor; [cbn [length app]; rewrite app_length; unfold k; cbn [length]; lia | now apply gap_sizes].
Qed.
(** No start or stop pattern of [S] differs from another, or from a pattern of [T], in the first or last element only. *)
Definition ends_apart (S T : list (list nat)) : bool :=
  forallb (fun p => forallb (fun q => negb (widths_eqb (removelast p) (removelast q)) && negb (widths_eqb (tl p) (tl q))) T) S &&
  forallb (fun p => forallb (fun q => widths_eqb p q || negb (widths_eqb (removelast p) (removelast q)) && negb (widths_eqb (tl p) (tl q))) S) S.
Lemma ends_apart_inner S T p q : ends_apart S T = true -> In p S -> In q T -> removelast p <> removelast q /\ tl p <> tl q.
Proof.
  intros H Hp Hq. apply andb_prop in H. destruct H as [H _]. rewrite forallb_forall in H. specialize (H p Hp).
  rewrite forallb_forall in H. specialize (H q Hq). apply andb_prop in H. destruct H as [H1 H2].
  split; intros E; rewrite E, widths_eqb_refl in *; discriminate.
Qed.
Lemma ends_apart_ends S T p q : ends_apart S T = true -> In p S -> In q S -> removelast p = removelast q \/ tl p = tl q -> p = q.
Proof.
  intros H Hp Hq E. apply andb_prop in H. destruct H as [_ H]. rewrite forallb_forall in H. specialize (H p Hp).
  rewrite forallb_forall in H. specialize (H q Hq). apply orb_prop in H. destruct H as [H|H]; [now apply widths_eqb_eq in H|].
  apply andb_prop in H. destruct H as [H1 H2]. destruct E as [E|E]; rewrite E, widths_eqb_refl in *; discriminate.
Qed.
Lemma gapped_cut k S T ws ws' a mid z a' mid' z' : ends_apart S T = true -> 0 < k ->
  Forall (fun c => length c = k) (a :: mid ++ [z]) -> Forall (fun c => length c = k) (a' :: mid' ++ [z']) ->
  In a S -> In z S -> In a' S -> In z' S -> Forall (fun c => In c T) mid ->
  ws ++ [1] = gapped (a :: mid ++ [z]) -> ws' ++ [1] = gapped (a' :: mid' ++ [z']) -> short_right ws ws' \/ short_left ws ws' -> False.
Proof.
  intros HA Hk HF HF' Ia Iz Ia' Iz' HT E E' [H|H].
  - destruct (gapped_right k ws ws' _ _ Hk HF HF' E E' H) as (x & c0 & w & w' & y & EC & EC' & Hw & HV).
    rewrite app_comm_cons in EC'. apply app_inj_tail in EC'. destruct EC' as [<- ->]. cbn [app] in EC. injection EC as <- EC.
    destruct y as [|y0 y _] using rev_ind.
    + apply app_inj_tail in EC. destruct EC as [_ ->]. destruct HV as [HV|HV]; [|congruence].
      assert (EE : c0 ++ [w] = c0 ++ [w']) by (apply (ends_apart_ends S T); auto; left; now rewrite !removelast_last).
      apply app_inj_tail in EE. lia.
    + rewrite app_comm_cons, app_assoc in EC. apply app_inj_tail in EC. destruct EC as [-> _].
      apply Forall_app in HT. destruct HT as [_ HT]. inversion HT as [|? ? HI _]; subst.
      destruct (ends_apart_inner S T _ _ HA Iz' HI) as [N _]. apply N. now rewrite !removelast_last.
  - destruct (gapped_left k ws ws' _ _ Hk HF HF' E E' H) as (x & c0 & w & w' & y & EC & EC' & Hw & HV).
    injection EC' as -> EC'. destruct x as [|x0 x]; cbn [app] in EC; injection EC as EC1 EC.
    + subst a. destruct HV as [HV|HV]; [|congruence].
      assert (EE : w :: c0 = w' :: c0) by (apply (ends_apart_ends S T); auto).
      injection EE as EE. lia.
    + subst y. rewrite app_comm_cons, app_assoc in EC. apply app_inj_tail in EC. destruct EC as [-> _].
      apply Forall_app in HT. destruct HT as [_ HT]. inversion HT as [|? ? HI _]; subst.
      destruct (ends_apart_inner S T _ _ HA Ia' HI) as [_ N]. now apply N.
Qed.
Lemma read_chars_In l t bs r : read_all (read_char l t) bs = Some r -> Forall (fun b => In b t) bs.
Proof.
  apply read_all_Forall. intros x y E. apply read_char_sound in E. destruct E as (v & E & _). now apply nth_error_In in E.
Qed.
Lemma framed_cells k (a z : list nat) mid : length a = k -> length z = k -> Forall (fun c => length c = k) mid ->
  Forall (fun c => length c = k) (a :: mid ++ [z]).
Proof. intros. constructor; [assumption|]. apply Forall_app. split; [assumption|]. constructor; [assumption | constructor]. Qed.
Lemma c39_cut ws ws' r : read_c39 ws = Some r -> short_right ws ws' \/ short_left ws ws' -> read_c39 ws' = None.
Proof.
  intros H HS. destruct (read_c39 ws') as [r'|] eqn:H'; [exfalso | reflexivity].
  destruct (c39_form _ _ H) as (mid & E & _ & HF & HR). destruct (c39_form _ _ H') as (mid' & E' & _ & HF' & HR').
  refine (gapped_cut 9 [c39_star] c39_table ws ws' _ mid _ _ mid' _ _ _ _ _ _ _ _ _ _ E E' HS); try (now left); try (now apply framed_cells).
  - vm_compute. reflexivity.
  - lia.
  - now apply read_chars_In in HR.
Qed.
Lemma c11_cut ws ws' r : read_c11 ws = Some r -> short_right ws ws' \/ short_left ws ws' -> read_c11 ws' = None.
Proof.
  intros H HS. destruct (read_c11 ws') as [r'|] eqn:H'; [exfalso | reflexivity].
  destruct (c11_form _ _ H) as (mid & raw & E & _ & HF & HR & _). destruct (c11_form _ _ H') as (mid' & raw' & E' & _ & HF' & HR' & _).
  refine (gapped_cut 5 [c11_guard] c11_table ws ws' _ mid _ _ mid' _ _ _ _ _ _ _ _ _ _ E E' HS); try (now left); try (now apply framed_cells).
  - vm_compute. reflexivity.
  - lia.
  - now apply read_chars_In in HR.
Qed.
(** Codabar: the patterns of the characters that are neither start nor stop *)
Definition cod_inner : list (list nat) := firstn 16 cod_table.
Lemma cod_inner_shape b c : read_char cod_chars cod_table b = Some c -> ~ cod_stop c -> In b cod_inner.
Proof.
  intros H Hc. apply read_char_sound in H. destruct H as (v & Hb & Hl).
  assert (Hv : v < 20) by (change 20 with (length cod_chars); apply nth_error_Some; now rewrite Hl).
  destruct (Nat.lt_ge_cases v 16) as [L|L].
  - unfold cod_inner. apply (nth_error_In _ v). rewrite <- Hb. clear - L.
    do 16 (destruct v as [|v]; [reflexivity|]). lia.
  - exfalso. apply Hc. unfold cod_stop. do 16 (destruct v as [|v]; [lia|]). clear - Hv Hl.
    do 4 (destruct v as [|v]; [injection Hl as <-; vm_compute; tauto|]). lia.
Qed.
Lemma cod_form ws t : read_cod ws = Some t -> cod_framed t -> exists a mid z,
  ws ++ [1] = gapped (a :: mid ++ [z]) /\ Forall (fun c => length c = 7) (a :: mid ++ [z]) /\
  In a cod_starts /\ In z cod_starts /\ Forall (fun c => In c cod_inner) mid /\ length ws + 1 = 8 * (2 + length mid).
Proof.
  intros H (a0 & m0 & z0 & -> & Ha & Hz & Hm). apply obind_Some in H. destruct H as [bs [H1 H]].
  apply obind_Some in H. destruct H as [cs [H2 H]]. destruct (gap_blocks 7 ws bs cs H1 H2) as (_ & HF & HE & HL).
  destruct cs as [|a cs]; [discriminate|]. apply read_all_cons in H. destruct H as (y & ys & Ra & H & E). injection E as E1 <-. subst y.
  destruct cs as [|z mid _] using rev_ind; [apply read_all_nil in H; now destruct m0|].
  apply read_all_app in H. destruct H as (rm & rz & Rm & Rz & E). apply read_all_cons in Rz. destruct Rz as (z1 & zs & Rz & Rn & ->).
  apply read_all_nil in Rn. subst zs. apply app_inj_tail in E. destruct E as [<- <-].
  exists a, mid, z. split; [assumption|]. split; [assumption|].
  split; [now apply (cod_stop_shape a a0)|]. split; [now apply (cod_stop_shape z z0)|]. split.
  - clear - Rm Hm. revert m0 Rm Hm. induction mid as [|b mid IH]; intros m0 Rm Hm; [constructor|].
    apply read_all_cons in Rm. destruct Rm as (y & ys & R1 & R2 & ->). inversion Hm; subst.
    constructor; [now apply (cod_inner_shape b y) | now apply (IH ys)].
  - rewrite HL. cbn [length]. rewrite app_length. cbn [length]. lia.
Qed.
Lemma cod_cut ws ws' r r' : read_cod ws = Some r -> cod_framed r -> short_right ws ws' \/ short_left ws ws' -> read_cod ws' = Some r' -> ~ cod_framed r'.
Proof.
  intros H HF HS H' HF'. destruct (cod_form _ _ H HF) as (a & mid & z & E & F & Ia & Iz & Im & _).
  destruct (cod_form _ _ H' HF') as (a' & mid' & z' & E' & F' & Ia' & Iz' & Im' & _).
  refine (gapped_cut 7 cod_starts cod_inner ws ws' a mid z a' mid' z' _ _ F F' Ia Iz Ia' Iz' Im E E' HS); [vm_compute; reflexivity | lia].
Qed.

(** ** Code 93 and Code 128 *)
Lemma c93_form' ws r : read_c93 ws = Some r -> exists mid,
  ws = concat (c93_star :: mid ++ [c93_star]) ++ [1] /\ Forall (fun b => length b = 6) (c93_star :: mid ++ [c93_star]) /\ Forall (fun b => In b c93_table) mid.
Proof.
  intros H. destruct (c93_form _ _ H) as (mid & raw & -> & HR & _ & HF). exists mid. split; [|split].
  - cbn [concat]. rewrite concat_app. cbn [concat]. now rewrite app_nil_r, <- !app_assoc.
  - apply framed_cells; try reflexivity. now apply (sized 6 9).
  - now apply read_chars_In in HR.
Qed.
Lemma c93_star_not : ~ In c93_star c93_table.
Proof. intros H. vm_compute in H. repeat destruct H as [H|H]; try discriminate; contradiction. Qed.
Lemma c93_star_tail : forallb (fun q => negb (widths_eqb (tl c93_star) (tl q))) c93_table = true.
Proof. vm_compute. reflexivity. Qed.
Lemma c93_cut ws ws' r : read_c93 ws = Some r -> short_right ws ws' \/ short_left ws ws' -> read_c93 ws' = None.
Proof.
  intros H HS. destruct (read_c93 ws') as [r'|] eqn:H'; [exfalso | reflexivity].
  destruct (c93_form' _ _ H) as (mid & E & HF & HT). destruct (c93_form' _ _ H') as (mid' & E' & HF' & HT').
  pose proof (f_equal (@length nat) E) as L. pose proof (f_equal (@length nat) E') as L'.
  rewrite app_length, (concat_length_const 6) in L, L' by assumption. cbn [length] in L, L'. rewrite app_length in L, L'. cbn [length] in L, L'.
  destruct HS as [(u & w & w' & v & -> & -> & _ & Hw & HV)|(v & w & w' & u & -> & -> & _ & Hw & HV)].
  - apply app_inj_tail in E'. destruct E' as [-> ->]. rewrite app_length in L. cbn [length] in L.
    rewrite (concat_length_const 6) in L by assumption. cbn [length] in L. rewrite app_length in L. cbn [length] in L.
    destruct (blocks_prefix 6 _ _ _ _ ltac:(lia) HF HF' E) as (B2 & EB & ET & _); [cbn [length]; rewrite !app_length; cbn [length]; lia|].
    cbn [app] in EB. injection EB as EB. destruct B2 as [|b B2].
    + injection ET as -> ->. destruct HV as [HV|HV]; [lia | congruence].
    + destruct B2 as [|b2 B2 _] using rev_ind.
      * apply app_inj_tail in EB. destruct EB as [-> _].
        apply Forall_app in HT. destruct HT as [_ HT]. inversion HT; subst. now apply c93_star_not.
      * rewrite app_comm_cons, app_assoc in EB. apply app_inj_tail in EB. destruct EB as [-> _].
        rewrite <- app_assoc in HT. apply Forall_app in HT. destruct HT as [_ HT]. inversion HT; subst. now apply c93_star_not.
  - cbn [concat c93_star pat map app lit] in E'. 
    assert (E2 : w' :: u = c93_star ++ concat (mid' ++ [c93_star]) ++ [1]) by (rewrite E'; cbn [concat]; now rewrite <- app_assoc).
    clear E'. change c93_star with (1 :: tl c93_star) in E2 at 1. cbn [app] in E2. injection E2 as -> ->.
    assert (E3 : v ++ concat ((w :: tl c93_star) :: mid' ++ [c93_star]) ++ [1] = concat (c93_star :: mid ++ [c93_star]) ++ [1]).
    { rewrite <- E. cbn [concat app]. now rewrite <- !app_assoc. }
    apply (blocks_suffix 6) in E3; [|lia|assumption|now apply framed_cells; [reflexivity | reflexivity | inversion HF' as [|? ? _ HG]; apply Forall_app in HG; tauto]].
    destruct E3 as (B1 & EB & EV). destruct B1 as [|b B1].
    + cbn [app] in EB. apply (f_equal (hd [])) in EB. apply (f_equal (hd 0)) in EB. change (1 = w) in EB.
      subst v. destruct HV as [HV|HV]; [lia | now apply HV].
    + cbn [app] in EB. injection EB as _ EB. rewrite app_comm_cons, app_assoc in EB. apply app_inj_tail in EB. destruct EB as [-> _].
      apply Forall_app in HT. destruct HT as [_ HT]. inversion HT as [|? ? HI _]; subst.
      pose proof c93_star_tail as N. rewrite forallb_forall in N. specialize (N _ HI). cbn [tl] in N. now rewrite widths_eqb_refl in N.
Qed.
Lemma c128_sums : forallb (fun b => Nat.eqb (list_sum b) 11) c128_table = true.
Proof. vm_compute. reflexivity. Qed.
Lemma c128_stop_not : ~ In [2;3;3;1;1;1] c128_table.
Proof. intros H. vm_compute in H. repeat destruct H as [H|H]; try discriminate; contradiction. Qed.
Lemma c128_value_In b v : option_map N.of_nat (which c128_table b) = Some v -> In b c128_table.
Proof. intros H. apply option_map_Some in H. destruct H as (n & H & _). apply which_sound in H. now apply nth_error_In in H. Qed.
Lemma c128_values_In bs vs : read_all (fun b => option_map N.of_nat (which c128_table b)) bs = Some vs -> Forall (fun b => In b c128_table) bs.
Proof. apply read_all_Forall. exact c128_value_In. Qed.
Lemma c128_sum11 b : In b c128_table -> list_sum b = 11.
Proof. intros H. pose proof c128_sums as HT. rewrite forallb_forall in HT. specialize (HT b H). now apply Nat.eqb_eq in HT. Qed.
Lemma c128_cut ws ws' r : read_c128 ws = Some r -> short_right ws ws' \/ short_left ws ws' -> read_c128 ws' = None.
Proof.
  intros H HS. destruct (read_c128 ws') as [r'|] eqn:H'; [exfalso | reflexivity].
  destruct (c128_form _ _ H) as (bs & vs & E & HF & HR & HD). destruct (c128_form _ _ H') as (bs' & vs' & E' & HF' & HR' & HD').
  pose proof (f_equal (@length nat) E) as L. pose proof (f_equal (@length nat) E') as L'.
  rewrite app_length, (concat_length_const 6) in L, L' by assumption. change (length c128_stop) with 7 in L, L'.
  destruct HS as [(u & w & w' & v & -> & -> & _ & Hw & HV)|(v & w & w' & u & -> & -> & _ & Hw & HV)].
  - change c128_stop with ([2;3;3;1;1;1] ++ [2]) in E'. rewrite app_assoc in E'. apply app_inj_tail in E'. destruct E' as [-> ->].
    rewrite !app_length in L, L'. cbn [length] in L, L'. rewrite <- app_assoc in E.
    destruct (blocks_prefix 6 bs bs' _ _ ltac:(lia) HF HF' E) as (B2 & EB & ET & F2); [lia|].
    destruct B2 as [|b B2].
    + injection ET as -> ->. destruct HV as [HV|HV]; [lia | congruence].
    + inversion F2 as [|? ? Hb _]; subst. cbn [concat] in ET. rewrite <- app_assoc in ET.
      apply split_same in ET; [|now rewrite Hb]. destruct ET as [<- _].
      apply c128_values_In, Forall_app in HR. destruct HR as [_ HR]. inversion HR; subst. now apply c128_stop_not.
  - assert (D' : decode_checked vs' <> None) by congruence. apply decode_checked_form in D'. destruct D' as (st & data & -> & Hst & _).
    assert (D : decode_checked vs <> None) by congruence. apply decode_checked_form in D. destruct D as (st0 & data0 & -> & _ & Hd0).
    destruct bs' as [|b' y]; [apply read_all_nil in HR'; discriminate|]. cbn [app] in HR'. apply read_all_cons in HR'.
    destruct HR' as (st1 & ys & R1 & _ & ES). injection ES as <- _. inversion HF' as [|? ? Hb' HFy]; subst.
    destruct b' as [|e c0]; [discriminate|]. cbn [concat app] in E'. injection E' as -> ->.
    assert (E3 : v ++ concat ((w :: c0) :: y) ++ c128_stop = concat bs ++ c128_stop) by (rewrite <- E; reflexivity).
    apply (blocks_suffix 6) in E3; [|lia|assumption|constructor; [exact Hb' | assumption]].
    destruct E3 as (B1 & -> & ->). pose proof HR as HI. apply c128_values_In, Forall_app in HI. destruct HI as [_ HI].
    inversion HI as [|? ? HI1 _]; subst. apply c128_sum11 in HI1. pose proof (c128_sum11 _ (c128_value_In _ _ R1)) as S1.
    cbn [list_sum fold_right] in HI1, S1. assert (w = e) by (unfold list_sum in *; lia). subst e.
    destruct HV as [HV|HV]; [lia|]. destruct B1 as [|b0 B1]; [now apply HV|].
    cbn [app] in HR. apply read_all_cons in HR. destruct HR as (s0 & r0 & _ & HR & ES). injection ES as <- ES.
    apply read_all_app in HR. destruct HR as (ra & rb & _ & HR & ->). apply read_all_cons in HR. destruct HR as (x & xs & R2 & _ & ->).
    rewrite R1 in R2. injection R2 as <-.
    assert (HX : Forall (fun v => v <= 102)%N (data0 ++ [c128_check (st0 :: data0)])).
    { apply Forall_app. split; [assumption|]. constructor; [|constructor].
      assert (c128_check (st0 :: data0) < 103)%N by (unfold c128_check; apply N.mod_lt; lia). lia. }
    rewrite ES in HX. apply Forall_app in HX. destruct HX as [_ HX]. inversion HX; subst. lia.
Qed.

(** ** Retail symbols have a fixed number of elements *)
Lemma halves_cut n ws ws' x x' : read_halves n ws = Some x -> read_halves n ws' = Some x' -> short_right ws ws' \/ short_left ws ws' -> False.
Proof.
  intros H H' HS. pose proof (halves_sig n ws x H) as (_ & L & _). pose proof (halves_sig n ws' x' H') as (_ & L' & _).
  destruct x as [l r]. apply halves_form in H. destruct H as (lb & rb & E & _).
  destruct HS as [(u & w & w' & v & -> & -> & _ & Hw & HV)|(v & w & w' & u & -> & -> & _ & Hw & HV)].
  - rewrite app_length in L, L'; cbn [length] in L, L'. assert (v = []) as -> by (destruct v; [reflexivity | cbn [length] in L; lia]).
    unfold normal_guard at 2 in E. change [1;1;1] with ([1;1] ++ [1]) in E. rewrite !app_assoc in E. apply app_inj_tail in E.
    destruct E as [_ ->]. destruct HV as [HV|HV]; [lia | congruence].
  - rewrite app_length in L; cbn [length] in L, L'. assert (v = []) as -> by (destruct v; [reflexivity | cbn [length] in L; lia]).
    cbn [app normal_guard] in E. injection E as -> _. destruct HV as [HV|HV]; [lia | congruence].
Qed.
Lemma read_halves_of y ws r : (y = SEan13 \/ y = SUpca \/ y = SEan8) -> read_as y ws = Some r ->
  exists x, read_halves (match y with SEan8 => 4 | _ => 6 end) ws = Some x.
Proof.
  intros [->|[->| ->]] H; cbn [read_as] in H; apply option_map_Some in H; destruct H as (l & H & _);
    unfold read_ean13, read_upca, read_ean8 in H; apply obind_Some in H; destruct H as [x [H _]]; now exists x.
Qed.

(** ** Frames around blocks *)
Lemma framed_right K (a a' z z' v : list nat) bs bs' : 0 < K -> length a = length a' -> length z = length z' ->
  Forall (fun b => length b = K) bs -> Forall (fun b => length b = K) bs' ->
  a' ++ concat bs' ++ z' ++ v = a ++ concat bs ++ z -> exists x, bs = bs' ++ x /\ z' ++ v = concat x ++ z.
Proof.
  intros HK La Lz HF HF' E. apply split_same in E; [|now symmetry]. destruct E as [_ E].
  destruct (blocks_prefix K bs bs' _ _ HK HF HF' E) as (x & -> & E2 & _).
  { apply (f_equal (@length nat)) in E. rewrite !app_length, !(concat_length_const K) in E by assumption. nia. }
  now exists x.
Qed.
Lemma framed_left K (a a' z z' v : list nat) bs bs' : 0 < K -> length a = length a' -> length z = length z' ->
  Forall (fun b => length b = K) bs -> Forall (fun b => length b = K) bs' ->
  v ++ a' ++ concat bs' ++ z' = a ++ concat bs ++ z -> exists x, bs = x ++ bs' /\ v ++ a' = a ++ concat x.
Proof.
  intros HK La Lz HF HF' E. pose proof (f_equal (@length nat) E) as L. rewrite !app_length, !(concat_length_const K) in L by assumption.
  assert (LB : length bs' <= length bs) by nia.
  destruct (blocks_split K bs (length bs - length bs') HF ltac:(lia)) as (x & y & -> & Lx & Fx & Fy & Lc).
  exists x. rewrite app_length in Lx. rewrite app_length in L.
  assert (E2 : (v ++ a') ++ concat bs' ++ z' = (a ++ concat x) ++ concat y ++ z).
  { rewrite <- !app_assoc. rewrite E. now rewrite concat_app, <- app_assoc. }
  apply split_same in E2; [|rewrite !app_length, (concat_length_const K) by assumption; nia].
  destruct E2 as [E2 E3]. split; [|exact E2]. apply split_same in E3; [|rewrite !(concat_length_const K) by assumption; nia].
  destruct E3 as [E3 _]. f_equal. now apply (concat_blocks_inj K).
Qed.

(** ** Interleaved 2 of 5 *)
Definition itf_block (b : list nat) : option (list N) :=
  let '(x, y) := unweave b in let? d := read_tf_digit x in let? e := read_tf_digit y in Some [d; e].
Lemma itf_form ws r : read_itf ws = Some r -> exists bs g ds, ws = [1;1;1;1] ++ concat bs ++ [g;1;1] /\
  Forall (fun b => length b = 10) bs /\ read_all itf_block bs = Some ds /\ r = concat ds.
Proof.
  unfold read_itf. destruct (trim_ends 4 3 ws) as [[a body] z] eqn:ET. apply trim_ends_whole in ET. destruct ET as [HW _].
  intros H. apply guard_Some in H. destruct H as [H HR]. apply andb_prop in H. destruct H as [Ha Hz].
  apply widths_eqb_eq in Ha, Hz. apply obind_Some in HR. destruct HR as [bs [HC HR]]. apply obind_Some in HR. destruct HR as [ds [HR E]].
  injection E as <-. apply chop_sound in HC. destruct HC as [HC HF].
  destruct z as [|g [|z1 [|z2 [|? ?]]]]; try discriminate. cbn [squash map] in Hz. injection Hz as _ H1 H2.
  assert (z1 = 1) as -> by (destruct z1 as [|[|[|[|?]]]]; congruence || lia).
  assert (z2 = 1) as -> by (destruct z2 as [|[|[|[|?]]]]; congruence || lia).
  exists bs, g, ds. split; [now rewrite HW, Ha, HC|]. auto.
Qed.
Lemma itf_block_two b ds : itf_block b = Some ds -> length ds = 2.
Proof.
  unfold itf_block. destruct (unweave b) as [x y]. intros H. apply obind_Some in H. destruct H as [d [_ H]].
  apply obind_Some in H. destruct H as [e [_ H]]. now injection H as <-.
Qed.
Lemma itf_blocks_even bs : forall ds, read_all itf_block bs = Some ds -> Nat.even (length (concat ds)) = true /\ (bs <> [] -> concat ds <> []).
Proof.
  induction bs as [|b bs IH]; intros ds H.
  - apply read_all_nil in H. subst. split; [reflexivity | congruence].
  - apply read_all_cons in H. destruct H as (d & ds' & Hd & H & ->). apply itf_block_two in Hd. destruct (IH _ H) as [IE _].
    cbn [concat]. rewrite app_length, Nat.even_add, Hd, IE. split; [reflexivity|]. intros _ E. apply app_eq_nil in E. destruct E as [-> _]. discriminate.
Qed.
Lemma itf_cut_right ws ws' r r' : read_itf ws = Some r -> read_itf ws' = Some r' -> short_right ws ws' ->
  exists e, r = r' ++ e /\ e <> [] /\ Nat.even (length e) = true.
Proof.
  intros H H' (u & w & w' & v & -> & E2 & _ & Hw & HV). apply itf_form in H, H'.
  destruct H as (bs & g & ds & E & HF & HR & ->). destruct H' as (bs' & g' & ds' & E' & HF' & HR' & ->).
  rewrite E2 in E'. change [g';1;1] with ([g';1] ++ [1]) in E'. rewrite !app_assoc in E'. apply app_inj_tail in E'. destruct E' as [-> ->].
  rewrite <- !app_assoc in E. change ([g';1] ++ w :: v) with ([g';1;w] ++ v) in E.
  destruct (framed_right 10 [1;1;1;1] [1;1;1;1] [g;1;1] [g';1;w] v bs bs' ltac:(lia) eq_refl eq_refl HF HF' E) as (x & -> & EX).
  apply read_all_app in HR. destruct HR as (rx & ry & HX & HY & ->). rewrite HX in HR'. injection HR' as ->.
  destruct (itf_blocks_even _ _ HY) as [HE HN]. exists (concat ry). rewrite concat_app. split; [reflexivity|]. split; [|exact HE].
  apply HN. intros ->. cbn [concat app] in EX. injection EX as _ -> ->. destruct HV as [HV|HV]; [lia | congruence].
Qed.
Lemma itf_cut_left ws ws' r r' : read_itf ws = Some r -> read_itf ws' = Some r' -> short_left ws ws' ->
  exists e, r = e ++ r' /\ e <> [] /\ Nat.even (length e) = true.
Proof.
  intros H H' (v & w & w' & u & -> & E2 & _ & Hw & HV). apply itf_form in H, H'.
  destruct H as (bs & g & ds & E & HF & HR & ->). destruct H' as (bs' & g' & ds' & E' & HF' & HR' & ->).
  rewrite E2 in E'. cbn [app] in E'. injection E' as -> ->.
  change (w :: 1 :: 1 :: 1 :: concat bs' ++ [g';1;1]) with ([w;1;1;1] ++ concat bs' ++ [g';1;1]) in E.
  destruct (framed_left 10 [1;1;1;1] [w;1;1;1] [g;1;1] [g';1;1] v bs bs' ltac:(lia) eq_refl eq_refl HF HF' E) as (x & -> & EX).
  apply read_all_app in HR. destruct HR as (rx & ry & HX & HY & ->). rewrite HY in HR'. injection HR' as ->.
  destruct (itf_blocks_even _ _ HX) as [HE HN]. exists (concat rx). rewrite concat_app. split; [reflexivity|]. split; [|exact HE].
  apply HN. intros ->. cbn [concat app] in EX. assert (v = []) as ->.
  { apply (f_equal (@length nat)) in EX. rewrite app_length in EX. cbn [length] in EX. destruct v; [reflexivity | cbn [length] in EX; lia]. }
  injection EX as ->. destruct HV as [HV|HV]; [lia | congruence].
Qed.

(** ** Standard 2 of 5 *)
Definition stf_block (b : list nat) : option N :=
  let '(x, y) := unweave b in guard (widths_eqb y [1; 1; 1; 1; 1]) (read_tf_digit x).
Lemma stf_form ws r : read_stf ws = Some r -> exists a bs z, ws = a ++ concat bs ++ z /\ squash a = [2;1;2;1;1;1] /\ squash z = [2;1;1;1;2] /\
  Forall (fun b => length b = 10) bs /\ read_all stf_block bs = Some r.
Proof.
  unfold read_stf. destruct (trim_ends 6 5 ws) as [[a body] z] eqn:ET. apply trim_ends_whole in ET. destruct ET as [HW _].
  intros H. apply guard_Some in H. destruct H as [H HR]. apply andb_prop in H. destruct H as [Ha Hz].
  apply widths_eqb_eq in Ha, Hz. apply obind_Some in HR. destruct HR as [bs [HC HR]].
  apply chop_sound in HC. destruct HC as [HC HF]. exists a, bs, z. split; [now rewrite HW, HC|]. auto.
Qed.
Lemma squash_length a b : squash a = b -> length a = length b.
Proof. intros <-. unfold squash. now rewrite map_length. Qed.
Lemma squash_two w : (match w with 1 => 1 | 2 | 3 => 2 | _ => 0 end) = 2 -> 2 <= w.
Proof. destruct w as [|[|w]]; [discriminate | discriminate | lia]. Qed.
Lemma stf_cut_right ws ws' r r' : read_stf ws = Some r -> read_stf ws' = Some r' -> List.last ws 0 = 2 -> short_right ws ws' ->
  exists e, r = r' ++ e /\ e <> [].
Proof.
  intros H H' HL (u & w & w' & v & -> & E2 & _ & Hw & HV). apply stf_form in H, H'.
  destruct H as (a & bs & z & E & Ha & Hz & HF & HR). destruct H' as (a' & bs' & z' & E' & Ha' & Hz' & HF' & HR').
  pose proof (squash_length _ _ Ha) as La. pose proof (squash_length _ _ Ha') as La'.
  pose proof (squash_length _ _ Hz) as Lz. pose proof (squash_length _ _ Hz') as Lz'.
  destruct z' as [|g' [|z1 [|z2 [|z3 [|z4 [|? ?]]]]]]; try discriminate. rewrite E2 in E'.
  change [g';z1;z2;z3;z4] with ([g';z1;z2;z3] ++ [z4]) in E'. rewrite !app_assoc in E'. apply app_inj_tail in E'. destruct E' as [-> ->].
  rewrite <- !app_assoc in E. change ([g';z1;z2;z3] ++ w :: v) with ([g';z1;z2;z3;w] ++ v) in E.
  destruct (framed_right 10 a a' z [g';z1;z2;z3;w] v bs bs' ltac:(lia) ltac:(rewrite La, La'; reflexivity) ltac:(rewrite Lz; reflexivity) HF HF' E) as (x & -> & EX).
  apply read_all_app in HR. destruct HR as (rx & ry & HX & HY & ->). rewrite HX in HR'. injection HR' as ->.
  exists ry. split; [reflexivity|]. intros ->. destruct x as [|b x].
  - cbn [concat app] in EX. destruct z as [|? [|? [|? [|? [|z5 [|? ?]]]]]]; try discriminate. injection EX as _ _ _ _ -> ->.
    rewrite last_last in HL. subst z5. cbn [squash map] in Hz'. injection Hz' as _ _ _ _ Hz'. apply squash_two in Hz'.
    destruct HV as [HV|HV]; [lia | congruence].
  - apply read_all_cons in HY. destruct HY as (? & ? & _ & _ & HY). discriminate.
Qed.
Lemma stf_cut_left ws ws' r r' : read_stf ws = Some r -> read_stf ws' = Some r' -> hd 0 ws = 2 -> short_left ws ws' ->
  exists e, r = e ++ r' /\ e <> [].
Proof.
  intros H H' HL (v & w & w' & u & -> & E2 & _ & Hw & HV). apply stf_form in H, H'.
  destruct H as (a & bs & z & E & Ha & Hz & HF & HR). destruct H' as (a' & bs' & z' & E' & Ha' & Hz' & HF' & HR').
  pose proof (squash_length _ _ Ha) as La. pose proof (squash_length _ _ Ha') as La'.
  pose proof (squash_length _ _ Hz) as Lz. pose proof (squash_length _ _ Hz') as Lz'.
  destruct a' as [|a0 a']; [discriminate|]. rewrite E2 in E'. cbn [app] in E'. injection E' as <- ->.
  change (w :: a' ++ concat bs' ++ z') with ((w :: a') ++ concat bs' ++ z') in E.
  destruct (framed_left 10 a (w :: a') z z' v bs bs' ltac:(lia) ltac:(cbn [length] in *; lia) ltac:(rewrite Lz, Lz'; reflexivity) HF HF' E) as (x & -> & EX).
  apply read_all_app in HR. destruct HR as (rx & ry & HX & HY & ->). rewrite HY in HR'. injection HR' as ->.
  exists rx. split; [reflexivity|]. intros ->. destruct x as [|b x].
  - cbn [concat] in EX. rewrite app_nil_r in EX. assert (v = []) as ->.
    { apply (f_equal (@length nat)) in EX. rewrite app_length in EX. cbn [length] in EX, La'. rewrite La in EX. cbn [length] in EX. destruct v; [reflexivity | cbn [length] in EX; lia]. }
    cbn [app hd] in HL. subst w. cbn [squash map] in Ha'. injection Ha' as Ha' _. apply squash_two in Ha'.
    destruct HV as [HV|HV]; [lia | congruence].
  - apply read_all_cons in HX. destruct HX as (? & ? & _ & _ & HX). discriminate.
Qed.

(** ** Add-ons *)
Lemma addon_cells ws l : read_addon_blocks ws = Some l -> l <> [] -> exists c cs,
  ws = [1;1;2] ++ c ++ concat (map (fun c => 1 :: 1 :: c) cs) /\ read_all read_AB (c :: cs) = Some l.
Proof.
  intros H Hn. apply guard_Some in H. destruct H as [H1 H]. apply widths_eqb_eq in H1.
  apply obind_Some in H. destruct H as [bs [HC HR]]. apply chop_sound in HC. destruct HC as [HC _].
  assert (HB : forall bs l, read_all (fun b => guard (widths_eqb (firstn 2 b) addon_separator) (read_AB (skipn 2 b))) bs = Some l ->
    exists cs, bs = map (fun c => 1 :: 1 :: c) cs /\ read_all read_AB cs = Some l).
  { clear. induction bs as [|b bs IH]; intros l H.
    - apply read_all_nil in H. subst. exists []. auto.
    - apply read_all_cons in H. destruct H as (d & ds & Hd & H & ->). destruct (IH _ H) as (cs & -> & HR).
      apply guard_Some in Hd. destruct Hd as [Hb Hd]. apply widths_eqb_eq in Hb. unfold addon_separator in Hb.
      destruct b as [|x [|y b]]; try discriminate. injection Hb as -> ->. cbn [skipn] in Hd.
      exists (b :: cs). split; [reflexivity|]. cbn [read_all]. now rewrite Hd, HR. }
  destruct (HB _ _ HR) as (cs & -> & HR'). destruct cs as [|c cs]; [apply read_all_nil in HR'; congruence|].
  exists c, cs. split; [|exact HR']. remember (skipn 3 ws) as t eqn:Et. cbn [map concat app addon_separator] in HC. injection HC as HC.
  rewrite <- (firstn_skipn 3 ws), H1, <- Et, <- HC. reflexivity.
Qed.
Lemma AB_sum c x : read_AB c = Some x -> list_sum c = 7 /\ length c = 4.
Proof.
  intros H. apply read_AB_sound in H. destruct H as (H & _ & L). split; [|exact L]. apply nth_error_In in H.
  destruct (fst x); cbn in H; repeat destruct H as [<-|H]; try contradiction; reflexivity.
Qed.
Lemma supp_form ws r : read_as SSupp ws = Some r -> exists l, read_addon_blocks ws = Some l /\ (length l = 2 \/ length l = 5) /\ r = Digits (map snd l).
Proof.
  cbn [read_as]. intros H. destruct (read_ean2 ws) as [ds|] eqn:E.
  - injection H as <-. apply obind_Some in E. destruct E as [l [E1 E]]. exists l. split; [assumption|].
    apply obind_Some in E. destruct E as [v [_ E]]. apply guard_Some in E. destruct E as [E EE]. injection EE as <-.
    apply andb_prop in E. destruct E as [E _]. apply Nat.eqb_eq in E. rewrite map_length in E. auto.
  - apply option_map_Some in H. destruct H as [ds [H ->]].
    apply obind_Some in H. destruct H as [l [E1 H]]. exists l. split; [assumption|].
    apply obind_Some in H. destruct H as [v [_ H]]. apply guard_Some in H. destruct H as [H EE]. injection EE as <-.
    apply andb_prop in H. destruct H as [H _]. apply Nat.eqb_eq in H. rewrite map_length in H. auto.
Qed.
Lemma read_AB_all cs : forall l, read_all read_AB cs = Some l -> Forall (fun c => length c = 4 /\ list_sum c = 7) cs /\ length cs = length l.
Proof.
  induction cs as [|c cs IH]; intros l H.
  - apply read_all_nil in H. subst. auto.
  - apply read_all_cons in H. destruct H as (d & ds & Hd & H & ->). destruct (IH _ H) as [HF HL]. apply AB_sum in Hd.
    split; [constructor; [tauto | assumption] | cbn [length]; lia].
Qed.
Ltac four c := let a := fresh "x" in let b := fresh "x" in let d := fresh "x" in let e := fresh "x" in
  destruct c as [|a [|b [|d [|e [|? ?]]]]]; try discriminate.
Lemma supp_shape ws l : read_addon_blocks ws = Some l -> length l = 2 \/ length l = 5 ->
  (length l = 2 /\ exists c1 c2, ws = [1;1;2] ++ c1 ++ [1;1] ++ c2 /\ read_all read_AB [c1;c2] = Some l) \/
  (length l = 5 /\ exists c1 c2 c3 c4 c5, ws = [1;1;2] ++ c1 ++ [1;1] ++ c2 ++ [1;1] ++ c3 ++ [1;1] ++ c4 ++ [1;1] ++ c5 /\ read_all read_AB [c1;c2;c3;c4;c5] = Some l).
Proof.
  intros H HL. destruct (addon_cells ws l H) as (c & cs & -> & HR); [intros ->; destruct HL; discriminate|].
  pose proof (read_AB_all _ _ HR) as [_ HN]. cbn [length] in HN.
  destruct HL as [HL|HL]; rewrite HL in HN; [left | right]; (split; [assumption|]).
  - destruct cs as [|c2 [|? ?]]; try discriminate. exists c, c2. split; [|assumption]. cbn [map concat app]. now rewrite app_nil_r.
  - destruct cs as [|c2 [|c3 [|c4 [|c5 [|? ?]]]]]; try discriminate. exists c, c2, c3, c4, c5. split; [|assumption].
    cbn [map concat app]. now rewrite app_nil_r.
Qed.
Lemma short_length ws ws' : short_right ws ws' \/ short_left ws ws' -> length ws' <= length ws.
Proof.
  intros [(u & w & w' & v & -> & -> & _)|(v & w & w' & u & -> & -> & _)]; rewrite ?app_length; cbn [length]; rewrite ?app_length; cbn [length]; lia.
Qed.
Lemma short_same ws ws' : short_right ws ws' \/ short_left ws ws' -> length ws' = length ws -> list_sum ws' < list_sum ws.
Proof.
  intros [(u & w & w' & v & -> & -> & _ & Hw & HV)|(v & w & w' & u & -> & -> & _ & Hw & HV)] HL; rewrite !app_length in HL; cbn [length] in HL.
  - destruct v; [|cbn [length] in HL; lia]. destruct HV as [HV|HV]; [|congruence]. rewrite !list_sum_app. cbn [list_sum fold_right]. lia.
  - destruct v; [|cbn [length] in HL; lia]. destruct HV as [HV|HV]; [|congruence]. cbn [app list_sum fold_right]. lia.
Qed.
Lemma supp_cut ws ws' r r' : read_as SSupp ws = Some r -> read_as SSupp ws' = Some r' ->
  forall right : bool, (if right then short_right ws ws' else short_left ws ws') ->
  if right then exists l, r = Digits l /\ length l = 5 /\ r' = Digits (firstn 2 l) else False.
Proof.
  intros H H' right HB. assert (HS : short_right ws ws' \/ short_left ws ws') by (destruct right; auto). apply supp_form in H, H'. destruct H as (l & H & HL & ->). destruct H' as (l' & H' & HL' & ->).
  pose proof (short_length _ _ HS) as LE. pose proof (short_same _ _ HS) as LS.
  destruct (supp_shape _ _ H HL) as [(N2 & c1 & c2 & E & HR)|(N5 & c1 & c2 & c3 & c4 & c5 & E & HR)];
  destruct (supp_shape _ _ H' HL') as [(N2' & d1 & d2 & E' & HR')|(N5' & d1 & d2 & d3 & d4 & d5 & E' & HR')];
  pose proof (read_AB_all _ _ HR) as [HF _]; pose proof (read_AB_all _ _ HR') as [HF' _];
  repeat match goal with X : Forall _ (_ :: _) |- _ => let X1 := fresh in let S1 := fresh "S" in let L1 := fresh "L" in
    apply Forall_cons_iff in X; destruct X as [[L1 S1] X] end;
  pose proof (f_equal (@length nat) E) as LL; pose proof (f_equal (@length nat) E') as LL';
  pose proof (f_equal list_sum E) as SS; pose proof (f_equal list_sum E') as SS';
  repeat rewrite app_length in LL; repeat rewrite app_length in LL'; repeat rewrite list_sum_app in SS; repeat rewrite list_sum_app in SS';
  cbn [length list_sum fold_right] in LL, LL', SS, SS'; try lia; try (exfalso; specialize (LS ltac:(lia)); lia).
  clear HS. destruct right; [rename HB into HS | destruct HB as (v & w & w' & u & -> & E2 & _ & Hw & HV)].
  - exists (map snd l). split; [reflexivity|]. split; [now rewrite map_length|]. f_equal.
    destruct HS as (u & w & w' & v & E1 & E2 & _ & Hw & HV).
    four d2. rewrite E2 in E'. change [x;x0;x1;x2] with ([x;x0;x1] ++ [x2]) in E'. rewrite !app_assoc in E'. apply app_inj_tail in E'.
    destruct E' as [EU ->]. rewrite E1, EU in E. rewrite <- !app_assoc in E. apply app_inv_head in E.
    apply split_same in E; [|congruence]. destruct E as [-> E]. apply app_inv_head in E. four c2. cbn [app] in E.
    injection E as <- <- <- -> _.
    assert (x6 = x2) as -> by (unfold list_sum in *; cbn [fold_right] in *; lia).
    change [c1; [x;x0;x1;x2]; c3; c4; c5] with ([c1; [x;x0;x1;x2]] ++ [c3; c4; c5]) in HR.
    apply read_all_app in HR. destruct HR as (ra & rb & HA & _ & ->). rewrite HA in HR'. injection HR' as ->.
    rewrite map_app. rewrite firstn_app, map_length, N2', firstn_all2 by (rewrite map_length; lia). cbn [Nat.sub firstn]. now rewrite app_nil_r.
  - exfalso. assert (LV : length v = 18) by (rewrite E2 in LL'; rewrite app_length in LL; cbn [length] in LL, LL'; lia).
    clear LL LL' SS SS'. rewrite E2 in E'. cbn [app] in E'. injection E' as -> ->.
    assert (EN : nth 20 (v ++ w :: 1 :: 2 :: d1 ++ 1 :: 1 :: d2) 0 = 2).
    { rewrite app_nth2 by lia. replace (20 - length v) with 2 by lia. reflexivity. }
    rewrite E in EN. four c1. four c2. four c3.
Qed.

(** ** All symbologies *)
Lemma stf_ends p s m : barcode SStf p s = Ret (Ok m) -> exists ws, m = render ws ++ [0%N] /\ drawn SStf ws /\ hd 0 ws = 2 /\ List.last ws 0 = 2.
Proof.
  intros H. cbn [barcode] in H. (apply run_Ret in H || apply run_Ok in H). destruct H as [b [HN HE]].
  destruct (stf_accepted s b HN) as [m' [E [-> _]]]. rewrite HE in E. injection E as ->.
  apply tf_standard_Ok in HN. destruct HN as [HD _]. apply digits_of_digits in HD.
  exists (stf_symbol 3 2 (digits_of s)). split; [reflexivity|].
  split; [split; [now apply stf_symbol_odd | now apply stf_symbol_widths]|]. split; [reflexivity|].
  unfold stf_symbol. change [2;1;1;1;2] with ([2;1;1;1] ++ [2]). rewrite !app_assoc. apply last_last.
Qed.
Lemma cut_elements y p s m m' : (str_len s < 2 ^ 48)%N -> barcode y p s = Ret (Ok m) -> exists ws, scan m = Some ws /\
  (y = SStf -> hd 0 ws = 2 /\ List.last ws 0 = 2) /\
  (cut_right m m' -> forall ws', scan m' = Some ws' -> short_right ws ws') /\ (cut_left m m' -> forall ws', scan m' = Some ws' -> short_left ws ws').
Proof.
  intros Hs H. assert (HW : exists ws, m = render ws ++ tail y /\ drawn y ws /\ (y = SStf -> hd 0 ws = 2 /\ List.last ws 0 = 2)).
  { destruct y; try (destruct (barcode_shape _ _ _ _ Hs H) as (ws & E & HD); exists ws; split; [assumption|]; split; [assumption | discriminate]).
    destruct (stf_ends _ _ _ H) as (ws & E & HD & HE). exists ws. auto. }
  destruct HW as (ws & E & HD & HE). destruct (tail_repeat y) as [k Hk]. rewrite Hk in E. exists ws.
  pose proof (shape_pos _ _ HD) as HP. destruct HD as [HO _]. subst m.
  split; [now apply scan_render_tail|]. split; [assumption|]. split; intros HC ws' HS.
  - destruct (cut_right_scan ws k m' HP HO HC) as [E|(ws2 & E & HX)]; rewrite HS in E; [discriminate|]. now injection E as ->.
  - destruct (cut_left_scan ws k m' HP HO HC) as [E|(ws2 & E & HX)]; rewrite HS in E; [discriminate|]. now injection E as ->.
Qed.
Lemma cut_read_as y ws ws' r r' : read_as y ws = Some r -> accepts y r -> read_as y ws' = Some r' -> accepts y r' ->
  short_right ws ws' \/ short_left ws ws' -> y = SItf \/ y = SStf \/ y = SSupp.
Proof.
  intros H HA H' HA' HS. destruct y; auto; exfalso.
  - destruct (read_halves_of SEan13 ws r) as [x E]; auto. destruct (read_halves_of SEan13 ws' r') as [x' E']; auto.
    exact (halves_cut _ _ _ _ _ E E' HS).
  - destruct (read_halves_of SEan8 ws r) as [x E]; auto. destruct (read_halves_of SEan8 ws' r') as [x' E']; auto.
    exact (halves_cut _ _ _ _ _ E E' HS).
  - destruct (read_halves_of SUpca ws r) as [x E]; auto. destruct (read_halves_of SUpca ws' r') as [x' E']; auto.
    exact (halves_cut _ _ _ _ _ E E' HS).
  - apply option_map_Some in H, H'. destruct H as (t & H & _), H' as (t' & H' & _). rewrite (c39_cut _ _ _ H HS) in H'. discriminate.
  - apply option_map_Some in H, H'. destruct H as (t & H & _), H' as (t' & H' & _). rewrite (c39_cut _ _ _ H HS) in H'. discriminate.
  - apply option_map_Some in H, H'. destruct H as (t & H & _), H' as (t' & H' & _). rewrite (c93_cut _ _ _ H HS) in H'. discriminate.
  - apply option_map_Some in H, H'. destruct H as (t & H & _), H' as (t' & H' & _). rewrite (c11_cut _ _ _ H HS) in H'. discriminate.
  - apply option_map_Some in H, H'. destruct H as (t & H & ->), H' as (t' & H' & ->). exact (cod_cut _ _ _ _ H HA HS H' HA').
  - apply option_map_Some in H, H'. destruct H as (t & H & _), H' as (t' & H' & _). rewrite (c128_cut _ _ _ H HS) in H'. discriminate.
Qed.
Lemma cut_right_read y p s m m' r r' : (str_len s < 2 ^ 48)%N -> barcode y p s = Ret (Ok m) -> read_modules y m = Some r -> accepts y r ->
  cut_right m m' -> read_modules y m' = Some r' -> accepts y r' -> lost_right y r r'.
Proof.
  intros Hs H HR HA HC HR' HA'. destruct (cut_elements y p s m m' Hs H) as (ws & HS & HE & HX & _).
  unfold read_modules in HR, HR'. rewrite HS in HR. cbn [obind] in HR. apply obind_Some in HR'. destruct HR' as (ws' & HS' & HR').
  specialize (HX HC ws' HS'). destruct (cut_read_as y ws ws' r r' HR HA HR' HA' (or_introl HX)) as [->|[->| ->]]; cbn [lost_right].
  - apply option_map_Some in HR, HR'. destruct HR as (l & HR & ->), HR' as (l' & HR' & ->).
    destruct (itf_cut_right _ _ _ _ HR HR' HX) as (e & -> & He & Hev). exists l', e. auto.
  - apply option_map_Some in HR, HR'. destruct HR as (l & HR & ->), HR' as (l' & HR' & ->).
    destruct (stf_cut_right _ _ _ _ HR HR' ltac:(now apply HE) HX) as (e & -> & He). exists l', e. auto.
  - destruct (supp_cut _ _ _ _ HR HR' true HX) as (l & -> & HL & ->). now exists l.
Qed.
Lemma cut_left_read y p s m m' r r' : (str_len s < 2 ^ 48)%N -> barcode y p s = Ret (Ok m) -> read_modules y m = Some r -> accepts y r ->
  cut_left m m' -> read_modules y m' = Some r' -> accepts y r' -> lost_left y r r'.
Proof.
  intros Hs H HR HA HC HR' HA'. destruct (cut_elements y p s m m' Hs H) as (ws & HS & HE & _ & HX).
  unfold read_modules in HR, HR'. rewrite HS in HR. cbn [obind] in HR. apply obind_Some in HR'. destruct HR' as (ws' & HS' & HR').
  specialize (HX HC ws' HS'). destruct (cut_read_as y ws ws' r r' HR HA HR' HA' (or_intror HX)) as [->|[->| ->]]; cbn [lost_left].
  - apply option_map_Some in HR, HR'. destruct HR as (l & HR & ->), HR' as (l' & HR' & ->).
    destruct (itf_cut_left _ _ _ _ HR HR' HX) as (e & -> & He & Hev). exists l', e. auto.
  - apply option_map_Some in HR, HR'. destruct HR as (l & HR & ->), HR' as (l' & HR' & ->).
    destruct (stf_cut_left _ _ _ _ HR HR' ltac:(now apply HE) HX) as (e & -> & He). exists l', e. auto.
  - exact (supp_cut _ _ _ _ HR HR' false HX).
Qed.
