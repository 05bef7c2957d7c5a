(** * Several wrong modules *)
From Verif Require Import Rust M_Error Symbology M_Use S_Barcode S_Ean S_Text S_Linear S_Codabar S_Tf S_Code128 S_All S_Damage S_Check128 S_Cell S_Stretch S_Wrong
  P_Rust P_Barcode P_Alphabet P_Weighted P_Code39 P_Code93 P_Code11 P_Code128b P_Check128 P_All P_Apart P_Damage P_Cell P_Cut P_Stretch.
Local Open Scope nat_scope.

(** ** Counting differences *)
Lemma wrong_cons x x' m m' : wrong_modules (x :: m) (x' :: m') = (if (x =? x')%N then 0 else 1) + wrong_modules m m'.
Proof. unfold wrong_modules. cbn [combine filter fst snd]. destruct (x =? x')%N; reflexivity. Qed.
Lemma wrong_app a : forall a' b b', length a = length a' -> wrong_modules (a ++ b) (a' ++ b') = wrong_modules a a' + wrong_modules b b'.
Proof.
  induction a as [|x a IH]; intros [|x' a'] b b' L; try discriminate L; [reflexivity|]. injection L as L.
  cbn [app]. rewrite !wrong_cons, IH by assumption. lia.
Qed.
Lemma wrong_same a : wrong_modules a a = 0.
Proof. induction a as [|x a IH]; [reflexivity|]. rewrite wrong_cons, N.eqb_refl, IH. reflexivity. Qed.
Lemma wrong_zero m : forall m', length m = length m' -> wrong_modules m m' = 0 -> m = m'.
Proof.
  induction m as [|x m IH]; intros [|x' m'] L H; try discriminate L; [reflexivity|]. injection L as L.
  rewrite wrong_cons in H. destruct (N.eqb_spec x x') as [->|]; [|discriminate H]. f_equal. now apply IH.
Qed.
Lemma wrong_one m : forall m', length m = length m' -> wrong_modules m m' = 1 -> one_wrong m m'.
Proof.
  induction m as [|x m IH]; intros [|x' m'] L H; try discriminate. injection L as L.
  rewrite wrong_cons in H. destruct (N.eqb_spec x x') as [->|Hne].
  - destruct (IH m' L H) as (a & z & z' & b & -> & -> & Hz). exists (x' :: a), z, z', b. auto.
  - cbn [Nat.add] in H. injection H as H. apply wrong_zero in H; [|assumption]. subst m'. exists [], x, x', m. auto.
Qed.

(** Dark modules *)
Definition ones (m : list N) : nat := length (filter (fun x => (x =? 1)%N) m).
Lemma ones_app a b : ones (a ++ b) = ones a + ones b.
Proof. unfold ones. now rewrite filter_app, app_length. Qed.
Lemma ones_rev a : ones (rev a) = ones a.
Proof. induction a as [|x a IH]; [reflexivity|]. cbn [rev]. rewrite ones_app, IH, Nat.add_comm, <- ones_app. reflexivity. Qed.
Lemma ones_firstn_le j k A : j <= k -> ones (firstn j A) <= ones (firstn k A).
Proof.
  intros H. rewrite <- (firstn_skipn j (firstn k A)), ones_app, firstn_firstn, Nat.min_l by assumption. lia.
Qed.
Lemma ones_firstn_app j A R : ones (firstn j A) <= ones (firstn j (A ++ R)).
Proof. rewrite firstn_app, ones_app. lia. Qed.
Lemma wrong_lights a : Forall bit a -> wrong_modules a (repeat 0%N (length a)) = ones a.
Proof.
  induction 1 as [|x a Hx _ IH]; [reflexivity|]. cbn [length repeat]. rewrite wrong_cons, IH. unfold ones. cbn [filter].
  destruct Hx as [->| ->]; reflexivity.
Qed.
(** The ends of a picture wiped *)
Lemma wiped m x j k A R A' R' : Forall bit m -> length m = length (repeat 0%N j ++ x ++ repeat 0%N k) ->
  m = A ++ R -> rev m = A' ++ R' ->
  ones (firstn j A) + ones (firstn k A') <= wrong_modules m (repeat 0%N j ++ x ++ repeat 0%N k).
Proof.
  intros HB L E E'. rewrite !app_length, !repeat_length in L.
  set (a := firstn j m). set (b := firstn (length x) (skipn j m)). set (c := skipn (length x) (skipn j m)).
  assert (Em : m = a ++ b ++ c) by (unfold a, b, c; now rewrite !firstn_skipn).
  assert (La : length a = j) by (unfold a; rewrite firstn_length; lia).
  assert (Lb : length b = length x) by (unfold b; rewrite firstn_length, skipn_length; lia).
  assert (Lc : length c = k) by (unfold c; rewrite !skipn_length; lia).
  assert (H1 : ones (firstn j A) <= ones a) by (unfold a; rewrite E; apply ones_firstn_app).
  assert (H2 : ones (firstn k A') <= ones c).
  { replace (ones c) with (ones (firstn k (rev m))); [rewrite E'; apply ones_firstn_app|].
    rewrite Em, !rev_app_distr, <- app_assoc, <- (ones_rev c). f_equal. rewrite <- Lc, <- (rev_length c), firstn_app, firstn_all, Nat.sub_diag.
    cbn [firstn]. apply app_nil_r. }
  rewrite Em in HB |- *. apply Forall_app in HB. destruct HB as [Ba HB]. apply Forall_app in HB. destruct HB as [_ Bc].
  rewrite wrong_app by (rewrite repeat_length; lia). rewrite wrong_app by lia.
  rewrite <- La at 2. rewrite <- Lc at 2. rewrite !wrong_lights by assumption. lia.
Qed.
(** Every way of wiping at least [u] modules leaves [q] differences. *)
Definition wipes (A A' : list N) (u q : nat) : bool :=
  forallb (fun j => q <=? ones (firstn j A) + ones (firstn (u - j) A')) (seq 0 (S u)).
Lemma wipes_sound A A' u q : wipes A A' u q = true -> forall j k, u <= j + k -> q <= ones (firstn j A) + ones (firstn k A').
Proof.
  intros H j k Hjk. unfold wipes in H. rewrite forallb_forall in H.
  assert (HI : In (Nat.min j u) (seq 0 (S u))) by (apply in_seq; lia). specialize (H _ HI). apply Nat.leb_le in H.
  pose proof (ones_firstn_le (Nat.min j u) j A ltac:(lia)). pose proof (ones_firstn_le (u - Nat.min j u) k A' ltac:(lia)). lia.
Qed.

(** ** What a scanned picture looks like *)
Lemma scan_form m ws : scan m = Some ws -> exists j k, m = repeat 0%N j ++ render ws ++ repeat 0%N k.
Proof.
  intros HS. pose proof (bits_of m ws HS) as HB. destruct (runs_form m HB) as (c & F & Hc & HF & ->).
  destruct (scan_core c F ws Hc HF HS) as [E HN].
  assert (G : forall F, F <> [] -> exists k, render F = render (core F) ++ repeat 0%N k).
  { clear. intros F HN. unfold core. destruct (Nat.even (length F)) eqn:EV; [|exists 0; cbn [repeat]; now rewrite app_nil_r].
    destruct F as [|w F _] using rev_ind; [congruence|]. rewrite removelast_last. exists w.
    assert (HO : Nat.even (length F) = false).
    { rewrite app_length, Nat.add_1_r, Nat.even_succ, <- Nat.negb_even in EV. now destruct (Nat.even (length F)). }
    unfold render. rewrite render_from_app_odd by (auto; now right). cbn [render_from]. now rewrite app_nil_r. }
  destruct Hc as [->| ->]; unfold inner in *; cbn [N.eqb] in *.
  - destruct F as [|w F]; [now elim HN|]. cbn [tl] in *. destruct (G F HN) as [k HK]. exists w, k.
    cbn [render_from]. subst ws. change (render_from (1 - 0)%N F) with (render F). now rewrite HK.
  - destruct (G F HN) as [k HK]. exists 0, k. subst ws. cbn [repeat app]. exact HK.
Qed.
Lemma render_bits ws : Forall bit (render ws).
Proof. apply render_from_modules. now right. Qed.

(** ** Differing blocks *)
Fixpoint diffs (bs bs' : list (list nat)) : nat :=
  match bs, bs' with
  | b :: t, b' :: t' => (if list_eq_dec Nat.eq_dec b b' then 0 else 1) + diffs t t'
  | _, _ => 0
  end.
Lemma diffs_zero bs : forall bs', length bs = length bs' -> diffs bs bs' = 0 -> bs = bs'.
Proof.
  induction bs as [|b bs IH]; intros [|b' bs'] L H; try discriminate L; [reflexivity|]. injection L as L. cbn [diffs] in H.
  destruct (list_eq_dec Nat.eq_dec b b') as [->|]; [|discriminate H]. f_equal. now apply IH.
Qed.
Lemma diffs_split n bs : forall bs', length bs = length bs' -> diffs bs bs' = S n ->
  exists x b b' y y', bs = x ++ b :: y /\ bs' = x ++ b' :: y' /\ b <> b' /\ length y = length y' /\ diffs y y' = n.
Proof.
  induction bs as [|b bs IH]; intros [|b' bs'] L H; try discriminate. injection L as L. cbn [diffs] in H.
  destruct (list_eq_dec Nat.eq_dec b b') as [->|Hne].
  - destruct (IH bs' L H) as (x & c & c' & y & y' & -> & -> & R). exists (b' :: x), c, c', y, y'. auto.
  - cbn [Nat.add] in H. injection H as H. exists [], b, b', bs, bs'. auto.
Qed.
Lemma diffs_one bs bs' : length bs = length bs' -> diffs bs bs' = 1 -> one_block bs bs'.
Proof.
  intros L H. destruct (diffs_split 0 bs bs' L H) as (x & b & b' & y & y' & -> & -> & Hb & Ly & D).
  apply diffs_zero in D; [|assumption]. subst y'. exists x, b, b', y. auto.
Qed.
(** Entries of a table of patterns, all of the same number of modules, differ in at least [d] modules. *)
Definition table_apart (c : N) (d s : nat) (t : list (list nat)) : bool :=
  forallb (fun b => Nat.even (length b) && (list_sum b =? s) &&
    forallb (fun b' => widths_eqb b b' || (d <=? wrong_modules (render_from c b) (render_from c b'))) t) t.
Lemma blocks_apart c d s t bs : table_apart c d s t = true -> bit c -> Forall (fun b => In b t) bs -> forall bs', Forall (fun b => In b t) bs' -> length bs = length bs' ->
  d * diffs bs bs' <= wrong_modules (render_from c (concat bs)) (render_from c (concat bs')) /\ list_sum (concat bs) = list_sum (concat bs').
Proof.
  intros HT Hc HF. unfold table_apart in HT. rewrite forallb_forall in HT.
  induction HF as [|b bs Hb _ IH]; intros bs' HF' L; destruct bs' as [|b' bs']; try discriminate L; [cbn; lia|].
  injection L as L. inversion HF' as [|? ? Hb' HF'']; subst. destruct (IH bs' HF'' L) as [IH1 IH2].
  pose proof (HT b Hb) as T. apply andb_prop in T. destruct T as [T T3]. apply andb_prop in T. destruct T as [T1 T2].
  pose proof (HT b' Hb') as T'. apply andb_prop in T'. destruct T' as [T' _]. apply andb_prop in T'. destruct T' as [T1' T2'].
  apply Nat.eqb_eq in T2, T2'. rewrite forallb_forall in T3. specialize (T3 b' Hb').
  cbn [concat]. rewrite !list_sum_app. rewrite !render_from_app_even by assumption.
  rewrite wrong_app by (rewrite !render_from_length; lia). split; [|lia]. cbn [diffs].
  destruct (list_eq_dec Nat.eq_dec b b') as [->|Hne]; [cbn [Nat.add]; lia|].
  apply orb_prop in T3. destruct T3 as [T3|T3]; [apply widths_eqb_eq in T3; contradiction|]. apply Nat.leb_le in T3. lia.
Qed.

(** ** EAN-8 and UPC-A *)
Lemma left_patterns lb : forall l, read_all read_AB lb = Some l -> Forall (fun x => fst x = PA) l -> Forall (fun b => In b setA_table) lb.
Proof.
  induction lb as [|b lb IH]; intros l H HF; [constructor|]. apply read_all_cons in H. destruct H as (z & zs & H1 & H2 & ->).
  inversion HF as [|? ? Hz HF']; subst. constructor; [|now apply (IH zs)].
  apply read_AB_sound in H1. destruct H1 as [H1 _]. rewrite Hz in H1. apply nth_error_In in H1. exact H1.
Qed.
Lemma right_patterns rb r : read_all read_C rb = Some r -> Forall (fun b => In b setC_table) rb.
Proof.
  intros H. refine (read_all_Forall _ _ _ _ _ H). intros b x E. apply read_C_sound in E. destruct E as [E _].
  now apply nth_error_In in E.
Qed.
Lemma four_concat (t x : list (list nat)) : (forall b, In b t -> length b = 4) -> Forall (fun b => In b t) x -> length (concat x) = 4 * length x.
Proof. intros Ht H. apply concat_length_const. revert H. apply Forall_impl. exact Ht. Qed.
Lemma setA_four b : In b setA_table -> length b = 4.
Proof. cbn. intros H. repeat destruct H as [<-|H]; try reflexivity. contradiction. Qed.
Lemma setC_four b : In b setC_table -> length b = 4.
Proof. cbn. intros H. repeat destruct H as [<-|H]; try reflexivity. contradiction. Qed.
Lemma setA_apart : table_apart 0 2 7 setA_table = true. Proof. vm_compute. reflexivity. Qed.
Lemma setC_apart : table_apart 1 2 7 setC_table = true. Proof. vm_compute. reflexivity. Qed.
Lemma all_A n l : parities_eqb (map fst l) (repeat PA n) = true -> Forall (fun x : parity * N => fst x = PA) l.
Proof.
  intros H. apply parities_eqb_sound in H. apply Forall_forall. intros x Hx.
  apply (in_map fst) in Hx. rewrite H in Hx. now apply repeat_spec in Hx.
Qed.
Lemma fixed_wrong n ws ws' l r l' r' : read_halves n ws = Some (l, r) -> read_halves n ws' = Some (l', r') ->
  parities_eqb (map fst l) (repeat PA n) && gs1_validb (map snd l ++ r) = true ->
  parities_eqb (map fst l') (repeat PA n) && gs1_validb (map snd l' ++ r') = true ->
  wrong_modules (render ws) (render ws') < 4 -> ws = ws'.
Proof.
  intros H H' HP HP' HW. pose proof H as K. pose proof H' as K'.
  apply halves_form in H, H'. destruct H as (lb & rb & E & Ll & Lr & RA & RC). destruct H' as (lb' & rb' & E' & Ll' & Lr' & RA' & RC').
  pose proof HP as VP. pose proof HP' as VP'. apply andb_prop in HP, HP'. destruct HP as [HP _], HP' as [HP' _]. apply all_A in HP, HP'.
  pose proof (left_patterns lb l RA HP) as FA. pose proof (left_patterns lb' l' RA' HP') as FA'.
  pose proof (right_patterns rb r RC) as FC. pose proof (right_patterns rb' r' RC') as FC'.
  destruct (blocks_apart 0 2 7 setA_table lb setA_apart (or_introl eq_refl) FA lb' FA' ltac:(lia)) as [A1 A2].
  destruct (blocks_apart 1 2 7 setC_table rb setC_apart (or_intror eq_refl) FC rb' FC' ltac:(lia)) as [C1 C2].
  pose proof (four_concat _ _ setA_four FA) as F1. pose proof (four_concat _ _ setA_four FA') as F1'.
  pose proof (four_concat _ _ setC_four FC) as F2. pose proof (four_concat _ _ setC_four FC') as F2'.
  assert (HR : forall a b, length (concat a) = 4 * n -> length (concat b) = 4 * n ->
    render (normal_guard ++ concat a ++ centre_guard ++ concat b ++ normal_guard) =
    render normal_guard ++ render_from 0 (concat a) ++ render_from 0 centre_guard ++ render_from 1 (concat b) ++ render normal_guard).
  { intros a b La Lb. unfold render. rewrite render_from_app_odd by (reflexivity || now right). change (1 - 1)%N with 0%N.
    rewrite render_from_app_even by ((now left) || (rewrite La; apply even_4)). rewrite render_from_app_odd by (reflexivity || now left).
    change (1 - 0)%N with 1%N. rewrite render_from_app_even by ((now right) || (rewrite Lb; apply even_4)). reflexivity. }
  assert (HS : 2 * diffs lb lb' + 2 * diffs rb rb' <= wrong_modules (render ws) (render ws')).
  { rewrite E, E', !HR by lia. rewrite wrong_app by reflexivity. rewrite wrong_same.
    rewrite wrong_app by (rewrite !render_from_length; lia). rewrite wrong_app by reflexivity. rewrite wrong_same.
    rewrite wrong_app by (rewrite !render_from_length; lia). rewrite wrong_same. lia. }
  destruct (diffs lb lb') as [|[|d]] eqn:D1; [| |lia].
  - apply diffs_zero in D1; [|lia]. subst lb'. destruct (diffs rb rb') as [|[|d]] eqn:D2; [| |lia].
    + apply diffs_zero in D2; [|lia]. subst rb'. congruence.
    + exfalso. apply diffs_one in D2; [|lia]. destruct D2 as (x & b & b' & y & -> & -> & Hb).
      apply Forall_app in FC. destruct FC as [Fx Fy]. apply Forall_app in FC'. destruct FC' as [_ Fy'].
      pose proof (setC_four _ (Forall_inv Fy)) as Lb. pose proof (setC_four _ (Forall_inv Fy')) as Lb'. pose proof (four_concat _ _ setC_four Fx) as Lx.
      rewrite app_length in Lr. cbn [length] in Lr.
      assert (RE : forall b0 : list nat, normal_guard ++ concat lb ++ centre_guard ++ concat (x ++ b0 :: y) ++ normal_guard =
        (normal_guard ++ concat lb ++ centre_guard ++ concat x) ++ b0 ++ concat y ++ normal_guard).
      { intros b0. rewrite concat_app. cbn [concat]. now rewrite <- !app_assoc. }
      rewrite E, RE in K. rewrite E', RE in K'.
      apply (fixed_cell n (repeat PA n) _ b b' _ l r l' r' (length x) K K'); try assumption; [lia|]. right.
      rewrite !app_length. change (length normal_guard) with 3. change (length centre_guard) with 5. lia.
  - exfalso. apply diffs_one in D1; [|lia]. destruct (diffs rb rb') as [|d] eqn:D2; [|lia]. apply diffs_zero in D2; [|lia]. subst rb'.
    destruct D1 as (x & b & b' & y & -> & -> & Hb).
    apply Forall_app in FA. destruct FA as [Fx Fy]. apply Forall_app in FA'. destruct FA' as [_ Fy'].
    pose proof (setA_four _ (Forall_inv Fy)) as Lb. pose proof (setA_four _ (Forall_inv Fy')) as Lb'. pose proof (four_concat _ _ setA_four Fx) as Lx.
    rewrite app_length in Ll. cbn [length] in Ll.
    assert (RE : forall b0 : list nat, normal_guard ++ concat (x ++ b0 :: y) ++ centre_guard ++ concat rb ++ normal_guard =
      (normal_guard ++ concat x) ++ b0 ++ concat y ++ centre_guard ++ concat rb ++ normal_guard).
    { intros b0. rewrite concat_app. cbn [concat]. now rewrite <- !app_assoc. }
    rewrite E, RE in K. rewrite E', RE in K'.
    apply (fixed_cell n (repeat PA n) _ b b' _ l r l' r' (length x) K K'); try assumption; [lia|]. left.
    rewrite app_length. change (length normal_guard) with 3. lia.
Qed.

(** ** Code 39 with check character *)
Lemma diffs_app x : forall x' y y', length x = length x' -> diffs (x ++ y) (x' ++ y') = diffs x x' + diffs y y'.
Proof.
  induction x as [|b x IH]; intros [|b' x'] y y' L; try discriminate L; [reflexivity|]. injection L as L. cbn [app diffs].
  rewrite IH by assumption. lia.
Qed.
Lemma diffs_same x : diffs x x = 0.
Proof. induction x as [|b x IH]; [reflexivity|]. cbn [diffs]. destruct (list_eq_dec Nat.eq_dec b b); [assumption | congruence]. Qed.
Lemma diffs_map (f : list nat -> list nat) : (forall b b', f b = f b' -> b = b') -> forall x x', diffs (map f x) (map f x') = diffs x x'.
Proof.
  intros Hf. induction x as [|b x IH]; intros [|b' x']; try reflexivity. cbn [map diffs]. rewrite IH. f_equal.
  destruct (list_eq_dec Nat.eq_dec b b') as [->|Hne]; destruct (list_eq_dec Nat.eq_dec (f _) _) as [E|E]; try reflexivity; [congruence|].
  elim Hne. now apply Hf.
Qed.
Lemma diffs_ends g x x' : length x = length x' -> diffs (g :: x ++ [g]) (g :: x' ++ [g]) = diffs x x'.
Proof.
  intros L. change (g :: x ++ [g]) with ([g] ++ x ++ [g]). change (g :: x' ++ [g]) with ([g] ++ x' ++ [g]).
  rewrite diffs_app by reflexivity. rewrite diffs_app by assumption. rewrite !diffs_same. lia.
Qed.
Lemma read_chars_In l t mid r : read_all (read_char l t) mid = Some r -> Forall (fun b => In b t) mid.
Proof.
  intros H. refine (read_all_Forall _ _ _ _ _ H). intros b c E. apply P_Apart.read_char_sound in E. destruct E as (v & E & _).
  now apply nth_error_In in E.
Qed.
Lemma read_chars_alphabet l t mid : forall r, read_all (read_char l t) mid = Some r -> Forall (fun c => In c l) r.
Proof.
  induction mid as [|m mid IH]; intros r HR.
  - apply read_all_nil in HR. subst. constructor.
  - apply read_all_cons in HR. destruct HR as (z & zs & Z1 & Z2 & ->). constructor; [now apply read_char_In in Z1 | now apply IH].
Qed.
Local Notation gapped := (fun b : list nat => b ++ [1]).
Lemma gapped_inj (b b' : list nat) : b ++ [1] = b' ++ [1] -> b = b'.
Proof. apply app_inv_tail. Qed.
Lemma render_1 ws : render_from 1 ws = render ws. Proof. reflexivity. Qed.
Lemma c39_apart : table_apart 1 2 13 (map gapped (c39_star :: c39_table)) = true. Proof. vm_compute. reflexivity. Qed.
Lemma odd_render_gap ws n : length ws + 1 = 10 * n -> render (ws ++ [1]) = render ws ++ [0%N].
Proof.
  intros L. unfold render. rewrite render_from_app_odd; [reflexivity | now right|].
  assert (E : Nat.even (length ws + 1) = true) by (rewrite L, Nat.even_mul; reflexivity).
  rewrite Nat.add_1_r, Nat.even_succ, <- Nat.negb_even in E. now destruct (Nat.even (length ws)).
Qed.
Lemma c39_blocks mid r : read_all (read_char c39_chars c39_table) mid = Some r ->
  Forall (fun b => In b (map gapped (c39_star :: c39_table))) (map gapped (c39_star :: mid ++ [c39_star])).
Proof.
  intros Hr. assert (HI : forall b, In b (c39_star :: c39_table) -> In (b ++ [1]) (map gapped (c39_star :: c39_table))) by (intros b; apply (in_map gapped)).
  assert (HS : In (c39_star ++ [1]) (map gapped (c39_star :: c39_table))) by (apply HI, in_eq).
  apply Forall_map. constructor; [exact HS|]. apply Forall_app. split.
  - apply read_chars_In in Hr. revert Hr. apply Forall_impl. intros b Hb. apply HI, in_cons. exact Hb.
  - constructor; [exact HS | constructor].
Qed.
Lemma c39_diffs ws ws' mid mid' n : length mid = length mid' -> length ws + 1 = 10 * n -> length ws' + 1 = 10 * n -> list_sum ws = list_sum ws' ->
  ws ++ [1] = concat (map gapped (c39_star :: mid ++ [c39_star])) -> ws' ++ [1] = concat (map gapped (c39_star :: mid' ++ [c39_star])) ->
  Forall (fun b => In b (map gapped (c39_star :: c39_table))) (map gapped (c39_star :: mid ++ [c39_star])) ->
  Forall (fun b => In b (map gapped (c39_star :: c39_table))) (map gapped (c39_star :: mid' ++ [c39_star])) ->
  2 * diffs mid mid' <= wrong_modules (render ws) (render ws').
Proof.
  intros LM N1 N1' HS EW EW' F F'.
  destruct (blocks_apart 1 2 13 _ _ c39_apart (or_intror eq_refl) F _ F') as [B _].
  { rewrite !map_length. cbn [length]. rewrite !app_length. lia. }
  rewrite (diffs_map gapped gapped_inj), diffs_ends in B by assumption.
  rewrite <- EW, <- EW', (render_1 (ws ++ [1])), (render_1 (ws' ++ [1])), (odd_render_gap ws n), (odd_render_gap ws' n) in B by assumption.
  rewrite wrong_app, wrong_same in B by (unfold render; rewrite !render_from_length; exact HS). lia.
Qed.
Lemma c39_wrong ws ws' r r' : read_c39 ws = Some r -> read_c39 ws' = Some r' -> c39_valid r -> c39_valid r' ->
  list_sum ws = list_sum ws' -> wrong_modules (render ws) (render ws') < 4 -> ws = ws'.
Proof.
  intros H H' V V' HS HW. pose proof (c39_sum ws r H) as (n & N1 & N2). pose proof (c39_sum ws' r' H') as (n' & N1' & N2').
  assert (n' = n) by lia. subst n'.
  destruct (c39_form _ r H) as (mid & EW & EL & _ & HR). destruct (c39_form _ r' H') as (mid' & EW' & EL' & _ & HR').
  assert (LM : length mid = length mid') by lia.
  pose proof (c39_diffs ws ws' mid mid' n LM N1 N1' HS EW EW' (c39_blocks mid r HR) (c39_blocks mid' r' HR')) as B.
  destruct (diffs mid mid') as [|[|d]] eqn:D; [| |lia].
  - apply diffs_zero in D; [|assumption]. subst mid'. rewrite <- EW' in EW. now apply app_inv_tail in EW.
  - exfalso. apply diffs_one in D; [|assumption].
    destruct (one_block_chars _ _ _ _ _ _ c39_nodup D HR HR') as (x & c & c' & y & -> & -> & Hc & HI1 & HI2).
    exact (c39_typo x c y c' (read_chars_alphabet _ _ _ _ HR) HI2 Hc V V').
Qed.

(** ** Code 128 *)
Lemma c128_apart : table_apart 1 2 11 c128_table = true. Proof. vm_compute. reflexivity. Qed.
Lemma c128_wrong ws ws' r r' n : read_c128 ws = Some r -> read_c128 ws' = Some r' -> list_sum ws = 11 * n + 24 -> n <= 103 ->
  list_sum ws = list_sum ws' -> wrong_modules (render ws) (render ws') < 4 -> ws = ws'.
Proof.
  intros H H' HN Hn HS HW.
  destruct (c128_sum_of ws r H) as (k & K1 & K2). destruct (c128_sum_of ws' r' H') as (k' & K1' & K2').
  assert (k' = k) by lia. subst k'. assert (k = n + 1) by lia. subst k.
  destruct (c128_form _ r H) as (bs & vs & EW & HF & HR & HV). destruct (c128_form _ r' H') as (bs' & vs' & EW' & HF' & HR' & HV').
  assert (L1 : length bs = n + 1). { rewrite EW, app_length, (concat_length_const 6 bs) in K1 by assumption. cbn in K1. lia. }
  assert (L2 : length bs' = n + 1). { rewrite EW', app_length, (concat_length_const 6 bs') in K1' by assumption. cbn in K1'. lia. }
  assert (HI : forall bs vs, read_all (fun b => option_map N.of_nat (which c128_table b)) bs = Some vs -> Forall (fun b => In b c128_table) bs).
  { intros b0 v0 R. refine (read_all_Forall _ _ _ _ _ R). intros b x E. apply option_map_Some in E. destruct E as (w & E & _).
    apply which_sound, nth_error_In in E. exact E. }
  destruct (blocks_apart 1 2 11 _ _ c128_apart (or_intror eq_refl) (HI _ _ HR) _ (HI _ _ HR') ltac:(lia)) as [B BS].
  assert (E6 : forall b : list (list nat), Forall (fun c => length c = 6) b -> Nat.even (length (concat b)) = true).
  { intros b Hb. rewrite (concat_length_const 6 b) by assumption. now rewrite Nat.even_mul. }
  rewrite EW, EW' in HW. unfold render in HW. rewrite !render_from_app_even in HW by ((now right) || now apply E6).
  rewrite wrong_app, wrong_same in HW by (rewrite !render_from_length; assumption).
  destruct (diffs bs bs') as [|[|d]] eqn:D; [| |lia].
  - apply diffs_zero in D; [|lia]. subst bs'. congruence.
  - exfalso. apply diffs_one in D; [|lia]. destruct D as (x & b & b' & y & -> & -> & Hb).
    destruct (read_all_changed _ _ _ _ _ _ _ HR HR') as (rx & c & c' & ry & -> & -> & R & R' & Lr).
    apply option_map_Some in R, R'. destruct R as (w & R & ->), R' as (w' & R' & ->). apply which_sound in R, R'.
    destruct (c128_subst rx (N.of_nat w) ry (N.of_nat w')) as [HW0 HY]; [congruence | | congruence |].
    + intros E. apply Nat2N.inj in E. subst w'. congruence.
    + destruct HW0 as (q & Hq & Eq). destruct y as [|y0 y].
      * apply HY. destruct ry; [reflexivity|]. apply read_all_length in HR. rewrite !app_length in HR. cbn [length] in HR. lia.
      * rewrite app_length in L1. cbn [length] in L1. lia.
Qed.

(** ** Code 93: two wrong characters are noticed in messages of up to 14 characters. *)
Fixpoint lin (co : nat -> Z) (i : nat) (l : list N) : Z :=
  match l with
  | [] => 0%Z
  | v :: tl => (co i * Z.of_N v + lin co (S i) tl)%Z
  end.
Lemma lin_app co x : forall i y, lin co i (x ++ y) = (lin co i x + lin co (i + length x) y)%Z.
Proof.
  induction x as [|v x IH]; intros i y; cbn [app lin length]; [rewrite Nat.add_0_r; lia|]. rewrite IH.
  replace (S i + length x) with (i + S (length x)) by lia. lia.
Qed.
Lemma lin_weigh co top l : forall i w, (forall j, j < length l -> co (i + j) = Z.of_nat (w + j)) -> w + length l <= S top ->
  Z.of_N (weigh (N.of_nat top) (N.of_nat w) l) = lin co i l.
Proof.
  induction l as [|v l IH]; intros i w Hco HL; [reflexivity|]. cbn [weigh lin length] in *.
  pose proof (Hco 0 ltac:(lia)) as H0. rewrite !Nat.add_0_r in H0.
  rewrite N2Z.inj_add, N2Z.inj_mul, H0, nat_N_Z. f_equal.
  destruct (N.eqb_spec (N.of_nat w) (N.of_nat top)) as [E|E].
  - apply Nat2N.inj in E. destruct l; [reflexivity | cbn [length] in HL; lia].
  - replace (N.of_nat w + 1)%N with (N.of_nat (S w)) by lia. apply IH; [|lia]. intros j Hj.
    replace (S i + j) with (i + S j) by lia. rewrite Hco by lia. f_equal. lia.
Qed.
Definition coK (i : nat) : Z := match i with 0 => -1 | _ => Z.of_nat i end.
Definition coC (i : nat) : Z := match i with 0 => 0 | 1 => -1 | S j => Z.of_nat j end.
Lemma mod_lin a x l : a = (x mod 47)%N -> Z.of_N x = l -> exists q, (-1 * Z.of_N a + l = 47 * q)%Z.
Proof.
  intros -> <-. exists (Z.of_N (x / 47)). pose proof (N.div_mod x 47 ltac:(discriminate)) as E.
  remember (x mod 47)%N as u. remember (x / 47)%N as v. lia.
Qed.
Lemma last_two (raw : str) r : c93_verify raw = Some r -> exists c k, raw = r ++ [c; k] /\
  c93_value c = check_sum c93_chars 47 20 r /\ c93_value k = check_sum c93_chars 47 15 (r ++ [c]).
Proof.
  intros H. apply obind_Some in H. destruct H as [front [HK HC]].
  assert (G : forall top (cs f : str), verify_last c93_chars 47 top cs = Some f -> exists k, cs = f ++ [k] /\ c93_value k = check_sum c93_chars 47 top f).
  { clear. intros top cs f. unfold verify_last. destruct (rev cs) as [|k front] eqn:E; [discriminate|]. intros H.
    apply guard_Some in H. destruct H as [H1 H2]. injection H2 as <-. apply N.eqb_eq in H1. exists k. split; [|exact H1].
    rewrite <- (rev_involutive cs), E. reflexivity. }
  destruct (G _ _ _ HK) as (k & -> & EK). destruct (G _ _ _ HC) as (c & -> & EC). exists c, k.
  rewrite <- app_assoc. auto.
Qed.
Lemma c93_lin raw r : c93_verify raw = Some r -> length raw <= 16 ->
  (exists q, lin coK 0 (rev (map c93_value raw)) = 47 * q)%Z /\ (exists q, lin coC 0 (rev (map c93_value raw)) = 47 * q)%Z.
Proof.
  intros H L. destruct (last_two raw r H) as (c & k & -> & EC & EK). rewrite app_length in L. cbn [length] in L.
  rewrite map_app, rev_app_distr. cbn [map rev app lin coK coC].
  unfold check_sum, weighted in EC, EK. rewrite map_app, rev_app_distr in EK. cbn [map rev app] in EK.
  change (value c93_chars) with c93_value in *. set (D := rev (map c93_value r)) in *.
  assert (LD : length D = length r) by (unfold D; now rewrite rev_length, map_length). split.
  - refine (mod_lin _ _ _ EK _). change (1 * Z.of_N (c93_value c) + lin coK 2 D)%Z with (lin coK 1 (c93_value c :: D)).
    apply (lin_weigh coK 15 (c93_value c :: D) 1 1); [intros j _; reflexivity | cbn [length]; lia].
  - destruct (mod_lin _ _ (lin coC 2 D) EC) as [q Hq]; [|exists q; lia].
    apply (lin_weigh coC 20 D 2 1); [intros j _; reflexivity | lia].
Qed.
(** No two positions out of sixteen depend on each other. *)
Definition independent : bool :=
  forallb (fun b => forallb (fun a => (b <=? a) || forallb (fun e => negb ((coC a * coK b - coK a * coC b) * Z.of_nat e mod 47 =? 0)%Z) (seq 1 46)) (seq 0 16)) (seq 0 16).
Lemma independent_true : independent = true. Proof. vm_compute. reflexivity. Qed.
Lemma independent_sound a b (e q : Z) : a < b -> b < 16 -> (e <> 0 -> -47 < e -> e < 47 -> (coC a * coK b - coK a * coC b) * e = 47 * q -> False)%Z.
Proof.
  intros Hab Hb He1 He2 He3 HE. pose proof independent_true as HI. unfold independent in HI. rewrite forallb_forall in HI.
  specialize (HI b ltac:(apply in_seq; lia)). rewrite forallb_forall in HI. specialize (HI a ltac:(apply in_seq; lia)).
  apply orb_prop in HI. destruct HI as [HI|HI]; [apply Nat.leb_le in HI; lia|]. rewrite forallb_forall in HI.
  specialize (HI (Z.to_nat (Z.abs e)) ltac:(apply in_seq; lia)). rewrite Z2Nat.id in HI by lia.
  remember (coC a * coK b - coK a * coC b)%Z as d. apply negb_true_iff, Z.eqb_neq in HI. apply HI.
  destruct (Z.abs_eq_or_opp e) as [->| ->].
  - rewrite HE, Z.mul_comm. apply Z.mod_mul. lia.
  - replace (d * - e)%Z with (- q * 47)%Z by lia. apply Z.mod_mul. lia.
Qed.
Lemma c93_value_47 c : In c c93_chars -> (c93_value c < 47)%N.
Proof. intros H. exact (value_lt c93_chars c H). Qed.
Lemma c93_two_chars x c c' y d d' z r r' : c93_verify (x ++ c :: y ++ d :: z) = Some r -> c93_verify (x ++ c' :: y ++ d' :: z) = Some r' ->
  length (x ++ c :: y ++ d :: z) <= 16 -> In c c93_chars -> In c' c93_chars -> c <> c' -> False.
Proof.
  intros H H' L Hc Hc' Hne.
  assert (L' : length (x ++ c' :: y ++ d' :: z) <= 16) by (rewrite !app_length in *; cbn [length] in *; rewrite !app_length in *; exact L).
  destruct (c93_lin _ _ H L) as [[q1 Q1] [q2 Q2]]. destruct (c93_lin _ _ H' L') as [[q1' Q1'] [q2' Q2']].
  assert (E : forall c d, rev (map c93_value (x ++ c :: y ++ d :: z)) =
    rev (map c93_value z) ++ [c93_value d] ++ rev (map c93_value y) ++ [c93_value c] ++ rev (map c93_value x)).
  { intros c0 d0. rewrite map_app. cbn [map]. rewrite map_app. cbn [map]. rewrite rev_app_distr. cbn [rev]. rewrite rev_app_distr. cbn [rev].
    rewrite <- !app_assoc. reflexivity. }
  rewrite E in *. rewrite !lin_app in *. cbn [lin] in *. rewrite !rev_length, !map_length in *. cbn [length] in *.
  set (a := 0 + length z) in *. set (b := a + 1 + length y) in *.
  assert (Hb : b < 16). { unfold b, a. rewrite !app_length in L. cbn [length] in L. rewrite app_length in L. cbn [length] in L. lia. }
  pose proof (c93_value_47 c Hc) as V. pose proof (c93_value_47 c' Hc') as V'.
  assert (VN : c93_value c <> c93_value c') by (intros EV; apply Hne; now apply (value_inj c93_chars)).
  apply (independent_sound a b (Z.of_N (c93_value c) - Z.of_N (c93_value c'))%Z (coC a * (q1 - q1') - coK a * (q2 - q2'))%Z); lia.
Qed.
Lemma c93_apart : table_apart 1 1 9 c93_table = true. Proof. vm_compute. reflexivity. Qed.
(** No two wrong characters get past both check characters. *)
Lemma c93_few_blocks mid mid' raw raw' r r' : read_all (read_char c93_chars c93_table) mid = Some raw -> read_all (read_char c93_chars c93_table) mid' = Some raw' ->
  c93_verify raw = Some r -> c93_verify raw' = Some r' -> length mid <= 16 -> length mid = length mid' -> diffs mid mid' <= 2 -> mid = mid'.
Proof.
  intros HR HR' HV HV' L1 LE HD.
  destruct (diffs mid mid') as [|[|[|d]]] eqn:D; [| | |lia].
  - apply diffs_zero in D; [|lia]. assumption.
  - exfalso. apply diffs_one in D; [|lia].
    destruct (one_block_chars _ _ _ _ _ _ c93_nodup D HR HR') as (x & c & c' & y & -> & -> & Hc & HI1 & HI2).
    unfold c93_verify in HV, HV'. apply obind_Some in HV, HV'. destruct HV as [f [HV _]]. destruct HV' as [f' [HV' _]].
    rewrite (c93_subst 15 x c c' y) in HV'; try assumption; [discriminate | lia |]. rewrite HV. discriminate.
  - exfalso. destruct (diffs_split 1 mid mid' ltac:(lia) D) as (x & b & b' & y & y' & -> & -> & Hb & Ly & D2).
    destruct (diffs_split 0 y y' Ly D2) as (z & e & e' & t & t' & -> & -> & He & Lt & D3). apply diffs_zero in D3; [|exact Lt]. subst t'.
    pose proof (read_all_length _ _ _ HR) as LR.
    assert (SP : forall b e r, read_all (read_char c93_chars c93_table) (x ++ b :: z ++ e :: t) = Some r -> exists rx c ry d rz,
      r = rx ++ c :: ry ++ d :: rz /\ read_all (read_char c93_chars c93_table) x = Some rx /\ read_char c93_chars c93_table b = Some c /\
      read_all (read_char c93_chars c93_table) z = Some ry /\ read_char c93_chars c93_table e = Some d /\ read_all (read_char c93_chars c93_table) t = Some rz).
    { clear. intros b e r H. apply P_Damage.read_all_app in H. destruct H as (rx & r1 & H1 & H2 & ->). apply read_all_cons in H2.
      destruct H2 as (c & r2 & H2 & H3 & ->). apply P_Damage.read_all_app in H3. destruct H3 as (ry & r3 & H3 & H4 & ->). apply read_all_cons in H4.
      destruct H4 as (d & rz & H4 & H5 & ->). exists rx, c, ry, d, rz. auto 8. }
    destruct (SP _ _ _ HR) as (rx & c & ry & d & rz & -> & X1 & X2 & X3 & X4 & X5).
    destruct (SP _ _ _ HR') as (rx' & c' & ry' & d' & rz' & -> & X1' & X2' & X3' & X4' & X5').
    assert (rx' = rx) by congruence. assert (ry' = ry) by congruence. assert (rz' = rz) by congruence. subst rx' ry' rz'.
    apply (c93_two_chars rx c c' ry d d' rz r r' HV HV'); [rewrite LR; lia | now apply read_char_In in X2 | now apply read_char_In in X2'|].
    intros ->. apply Hb. exact (read_char_inj _ _ _ _ _ c93_nodup X2 X2').
Qed.
Lemma c93_wrong ws ws' r r' n : read_c93 ws = Some r -> read_c93 ws' = Some r' -> list_sum ws = 9 * n + 37 -> n <= 14 ->
  list_sum ws = list_sum ws' -> wrong_modules (render ws) (render ws') < 3 -> ws = ws'.
Proof.
  intros H H' HN Hn HS HW.
  destruct (c93_form _ r H) as (mid & raw & EW & HR & HV & HF). destruct (c93_form _ r' H') as (mid' & raw' & EW' & HR' & HV' & HF').
  assert (SU : forall m, Forall (fun b => length b = 6 /\ list_sum b = 9) m -> list_sum (c93_star ++ concat m ++ c93_star ++ [1]) = 9 * length m + 19).
  { intros m Hm. rewrite !list_sum_app, (list_sum_concat 9) by (revert Hm; apply Forall_impl; tauto). change (list_sum c93_star) with 9. cbn [list_sum fold_right]. lia. }
  pose proof (SU mid HF) as S1. pose proof (SU mid' HF') as S2. rewrite <- EW in S1. rewrite <- EW' in S2.
  assert (L1 : length mid = n + 2) by lia. assert (L2 : length mid' = n + 2) by lia.
  pose proof (read_chars_In _ _ _ _ HR) as I1. pose proof (read_chars_In _ _ _ _ HR') as I2.
  destruct (blocks_apart 1 1 9 _ _ c93_apart (or_intror eq_refl) I1 _ I2 ltac:(lia)) as [B BS].
  assert (HX : forall m, Forall (fun b => length b = 6 /\ list_sum b = 9) m ->
    render (c93_star ++ concat m ++ c93_star ++ [1]) = render c93_star ++ render_from 1 (concat m) ++ render (c93_star ++ [1])).
  { intros m Hm. unfold render. rewrite render_from_app_even by (reflexivity || now right). f_equal.
    apply render_from_app_even; [now right|]. rewrite (concat_length_const 6) by (revert Hm; apply Forall_impl; tauto). now rewrite Nat.even_mul. }
  rewrite EW, EW', (HX mid HF), (HX mid' HF') in HW. rewrite wrong_app, wrong_same in HW by reflexivity.
  rewrite wrong_app, wrong_same in HW by (rewrite !render_from_length; exact BS).
  assert (D : mid = mid') by (apply (c93_few_blocks mid mid' raw raw' r r'); (assumption || lia)). congruence.
Qed.

(** ** Wiped ends *)
Definition c39_start : list N := render c39_star.
Lemma c39_ends ws r : read_c39 ws = Some r -> exists R R', render ws = c39_start ++ R /\ rev (render ws) = rev c39_start ++ R'.
Proof.
  intros H. destruct (c39_form _ r H) as (mid & E & _ & HF & _). set (C := concat (map (fun c => c ++ [1]) mid)) in *.
  assert (E2 : ws = (c39_star ++ [1] ++ C) ++ c39_star).
  { apply (app_inv_tail [1]). rewrite E. cbn [map concat]. rewrite map_app, concat_app. fold C. cbn [map concat]. rewrite app_nil_r, <- !app_assoc. reflexivity. }
  assert (EV : Nat.even (length (c39_star ++ [1] ++ C)) = true).
  { rewrite !app_length. assert (LC : length C = 10 * length mid).
    { unfold C. rewrite (concat_length_const 10), map_length; [reflexivity|]. apply Forall_map. revert HF. apply Forall_impl.
      intros b Hb. rewrite app_length, Hb. reflexivity. }
    rewrite LC. change (length c39_star) with 9. cbn [length]. rewrite Nat.add_assoc, Nat.even_add, Nat.even_mul. reflexivity. }
  unfold c39_start. eexists. eexists. split.
  - rewrite E2, <- app_assoc. unfold render. rewrite render_from_app by (now right). reflexivity.
  - rewrite E2. unfold render. rewrite render_from_app_even by ((now right) || exact EV). rewrite rev_app_distr. reflexivity.
Qed.
Lemma c39_wipes : wipes c39_start (rev c39_start) 13 4 = true. Proof. vm_compute. reflexivity. Qed.

Lemma c93_ends ws r : read_c93 ws = Some r -> exists R R', render ws = render c93_star ++ R /\ rev (render ws) = rev (render (c93_star ++ [1])) ++ R'.
Proof.
  intros H. destruct (c93_form _ r H) as (mid & raw & E & _ & _ & HF). apply sized in HF.
  assert (EV : Nat.even (length (c93_star ++ concat mid)) = true).
  { rewrite app_length, (concat_length_const 6 mid) by assumption. change (length c93_star) with 6. rewrite Nat.even_add, Nat.even_mul. reflexivity. }
  eexists. eexists. split.
  - rewrite E. unfold render at 1. rewrite render_from_app by (now right). reflexivity.
  - rewrite E, app_assoc. unfold render. rewrite render_from_app_even by ((now right) || exact EV). rewrite rev_app_distr. reflexivity.
Qed.
Lemma c93_wipes : wipes (render c93_star) (rev (render (c93_star ++ [1]))) 9 3 = true. Proof. vm_compute. reflexivity. Qed.

Lemma c128_ends ws r : read_c128 ws = Some r -> exists st R R', In st [103; 104; 105] /\
  render ws = render (nth st c128_table []) ++ R /\ rev (render ws) = rev (render c128_stop) ++ R'.
Proof.
  intros H. destruct (c128_form _ r H) as (bs & vs & E & HF & HR & HV).
  assert (HN : decode_checked vs <> None) by congruence. apply decode_checked_form in HN. destruct HN as (st & data & Ev & Hst & _).
  destruct bs as [|b bs]; [apply read_all_nil in HR; subst vs; discriminate Ev|].
  apply read_all_cons in HR. destruct HR as (v & vs' & R1 & _ & E1). rewrite Ev in E1. injection E1 as -> _.
  apply option_map_Some in R1. destruct R1 as (w & R1 & ->). apply which_sound in R1. apply (nth_error_nth _ _ []) in R1.
  assert (EV : Nat.even (length (concat (b :: bs))) = true) by (rewrite (concat_length_const 6) by assumption; now rewrite Nat.even_mul).
  exists w. eexists. eexists. split; [|split].
  - cbn [In] in *. lia.
  - rewrite E, R1. cbn [concat]. rewrite <- app_assoc. unfold render. rewrite render_from_app by (now right). reflexivity.
  - rewrite E. unfold render. rewrite render_from_app_even by ((now right) || exact EV). rewrite rev_app_distr. reflexivity.
Qed.
Lemma c128_wipes : forallb (fun st => wipes (render (nth st c128_table [])) (rev (render c128_stop)) 11 4) [103; 104; 105] = true.
Proof. vm_compute. reflexivity. Qed.

(** ** All together *)
Lemma not_wiped m ws ws' j k A A' R R' u q : m = render ws -> length m = length (repeat 0%N j ++ render ws' ++ repeat 0%N k) ->
  m = A ++ R -> rev m = A' ++ R' -> wipes A A' u q = true -> wrong_modules m (repeat 0%N j ++ render ws' ++ repeat 0%N k) < q -> j + k < u.
Proof.
  intros -> L E E' W H. destruct (Nat.lt_ge_cases (j + k) u) as [|HU]; [assumption|].
  pose proof (wiped _ (render ws') j k A R A' R' (render_bits ws) L E E') as B. pose proof (wipes_sound A A' u q W j k HU). lia.
Qed.
Lemma several_wrong y p s m m' r r' : (str_len s < 2 ^ 48)%N -> barcode y p s = Ret (Ok m) -> read_modules y m = Some r ->
  length m = length m' -> wrong_modules m m' < needed y s -> read_modules y m' = Some r' -> verified y r' ->
  m' = m \/ (tolerant y = true /\ r' = r).
Proof.
  intros Hs H HR L HW HR' HV.
  destruct (wrong_modules m m') as [|[|d]] eqn:EW.
  { left. symmetry. now apply wrong_zero. }
  { right. assert (H5 : y = SSupp -> length s = 5).
    { intros ->. cbn [needed] in HW. destruct (Nat.eqb_spec (length s) 5); [assumption | lia]. }
    destruct (one_wrong_read y p s m m' r Hs H HR H5 (wrong_one m m' L EW)) as [E|[ET E]]; [congruence|]. split; congruence. }
  left. rewrite <- EW in HW. assert (H2 : 2 <= wrong_modules m m') by lia. clear EW d.
  destruct (barcode_shape y p s m Hs H) as (ws & Em & HO & HF).
  pose proof (barcode_length y p s m Hs H) as HL. pose proof (barcode_meant y p s m Hs H) as HM.
  assert (H1 : Forall (fun w => 1 <= w) ws) by (revert HF; apply Forall_impl; lia).
  assert (HY : tail y = []) by (destruct y; try reflexivity; cbn [needed] in HW; lia).
  rewrite HY, app_nil_r in Em.
  assert (HS : scan m = Some ws) by (rewrite Em; apply (scan_one ws 0 0); [cbn; now rewrite app_nil_r | assumption | assumption]).
  unfold read_modules in HR, HR', HM. rewrite HS in HR, HM. cbn [obind] in HR, HM. destruct (scan m') as [ws'|] eqn:HS'; [|discriminate HR'].
  cbn [obind] in HR'. destruct (scan_form m' ws' HS') as (j & k & Em').
  assert (LW : list_sum ws = j + list_sum ws' + k).
  { rewrite Em, Em' in L. rewrite !app_length, !repeat_length in L. unfold render in L. rewrite !render_from_length in L. lia. }
  assert (LM : length m = list_sum ws) by (rewrite Em; apply render_from_length).
  assert (FIN : j + k = 0 -> (wrong_modules (render ws) (render ws') < needed y s -> ws = ws') -> m' = m).
  { intros HJ HE. assert (j = 0) by lia. assert (k = 0) by lia. subst j k. cbn [repeat app] in Em'. rewrite app_nil_r in Em'.
    rewrite Em, Em' in HW. now rewrite Em, Em', (HE HW). }
  rewrite Em' in L. rewrite Em' in HW. rewrite Em' in H2.
  destruct y; cbn [needed] in HW, FIN; try lia; cbn [read_as modules_spec] in *.
  - apply option_map_Some in HR, HR'. destruct HR as (l & HR & ->), HR' as (l' & HR' & ->).
    pose proof HR as K. pose proof HR' as K'. apply obind_Some in K, K'. destruct K as [[a b] [K KP]], K' as [[a' b'] [K' KP']].
    pose proof (halves_sum _ _ _ K). pose proof (halves_sum _ _ _ K'). apply FIN; [lia|].
    apply guard_Some in KP, KP'. exact (fixed_wrong 4 ws ws' a b a' b' K K' (proj1 KP) (proj1 KP')).
  - apply option_map_Some in HR, HR'. destruct HR as (l & HR & ->), HR' as (l' & HR' & ->).
    pose proof HR as K. pose proof HR' as K'. apply obind_Some in K, K'. destruct K as [[a b] [K KP]], K' as [[a' b'] [K' KP']].
    pose proof (halves_sum _ _ _ K). pose proof (halves_sum _ _ _ K'). apply FIN; [lia|].
    apply guard_Some in KP, KP'. exact (fixed_wrong 6 ws ws' a b a' b' K K' (proj1 KP) (proj1 KP')).
  - destruct (Nat.eqb_spec (length s) 5); lia.
  - apply option_map_Some in HR, HR'. destruct HR as (l & HR & ->), HR' as (l' & HR' & ->).
    destruct (c39_sum _ _ HR) as (n & _ & S1). destruct (c39_sum _ _ HR') as (n' & _ & S2).
    destruct (c39_ends _ _ HR) as (R & R' & E1 & E2). rewrite <- Em in E1, E2.
    pose proof (not_wiped m ws ws' j k _ _ R R' 13 4 Em L E1 E2 c39_wipes HW) as HJ. assert (j + k = 0) by lia. apply FIN; [assumption|].
    cbn [meant] in HM. destruct HM as (c & V & EV). rewrite HR in EV. cbn [option_map] in EV. injection EV as ->.
    apply (c39_wrong ws ws' _ _ HR HR' V HV). lia.
  - apply option_map_Some in HR, HR'. destruct HR as (l & HR & ->), HR' as (l' & HR' & ->).
    destruct (Nat.leb_spec (length s) 14) as [Hn|]; [|lia].
    destruct (c93_sum _ _ HR) as (n & _ & S1). destruct (c93_sum _ _ HR') as (n' & _ & S2).
    destruct (c93_ends _ _ HR) as (R & R' & E1 & E2). rewrite <- Em in E1, E2.
    pose proof (not_wiped m ws ws' j k _ _ R R' 9 3 Em L E1 E2 c93_wipes HW) as HJ. assert (j + k = 0) by lia. apply FIN; [assumption|].
    apply (c93_wrong ws ws' _ _ (length s) HR HR'); lia.
  - apply option_map_Some in HR, HR'. destruct HR as (l & HR & ->), HR' as (l' & HR' & ->).
    destruct (Nat.leb_spec (length s) 103) as [Hn|]; [|lia].
    destruct (c128_sum_of _ _ HR) as (n & _ & S1). destruct (c128_sum_of _ _ HR') as (n' & _ & S2).
    destruct (c128_ends _ _ HR) as (st & R & R' & Hst & E1 & E2). rewrite <- Em in E1, E2.
    pose proof c128_wipes as W. rewrite forallb_forall in W. specialize (W st Hst).
    pose proof (not_wiped m ws ws' j k _ _ R R' 11 4 Em L E1 E2 W HW) as HJ. assert (j + k = 0) by lia. apply FIN; [assumption|].
    destruct HL as (segs & _ & Es & HL). pose proof (message_values_length segs) as MV. rewrite <- Es in MV.
    apply (c128_wrong ws ws' _ _ (length (message_values segs)) HR HR'); lia.
Qed.
