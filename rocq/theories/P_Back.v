(** * Parts of a symbol, read backwards *)
From Verif Require Import Rust M_Error M_Codabar M_Code128 Symbology M_Use S_Barcode S_Ean S_Text S_Linear S_Codabar S_Tf S_Code128 S_All S_Cut S_Part
  P_Rust P_Barcode P_Parse P_Tf P_All P_Apart P_Damage P_Check128 P_Cell P_Cut P_Stretch P_Wrong P_Blind P_Line
  P_Code39 P_Codabar P_Code128 P_Code128b P_Gs1 P_Ean P_Retail P_Retail2 P_Retail3 P_Supp P_Part.
Local Open Scope nat_scope.

Lemma inside_rev ws ws' : Nat.even (length ws) = false -> Nat.even (length ws') = false -> inside (rev ws) ws' -> inside ws (rev ws').
Proof.
  intros HO HO' (P & w1 & mid & w2 & Q & w1' & w2' & E & -> & EV & H1 & H2 & HV).
  assert (EW : ws = rev Q ++ (w2 :: rev mid ++ [w1]) ++ rev P).
  { rewrite <- (rev_involutive ws), E. cbn [app]. repeat (rewrite ?rev_app_distr; cbn [rev app]). repeat (rewrite <- ?app_assoc; cbn [app]). reflexivity. }
  exists (rev Q), w2, (rev mid), w1, (rev P), w2', w1'. split; [exact EW|]. split; [cbn [rev]; rewrite rev_app_distr; reflexivity|]. split.
  - rewrite EW in HO. rewrite !app_length in HO. cbn [length] in HO, HO'. rewrite !app_length in HO, HO'. rewrite !rev_length in *. cbn [length] in HO, HO'.
    replace (length Q + (S (length mid + 1) + length P)) with (length Q + length P + S (length mid + 1)) in HO by lia.
    rewrite Nat.even_add, HO' in HO. rewrite Nat.even_add, EV in HO. now destruct (Nat.even (length Q)).
  - split; [exact H2|]. split; [exact H1|].
    assert (NE : forall l : list nat, l <> [] -> rev l <> []).
    { intros l N N'. apply N. apply (f_equal (@rev nat)) in N'. now rewrite rev_involutive in N'. }
    destruct HV as [HV|[HV|HV]]; [right; left; auto | left; auto | tauto].
Qed.

(** ** Windows that do not end in the last character *)
Lemma walk_in K f off R T Y e z s t : closed off R T Y = true -> never f off R (e :: T) = true -> off <= K ->
  length z = K -> f z = true -> length t < off -> length e = K ->
  forall ys b B, In b R -> length b = K -> Forall (fun b => In b T) B -> Forall (fun b => length b = K) B ->
  Forall (fun b => In b Y) ys -> Forall (fun b => length b = K) ys ->
  skipn off b ++ concat (B ++ [e]) ++ t = concat ys ++ z ++ s -> False.
Proof.
  intros HC HN Ho Lz Fz Hl Le. induction ys as [|y ys IH]; intros b B Ib Lb IB FB IY FY E;
    (assert (FE : Forall (fun b => length b = K) (B ++ [e])) by (apply Forall_app; split; [exact FB | constructor; [exact Le | constructor]])).
  - cbn [concat app] in E. destruct (step K off b (B ++ [e]) t z s Ho Lb FE Lz ltac:(lia) E) as (b' & B' & EB & EW & _).
    assert (Ib' : In b' (e :: T)).
    { destruct B as [|b1 B]; cbn [app] in EB; injection EB as <- _; [now left | right; exact (Forall_inv IB)]. }
    unfold never in HN. rewrite forallb_forall in HN. specialize (HN b Ib). rewrite forallb_forall in HN. specialize (HN b' Ib').
    rewrite EW, Fz in HN. discriminate.
  - cbn [concat] in E. rewrite <- app_assoc in E. destruct (step K off b (B ++ [e]) t y (concat ys ++ z ++ s) Ho Lb FE (Forall_inv FY)) as (b' & B' & EB & EW & E').
    { lia. }
    { exact E. }
    destruct B as [|b1 B]; cbn [app] in EB; injection EB as <- <-.
    + apply (f_equal (@length nat)) in E'. rewrite !app_length, skipn_length, Le in E'. cbn [concat length] in E'. lia.
    + apply (IH b1 B); try (now apply Forall_inv_tail in IB); try (now apply Forall_inv_tail in FB); try (now apply Forall_inv_tail in IY);
        try (now apply Forall_inv_tail in FY); try assumption; [|exact (Forall_inv FB)].
      unfold closed in HC. rewrite forallb_forall in HC. specialize (HC b Ib). rewrite forallb_forall in HC. specialize (HC b1 (Forall_inv IB)).
      rewrite EW, (existsb_In y) in HC by exact (Forall_inv IY). cbn [negb] in HC. rewrite orb_false_r in HC. now apply In_existsb.
Qed.
Definition firsts (f : list nat -> bool) off (A T R : list (list nat)) : bool :=
  forallb (fun b => forallb (fun b' => negb (f (window off b b')) || existsb (widths_eqb b') R) T) A.
(** Neither window can be reached: the first one is nowhere, or nothing behind it leads to the last one. *)
Definition apart (f0 f : list nat -> bool) (A T Y R : list (list nat)) (e : list nat) (t off : nat) : bool :=
  never f0 off A (e :: T) || (t <? off) && firsts f0 off A T R && closed off R T Y && never f off R (e :: T).
Lemma back_part K f0 f A T Y R e t P b0 B1 z0 ys z s : length t < K -> length e = K ->
  length b0 = K -> Forall (fun b => length b = K) B1 -> In b0 A -> Forall (fun b => In b A) T -> Forall (fun b => In b T) B1 ->
  (forall off q, length P = K * q + off -> off < K -> apart f0 f A T Y (R off) e (length t) off = true) ->
  length z0 = K -> f0 z0 = true -> length z = K -> f z = true -> Forall (fun b => In b Y) ys -> Forall (fun b => length b = K) ys ->
  concat (b0 :: B1 ++ [e]) ++ t = P ++ z0 ++ concat ys ++ z ++ s -> False.
Proof.
  intros Ht Le Lb0 F1 I0 TA I1 HAP L0 F0 Lz Fz IY FY EX.
  assert (HF : Forall (fun b => length b = K) (b0 :: B1 ++ [e])) by (constructor; [exact Lb0|]; apply Forall_app; split; [exact F1 | constructor; [exact Le | constructor]]).
  destruct (split_block K _ t P _ ltac:(lia) HF EX) as (x & b & y & off & HB & Ho & LP & EP & EY).
  { apply (f_equal (@length nat)) in EX. rewrite !app_length, (concat_length_const K _ HF) in EX. lia. }
  specialize (HAP off (length x) LP Ho).
  destruct y as [|y0 y _] using rev_ind.
  { rewrite app_comm_cons in HB. apply app_inj_tail in HB. destruct HB as [_ <-].
    apply (f_equal (@length nat)) in EY. rewrite !app_length, skipn_length, Le in EY. cbn [concat length] in EY. lia. }
  rewrite app_comm_cons, app_comm_cons, app_assoc in HB. apply app_inj_tail in HB. destruct HB as [HB <-].
  assert (FB : Forall (fun b => length b = K) (x ++ b :: y)) by (rewrite <- HB; now constructor).
  apply Forall_app in FB. destruct FB as [_ FB].
  assert (IB : In b A /\ Forall (fun b => In b T) y).
  { destruct x as [|x0 x]; cbn [app] in HB; injection HB as E1 E2; [subst b y; auto|].
    rewrite E2 in I1. apply Forall_app in I1. destruct I1 as [_ I1]. inversion I1; subst. rewrite Forall_forall in TA. auto. }
  destruct IB as [IB IT].
  destruct (step K off b (y ++ [e]) t z0 (concat ys ++ z ++ s)) as (b' & B' & EB & EW & EY').
  { lia. } { exact (Forall_inv FB). } { apply Forall_app. split; [exact (Forall_inv_tail FB) | constructor; [exact Le | constructor]]. }
  { exact L0. } { rewrite !app_length. lia. } { now symmetry. }
  assert (Ib' : In b' (e :: T)).
  { destruct y as [|b1 y]; cbn [app] in EB; injection EB as <- _; [now left | right; exact (Forall_inv IT)]. }
  unfold apart in HAP. apply orb_prop in HAP. destruct HAP as [HAP|HAP].
  - unfold never in HAP. rewrite forallb_forall in HAP. specialize (HAP b IB). rewrite forallb_forall in HAP. specialize (HAP b' Ib').
    rewrite EW, F0 in HAP. discriminate HAP.
  - apply andb_prop in HAP. destruct HAP as [HAP HN]. apply andb_prop in HAP. destruct HAP as [HAP HC]. apply andb_prop in HAP. destruct HAP as [HT HI].
    apply Nat.ltb_lt in HT. destruct y as [|b1 y]; cbn [app] in EB; injection EB as <- <-.
    + apply (f_equal (@length nat)) in EY'. rewrite !app_length, skipn_length, Le in EY'. cbn [concat length] in EY'. lia.
    + apply Forall_inv_tail in FB. 
      refine (walk_in K f off (R off) T Y e z s t HC HN ltac:(lia) Lz Fz HT Le ys b1 y _ (Forall_inv FB) (Forall_inv_tail IT) (Forall_inv_tail FB) IY FY EY').
      unfold firsts in HI. rewrite forallb_forall in HI. specialize (HI b IB). rewrite forallb_forall in HI. specialize (HI b1 (Forall_inv IT)).
      rewrite EW, F0 in HI. cbn [negb orb] in HI. now apply In_existsb.
Qed.
(** The characters a window can end in: behind the first window, and then on and on *)
Definition grow off (Y T R : list (list nat)) : list (list nat) :=
  R ++ filter (fun b' => existsb (fun b => existsb (widths_eqb (window off b b')) Y) R && negb (existsb (widths_eqb b') R)) T.
Definition begin (f0 : list nat -> bool) off (A T : list (list nat)) : list (list nat) :=
  filter (fun b' => existsb (fun b => f0 (window off b b')) A) T.
Definition reached f0 off A T Y : list (list nat) := grow off Y T (grow off Y T (grow off Y T (begin f0 off A T))).

Lemma odd_offset P q off : Nat.even P = false -> P = 6 * q + off -> off < 6 -> In off [1; 3; 5].
Proof.
  intros HP -> Ho. rewrite Nat.even_add, Nat.even_mul in HP. cbn [Nat.even orb] in HP.
  do 6 (destruct off as [|off]; [try discriminate HP; cbn; tauto|]). lia.
Qed.
Lemma even_offset8 P q off : Nat.even P = true -> P = 8 * q + off -> off < 8 -> In off [0; 2; 4; 6].
Proof.
  intros HP -> Ho. rewrite Nat.even_add, Nat.even_mul in HP. cbn [Nat.even orb] in HP.
  do 8 (destruct off as [|off]; [try discriminate HP; cbn; tauto|]). lia.
Qed.

(** ** Code 93 and Code 128: blocks of six, and a bar at the end *)
(** The last window may end in a bar that is cut off. *)
Definition narrower (z : list nat) (w : list nat) : bool := widths_eqb (removelast z) (firstn 5 w) && (List.last z 0 <=? nth 5 w 0).
Lemma six_back (A T Y : list (list nat)) (R : nat -> list (list nat)) f0 (F : list (list nat)) e w ws ws' b0 B1 z0 ys zl :
  forallb (fun off => apart f0 (fun x => existsb (fun z => narrower z x) F) A T Y (R off) e 1 off) [1; 3; 5] = true ->
  length e = 6 -> length b0 = 6 -> Forall (fun b => length b = 6) B1 -> In b0 A -> Forall (fun b => In b A) T -> Forall (fun b => In b T) B1 ->
  length z0 = 6 -> f0 z0 = true -> length zl = 6 -> In zl F -> Forall (fun b => In b Y) ys -> Forall (fun b => length b = 6) ys ->
  ws = concat (b0 :: B1 ++ [e]) ++ [w] -> rev ws' = w :: z0 ++ concat ys ++ zl -> inside ws (rev ws') -> False.
Proof.
  intros W Le Lb0 F1 I0 TA I1 L0 F0 Lz Iz IY FY EW EW' (P & w1 & mid & w2 & Q & w1' & w2' & E & E' & EV & H1 & H2 & _).
  destruct zl as [|zz z5 _] using rev_ind; [discriminate Lz|]. rewrite app_length in Lz. cbn [length] in Lz.
  assert (HM : mid = z0 ++ concat ys ++ z5 /\ w2' = zz).
  { rewrite E' in EW'. injection EW' as _ T2. rewrite !app_assoc in T2. apply app_inj_tail in T2. destruct T2 as [-> ->]. now rewrite <- app_assoc. }
  destruct HM as [-> ->].
  refine (back_part 6 f0 (fun x => existsb (fun z => narrower z x) F) A T Y R e [w] (P ++ [w1]) b0 B1 z0 ys (z5 ++ [w2]) Q ltac:(cbn; lia) Le Lb0 F1 I0 TA I1
    _ L0 F0 _ _ IY FY _).
  - intros off q LP Ho. rewrite forallb_forall in W. apply W. apply (odd_offset (length (P ++ [w1])) q); [|exact LP | exact Ho].
    rewrite app_length, Nat.even_add, EV. reflexivity.
  - rewrite app_length. cbn [length]. lia.
  - apply existsb_exists. exists (z5 ++ [zz]). split; [exact Iz|]. unfold narrower. rewrite removelast_last, last_last.
    replace (firstn 5 (z5 ++ [w2])) with z5 by (replace 5 with (length z5) by lia; rewrite firstn_app, Nat.sub_diag, firstn_all; cbn [firstn]; now rewrite app_nil_r).
    rewrite widths_eqb_refl. replace 5 with (length z5) by lia. rewrite app_nth2, Nat.sub_diag by lia. cbn [nth andb]. apply Nat.leb_le. lia.
  - rewrite <- EW, E. cbn [app]. repeat (rewrite <- ?app_assoc; cbn [app]). reflexivity.
Qed.
Definition flipped (l : list (list nat)) : list (list nat) := map (@rev nat) l.
Lemma flipped_In l bs : Forall (fun b => In b l) bs -> Forall (fun b => In b (flipped l)) (map (@rev nat) (rev bs)).
Proof. intros H. apply Forall_map, Forall_rev. revert H. apply Forall_impl. intros b Hb. now apply (in_map (@rev nat)). Qed.
Lemma flipped_len k bs : Forall (fun b : list nat => length b = k) bs -> Forall (fun b => length b = k) (map (@rev nat) (rev bs)).
Proof. intros H. apply Forall_map, Forall_rev. revert H. apply Forall_impl. intros b Hb. now rewrite rev_length. Qed.
Lemma rev_concat (bs : list (list nat)) : rev (concat bs) = concat (map (@rev nat) (rev bs)).
Proof.
  induction bs as [|b bs IH]; [reflexivity|]. cbn [concat rev]. rewrite rev_app_distr, IH, map_app, concat_app. cbn [map concat]. now rewrite app_nil_r.
Qed.
Definition back_reach f0 (A T : list (list nat)) off : list (list nat) := reached f0 off A T (flipped T).
Lemma framed_back st T A e ws ws' b0 B1 mid' z w (F : list (list nat)) :
  forallb (fun off => apart (widths_eqb (rev e)) (fun x => existsb (fun z => narrower z x) F) A T (flipped T) (back_reach (widths_eqb (rev e)) A T off) e 1 off) [1; 3; 5] = true ->
  length e = 6 -> A = st :: T \/ A = T -> In b0 A -> length b0 = 6 -> Forall (fun b => length b = 6) B1 -> Forall (fun b => In b T) B1 ->
  length z = 6 -> In (rev z) F -> Forall (fun b => In b T) mid' -> Forall (fun b => length b = 6) mid' ->
  ws = concat (b0 :: B1 ++ [e]) ++ [w] -> ws' = concat (z :: mid' ++ [e]) ++ [w] -> inside ws (rev ws') -> False.
Proof.
  intros W Le EA I0 Lb0 F1 I1 Lz Iz IM FM EW EW' HI.
  refine (six_back A T (flipped T) (back_reach (widths_eqb (rev e)) A T) (widths_eqb (rev e)) F e w ws ws' b0 B1 (rev e) (map (@rev nat) (rev mid')) (rev z)
    W Le Lb0 F1 I0 _ I1 _ (widths_eqb_refl _) _ Iz (flipped_In _ _ IM) (flipped_len _ _ FM) EW _ HI).
  - apply Forall_forall. intros b Hb. destruct EA as [-> | ->]; [now right | exact Hb].
  - now rewrite rev_length.
  - now rewrite rev_length.
  - rewrite EW', rev_app_distr, rev_concat. cbn [rev app]. rewrite rev_app_distr. cbn [rev app map concat]. rewrite map_app, concat_app. cbn [map concat].
    now rewrite app_nil_r.
Qed.
Lemma c93_back_windows : forallb (fun off => apart (widths_eqb (rev c93_star)) (fun x => existsb (fun z => narrower z x) [rev c93_star]) c93_all c93_table (flipped c93_table)
  (back_reach (widths_eqb (rev c93_star)) c93_all c93_table off) c93_star 1 off) [1; 3; 5] = true.
Proof. vm_compute. reflexivity. Qed.
Lemma c93_all_eq : c93_all = c93_star :: c93_table.
Proof. reflexivity. Qed.
Lemma c93_star_len : length c93_star = 6.
Proof. reflexivity. Qed.
Lemma c93_star_In : In c93_star c93_all.
Proof. unfold c93_all. exact (in_eq c93_star c93_table). Qed.
Lemma c93_back_blocks ws ws' mid mid' :
  ws = concat (c93_star :: mid ++ [c93_star]) ++ [1] -> ws' = concat (c93_star :: mid' ++ [c93_star]) ++ [1] ->
  Forall (fun b => In b c93_table) mid -> Forall (fun b => In b c93_table) mid' ->
  Forall (fun b => length b = 6) mid -> Forall (fun b => length b = 6) mid' -> inside ws (rev ws') -> False.
Proof.
  pose proof c93_back_windows as W. pose proof c93_star_len as LS. pose proof (or_introl (B := c93_all = c93_table) c93_all_eq) as EA. pose proof c93_star_In as I0.
  revert W LS EA I0. generalize c93_star, c93_table, c93_all. intros st T A W LS EA I0 EB EB' HT HT' HF HF' HI.
  exact (framed_back st T A st ws ws' st mid mid' st 1 [rev st] W LS EA I0 LS HF HT LS (in_eq _ _) HT' HF' EB EB' HI).
Qed.
Lemma c93_back ws ws' r r' : read_c93 ws = Some r -> read_c93 ws' = Some r' -> inside ws (rev ws') -> False.
Proof.
  intros H H' HI. destruct (c93_form' _ _ H) as (mid & EB & HF & HT). destruct (c93_form' _ _ H') as (mid' & EB' & HF' & HT').
  apply Forall_inv_tail, Forall_app in HF, HF'. exact (c93_back_blocks ws ws' mid mid' EB EB' HT HT' (proj1 HF) (proj1 HF') HI).
Qed.

(** ** Code 128 *)
Lemma c128_back_windows : forallb (fun off => apart (widths_eqb (rev c128_stop6)) (fun x => existsb (fun z => narrower z x) (flipped (skipn 103 c128_table))) c128_table c128_table (flipped c128_table)
  (back_reach (widths_eqb (rev c128_stop6)) c128_table c128_table off) c128_stop6 1 off) [1; 3; 5] = true.
Proof. vm_compute. reflexivity. Qed.
Lemma c128_stop6_len : length c128_stop6 = 6.
Proof. reflexivity. Qed.
Lemma c128_back ws ws' bs st0 vs r' : ws = concat bs ++ c128_stop -> Forall (fun b => length b = 6) bs ->
  read_all (fun b => option_map N.of_nat (which c128_table b)) bs = Some (st0 :: vs) ->
  read_c128 ws' = Some r' -> inside ws (rev ws') -> False.
Proof.
  intros EB HF HR H' HI. destruct (c128_form _ _ H') as (bs' & vs' & EB' & HF' & HR' & HD').
  assert (D' : decode_checked vs' <> None) by congruence. apply decode_checked_form in D'. destruct D' as (st & data & -> & Hst & _).
  destruct bs' as [|b' y']; [apply read_all_nil in HR'; discriminate HR'|]. cbn [app] in HR'. apply read_all_cons in HR'.
  destruct HR' as (st1 & ys & R1 & R2 & ES). injection ES as <- _.
  destruct bs as [|b0 bs]; [apply read_all_nil in HR; discriminate HR|]. pose proof (c128_values_In _ _ HR) as IB. pose proof (c128_values_In _ _ R2) as IY.
  rewrite c128_stop_eq in EB, EB'.
  assert (E1 : ws = concat (b0 :: bs ++ [c128_stop6]) ++ [2]).
  { rewrite EB. cbn [concat]. rewrite concat_app. cbn [concat]. rewrite app_nil_r, <- !app_assoc. reflexivity. }
  assert (E2 : ws' = concat (b' :: y' ++ [c128_stop6]) ++ [2]).
  { rewrite EB'. cbn [concat]. rewrite concat_app. cbn [concat]. rewrite app_nil_r, <- !app_assoc. reflexivity. }
  assert (IF : In (rev b') (flipped (skipn 103 c128_table))) by (apply (in_map (@rev nat)); apply (c128_starts_In _ st R1); lia).
  pose proof c128_back_windows as W. pose proof c128_stop6_len as LS. clear R1 R2 HR EB EB' H' HD'.
  revert W LS IF E1 E2 IB IY. generalize c128_stop6, c128_table. intros s6 T W LS IF E1 E2 IB IY.
  exact (framed_back s6 T T s6 ws ws' b0 bs y' b' 2 (flipped (skipn 103 T)) W LS (or_intror eq_refl)
    (Forall_inv IB) (Forall_inv HF) (Forall_inv_tail HF) (Forall_inv_tail IB) (Forall_inv HF') IF IY (Forall_inv_tail HF') E1 E2 HI).
Qed.

(** ** Codabar *)
Local Notation gap := (fun c : list nat => c ++ [1]).
Definition back_first (w : list nat) : bool := existsb (fun z => widths_eqb (tl w) (tl (rev z) ++ [1])) cod_starts.
Definition back_last (w : list nat) : bool := existsb (fun z => widths_eqb (firstn 6 w) (firstn 6 (rev z))) cod_starts.
Definition back_cells : list (list nat) := map (fun c => rev c ++ [1]) cod_table.
Definition lib_gaps : list (list nat) := map gap lib_inner.
Definition cod_back_reach off : list (list nat) := reached back_first off lib_all lib_gaps back_cells.
Lemma cod_back_windows : forallb (fun z => forallb (fun off => apart back_first back_last lib_all lib_gaps back_cells (cod_back_reach off) (z ++ [1]) 0 off) [0; 2; 4; 6]) cod_starts = true.
Proof. vm_compute. reflexivity. Qed.
Lemma rev_gapped ws cs : ws ++ [1] = concat (map gap cs) -> rev ws ++ [1] = concat (map (fun c => rev c ++ [1]) (rev cs)).
Proof.
  intros E. assert (G : forall l : list (list nat), rev (concat (map gap l)) ++ [1] = 1 :: concat (map (fun c => rev c ++ [1]) (rev l))).
  { induction l as [|c l IH]; [reflexivity|]. cbn [map concat rev]. rewrite rev_app_distr, rev_app_distr. cbn [rev app].
    replace (rev (concat (map gap l)) ++ 1 :: rev c) with ((rev (concat (map gap l)) ++ [1]) ++ rev c) by (rewrite <- app_assoc; reflexivity).
    rewrite IH, map_app, concat_app. cbn [app map concat]. rewrite app_nil_r, <- app_assoc. reflexivity. }
  specialize (G cs). rewrite <- E, rev_app_distr in G. cbn [rev app] in G. now injection G.
Qed.
Lemma cod_back ws ws' a mid z r' : ws ++ [1] = concat (map gap (a :: mid ++ [z])) -> Forall (fun c => length c = 7) (a :: mid ++ [z]) ->
  In a cod_starts -> In z cod_starts -> Forall (fun c => In c lib_inner) mid ->
  read_cod ws' = Some r' -> cod_framed r' -> inside ws (rev ws') -> False.
Proof.
  intros EB HF Ia Iz Im H' HFr' (P & w1 & m & w2 & Q & w1' & w2' & E & E' & EV & _ & _ & _).
  destruct (cod_form _ _ H' HFr') as (a' & mid' & z' & EB' & HF' & Ia' & Iz' & Im' & _).
  apply rev_gapped in EB'. rewrite E' in EB'. cbn [rev] in EB'. rewrite rev_app_distr in EB'. cbn [rev app map concat] in EB'. rewrite map_app, concat_app in EB'. cbn [map concat] in EB'.
  rewrite app_nil_r in EB'. inversion HF' as [|? ? La' HF2]; subst. apply Forall_app in HF2. destruct HF2 as [FM Lz']. apply Forall_inv in Lz'.
  destruct (rev z') as [|x0 x1] eqn:EZ; [apply (f_equal (@length nat)) in EZ; rewrite rev_length, Lz' in EZ; discriminate EZ|].
  destruct (rev a') as [|y1 y0 _] eqn:EA using rev_ind; [apply (f_equal (@length nat)) in EA; rewrite rev_length, La' in EA; discriminate EA|].
  assert (Lx : length x1 = 6) by (apply (f_equal (@length nat)) in EZ; rewrite rev_length, Lz' in EZ; cbn [length] in EZ; lia).
  assert (Ly : length y0 = 6) by (apply (f_equal (@length nat)) in EA; rewrite rev_length, La', app_length in EA; cbn [length] in EA; lia).
  assert (HM : m = (x1 ++ [1]) ++ concat (map (fun c => rev c ++ [1]) (rev mid')) ++ y0).
  { cbn [app] in EB'. injection EB' as _ EB'. rewrite !app_assoc in EB'. apply app_inj_tail in EB'. destruct EB' as [EB' _]. apply app_inj_tail in EB'. destruct EB' as [-> _].
    now rewrite <- !app_assoc. }
  subst m. clear EB' E'.
  destruct (Q ++ [1]) as [|q s] eqn:EQ; [now apply app_eq_nil in EQ|].
  inversion HF as [|? ? La HF2]; subst. apply Forall_app in HF2. destruct HF2 as [F1 Lz]. apply Forall_inv in Lz.
  pose proof (proj1 (forallb_forall _ _) cod_back_windows z Iz) as W. cbv beta in W.
  refine (back_part 8 back_first back_last lib_all lib_gaps back_cells cod_back_reach (z ++ [1]) [] P (a ++ [1]) (map gap mid) (w1 :: x1 ++ [1])
    (map (fun c => rev c ++ [1]) (rev mid')) (y0 ++ [w2; q]) s ltac:(cbn [length]; lia) _ _ _ _ _ _ _ _ _ _ _ _ _ _).
  - rewrite app_length. cbn [length]. lia.
  - rewrite app_length. cbn [length]. lia.
  - now apply gap_sizes.
  - unfold lib_all. apply (in_map gap). now apply cod_starts_in.
  - unfold lib_gaps, lib_all. apply Forall_map, Forall_forall. intros c Hc. apply (in_map gap). now apply lib_inner_in.
  - apply Forall_map. revert Im. apply Forall_impl. intros c Hc. unfold lib_gaps. now apply (in_map gap).
  - intros off q' LP Ho. apply (proj1 (forallb_forall _ _) W). exact (even_offset8 _ _ _ EV LP Ho).
  - cbn [length]. rewrite app_length. cbn [length]. lia.
  - unfold back_first. apply existsb_exists. exists z'. split; [exact Iz'|]. rewrite EZ. cbn [tl]. apply widths_eqb_refl.
  - rewrite app_length. cbn [length]. lia.
  - unfold back_last. apply existsb_exists. exists a'. split; [exact Ia'|]. rewrite EA. replace 6 with (length y0) by exact Ly.
    rewrite !firstn_app, !Nat.sub_diag, firstn_all. cbn [firstn]. apply widths_eqb_refl.
  - unfold back_cells. apply Forall_map, Forall_rev. revert Im'. apply Forall_impl. intros c Hc. apply (in_map (fun c => rev c ++ [1])). now apply cod_inner_in.
  - apply Forall_map, Forall_rev. revert FM. apply Forall_impl. intros c Hc. rewrite app_length, rev_length, Hc. reflexivity.
  - cbn [map] in EB. rewrite map_app in EB. cbn [map] in EB. rewrite app_nil_r, <- EB. repeat (rewrite <- ?app_assoc; cbn [app]). rewrite EQ. reflexivity.
Qed.

(** ** Retail symbols and two-digit add-ons *)
Lemma list_sum_rev (l : list nat) : list_sum (rev l) = list_sum l.
Proof. induction l as [|x l IH]; [reflexivity|]. cbn [rev]. rewrite list_sum_app, IH. change (list_sum [x]) with (x + 0). change (list_sum (x :: l)) with (x + list_sum l). lia. Qed.
Lemma halves_back n ws ws' x x' : read_halves n ws = Some x -> read_halves n ws' = Some x' -> inside ws (rev ws') -> False.
Proof.
  intros H H' HI. pose proof (halves_sig n ws x H) as (_ & L & _). pose proof (halves_sig n ws' x' H') as (_ & L' & _).
  destruct x as [l r]. apply halves_form in H. destruct H as (lb & rb & E & _).
  destruct HI as (P & w1 & m & w2 & Q & w1' & w2' & EW & EW' & _ & H1 & H2 & HV).
  assert (LL : length ws = length (rev ws')) by (rewrite rev_length; congruence). rewrite EW, EW' in LL. rewrite !app_length in LL. cbn [length] in LL. rewrite !app_length in LL. cbn [length] in LL.
  destruct P as [|? ?]; [|cbn [length] in LL; lia]. destruct Q as [|? ?]; [|cbn [length] in LL; lia].
  rewrite app_nil_r in EW. cbn [app] in EW. rewrite EW in E.
  pose proof (f_equal (hd 0) E) as T1. change (w1 = 1) in T1.
  assert (T2 : w2 = 1).
  { unfold normal_guard at 2 in E. change [1;1;1] with ([1;1] ++ [1]) in E. rewrite !app_assoc, app_comm_cons in E. apply app_inj_tail in E. tauto. }
  destruct HV as [HV|[HV|HV]]; [congruence|congruence|lia].
Qed.
Lemma supp_back ws ws' a b r' : read_as SSupp ws = Some (Digits [a; b]) -> read_as SSupp ws' = Some r' -> inside ws (rev ws') -> False.
Proof.
  intros H H' HI. destruct (inside_same _ _ HI) as [HL HS]. rewrite rev_length in HL, HS. rewrite list_sum_rev in HS.
  apply supp_form in H, H'. destruct H as (l & H & HN & E). destruct H' as (l' & H' & HN' & _).
  assert (L2 : length l = 2) by (assert (T : [a; b] = map snd l) by congruence; apply (f_equal (@length N)) in T; rewrite map_length in T; now symmetry).
  destruct (supp_shape _ _ H HN) as [(_ & c1 & c2 & EW & HR)|(N5 & _)]; [|lia].
  pose proof (read_AB_all _ _ HR) as [HF _]. apply Forall_cons_iff in HF. destruct HF as [[A1 B1] HF]. apply Forall_cons_iff in HF. destruct HF as [[A2 B2] _].
  pose proof (f_equal (@length nat) EW) as LW. rewrite !app_length in LW. cbn [length] in LW.
  pose proof (f_equal list_sum EW) as SW. rewrite !list_sum_app in SW. cbn [list_sum fold_right] in SW.
  destruct (supp_shape _ _ H' HN') as [(_ & d1 & d2 & EW' & HR')|(_ & d1 & d2 & d3 & d4 & d5 & EW' & HR')];
    pose proof (read_AB_all _ _ HR') as [HF _]; repeat (apply Forall_cons_iff in HF; let A := fresh "A" in let B := fresh "B" in destruct HF as [[A B] HF]);
    pose proof (f_equal (@length nat) EW') as LW'; rewrite !app_length in LW'; cbn [length] in LW'; [|lia].
  pose proof (f_equal list_sum EW') as SW'. rewrite !list_sum_app in SW'. cbn [list_sum fold_right] in SW'. specialize (HS ltac:(lia)). lia.
Qed.

(** ** Every symbology *)
(** A reading has more than one element. *)
Lemma read_long y s w r : whole_only y s -> read_as y w = Some r -> accepts y r -> 1 < length w.
Proof.
  intros HW HR HA. destruct y; cbn [whole_only] in HW; try contradiction.
  - destruct (read_halves_of SEan13 w r ltac:(auto) HR) as [x Hx]. apply halves_sig in Hx. lia.
  - destruct (read_halves_of SEan8 w r ltac:(auto) HR) as [x Hx]. apply halves_sig in Hx. lia.
  - destruct (read_halves_of SUpca w r ltac:(auto) HR) as [x Hx]. apply halves_sig in Hx. lia.
  - apply supp_form in HR. destruct HR as (ll & HR & HN & _). destruct (supp_shape _ _ HR HN) as [(_ & c1 & c2 & -> & _)|(_ & c1 & c2 & c3 & c4 & c5 & -> & _)];
      cbn [app length]; lia.
  - cbn [read_as] in HR. apply option_map_Some in HR. destruct HR as (t & HR & _). destruct (c93_form' _ _ HR) as (mid & -> & _).
    rewrite app_length. cbn [concat]. rewrite app_length. change (length c93_star) with 6. lia.
  - cbn [read_as] in HR. apply option_map_Some in HR. destruct HR as (t & HR & ->). cbn [accepts] in HA. destruct (cod_form _ _ HR HA) as (? & ? & ? & _ & _ & _ & _ & _ & L). lia.
  - cbn [read_as] in HR. apply option_map_Some in HR. destruct HR as (t & HR & _). destruct (c128_form _ _ HR) as (bs & vs & -> & _).
    rewrite app_length. change (length c128_stop) with 7. lia.
Qed.
Lemma scan_quiet X n : scan (X ++ repeat 0%N n) = scan X.
Proof.
  unfold scan. rewrite forallb_app. replace (forallb is_module (repeat 0%N n)) with true by (induction n; [reflexivity | assumption]).
  rewrite andb_true_r. destruct (forallb is_module X); [|reflexivity]. replace (trim (X ++ repeat 0%N n)) with (trim X); [reflexivity|].
  unfold trim. assert (D : drop_light (X ++ repeat 0%N n) = drop_light X ++ repeat 0%N n \/ drop_light X = [] /\ drop_light (X ++ repeat 0%N n) = []).
  { induction X as [|x X IH].
    - right. split; [reflexivity|]. cbn [app]. induction n; [reflexivity | assumption].
    - cbn [app drop_light]. destruct x; [exact IH | now left]. }
  destruct D as [-> |[-> ->]]; [|reflexivity]. rewrite rev_app_distr, rev_repeat. f_equal. induction n; [reflexivity | assumption].
Qed.
Lemma whole_tail y s : whole_only y s -> tail y = [].
Proof. destruct y; cbn [whole_only]; try contradiction; reflexivity. Qed.
Lemma whole_directed y s : whole_only y s -> directed y s.
Proof. destruct y; cbn [whole_only directed]; auto. Qed.
Lemma back_read y p s m u l v r : (str_len s < 2 ^ 48)%N -> barcode y p s = Ret (Ok m) -> whole_only y s ->
  m = u ++ l ++ v -> read_modules y (rev l) = Some r -> accepts y r -> False.
Proof.
  intros Hs HB HW E HR' HA'. pose proof (barcode_shape y p s m Hs HB) as SH. destruct (shape_scan y m SH) as (ws & HS & Em & HD).
  destruct (shape_modules y m SH) as (HM & _ & _).
  pose proof (barcode_meant y p s m Hs HB) as MM. pose proof (shape_pos y ws HD) as HP. pose proof (proj1 HD) as HO.
  rewrite (whole_tail y s HW), app_nil_r in Em.
  destruct (in_dec N.eq_dec 1%N (rev v ++ rev u)) as [HI|HI].
  2:{ assert (HZ : ~ In 1%N v /\ ~ In 1%N u) by (split; intros G; apply HI; apply in_or_app; [left | right]; now apply -> in_rev). clear HI. destruct HZ as [Zv Zu].
      rewrite E in HM. apply Forall_app in HM. destruct HM as [Mu HM]. apply Forall_app in HM. destruct HM as [_ Mv].
      apply (no_dark u Mu) in Zu. apply (no_dark v Mv) in Zv. pose proof (barcode_mirror y p s m Hs (whole_directed y s HW) HB) as MI.
      unfold read_modules in MI, HR'. rewrite E, !rev_app_distr, Zu, Zv, !rev_repeat, <- app_assoc, scan_leads, scan_quiet in MI. congruence. }
  unfold read_modules in HR', MM. rewrite HS in MM. cbn [obind] in MM. apply obind_Some in HR'. destruct HR' as (ws' & HS' & HR').
  assert (SC : forall w, m = render w -> Forall (fun x => 1 <= x) w -> Nat.even (length w) = false -> w = ws).
  { intros w Ew P O. rewrite Ew, scan_render in HS by assumption. now injection HS. }
  assert (IN : inside ws (rev ws')).
  { pose proof (scan_odd _ _ HS') as OS. destruct (part_inside (rev ws) 0 (rev v) (rev l) (rev u) ws') as [L1|IN].
    - now apply Forall_rev.
    - now rewrite rev_length.
    - cbn [repeat]. rewrite app_nil_r, <- render_rev by assumption. rewrite <- Em, E, !rev_app_distr, <- app_assoc. reflexivity.
    - exact HI.
    - exact HS'.
    - exfalso. pose proof (read_long y s ws' r HW HR' HA'). lia.
    - exact (inside_rev ws ws' HO OS IN). }
  destruct y; cbn [whole_only] in HW; try contradiction; cbn [meant] in MM.
  - destruct MM as (c & _ & MM). destruct (read_halves_of SEan13 ws _ ltac:(auto) MM) as [x Hx]. destruct (read_halves_of SEan13 ws' r ltac:(auto) HR') as [x' Hx']. exact (halves_back _ _ _ _ _ Hx Hx' IN).
  - destruct MM as (c & _ & MM). destruct (read_halves_of SEan8 ws _ ltac:(auto) MM) as [x Hx]. destruct (read_halves_of SEan8 ws' r ltac:(auto) HR') as [x' Hx']. exact (halves_back _ _ _ _ _ Hx Hx' IN).
  - destruct MM as (c & _ & MM). destruct (read_halves_of SUpca ws _ ltac:(auto) MM) as [x Hx]. destruct (read_halves_of SUpca ws' r ltac:(auto) HR') as [x' Hx']. exact (halves_back _ _ _ _ _ Hx Hx' IN).
  - destruct s as [|a [|b [|? ?]]]; try discriminate HW. exact (supp_back _ _ _ _ _ MM HR' IN).
  - cbn [read_as] in MM, HR'. apply option_map_Some in MM, HR'. destruct MM as (t & MM & _), HR' as (t' & HR' & _). exact (c93_back _ _ _ _ MM HR' IN).
  - cbn [read_as] in HR'. apply option_map_Some in HR'. destruct HR' as (t' & HR' & ->). cbn [accepts] in HA'.
    destruct (cod_printed p s m HB HW) as (a & mid & z & w & Ew & EG & FG & Ia & Iz & Im).
    assert (Q : w = ws).
    { apply SC; [exact Ew| |].
      - assert (P1 : Forall (fun x => 1 <= x) (w ++ [1])).
        { rewrite EG. apply Forall_concat, Forall_map. constructor; [|apply Forall_app; split; [|constructor; [|constructor]]];
            [|revert Im; apply Forall_impl; intros c Hc|]; (apply Forall_app; split; [|constructor; [lia | constructor]]).
          - clear - Ia. repeat destruct Ia as [<-|Ia]; try contradiction; repeat constructor.
          - clear - Hc. apply lib_inner_in in Hc. revert c Hc. apply Forall_forall. repeat constructor.
          - clear - Iz. repeat destruct Iz as [<-|Iz]; try contradiction; repeat constructor. }
        apply Forall_app in P1. tauto.
      - pose proof (f_equal (@length nat) EG) as L. rewrite (concat_length_const 8 _ (gap_sizes 7 _ FG)), app_length in L. cbn [length] in L.
        apply (f_equal Nat.even) in L. rewrite Nat.even_add, Nat.even_mul in L. cbn [Nat.even orb] in L. now destruct (Nat.even (length w)). }
    subst w. exact (cod_back ws ws' a mid z t' EG FG Ia Iz Im HR' HA' IN).
  - cbn [read_as] in HR'. apply option_map_Some in HR'. destruct HR' as (t' & HR' & _). clear MM.
    destruct (c128_printed p s m HB) as (bs & st0 & vs & Ew & FG & RG & VG).
    assert (Q : concat bs ++ c128_stop = ws).
    { apply SC; [exact Ew| |].
      - apply Forall_app. split; [|repeat constructor]. apply Forall_concat. pose proof (c128_values_In _ _ RG) as IG. revert IG. apply Forall_impl. intros b Hb.
        assert (TP : forallb (forallb (fun x => 1 <=? x)) c128_table = true) by (vm_compute; reflexivity).
        pose proof (proj1 (forallb_forall _ _) TP b Hb) as T1. apply Forall_forall. intros x Hx. apply Nat.leb_le. exact (proj1 (forallb_forall _ _) T1 x Hx).
      - rewrite app_length, (concat_length_const 6 _ FG). change (length c128_stop) with 7. rewrite Nat.even_add, Nat.even_mul. reflexivity. }
    exact (c128_back ws ws' bs st0 vs t' (eq_sym Q) FG RG HR' IN).
Qed.
