(** * Scan lines that miss both ends of the symbol *)
From Verif Require Import Rust M_Error M_Codabar M_Code128 Symbology M_Use S_Barcode S_Ean S_Text S_Linear S_Codabar S_Tf S_Code128 S_All S_Cut S_Part
  P_Rust P_Barcode P_Parse P_Tf P_All P_Apart P_Damage P_Check128 P_Cell P_Cut P_Stretch P_Wrong P_Blind P_Line
  P_Code39 P_Codabar P_Code128 P_Code128b P_Gs1 P_Ean P_Retail P_Retail2 P_Retail3 P_Supp.
Local Open Scope nat_scope.

(** ** What is left, as element widths *)
Lemma scan_leads k l : scan (repeat 0%N k ++ l) = scan l.
Proof. induction k as [|k IH]; [reflexivity|]. cbn [repeat app]. now rewrite scan_lead. Qed.
Lemma drop_light_In l : In 1%N l -> In 1%N (drop_light l).
Proof.
  induction l as [|x l IH]; intros H; [exact H|]. cbn [drop_light]. destruct x as [|x]; [|exact H].
  destruct H as [H|H]; [discriminate | now apply IH].
Qed.
Lemma scan_some l : Forall (fun x => x = 0 \/ x = 1)%N l -> In 1%N l -> exists ws, scan l = Some ws.
Proof.
  intros HB HI. unfold scan. replace (forallb is_module l) with true.
  - assert (H : In 1%N (trim l)) by (unfold trim; apply -> in_rev; apply drop_light_In; apply -> in_rev; now apply drop_light_In).
    destruct (trim l) as [|x t]; [contradiction | eauto].
  - symmetry. apply forallb_forall. intros x Hx. rewrite Forall_forall in HB. destruct (HB x Hx) as [->| ->]; reflexivity.
Qed.
Lemma no_dark l : Forall (fun x => x = 0 \/ x = 1)%N l -> ~ In 1%N l -> l = repeat 0%N (length l).
Proof.
  induction 1 as [|x l [->| ->] _ IH]; intros H; [reflexivity| |]; cbn [length repeat].
  - f_equal. apply IH. intros HI. apply H. now right.
  - exfalso. apply H. now left.
Qed.
Lemma short_left_pos ws ws' : Forall (fun w => 1 <= w) ws -> short_left ws ws' -> Forall (fun w => 1 <= w) ws'.
Proof.
  intros HP (v & w & w' & u & -> & -> & _ & Hw & _). apply Forall_app in HP. destruct HP as [_ HP]. inversion HP; subst.
  constructor; [lia | assumption].
Qed.
Lemma part_scan ws k u l v ws' : Forall (fun w => 1 <= w) ws -> Nat.even (length ws) = false ->
  render ws ++ repeat 0%N k = u ++ l ++ v -> In 1%N (u ++ v) -> scan l = Some ws' ->
  exists ws1, (ws1 = ws \/ short_left ws ws1) /\ (ws' = ws1 \/ short_right ws1 ws') /\ (ws1 <> ws \/ ws' <> ws1).
Proof.
  intros HP HO E HI HS.
  assert (HB : Forall (fun y => y = 0 \/ y = 1)%N (u ++ l ++ v)).
  { rewrite <- E. apply Forall_app. split; [apply render_from_modules; auto|]. apply Forall_forall. intros x Hx. apply repeat_spec in Hx. auto. }
  apply Forall_app in HB. destruct HB as [HBu HB]. pose proof HB as HBlv. apply Forall_app in HB. destruct HB as [HBl HBv].
  assert (HL : In 1%N l).
  { destruct (in_dec N.eq_dec 1%N l) as [H|H]; [exact H|]. exfalso. rewrite (no_dark l HBl H), scan_lights in HS. discriminate. }
  assert (NE : forall a b, short_left a b -> b <> a).
  { intros a b (v0 & w & w' & u0 & -> & -> & _ & Hw & HV) H. destruct v0 as [|x v0].
    - injection H as ->. destruct HV; [lia | congruence].
    - apply (f_equal (@length nat)) in H. cbn [app length] in H. rewrite app_length in H. cbn [length] in H. lia. }
  assert (NR : forall a b, short_right a b -> b <> a).
  { intros a b (v0 & w & w' & u0 & -> & -> & _ & Hw & HV) H. apply app_inv_head in H. injection H as -> H.
    destruct HV; [lia | congruence]. }
  destruct (scan_some (l ++ v) HBlv) as [ws1 H1]; [apply in_or_app; now left|].
  assert (A1 : if in_dec N.eq_dec 1%N u then short_left ws ws1 else ws1 = ws).
  { destruct (in_dec N.eq_dec 1%N u) as [Hu|Hu].
    - destruct (cut_left_scan ws k (l ++ v) HP HO) as [N|(w2 & E2 & S2)]; [now exists u|congruence|].
      rewrite H1 in E2. injection E2 as <-. exact S2.
    - rewrite (no_dark u HBu Hu) in E. pose proof (scan_render_tail ws k HP HO) as T. rewrite E, scan_leads, H1 in T. now injection T as ->. }
  assert (P1 : Forall (fun w => 1 <= w) ws1).
  { destruct (in_dec N.eq_dec 1%N u); [now apply (short_left_pos ws) | now subst]. }
  pose proof (scan_odd _ _ H1) as O1.
  assert (A2 : if in_dec N.eq_dec 1%N v then short_right ws1 ws' else ws' = ws1).
  { destruct (in_dec N.eq_dec 1%N v) as [Hv|Hv].
    - destruct (scan_form _ _ H1) as (j & k1 & E1).
      assert (HC : exists l2, l = repeat 0%N j ++ l2).
      { clear - E1 HL. revert l HL E1. induction j as [|j IH]; intros l HL E1; [now exists l|]. destruct l as [|x l]; [contradiction|].
        cbn [repeat app] in E1. injection E1 as -> E1. destruct HL as [HL|HL]; [discriminate|]. destruct (IH l HL E1) as [l2 ->]. now exists l2. }
      destruct HC as [l2 ->]. rewrite <- app_assoc in E1. apply app_inv_head in E1. rewrite scan_leads in HS.
      destruct (cut_right_scan ws1 k1 l2 P1 O1) as [N|(w2 & E2 & S2)]; [now exists v|congruence|].
      rewrite HS in E2. injection E2 as <-. exact S2.
    - destruct (scan_form _ _ HS) as (j & k1 & E1). rewrite (no_dark v HBv Hv), E1, <- !app_assoc, scan_leads in H1.
      rewrite E1, scan_leads in HS. rewrite <- repeat_app in H1.
      assert (T : scan (render ws' ++ repeat 0%N k1) = scan (render ws' ++ repeat 0%N (k1 + length v))).
      { assert (G : forall X n, scan (X ++ repeat 0%N n) = scan X).
        { clear. intros X n. unfold scan. rewrite forallb_app. replace (forallb is_module (repeat 0%N n)) with true by (induction n; [reflexivity | assumption]).
          rewrite andb_true_r. destruct (forallb is_module X); [|reflexivity]. replace (trim (X ++ repeat 0%N n)) with (trim X); [reflexivity|].
          unfold trim. assert (D : drop_light (X ++ repeat 0%N n) = drop_light X ++ repeat 0%N n \/ drop_light X = [] /\ drop_light (X ++ repeat 0%N n) = []).
          { induction X as [|x X IH].
            - right. split; [reflexivity|]. cbn [app]. induction n; [reflexivity | assumption].
            - cbn [app drop_light]. destruct x; [exact IH | now left]. }
          destruct D as [-> |[-> ->]]; [|reflexivity]. rewrite rev_app_distr, rev_repeat. f_equal. induction n; [reflexivity | assumption]. }
        now rewrite !G. }
      rewrite <- T, HS in H1. now injection H1. }
  exists ws1. split; [destruct (in_dec N.eq_dec 1%N u); tauto|]. split; [destruct (in_dec N.eq_dec 1%N v); tauto|].
  apply in_app_or in HI. destruct (in_dec N.eq_dec 1%N u); [left; now apply NE|]. destruct (in_dec N.eq_dec 1%N v); [right; now apply NR | tauto].
Qed.

(** The elements of [ws'] are those of [ws] from some bar to some bar, where the first and the last
    may have become narrower. *)
Definition inside (ws ws' : list nat) : Prop := exists P w1 mid w2 Q w1' w2',
  ws = P ++ (w1 :: mid ++ [w2]) ++ Q /\ ws' = w1' :: mid ++ [w2'] /\ Nat.even (length P) = true /\
  1 <= w1' <= w1 /\ 1 <= w2' <= w2 /\ (P <> [] \/ Q <> [] \/ w1' < w1 \/ w2' < w2).
Lemma part_inside ws k u l v ws' : Forall (fun w => 1 <= w) ws -> Nat.even (length ws) = false ->
  render ws ++ repeat 0%N k = u ++ l ++ v -> In 1%N (u ++ v) -> scan l = Some ws' -> length ws' = 1 \/ inside ws ws'.
Proof.
  intros HP HO E HI HS. destruct (part_scan ws k u l v ws' HP HO E HI HS) as (ws1 & H1 & H2 & H3).
  pose proof (scan_odd _ _ HS) as OS.
  assert (P' : Forall (fun w => 1 <= w) ws1) by (destruct H1 as [->|H1]; [assumption | now apply (short_left_pos ws)]).
  assert (LL : exists v0 w w' u0, ws = v0 ++ w :: u0 /\ ws1 = w' :: u0 /\ Nat.even (length v0) = true /\ 1 <= w' <= w /\ (ws1 <> ws -> w' < w \/ v0 <> [])).
  { destruct H1 as [->|(v0 & w & w' & u0 & A & B & C & D & F)]; [|exists v0, w, w', u0; auto 6].
    destruct ws as [|w ws]; [discriminate|]. inversion HP; subst. exists [], w, w, ws. split; [reflexivity|]. split; [reflexivity|]. split; [reflexivity|]. split; [lia | congruence]. }
  assert (RR : exists u1 x x' v1, ws1 = u1 ++ x :: v1 /\ ws' = u1 ++ [x'] /\ 1 <= x' <= x /\ (ws' <> ws1 -> x' < x \/ v1 <> [])).
  { destruct H2 as [->|(u1 & x & x' & v1 & A & B & C & D & F)]; [|exists u1, x, x', v1; auto 6].
    destruct ws1 as [|x ws1 _] using rev_ind; [discriminate|]. apply Forall_app in P'. destruct P' as [_ P']. inversion P'; subst.
    exists ws1, x, x, []. split; [reflexivity|]. split; [reflexivity|]. split; [lia | congruence]. }
  destruct LL as (v0 & w & w' & u0 & -> & E1 & EV & Hw & HV). destruct RR as (u1 & x & x' & v1 & E2 & E3 & Hx & HX).
  destruct u1 as [|a u1]; [left; now rewrite E3|]. right. rewrite E1 in E2. cbn [app] in E2. injection E2 as <- E2.
  exists v0, w, u1, x, v1, w', x'. split; [rewrite E2; cbn [app]; now rewrite <- app_assoc|]. split; [exact E3|]. split; [exact EV|].
  split; [exact Hw|]. split; [exact Hx|]. destruct H3 as [H3|H3]; [apply HV in H3 | apply HX in H3]; tauto.
Qed.
Lemma inside_same ws ws' : inside ws ws' -> length ws' <= length ws /\ (length ws' = length ws -> list_sum ws' < list_sum ws).
Proof.
  intros (P & w1 & mid & w2 & Q & w1' & w2' & -> & -> & _ & H1 & H2 & HV). rewrite !app_length. cbn [length]. rewrite !app_length. cbn [length].
  split; [lia|]. intros L. destruct P; [|cbn [length] in L; lia]. destruct Q; [|cbn [length] in L; lia].
  cbn [app]. rewrite app_nil_r. cbn [list_sum fold_right]. fold (list_sum (mid ++ [w2'])) (list_sum (mid ++ [w2])). rewrite !list_sum_app. cbn [list_sum fold_right].
  destruct HV as [HV|[HV|HV]]; [congruence|congruence|lia].
Qed.
Lemma inside_left ws ws' P w1 mid w2 w1' : ws = P ++ w1 :: mid ++ [w2] -> ws' = w1' :: mid ++ [w2] -> Nat.even (length P) = true ->
  1 <= w1' <= w1 -> P <> [] \/ w1' < w1 -> short_left ws ws'.
Proof. intros -> -> HE Hw HV. exists P, w1, w1', (mid ++ [w2]). split; [reflexivity|]. split; [reflexivity|]. split; [exact HE|]. split; [exact Hw | tauto]. Qed.
Lemma inside_right ws ws' w1 mid w2 w2' Q : ws = w1 :: mid ++ w2 :: Q -> ws' = w1 :: mid ++ [w2'] -> Nat.even (length mid) = false ->
  1 <= w2' <= w2 -> Q <> [] \/ w2' < w2 -> short_right ws ws'.
Proof.
  intros -> -> HE Hw HV. exists (w1 :: mid), w2, w2', Q. split; [reflexivity|]. split; [reflexivity|]. split; [|split; [exact Hw | tauto]].
  cbn [length]. rewrite Nat.even_succ, <- Nat.negb_even, HE. reflexivity.
Qed.

(** ** Reading across the borders of the characters *)
Lemma split_block K (B : list (list nat)) t P X : 0 < K -> Forall (fun b => length b = K) B -> concat B ++ t = P ++ X -> length P < K * length B ->
  exists x b y off, B = x ++ b :: y /\ off < K /\ length P = K * length x + off /\ P = concat x ++ firstn off b /\ X = skipn off b ++ concat y ++ t.
Proof.
  intros HK HF E HL. set (i := length P / K). assert (Hi : i < length B) by (apply Nat.div_lt_upper_bound; lia).
  destruct (blocks_split K B i HF) as (x & y & -> & Lx & Fx & Fy & Lc); [lia|].
  destruct y as [|b y]; [rewrite app_length, Lx in Hi; cbn [length] in Hi; lia|]. pose proof (Forall_inv Fy) as Lb. cbv beta in Lb.
  pose proof (Nat.div_mod (length P) K ltac:(lia)) as DM. fold i in DM. pose proof (Nat.mod_upper_bound (length P) K ltac:(lia)) as MB.
  set (off := length P mod K) in *. exists x, b, y, off. split; [reflexivity|]. split; [exact MB|]. split; [rewrite Lx; exact DM|].
  rewrite concat_app in E. cbn [concat] in E. rewrite <- (firstn_skipn off b) in E.
  replace ((concat x ++ (firstn off b ++ skipn off b) ++ concat y) ++ t) with ((concat x ++ firstn off b) ++ skipn off b ++ concat y ++ t) in E
    by (rewrite <- !app_assoc; reflexivity).
  apply split_same in E; [destruct E as [E1 E2]; split; [now symmetry | now symmetry]|]. rewrite app_length, Lc, firstn_length, Lb. lia.
Qed.
(** From a character of [R], a window [off] elements further that is a character of [Y] leads to a
    character of [R] again, and no window meets [f]. *)
Definition window off (b b' : list nat) : list nat := skipn off b ++ firstn off b'.
Definition closed off (R A Y : list (list nat)) : bool :=
  forallb (fun b => forallb (fun b' => existsb (widths_eqb b') R || negb (existsb (widths_eqb (window off b b')) Y)) A) R.
Definition never (f : list nat -> bool) off (R A : list (list nat)) : bool :=
  forallb (fun b => forallb (fun b' => negb (f (window off b b'))) A) R.
Lemma existsb_In b R : In b R -> existsb (widths_eqb b) R = true.
Proof. intros H. apply existsb_exists. exists b. split; [exact H | apply widths_eqb_refl]. Qed.
Lemma In_existsb b R : existsb (widths_eqb b) R = true -> In b R.
Proof. intros H. apply existsb_exists in H. destruct H as (x & H & E). apply widths_eqb_eq in E. now subst. Qed.
Lemma step K off (b : list nat) B t z X : off <= K -> length b = K -> Forall (fun b => length b = K) B -> length z = K ->
  length t < off + length X -> skipn off b ++ concat B ++ t = z ++ X ->
  exists b' B', B = b' :: B' /\ window off b b' = z /\ skipn off b' ++ concat B' ++ t = X.
Proof.
  intros Ho Lb FB Lz Hl E. pose proof (f_equal (@length nat) E) as L. rewrite !app_length, skipn_length, Lb, Lz in L.
  destruct B as [|b' B]; [cbn [concat length] in L; lia|]. pose proof (Forall_inv FB) as Lb'. cbv beta in Lb'.
  exists b', B. split; [reflexivity|]. cbn [concat] in E. rewrite <- (firstn_skipn off b') in E. rewrite <- !app_assoc in E. rewrite app_assoc in E.
  fold (window off b b') in E. apply split_same in E; [exact E|]. unfold window. rewrite app_length, skipn_length, firstn_length. lia.
Qed.
Lemma walk K f off R A Y z s t : closed off R A Y = true -> never f off R A = true -> off <= K ->
  length z = K -> f z = true -> length t < off + length s ->
  forall ys b B, In b R -> length b = K -> Forall (fun b => In b A) B -> Forall (fun b => length b = K) B ->
  Forall (fun b => In b Y) ys -> Forall (fun b => length b = K) ys ->
  skipn off b ++ concat B ++ t = concat ys ++ z ++ s -> False.
Proof.
  intros HC HN Ho Lz Fz Hl. induction ys as [|y ys IH]; intros b B Ib Lb IB FB IY FY E.
  - cbn [concat app] in E. destruct (step K off b B t z s Ho Lb FB Lz Hl E) as (b' & B' & -> & EW & _).
    unfold never in HN. rewrite forallb_forall in HN. specialize (HN b Ib). rewrite forallb_forall in HN. specialize (HN b' (Forall_inv IB)).
    rewrite EW, Fz in HN. discriminate.
  - cbn [concat] in E. rewrite <- app_assoc in E. destruct (step K off b B t y (concat ys ++ z ++ s) Ho Lb FB (Forall_inv FY)) as (b' & B' & -> & EW & E').
    { rewrite !app_length. lia. }
    { exact E. }
    apply (IH b' B'); try (now apply Forall_inv_tail in IB); try (now apply Forall_inv_tail in FB); try (now apply Forall_inv_tail in IY);
      try (now apply Forall_inv_tail in FY); try assumption; [|exact (Forall_inv FB)].
    unfold closed in HC. rewrite forallb_forall in HC. specialize (HC b Ib). rewrite forallb_forall in HC. specialize (HC b' (Forall_inv IB)).
    rewrite EW, (existsb_In y) in HC by exact (Forall_inv IY). cbn [negb] in HC. rewrite orb_false_r in HC. now apply In_existsb.
Qed.
Lemma even_offset K P q off : Nat.even P = true -> Nat.even K = true -> P = K * q + off -> Nat.even off = true.
Proof. intros HP HK ->. rewrite Nat.even_add, Nat.even_mul, HK in HP. cbn [orb] in HP. now destruct (Nat.even off). Qed.
(** In a framed sequence only the first and the last are not inner. *)
Lemma framed_place {A} (a z b : A) mid x y : a :: mid ++ [z] = x ++ b :: y -> In b mid \/ x = [] /\ b = a \/ y = [] /\ b = z.
Proof.
  intros E. destruct x as [|x0 x]; cbn [app] in E; injection E as E1 E; [right; left; auto|].
  destruct y as [|y0 y _] using rev_ind; [right; right; apply app_inj_tail in E; destruct E; auto|].
  rewrite app_comm_cons, app_assoc in E. apply app_inj_tail in E. destruct E as [-> _]. left. apply in_or_app. right. now left.
Qed.

(** ** Code 93 *)
Definition c93_all : list (list nat) := c93_star :: c93_table.
Lemma c93_windows : forallb (fun off => closed off c93_all c93_all c93_table && never (widths_eqb c93_star) off c93_all c93_all) [2; 4] = true.
Proof. vm_compute. reflexivity. Qed.
Lemma stars_part (s0 : nat) (s1 : list nat) (T A : list (list nat)) ws ws' mid mid' : length s1 = 5 ->
  forallb (fun off => closed off A A T && never (widths_eqb (s0 :: s1)) off A A) [2; 4] = true -> A = (s0 :: s1) :: T ->
  (forall c, In c T -> tl c <> s1) ->
  ws = concat ((s0 :: s1) :: mid ++ [s0 :: s1]) ++ [1] -> Forall (fun b => length b = 6) mid -> Forall (fun b => In b T) mid ->
  ws' = concat ((s0 :: s1) :: mid' ++ [s0 :: s1]) ++ [1] -> Forall (fun b => length b = 6) mid' -> Forall (fun b => In b T) mid' ->
  inside ws ws' -> short_right ws ws'.
Proof.
  intros L1 W EA HN EB FM0 HT EB' FM HT' (P & w1 & m & w2 & Q & w1' & w2' & E & E' & EV & H1 & H2 & HV).
  set (st := s0 :: s1) in *. assert (Ls : length st = 6) by (unfold st; cbn [length]; lia).
  assert (HF : Forall (fun b => length b = 6) (st :: mid ++ [st])) by (apply framed_cells; assumption).
  assert (HM : w1' = s0 /\ m = s1 ++ concat mid' ++ st /\ w2' = 1).
  { rewrite E' in EB'. cbn [concat] in EB'. rewrite concat_app in EB'. cbn [concat] in EB'. rewrite app_nil_r in EB'.
    unfold st in EB' at 1. cbn [app] in EB'. injection EB' as T1 T2.
    apply app_inj_tail in T2. destruct T2 as [-> ->]. auto. }
  destruct HM as (-> & -> & ->).
  set (B := st :: mid ++ [st]) in *.
  assert (EX : concat B ++ [1] = P ++ (w1 :: s1) ++ concat mid' ++ st ++ w2 :: Q).
  { rewrite <- EB, E. cbn [app]. rewrite <- !app_assoc. reflexivity. }
  destruct (split_block 6 B [1] P _ ltac:(lia) HF EX) as (x & b & y & off & HB & Ho & LP & EP & EY).
  { apply (f_equal (@length nat)) in EX. rewrite !app_length, (concat_length_const 6 _ HF) in EX. cbn [length] in EX. lia. }
  assert (HA : Forall (fun b => In b A) (x ++ b :: y)).
  { rewrite <- HB, EA. unfold B. constructor; [now left|]. apply Forall_app. split; [|constructor; [now left | constructor]].
    revert HT. apply Forall_impl. intros c Hc. now right. }
  rewrite HB in HF. apply Forall_app in HF, HA. destruct HF as [_ HF]. destruct HA as [_ HA].
  destruct off as [|off].
  - cbn [skipn firstn] in EY, EP. rewrite app_nil_r in EP. apply split_same in EY; [|rewrite (Forall_inv HF); cbn [length]; lia]. destruct EY as [<- EY].
    destruct (framed_place _ _ _ _ _ _ HB) as [HI|[[-> Eb]|[-> Eb]]].
    + exfalso. rewrite Forall_forall in HT. specialize (HT _ HI). now apply (HN _ HT).
    + injection Eb as ->. cbn [concat] in EP. subst P.
      apply (inside_right ws ws' s0 (s1 ++ concat mid' ++ st) w2 1 Q); [| |..|].
      * rewrite E. cbn [app]. rewrite <- !app_assoc. reflexivity.
      * exact E'.
      * rewrite !app_length, (concat_length_const 6 _ FM), L1, Ls. rewrite !Nat.even_add, Nat.even_mul. reflexivity.
      * exact H2.
      * destruct HV as [HV|[HV|[HV|HV]]]; [congruence|tauto|lia|tauto].
    + exfalso. apply (f_equal (@length nat)) in EY. rewrite !app_length in EY. cbn [concat length] in EY. lia.
  - exfalso. assert (HE : Nat.even (S off) = true) by (apply (even_offset 6 (length P) (length x)); [exact EV | reflexivity | exact LP]).
    assert (H24 : In (S off) [2; 4]) by (do 5 (destruct off as [|off]; [try discriminate HE; cbn; tauto|]); lia).
    rewrite forallb_forall in W. specialize (W _ H24). apply andb_prop in W. destruct W as [W1 W2].
    destruct (step 6 (S off) b y [1] (w1 :: s1) (concat mid' ++ st ++ w2 :: Q)) as (b' & y' & -> & _ & EY').
    { lia. } { exact (Forall_inv HF). } { exact (Forall_inv_tail HF). } { cbn [length]. lia. } { rewrite !app_length. cbn [length]. lia. } { now symmetry. }
    apply Forall_inv_tail in HF. apply Forall_inv_tail in HA.
    apply (walk 6 (widths_eqb st) (S off) A A T st (w2 :: Q) [1] W1 W2 ltac:(lia) Ls (widths_eqb_refl _)
      ltac:(cbn [length]; lia) mid' b' y' (Forall_inv HA) (Forall_inv HF) (Forall_inv_tail HA) (Forall_inv_tail HF) HT' FM EY').
Qed.
Lemma c93_star_eq : c93_star = [1;1;1;1;4;1].
Proof. reflexivity. Qed.
Lemma c93_part ws ws' r r' : read_c93 ws = Some r -> read_c93 ws' = Some r' -> inside ws ws' -> False.
Proof.
  intros H H' HI. destruct (c93_form' _ _ H) as (mid & EB & HF & HT). destruct (c93_form' _ _ H') as (mid' & EB' & HF' & HT').
  apply Forall_inv_tail, Forall_app in HF, HF'. pose proof c93_windows as W. pose proof c93_star_tail as N.
  rewrite c93_star_eq in EB, EB', W, N. unfold c93_all in W. rewrite c93_star_eq in W.
  assert (S : short_right ws ws').
  { refine (stars_part 1 [1;1;1;4;1] c93_table _ ws ws' mid mid' eq_refl W eq_refl _ EB (proj1 HF) HT EB' (proj1 HF') HT' HI).
    intros c Hc Ec. rewrite forallb_forall in N. specialize (N c Hc). rewrite Ec in N. discriminate N. }
  rewrite (c93_cut ws ws' r H (or_introl S)) in H'. discriminate H'.
Qed.

(** ** Codabar *)
Local Notation gap := (fun c : list nat => c ++ [1]).
Definition lib_all : list (list nat) := map gap lib_table.
Definition lib_inner : list (list nat) := firstn 16 lib_table.
Definition cod_all : list (list nat) := map gap cod_table.
Definition cod_last (w : list nat) : bool :=
  existsb (fun z => widths_eqb (removelast z) (firstn 6 w) && (List.last z 0 <=? nth 6 w 0)) cod_starts.
Lemma cod_windows : forallb (fun off => closed off lib_all lib_all cod_all && never cod_last off lib_all lib_all) [2; 4; 6] = true.
Proof. vm_compute. reflexivity. Qed.
Lemma lib_ends_apart : ends_apart cod_starts lib_inner = true.
Proof. vm_compute. reflexivity. Qed.
Lemma cod_starts_in c : In c cod_starts -> In c lib_table.
Proof. intros H. repeat destruct H as [<-|H]; try contradiction; vm_compute; tauto. Qed.
Lemma firstn_In {A} n (l : list A) x : In x (firstn n l) -> In x l.
Proof. intros H. rewrite <- (firstn_skipn n l). apply in_or_app. now left. Qed.
Lemma cod_inner_in c : In c cod_inner -> In c cod_table.
Proof. apply firstn_In. Qed.
Lemma lib_inner_in c : In c lib_inner -> In c lib_table.
Proof. apply firstn_In. Qed.
Lemma cod_part ws ws' a mid z r' : ws ++ [1] = concat (map gap (a :: mid ++ [z])) -> Forall (fun c => length c = 7) (a :: mid ++ [z]) ->
  In a cod_starts -> In z cod_starts -> Forall (fun c => In c lib_inner) mid ->
  read_cod ws' = Some r' -> cod_framed r' -> inside ws ws' -> False.
Proof.
  intros EB HF Ia Iz Im H' HFr' (P & w1 & m & w2 & Q & w1' & w2' & E & E' & EV & H1 & H2 & HV).
  destruct (cod_form _ _ H' HFr') as (a' & mid' & z' & EB' & HF' & Ia' & Iz' & Im' & _).
  assert (FM : Forall (fun c => length c = 7) mid') by (apply Forall_inv_tail, Forall_app in HF'; tauto).
  assert (La' : length a' = 7) by exact (Forall_inv HF').
  assert (Lz' : length z' = 7) by (apply Forall_inv_tail, Forall_app in HF'; destruct HF' as [_ HF']; exact (Forall_inv HF')).
  destruct a' as [|a0 a1]; [discriminate|]. destruct z' as [|z1 z0 _] using rev_ind; [discriminate|]. rewrite app_length in Lz'. cbn [length] in La', Lz'.
  assert (HM : w1' = a0 /\ m = (a1 ++ [1]) ++ concat (map gap mid') ++ z0 /\ w2' = z1).
  { rewrite E' in EB'. cbn [map concat] in EB'. rewrite map_app, concat_app in EB'. cbn [map concat] in EB'. rewrite app_nil_r in EB'. cbn [app] in EB'.
    injection EB' as -> EB'. rewrite !app_assoc in EB'. apply app_inj_tail in EB'. destruct EB' as [EB' _]. apply app_inj_tail in EB'. destruct EB' as [-> ->].
    split; [reflexivity|]. split; [now rewrite <- !app_assoc | reflexivity]. }
  destruct HM as (-> & -> & ->).
  set (cs := a :: mid ++ [z]) in *. pose proof (gap_sizes 7 cs HF) as HF8. pose proof (gap_sizes 7 mid' FM) as FM8.
  assert (EX : concat (map gap cs) ++ [] = P ++ (w1 :: a1 ++ [1]) ++ concat (map gap mid') ++ z0 ++ w2 :: Q ++ [1]).
  { rewrite app_nil_r, <- EB, E. cbn [app]. rewrite <- !app_assoc. cbn [app]. rewrite <- !app_assoc. cbn [app]. rewrite <- !app_assoc. reflexivity. }
  destruct (split_block 8 _ [] P _ ltac:(lia) HF8 EX) as (x & b & y & off & HB & Ho & LP & EP & EY).
  { apply (f_equal (@length nat)) in EX. rewrite app_nil_r, (concat_length_const 8 _ HF8) in EX. rewrite EX, app_length. cbn [length app]. lia. }
  assert (HA : Forall (fun b => In b lib_all) (x ++ b :: y)).
  { rewrite <- HB. unfold lib_all. apply Forall_map. apply Forall_forall. intros c Hc. apply (in_map gap). unfold cs in Hc.
    destruct Hc as [<-|Hc]; [now apply cod_starts_in|]. apply in_app_or in Hc. destruct Hc as [Hc|[<-|[]]]; [|now apply cod_starts_in].
    apply lib_inner_in. rewrite Forall_forall in Im. now apply Im. }
  assert (HF8' := HF8). rewrite HB in HF8'. apply Forall_app in HF8', HA. destruct HF8' as [_ HF8']. destruct HA as [_ HA].
  destruct off as [|off].
  - cbn [skipn firstn] in EY, EP. rewrite app_nil_r in EP. apply split_same in EY; [|rewrite (Forall_inv HF8'); cbn [length]; rewrite app_length; cbn [length]; lia].
    destruct EY as [Eb EY]. apply map_eq_app in HB. destruct HB as (cx & cy & HB & Ex & Ey). apply map_eq_cons in Ey. destruct Ey as (c & cy' & -> & Ec & Ey).
    assert (Ec' : c = w1 :: a1) by (rewrite <- Ec in Eb; rewrite app_comm_cons in Eb; apply app_inj_tail in Eb; destruct Eb; now symmetry).
    pose proof lib_ends_apart as AP.
    destruct (framed_place _ _ _ _ _ _ HB) as [HI|[[-> Ea]|[-> Ea]]].
    + rewrite Forall_forall in Im. specialize (Im _ HI). destruct (ends_apart_inner _ _ _ _ AP Ia' Im) as [_ N]. rewrite Ec' in N. now apply N.
    + assert (EE : c = a0 :: a1) by (apply (ends_apart_ends _ _ _ _ AP); [now rewrite Ea | exact Ia' | right; now rewrite Ec']).
      rewrite Ec' in EE. injection EE as ->. cbn [map] in Ex. subst x. cbn [concat] in EP. subst P.
      assert (S : short_right ws ws').
      { apply (inside_right ws ws' a0 ((a1 ++ [1]) ++ concat (map gap mid') ++ z0) w2 z1 Q); [| |..|].
        - rewrite E. cbn [app]. rewrite <- !app_assoc. reflexivity.
        - exact E'.
        - rewrite !app_length, (concat_length_const 8 _ FM8). cbn [length]. rewrite !Nat.even_add, Nat.even_mul.
          replace (length a1) with 6 by lia. replace (length z0) with 6 by lia. reflexivity.
        - exact H2.
        - destruct HV as [HV|[HV|[HV|HV]]]; [congruence|tauto|lia|tauto]. }
  exact (gapped_cut 7 cod_starts lib_inner ws ws' a mid z (a0 :: a1) mid' (z0 ++ [z1]) lib_ends_apart ltac:(lia) HF HF' Ia Iz Ia' Iz' Im EB EB' (or_introl S)).
    + rewrite <- Ey in EY. apply (f_equal (@length nat)) in EY. rewrite !app_length in EY. cbn [concat map length] in EY. lia.
  - assert (HE : Nat.even (S off) = true) by (apply (even_offset 8 (length P) (length x)); [exact EV | reflexivity | exact LP]).
    assert (H246 : In (S off) [2; 4; 6]) by (do 7 (destruct off as [|off]; [try discriminate HE; cbn; tauto|]); lia).
    pose proof cod_windows as W. rewrite forallb_forall in W. specialize (W _ H246). apply andb_prop in W. destruct W as [W1 W2].
    destruct (Q ++ [1]) as [|q s] eqn:EQ; [now apply app_eq_nil in EQ|].
    replace (z0 ++ w2 :: q :: s) with ((z0 ++ [w2; q]) ++ s) in EY by (rewrite <- app_assoc; reflexivity).
    destruct (step 8 (S off) b y [] (w1 :: a1 ++ [1]) (concat (map gap mid') ++ (z0 ++ [w2; q]) ++ s)) as (b' & y' & -> & _ & EY').
    { lia. } { exact (Forall_inv HF8'). } { exact (Forall_inv_tail HF8'). } { cbn [length]. rewrite app_length. cbn [length]. lia. } { cbn [length]. lia. } { now symmetry. }
    apply Forall_inv_tail in HF8'. apply Forall_inv_tail in HA.
    refine (walk 8 cod_last (S off) lib_all lib_all cod_all (z0 ++ [w2; q]) s [] W1 W2 ltac:(lia) _ _
      ltac:(cbn [length]; lia) (map gap mid') b' y' (Forall_inv HA) (Forall_inv HF8') (Forall_inv_tail HA) (Forall_inv_tail HF8') _ FM8 EY').
    + rewrite app_length. cbn [length]. lia.
    + unfold cod_last. apply existsb_exists. exists (z0 ++ [z1]). split; [exact Iz'|]. rewrite removelast_last, last_last.
      replace (firstn 6 (z0 ++ [w2; q])) with z0 by (replace 6 with (length z0) by lia; rewrite firstn_app, Nat.sub_diag, firstn_all; cbn [firstn]; now rewrite app_nil_r).
      rewrite widths_eqb_refl. replace 6 with (length z0) by lia. rewrite app_nth2, Nat.sub_diag by lia. cbn [nth andb]. apply Nat.leb_le. lia.
    + apply Forall_map. revert Im'. apply Forall_impl. intros c Hc. unfold cod_all. apply (in_map gap). now apply cod_inner_in.
Qed.

(** ** Code 128 *)
Definition c128_stop6 : list nat := [2;3;3;1;1;1].
Definition c128_all : list (list nat) := c128_table ++ [c128_stop6].
(** The characters in which a window can end that begins like a start character *)
Definition c128_after off : list (list nat) :=
  filter (fun b' => existsb (fun b => existsb (fun s => widths_eqb (tl (window off b b')) (tl s) && (hd 0 s <=? hd 0 (window off b b'))) (skipn 103 c128_table)) c128_all) c128_all.
Definition c128_grow off R : list (list nat) :=
  R ++ filter (fun b' => existsb (fun b => existsb (widths_eqb (window off b b')) c128_table) R && negb (existsb (widths_eqb b') R)) c128_all.
Definition c128_reach off : list (list nat) := c128_grow off (c128_after off).
Lemma c128_windows : forallb (fun off => closed off (c128_reach off) c128_all c128_table && never (widths_eqb c128_stop6) off (c128_reach off) c128_all) [2; 4] = true.
Proof. vm_compute. reflexivity. Qed.
Lemma skipn_nth {A} n (l : list A) i x : nth_error l i = Some x -> n <= i -> In x (skipn n l).
Proof.
  intros H Hi. rewrite <- (firstn_skipn n l) in H. rewrite nth_error_app2 in H by (rewrite firstn_length; lia). now apply nth_error_In in H.
Qed.
Lemma tail_part (T A : list (list nat)) (R : nat -> list (list nat)) (st6 : list nat) (w : nat) ws ws' bs e c0 y' :
  forallb (fun off => closed off (R off) A T && never (widths_eqb st6) off (R off) A) [2; 4] = true -> length st6 = 6 -> A = T ++ [st6] ->
  (forall off b b' w1, In b A -> In b' A -> window off b b' = w1 :: c0 -> e <= w1 -> In b' (R off)) ->
  (forall w1, In (w1 :: c0) A -> w1 = e) -> ~ In st6 T -> In (e :: c0) T -> length c0 = 5 ->
  ws = concat bs ++ st6 ++ [w] -> Forall (fun b => length b = 6) bs -> Forall (fun b => In b T) bs ->
  ws' = concat ((e :: c0) :: y') ++ st6 ++ [w] -> Forall (fun b => length b = 6) y' -> Forall (fun b => In b T) y' ->
  inside ws ws' -> short_right ws ws' \/ exists x x0 y, bs = (x0 :: x) ++ (e :: c0) :: y.
Proof.
  intros W L6 EA AFT HE1 N6 Ia Lc EB HF IB EB' HF' IY (P & w1 & m & w2 & Q & w1' & w2' & E & E' & EV & H1 & H2 & HV).
  assert (HM : w1' = e /\ m = c0 ++ concat y' ++ st6 /\ w2' = w).
  { rewrite E' in EB'. cbn [concat app] in EB'. injection EB' as -> T2. rewrite !app_assoc in T2.
    apply app_inj_tail in T2. destruct T2 as [-> ->]. rewrite <- !app_assoc. auto. }
  destruct HM as (-> & -> & ->).
  assert (HB6 : Forall (fun b => length b = 6) (bs ++ [st6])) by (apply Forall_app; split; [assumption | constructor; [exact L6 | constructor]]).
  assert (EX : concat (bs ++ [st6]) ++ [w] = P ++ (w1 :: c0) ++ concat y' ++ st6 ++ w2 :: Q).
  { rewrite concat_app. cbn [concat]. rewrite app_nil_r, <- app_assoc, <- EB, E. cbn [app]. rewrite <- !app_assoc. reflexivity. }
  destruct (split_block 6 _ [w] P _ ltac:(lia) HB6 EX) as (x & b & y & off & HB & Ho & LP & EP & EY).
  { apply (f_equal (@length nat)) in EX. rewrite app_length, (concat_length_const 6 _ HB6), !app_length in EX. rewrite app_length. cbn [length] in *. lia. }
  assert (HA : Forall (fun b => In b A) (x ++ b :: y)).
  { rewrite <- HB, EA. apply Forall_app. split; [|constructor; [apply in_or_app; right; now left | constructor]].
    revert IB. apply Forall_impl. intros c Hc. apply in_or_app. now left. }
  pose proof HB6 as HF6. rewrite HB in HF6. apply Forall_app in HF6, HA. destruct HF6 as [_ HF6]. destruct HA as [_ HA].
  destruct off as [|off].
  - cbn [skipn firstn] in EY, EP. rewrite app_nil_r in EP. apply split_same in EY; [|rewrite (Forall_inv HF6); cbn [length]; lia]. destruct EY as [<- EY].
    assert (w1 = e) by (apply HE1; exact (Forall_inv HA)). subst w1.
    destruct y as [|y0 y _] using rev_ind.
    + exfalso. apply app_inj_tail in HB. destruct HB as [_ Hb]. apply N6. rewrite Hb. exact Ia.
    + rewrite app_comm_cons, app_assoc in HB. apply app_inj_tail in HB. destruct HB as [-> _].
      destruct x as [|x0 x]; [left | right; now exists x, x0, y].
      cbn [concat] in EP. subst P.
      apply (inside_right ws ws' e (c0 ++ concat y' ++ st6) w2 w Q); [| |..|].
      * rewrite E. cbn [app]. rewrite <- !app_assoc. reflexivity.
      * exact E'.
      * rewrite !app_length, (concat_length_const 6 _ HF'), L6, !Nat.even_add, Nat.even_mul, Lc. reflexivity.
      * exact H2.
      * destruct HV as [HV|[HV|[HV|HV]]]; [congruence|tauto|lia|tauto].
  - exfalso. assert (HE : Nat.even (S off) = true) by (apply (even_offset 6 (length P) (length x)); [exact EV | reflexivity | exact LP]).
    assert (H24 : In (S off) [2; 4]) by (do 5 (destruct off as [|off]; [try discriminate HE; cbn; tauto|]); lia).
    rewrite forallb_forall in W. specialize (W _ H24). apply andb_prop in W. destruct W as [W1 W2].
    destruct (step 6 (S off) b y [w] (w1 :: c0) (concat y' ++ st6 ++ w2 :: Q)) as (b1 & y1 & -> & EW & EY').
    { lia. } { exact (Forall_inv HF6). } { exact (Forall_inv_tail HF6). } { cbn [length]. lia. } { rewrite !app_length. cbn [length]. lia. } { now symmetry. }
    assert (Ib1 : In b1 (R (S off))).
    { apply (AFT (S off) b b1 w1); [exact (Forall_inv HA) | exact (Forall_inv (Forall_inv_tail HA)) | exact EW | lia]. }
    apply Forall_inv_tail in HF6. apply Forall_inv_tail in HA.
    apply (walk 6 (widths_eqb st6) (S off) (R (S off)) A T st6 (w2 :: Q) [w] W1 W2 ltac:(lia) L6 (widths_eqb_refl _)
      ltac:(cbn [length]; lia) y' b1 y1 Ib1 (Forall_inv HF6) (Forall_inv_tail HA) (Forall_inv_tail HF6) IY HF' EY').
Qed.
Lemma c128_after_spec off b b' w1 e c0 : In (e :: c0) (skipn 103 c128_table) -> In b c128_all -> In b' c128_all ->
  window off b b' = w1 :: c0 -> e <= w1 -> In b' (c128_reach off).
Proof.
  intros Is Ib Ib' EW Hw. unfold c128_reach, c128_grow. apply in_or_app. left. unfold c128_after. apply filter_In. split; [exact Ib'|].
  apply existsb_exists. exists b. split; [exact Ib|]. apply existsb_exists. exists (e :: c0). split; [exact Is|].
  rewrite EW. cbn [tl hd]. rewrite widths_eqb_refl. apply Nat.leb_le. lia.
Qed.
Lemma c128_all_eq : c128_all = c128_table ++ [c128_stop6].
Proof. reflexivity. Qed.
Lemma c128_all_sums : forallb (fun b => Nat.eqb (list_sum b) 11) c128_all = true.
Proof. vm_compute. reflexivity. Qed.
Lemma c128_all_sum b : In b c128_all -> list_sum b = 11.
Proof. intros H. apply Nat.eqb_eq. exact (proj1 (forallb_forall _ _) c128_all_sums b H). Qed.
Lemma c128_starts_In b st : option_map N.of_nat (which c128_table b) = Some st -> (103 <= st)%N -> In b (skipn 103 c128_table).
Proof.
  intros H Hst. apply option_map_Some in H. destruct H as (n & H & E). apply which_sound in H. apply (skipn_nth _ _ n); [exact H|]. lia.
Qed.
Lemma c128_stop_eq : c128_stop = c128_stop6 ++ [2].
Proof. reflexivity. Qed.
Lemma tail_right (T : list (list nat)) (st6 : list nat) w ws ws' bs bs' : length st6 = 6 -> ~ In st6 T ->
  ws = concat bs ++ st6 ++ [w] -> Forall (fun b => length b = 6) bs -> Forall (fun b => In b T) bs ->
  ws' = concat bs' ++ st6 ++ [w] -> Forall (fun b => length b = 6) bs' -> short_right ws ws' -> False.
Proof.
  intros L6 N6 E HF IB E' HF' (u & w0 & w' & v & -> & -> & _ & Hw & HV).
  pose proof (f_equal (@length nat) E) as L. pose proof (f_equal (@length nat) E') as L'.
  rewrite !app_length, (concat_length_const 6) in L, L' by assumption. cbn [length] in L, L'. rewrite app_assoc in E'. apply app_inj_tail in E'. destruct E' as [-> ->].
  rewrite <- app_assoc in E. rewrite app_length in L, L'. cbn [length] in L, L'.
  destruct (blocks_prefix 6 bs bs' _ _ ltac:(lia) HF HF' E) as (B2 & EB & ET & F2); [rewrite (concat_length_const 6) in L by assumption; lia|].
  destruct B2 as [|b B2].
  - cbn [concat app] in ET. apply split_same in ET; [|reflexivity]. destruct ET as [_ ET]. injection ET as -> ->. destruct HV as [HV|HV]; [lia | congruence].
  - cbn [concat] in ET. rewrite <- app_assoc in ET. apply split_same in ET; [|now rewrite (Forall_inv F2)]. destruct ET as [<- _].
    rewrite EB in IB. apply Forall_app in IB. destruct IB as [_ IB]. exact (N6 (Forall_inv IB)).
Qed.
Lemma c128_part ws ws' bs st0 vs r' : ws = concat bs ++ c128_stop -> Forall (fun b => length b = 6) bs ->
  read_all (fun b => option_map N.of_nat (which c128_table b)) bs = Some (st0 :: vs) -> Forall (fun v => v <= 102)%N vs ->
  read_c128 ws' = Some r' -> inside ws ws' -> False.
Proof.
  intros EB HF HR HX H' HI. destruct (c128_form _ _ H') as (bs' & vs' & EB' & HF' & HR' & HD').
  assert (D' : decode_checked vs' <> None) by congruence. apply decode_checked_form in D'. destruct D' as (st & data & -> & Hst & _).
  destruct bs' as [|b' y']; [apply read_all_nil in HR'; discriminate HR'|]. cbn [app] in HR'. apply read_all_cons in HR'.
  destruct HR' as (st1 & ys & R1 & R2 & ES). injection ES as <- _. pose proof (Forall_inv HF') as Lb'. cbv beta in Lb'. pose proof HF' as HFF. apply Forall_inv_tail in HF'.
  destruct b' as [|e c0]; [discriminate Lb'|]. cbn [length] in Lb'.
  pose proof (c128_value_In _ _ R1) as Ia. pose proof (c128_sum11 _ Ia) as S1.
  rewrite c128_stop_eq in EB, EB'.
  pose proof (tail_part c128_table c128_all c128_reach c128_stop6 2 ws ws' bs e c0 y' c128_windows) as TP.
  specialize (TP eq_refl). specialize (TP c128_all_eq).
  destruct TP as [S|(x & x0 & y & ->)].
  - intros off b b' w1. apply c128_after_spec. apply (c128_starts_In _ st R1). lia.
  - intros w1 Hw. apply c128_all_sum in Hw. cbn [list_sum fold_right] in Hw, S1. lia.
  - exact c128_stop_not.
  - exact Ia.
  - lia.
  - exact EB.
  - exact HF.
  - exact (c128_values_In _ _ HR).
  - exact EB'.
  - exact HF'.
  - exact (c128_values_In _ _ R2).
  - exact HI.
  - exact (tail_right c128_table c128_stop6 2 ws ws' bs _ eq_refl c128_stop_not EB HF (c128_values_In _ _ HR) EB' HFF S).
  - cbn [app] in HR. apply read_all_cons in HR. destruct HR as (s0 & r0 & _ & HR & ES). injection ES as <- ES.
    apply read_all_app in HR. destruct HR as (ra & rb & _ & HR & ->). apply read_all_cons in HR. destruct HR as (z & zs & R3 & _ & ->).
    rewrite R1 in R3. injection R3 as <-.
    rewrite ES in HX. apply Forall_app in HX. destruct HX as [_ HX]. apply Forall_inv in HX. lia.
Qed.
(** What is printed, readable or not *)
Lemma c128_printed p s m : barcode SCode128 p s = Ret (Ok m) -> exists bs st0 vs, m = render (concat bs ++ c128_stop) /\ Forall (fun b => length b = 6) bs /\
  read_all (fun b => option_map N.of_nat (which c128_table b)) bs = Some (st0 :: vs) /\ Forall (fun v => v <= 102)%N vs.
Proof.
  intros H. cbn [barcode] in H. apply run_Ret in H. destruct H as [b [HN HE]]. destruct (code128_new_Ok s b HN) as [segs [HM [_ ->]]].
  assert (HC : exists chk, (chk <= 102)%N /\ m = render (symbol_with (message_values segs) chk)).
  { rewrite code128_encode_exact in HE by assumption. cbv zeta in HE.
    set (w := match p with Debug => _ | Release => _ end) in HE. destruct (_ <=? _)%Z in HE; [discriminate HE|]. destruct (_ <=? _)%Z in HE.
    - injection HE as <-. exists (Z.to_N (w mod 103)). split; [|reflexivity]. pose proof (Z.mod_pos_bound w 103 eq_refl). lia.
    - destruct (_ =? _)%Z in HE; [|discriminate HE]. injection HE as <-. exists 0%N. split; [lia | reflexivity]. }
  destruct HC as (chk & Hc & ->). destruct (message_values_bound segs HM) as (k & vs & E & Hv). rewrite E.
  assert (HL : Forall (fun v => v < 106)%N ((start_value k :: vs) ++ [chk])).
  { apply Forall_app. split; [rewrite <- E; now apply message_values_lt | constructor; [lia | constructor]]. }
  exists (map c128_pattern ((start_value k :: vs) ++ [chk])), (start_value k), (vs ++ [chk]).
  split; [reflexivity|]. split; [now apply c128_lengths|]. split.
  - change (start_value k :: vs ++ [chk]) with ((start_value k :: vs) ++ [chk]). apply read_all_map_id. intros v Hin. rewrite Forall_forall in HL.
    rewrite which_c128 by auto. cbn [option_map]. now rewrite N2Nat.id.
  - apply Forall_app. split; [exact Hv | constructor; [exact Hc | constructor]].
Qed.
Lemma lib_stop_In c : cod_stop c -> In (lib_pattern c) cod_starts.
Proof. unfold cod_stop. intros H. vm_compute in H. repeat destruct H as [<-|H]; try contradiction; vm_compute; tauto. Qed.
Lemma lib_inner_all : forallb (fun c => existsb (fun d => N.eqb d c) (lit "ABCD") || existsb (widths_eqb (lib_pattern c)) lib_inner) cod_chars = true.
Proof. vm_compute. reflexivity. Qed.
Lemma lib_inner_In c : In c cod_chars -> ~ cod_stop c -> In (lib_pattern c) lib_inner.
Proof.
  intros H N. pose proof (proj1 (forallb_forall _ _) lib_inner_all c H) as E. cbv beta in E. apply orb_prop in E. destruct E as [E|E]; [|now apply In_existsb].
  exfalso. apply N. apply existsb_exists in E. destruct E as (d & Hd & E). apply N.eqb_eq in E. subst d. exact Hd.
Qed.
Lemma cod_printed p s m : barcode SCodabar p s = Ret (Ok m) -> cod_framed s -> exists a mid z ws, m = render ws /\
  ws ++ [1] = concat (map gap (a :: mid ++ [z])) /\ Forall (fun c => length c = 7) (a :: mid ++ [z]) /\
  In a cod_starts /\ In z cod_starts /\ Forall (fun c => In c lib_inner) mid.
Proof.
  intros H (a & mid & z & Es & Ha & Hz & Hm). cbn [barcode] in H. apply run_Ok in H. destruct H as [b [HN HE]].
  rewrite (codabar_encode_lib p s b HN) in HE. injection HE as <-. apply codabar_new_Ok in HN. destruct HN as [HF [Hn _]].
  exists (lib_pattern a), (map lib_pattern mid), (lib_pattern z), (sep_symbol lib_pattern s). split; [reflexivity|].
  assert (EM : map lib_pattern s = lib_pattern a :: map lib_pattern mid ++ [lib_pattern z]) by (rewrite Es; cbn [map]; now rewrite map_app).
  rewrite <- EM. split; [now apply sep_symbol_blocks|]. split; [apply sep_lengths; [exact lib_pattern_length | exact HF]|].
  split; [now apply lib_stop_In|]. split; [now apply lib_stop_In|]. apply Forall_map. rewrite Es in HF. apply Forall_inv_tail, Forall_app in HF.
  rewrite Forall_forall in *. intros c Hc. apply lib_inner_In; [now apply HF | now apply Hm].
Qed.

(** ** Retail symbols and two-digit add-ons *)
Lemma halves_part n ws ws' x x' : read_halves n ws = Some x -> read_halves n ws' = Some x' -> inside ws ws' -> False.
Proof.
  intros H H' HI. pose proof (halves_sig n ws x H) as (_ & L & _). pose proof (halves_sig n ws' x' H') as (_ & L' & _).
  destruct x as [l r]. apply halves_form in H. destruct H as (lb & rb & E & _).
  destruct HI as (P & w1 & m & w2 & Q & w1' & w2' & EW & EW' & _ & H1 & H2 & HV).
  assert (LL : length ws = length ws') by congruence. rewrite EW, EW' in LL. rewrite !app_length in LL. cbn [length] in LL. rewrite !app_length in LL. cbn [length] in LL.
  destruct P as [|? ?]; [|cbn [length] in LL; lia]. destruct Q as [|? ?]; [|cbn [length] in LL; lia].
  rewrite app_nil_r in EW. cbn [app] in EW. rewrite EW in E.
  pose proof (f_equal (hd 0) E) as T1. change (w1 = 1) in T1.
  assert (T2 : w2 = 1).
  { unfold normal_guard at 2 in E. change [1;1;1] with ([1;1] ++ [1]) in E. rewrite !app_assoc, app_comm_cons in E. apply app_inj_tail in E. tauto. }
  destruct HV as [HV|[HV|HV]]; [congruence|congruence|lia].
Qed.
Lemma supp_part ws ws' a b r' : read_as SSupp ws = Some (Digits [a; b]) -> read_as SSupp ws' = Some r' -> inside ws ws' -> False.
Proof.
  intros H H' HI. destruct (inside_same _ _ HI) as [HL HS]. apply supp_form in H, H'. destruct H as (l & H & HN & E). destruct H' as (l' & H' & HN' & _).
  assert (L2 : length l = 2) by (assert (T : [a; b] = map snd l) by congruence; apply (f_equal (@length N)) in T; rewrite map_length in T; now symmetry).
  destruct (supp_shape _ _ H HN) as [(_ & c1 & c2 & EW & HR)|(N5 & _)]; [|lia].
  pose proof (read_AB_all _ _ HR) as [HF _]. apply Forall_cons_iff in HF. destruct HF as [[A1 B1] HF]. apply Forall_cons_iff in HF. destruct HF as [[A2 B2] _].
  pose proof (f_equal (@length nat) EW) as LW. rewrite !app_length in LW. cbn [length] in LW.
  pose proof (f_equal list_sum EW) as SW. rewrite !list_sum_app in SW. cbn [list_sum fold_right] in SW.
  destruct (supp_shape _ _ H' HN') as [(_ & d1 & d2 & EW' & HR')|(_ & d1 & d2 & d3 & d4 & d5 & EW' & HR')];
    pose proof (read_AB_all _ _ HR') as [HF _]; repeat (apply Forall_cons_iff in HF; let A := fresh "A" in let B := fresh "B" in destruct HF as [[A B] HF]);
    pose proof (f_equal (@length nat) EW') as LW'; rewrite !app_length in LW'; cbn [length] in LW'; [|lia].
  pose proof (f_equal list_sum EW') as SW'. rewrite !list_sum_app in SW'. cbn [list_sum fold_right] in SW'. specialize (HS ltac:(lia)). lia.
Qed.

Lemma part_read y p s m l r : (str_len s < 2 ^ 48)%N -> barcode y p s = Ret (Ok m) -> whole_only y s ->
  proper_part m l -> read_modules y l = Some r -> accepts y r -> False.
Proof.
  intros Hs HB HW (u & v & E & HI) HR' HA'. destruct (shape_scan y m (barcode_shape y p s m Hs HB)) as (ws & HS & Em & HD).
  pose proof (barcode_meant y p s m Hs HB) as MM. pose proof Em as Em0.
  unfold read_modules in HR', MM. rewrite HS in MM. cbn [obind] in MM. apply obind_Some in HR'. destruct HR' as (ws' & HS' & HR').
  destruct (tail_repeat y) as [k Hk]. rewrite Hk in Em. rewrite Em in E.
  assert (SC : forall w, m = render w -> Forall (fun x => 1 <= x) w -> Nat.even (length w) = false -> w = ws).
  { intros w Ew P O. rewrite Ew, scan_render in HS by assumption. now injection HS. }
  destruct (part_inside ws k u l v ws' (shape_pos y ws HD) (proj1 HD) E HI HS') as [L1|IN].
  - clear - HR' HA' HW L1. rename r into r', ws' into w.
    enough (1 < length w) by lia. destruct y; cbn [whole_only] in HW; try contradiction.
    + destruct (read_halves_of SEan13 w r' ltac:(auto) HR') as [x Hx]. apply halves_sig in Hx. lia.
    + destruct (read_halves_of SEan8 w r' ltac:(auto) HR') as [x Hx]. apply halves_sig in Hx. lia.
    + destruct (read_halves_of SUpca w r' ltac:(auto) HR') as [x Hx]. apply halves_sig in Hx. lia.
    + apply supp_form in HR'. destruct HR' as (ll & HR' & HN & _). destruct (supp_shape _ _ HR' HN) as [(_ & c1 & c2 & -> & _)|(_ & c1 & c2 & c3 & c4 & c5 & -> & _)];
          cbn [app length]; lia.
    + cbn [read_as] in HR'. apply option_map_Some in HR'. destruct HR' as (t & HR' & _). destruct (c93_form' _ _ HR') as (mid & -> & _).
      rewrite app_length. cbn [concat]. rewrite app_length. change (length c93_star) with 6. lia.
    + cbn [read_as] in HR'. apply option_map_Some in HR'. destruct HR' as (t & HR' & ->). cbn [accepts] in HA'. destruct (cod_form _ _ HR' HA') as (? & ? & ? & _ & _ & _ & _ & _ & L). lia.
    + cbn [read_as] in HR'. apply option_map_Some in HR'. destruct HR' as (t & HR' & _). destruct (c128_form _ _ HR') as (bs & vs & -> & _).
      rewrite app_length. change (length c128_stop) with 7. lia.
  - destruct y; cbn [whole_only] in HW; try contradiction; cbn [meant] in MM.
    + destruct MM as (c & _ & MM). destruct (read_halves_of SEan13 ws _ ltac:(auto) MM) as [x Hx]. destruct (read_halves_of SEan13 ws' r ltac:(auto) HR') as [x' Hx']. exact (halves_part _ _ _ _ _ Hx Hx' IN).
    + destruct MM as (c & _ & MM). destruct (read_halves_of SEan8 ws _ ltac:(auto) MM) as [x Hx]. destruct (read_halves_of SEan8 ws' r ltac:(auto) HR') as [x' Hx']. exact (halves_part _ _ _ _ _ Hx Hx' IN).
    + destruct MM as (c & _ & MM). destruct (read_halves_of SUpca ws _ ltac:(auto) MM) as [x Hx]. destruct (read_halves_of SUpca ws' r ltac:(auto) HR') as [x' Hx']. exact (halves_part _ _ _ _ _ Hx Hx' IN).
    + destruct s as [|a [|b [|? ?]]]; try discriminate HW. exact (supp_part _ _ _ _ _ MM HR' IN).
    + cbn [read_as] in MM, HR'. apply option_map_Some in MM, HR'. destruct MM as (t & MM & _), HR' as (t' & HR' & _). exact (c93_part _ _ _ _ MM HR' IN).
    + cbn [read_as] in HR'. apply option_map_Some in HR'. destruct HR' as (t' & HR' & ->). cbn [accepts] in HA'.
      destruct (cod_printed p s m HB HW) as (a & mid & z & w & Ew & EG & FG & Ia & Iz & Im).
      assert (Q : w = ws).
      { apply SC; [exact Ew| |].
        - assert (P1 : Forall (fun x => 1 <= x) (w ++ [1])).
          { rewrite EG. apply Forall_concat, Forall_map. constructor; [|apply Forall_app; split; [|constructor; [|constructor]]];
              [|revert Im; apply Forall_impl; intros c Hc|]; (apply Forall_app; split; [|constructor; [lia | constructor]]).
            - clear - Ia. repeat destruct Ia as [<-|Ia]; try contradiction; repeat constructor.
            - clear - Hc. apply lib_inner_in in Hc. revert c Hc. apply Forall_forall. repeat constructor.
            - clear - Iz. repeat destruct Iz as [<-|Iz]; try contradiction; repeat constructor. }
          apply Forall_app in P1. tauto.
        - pose proof (f_equal (@length nat) EG) as L. rewrite (concat_length_const 8 _ (gap_sizes 7 _ FG)), app_length in L. cbn [length] in L.
          apply (f_equal Nat.even) in L. rewrite Nat.even_add, Nat.even_mul in L. cbn [Nat.even orb] in L. now destruct (Nat.even (length w)). }
      subst w. exact (cod_part ws ws' a mid z t' EG FG Ia Iz Im HR' HA' IN).
    + cbn [read_as] in HR'. apply option_map_Some in HR'. destruct HR' as (t' & HR' & _). clear MM.
      destruct (c128_printed p s m HB) as (bs & st0 & vs & Ew & FG & RG & VG).
      assert (Q : concat bs ++ c128_stop = ws).
      { apply SC; [exact Ew| |].
        - apply Forall_app. split; [|repeat constructor]. apply Forall_concat. pose proof (c128_values_In _ _ RG) as IG. revert IG. apply Forall_impl. intros b Hb.
          assert (TP : forallb (forallb (fun x => 1 <=? x)) c128_table = true) by (vm_compute; reflexivity).
          pose proof (proj1 (forallb_forall _ _) TP b Hb) as T1. apply Forall_forall. intros x Hx. apply Nat.leb_le. exact (proj1 (forallb_forall _ _) T1 x Hx).
        - rewrite app_length, (concat_length_const 6 _ FG). change (length c128_stop) with 7. rewrite Nat.even_add, Nat.even_mul. reflexivity. }
      exact (c128_part ws ws' bs st0 vs t' (eq_sym Q) FG RG VG HR' IN).
Qed.

(** ** One end missing: what was printed decides *)
Lemma cut_part m m' : cut_right m m' \/ cut_left m m' -> proper_part m m'.
Proof.
  intros [(b & -> & H)|(a & -> & H)]; [exists [], b | exists a, []]; (split; [now rewrite ?app_nil_r|]); rewrite ?app_nil_r; exact H.
Qed.
Lemma cut_after y p s m m' r' : (str_len s < 2 ^ 48)%N -> barcode y p s = Ret (Ok m) -> cut_right m m' \/ cut_left m m' ->
  read_modules y m' = Some r' -> accepts y r' -> after_cut y s r'.
Proof.
  intros Hs HB HC HR HA. pose proof (barcode_meant y p s m Hs HB) as MM.
  assert (WH : whole_only y s -> False) by (intros W; exact (part_read y p s m m' r' Hs HB W (cut_part _ _ HC) HR HA)).
  assert (LR : forall r, read_modules y m = Some r -> accepts y r -> lost_right y r r' \/ lost_left y r r').
  { intros r R A. destruct HC as [HC|HC]; [left; exact (cut_right_read y p s m m' r r' Hs HB R A HC HR HA) | right; exact (cut_left_read y p s m m' r r' Hs HB R A HC HR HA)]. }
  destruct y; cbn [after_cut whole_only meant] in *; try (exfalso; apply WH; exact I).
  - destruct (LR _ MM I) as [L|L]; cbn [lost_right lost_left] in L; [|contradiction]. destruct L as (ds & E & L5 & ->). injection E as <-.
    split; [|reflexivity]. unfold digits_of in L5. rewrite map_length in L5. exact L5.
  - destruct (LR _ MM I) as [[]|[]].
  - destruct MM as (c & _ & MM). destruct (LR _ MM I) as [[]|[]].
  - destruct (LR _ MM I) as [[]|[]].
  - exact WH.
  - destruct MM as (ds & HD & MM). destruct (LR _ MM I) as [(d & e & E & -> & Hn & He)|(d & e & E & -> & Hn & He)]; injection E as ->.
    + exists (d ++ e), [], d, e. cbn [app]. auto 7.
    + exists (e ++ d), e, d, []. rewrite !app_nil_r. auto 7.
  - destruct (LR _ MM I) as [(d & e & E & -> & Hn)|(d & e & E & -> & Hn)]; injection E as E.
    + exists [], d, e. cbn [app]. auto.
    + exists e, d, []. rewrite !app_nil_r. auto.
Qed.
