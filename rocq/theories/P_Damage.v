(** * One wrong module: what it does to the element widths *)
From Verif Require Import Rust M_Error M_Helpers M_Parse M_Ean13 M_Ean8 M_Upca M_EanSupp M_Code39 M_Code93 M_Code11
  M_Codabar M_Code128 M_Tf Symbology M_Use S_Barcode S_Ean S_Text S_Linear S_Codabar S_Tf S_Code128 S_All S_Damage
  P_Rust P_Barcode P_Code93 P_Code11 P_All P_Apart.
Local Open Scope nat_scope.

(** An edge moves by one module. *)
Inductive shift : list nat -> list nat -> Prop :=
| shift_here a b a' b' v : a + b = a' + b' -> a' = S a \/ a = S a' -> shift (a :: b :: v) (a' :: b' :: v)
| shift_later x u u' : shift u u' -> shift (x :: u) (x :: u').
(** The outer edge of the first or last bar moves. *)
Definition frayed (ws ws' : list nat) : Prop :=
  (exists a a' v, ws = a :: v /\ ws' = a' :: v /\ (a' = S a \/ a = S a')) \/
  (exists u a a', ws = u ++ [a] /\ ws' = u ++ [a'] /\ (a' = S a \/ a = S a')).
Definition damage (ws ws' : list nat) : Prop :=
  length ws' = length ws + 2 \/ length ws = length ws' + 2 \/ shift ws ws' \/ frayed ws ws'.

Lemma shift_app u a b a' b' v : a + b = a' + b' -> a' = S a \/ a = S a' -> shift (u ++ a :: b :: v) (u ++ a' :: b' :: v).
Proof. intros H1 H2. induction u; cbn [app]; [now apply shift_here | now apply shift_later]. Qed.

Lemma flip_bit b n : (b = 0 \/ b = 1)%N -> (flip b n = 0 \/ flip b n = 1)%N.
Proof. intros [->| ->]; unfold flip; destruct (Nat.even n); auto. Qed.
Lemma flip_S b n : (b = 0 \/ b = 1)%N -> flip b (S n) = (1 - flip b n)%N.
Proof. intros [->| ->]; unfold flip; rewrite Nat.even_succ, <- Nat.negb_even; destruct (Nat.even n); reflexivity. Qed.
Lemma flip_S' b n : (b = 0 \/ b = 1)%N -> flip (1 - b) n = flip b (S n).
Proof. intros [->| ->]; unfold flip; rewrite Nat.even_succ, <- Nat.negb_even; destruct (Nat.even n); reflexivity. Qed.

(** Where a module of a rendered symbol is *)
Lemma repeat_split (d : N) w A x B R : repeat d w ++ R = A ++ x :: B ->
  (exists j, j < w /\ x = d /\ A = repeat d j /\ B = repeat d (w - 1 - j) ++ R) \/
  (exists A', A = repeat d w ++ A' /\ R = A' ++ x :: B).
Proof.
  revert A. induction w as [|w IH]; intros A H; [right; exists A; split; [reflexivity | exact H]|].
  cbn [repeat app] in H. destruct A as [|a A]; cbn [app] in H.
  - injection H as <- <-. left. exists 0. split; [lia|]. split; [reflexivity|]. split; [reflexivity|].
    now replace (S w - 1 - 0) with w by lia.
  - injection H as -> H. destruct (IH A H) as [(j & Hj & -> & -> & ->)|(A' & -> & ->)].
    + left. exists (S j). split; [lia|]. split; [reflexivity|]. split; [reflexivity|].
      now replace (S w - 1 - S j) with (w - 1 - j) by lia.
    + right. exists A'. split; reflexivity.
Qed.
Lemma render_locate ws : forall c A x B, (c = 0 \/ c = 1)%N -> render_from c ws = A ++ x :: B ->
  exists u w v j, ws = u ++ w :: v /\ j < w /\ x = flip c (length u) /\
    A = render_from c u ++ repeat x j /\ B = repeat x (w - 1 - j) ++ render_from (1 - x) v.
Proof.
  induction ws as [|w ws IH]; intros c A x B Hc H; [destruct A; discriminate|]. cbn [render_from] in H.
  destruct (repeat_split c w A x B _ H) as [(j & Hj & -> & -> & ->)|(A' & -> & H')].
  - exists [], w, ws, j. cbn [length app render_from flip Nat.even]. repeat split; try reflexivity; assumption.
  - destruct (IH (1 - c)%N A' x B) as (u & w' & v & j & -> & Hj & Hx & -> & ->); [destruct Hc; subst; auto | assumption |].
    exists (w :: u), w', v, j. split; [reflexivity|]. split; [assumption|]. split.
    + rewrite Hx. cbn [length]. now apply flip_S'.
    + split; [cbn [render_from]; now rewrite app_assoc | reflexivity].
Qed.

Lemma neg_bit (d : N) : (d = 0 \/ d = 1)%N -> (1 - (1 - d) = d)%N.
Proof. intros [->| ->]; reflexivity. Qed.
Lemma repeat_snoc (d : N) n : repeat d n ++ [d] = repeat d (S n).
Proof. induction n; [reflexivity|]. cbn [repeat app] in *. now rewrite IHn. Qed.
Lemma repeat_plus (d : N) n m : repeat d (n + m) = repeat d n ++ repeat d m.
Proof. induction n; [reflexivity|]. cbn [repeat app Nat.add]. now rewrite IHn. Qed.

Lemma scan_one ws j k m : m = repeat 0%N j ++ render ws ++ repeat 0%N k ->
  Forall (fun w => 1 <= w) ws -> Nat.even (length ws) = false -> scan m = Some ws.
Proof. intros -> H1 H2. now apply scan_render_quiet. Qed.

Lemma even_SS n : Nat.even (S (S n)) = Nat.even n. Proof. reflexivity. Qed.
Lemma damage_scan ws k m' ws' : Forall (fun w => 1 <= w) ws -> Nat.even (length ws) = false -> k <= 1 ->
  one_wrong (render ws ++ repeat 0%N k) m' -> scan m' = Some ws' -> damage ws ws'.
Proof.
  intros H1 HO Hk (A & x & x' & B & E & -> & Hx) HS.
  assert (HX : (x' = 0 \/ x' = 1)%N).
  { unfold scan in HS. destruct (forallb is_module (A ++ x' :: B)) eqn:EF; [|discriminate].
    rewrite forallb_app in EF. apply andb_prop in EF. destruct EF as [_ EF]. cbn [forallb] in EF.
    apply andb_prop in EF. destruct EF as [EF _]. unfold is_module in EF. apply orb_prop in EF.
    rewrite !N.eqb_eq in EF. exact EF. }
  destruct (Nat.le_gt_cases (length (render ws)) (length A)) as [HA|HA].
  - (* the light module after the last bar *)
    assert (EA : A = render ws /\ k = 1 /\ x = 0%N /\ B = []).
    { assert (E2 := f_equal (firstn (length (render ws))) E). rewrite firstn_app, Nat.sub_diag, firstn_all in E2.
      cbn [firstn] in E2. rewrite app_nil_r in E2.
      rewrite firstn_app in E2. replace (length (render ws) - length A) with 0 in E2 by lia. cbn [firstn] in E2.
      rewrite app_nil_r in E2.
      assert (EL := f_equal (@length N) E). rewrite !app_length, repeat_length in EL. cbn [length] in EL.
      assert (length A = length (render ws)) by lia. rewrite firstn_all2 in E2 by lia. subst A.
      apply app_inv_head in E. destruct k as [|[|k]]; [discriminate | | lia]. injection E as <- <-. auto. }
    destruct EA as (-> & -> & -> & ->). assert (x' = 1%N) by lia. subst x'.
    assert (Hne : ws <> []) by (intros ->; discriminate). destruct (exists_last Hne) as [u [w Ew]]. subst ws.
    assert (HU : Nat.even (length u) = true).
    { rewrite app_length in HO. cbn [length] in HO. rewrite Nat.add_1_r, Nat.even_succ, <- Nat.negb_even in HO. now destruct (Nat.even (length u)). }
    rewrite (scan_one (u ++ [S w]) 0 0) in HS.
    + injection HS as <-. right; right; right; right. exists u, w, (S w). auto.
    + cbn [repeat app]. rewrite app_nil_r. unfold render. rewrite !render_from_app_even by auto. cbn [render_from].
      rewrite !app_nil_r, <- app_assoc. f_equal. apply repeat_snoc.
    + apply Forall_app in H1. destruct H1 as [H1 _]. apply Forall_app. split; [assumption|]. constructor; [lia | constructor].
    + rewrite app_length in *. exact HO.
  - (* a module of the symbol *)
    assert (EB : exists B', render ws = A ++ x :: B' /\ B = B' ++ repeat 0%N k).
    { assert (E2 := f_equal (firstn (length (render ws))) E). rewrite firstn_app, Nat.sub_diag, firstn_all in E2.
      cbn [firstn] in E2. rewrite app_nil_r in E2. rewrite firstn_app in E2. rewrite firstn_all2 in E2 by lia.
      replace (length (render ws) - length A) with (S (length (render ws) - length A - 1)) in E2 by lia. cbn [firstn] in E2.
      eexists. split; [exact E2|]. rewrite E2 in E. rewrite <- app_assoc in E. apply app_inv_head in E. cbn [app] in E.
      injection E as E. symmetry. exact E. }
    destruct EB as (B' & ER & ->). unfold render in ER.
    destruct (render_locate ws 1 A x B' ltac:(auto) ER) as (u & w & v & j & -> & Hj & Ed & -> & ->).
    assert (HD : (x = 0 \/ x = 1)%N) by (rewrite Ed; apply flip_bit; auto).
    assert (x' = (1 - x)%N) by lia. subst x'. clear Hx HX E ER HA.
    apply Forall_app in H1. destruct H1 as [Hu H1]. assert (Hw := Forall_inv H1). assert (Hv := Forall_inv_tail H1). cbn beta in Hw.
    rewrite app_length in HO. cbn [length] in HO.
    destruct j as [|j].
    + cbn [repeat] in HS. rewrite app_nil_r in HS. destruct (list_eq_dec Nat.eq_dec u []) as [->|Hne].
      * cbn [length flip Nat.even] in Ed. cbn [flip] in Ed. unfold flip in Ed. cbn in Ed. subst x.
        cbn [length Nat.add] in HO. cbn [app render_from] in HS. destruct w as [|[|w]]; [lia| |].
        -- (* the first bar vanishes *)
           cbn in HS. destruct v as [|b v].
           ++ exfalso. assert (X : scan (0%N :: repeat 0%N k) = None) by (destruct k as [|[|?]]; [reflexivity | reflexivity | lia]).
              cbn in X. cbn in HS. rewrite X in HS. discriminate.
           ++ cbn [length] in HO. rewrite even_SS in HO. assert (Hb := Forall_inv Hv). assert (Hv' := Forall_inv_tail Hv). cbn beta in Hb.
              change (scan (repeat 0%N 1 ++ (render_from 0 (b :: v)) ++ repeat 0%N k) = Some ws') in HS.
              cbn [render_from] in HS. change (1 - 0)%N with 1%N in HS.
              rewrite (scan_one v (S b) k) in HS; [|cbn [repeat app]; now rewrite <- app_assoc | assumption | assumption].
              injection HS as <-. right; left. cbn [app length]. lia.
        -- (* the first bar shrinks *)
           replace (S (S w) - 1 - 0) with (S w) in HS by lia.
           rewrite (scan_one (S w :: v) 1 k) in HS.
           ++ injection HS as <-. right; right; right; left. exists (S (S w)), (S w), v. auto.
           ++ cbn [repeat app render render_from]. change (1 - 1)%N with 0%N. unfold render. cbn [render_from repeat app]. now rewrite <- app_assoc.
           ++ constructor; [lia | assumption].
           ++ exact HO.
      * destruct (exists_last Hne) as [u0 [a Eu]]. subst u. rewrite app_length in HO, Ed. cbn [length] in HO, Ed.
        rewrite Nat.add_1_r in HO, Ed. rewrite flip_S in Ed by auto.
        apply Forall_app in Hu. destruct Hu as [Hu Ha]. assert (Ha' := Forall_inv Ha). cbn beta in Ha'. clear Ha.
        set (d := flip 1 (length u0)) in *. assert (Hd : (d = 0 \/ d = 1)%N) by (apply flip_bit; auto). subst x.
        rewrite neg_bit in HS by assumption.
        assert (RU : render_from 1 (u0 ++ [a]) = render_from 1 u0 ++ repeat d a).
        { rewrite render_from_app by auto. fold d. cbn [render_from]. now rewrite app_nil_r. }
        rewrite RU in HS. destruct w as [|[|w]]; [lia| |].
        -- destruct v as [|b v].
           ++ (* the last bar vanishes *)
              assert (EU : Nat.even (length u0) = false) by (rewrite Nat.add_1_r in HO; exact HO).
              assert (Ed : d = 0%N) by (unfold d, flip; rewrite EU; reflexivity).
              rewrite Ed in HS. rewrite (scan_one u0 0 (a + 1 + k)) in HS; [| |assumption|assumption].
              ** injection HS as <-. right; left. rewrite !app_length. cbn [length]. lia.
              ** cbn [repeat app render_from Nat.sub]. rewrite !repeat_plus. cbn [repeat]. rewrite <- !app_assoc. reflexivity.
           ++ (* two neighbours of an element one wide merge *)
              assert (Hb := Forall_inv Hv). assert (Hv' := Forall_inv_tail Hv). cbn beta in Hb.
              rewrite (scan_one (u0 ++ (a + 1 + b) :: v) 0 k) in HS.
              ** injection HS as <-. right; left. rewrite !app_length. cbn [length]. lia.
              ** cbn [repeat app Nat.sub]. unfold render. rewrite render_from_app by auto. fold d. cbn [render_from].
                 rewrite !repeat_plus. cbn [repeat]. rewrite <- !app_assoc. cbn [app].
                 rewrite ?neg_bit by assumption. reflexivity.
              ** apply Forall_app. split; [assumption|]. constructor; [lia | assumption].
              ** rewrite app_length. cbn [length] in *. rewrite <- HO. replace (S (length u0) + S (S (length v))) with (S (S (length u0 + S (length v)))) by lia.
                 now rewrite even_SS.
        -- (* an edge moves right *)
           rewrite (scan_one (u0 ++ (S a) :: (S w) :: v) 0 k) in HS.
           ++ injection HS as <-. right; right; left. rewrite <- app_assoc. cbn [app]. apply shift_app; lia.
           ++ cbn [repeat app]. unfold render. rewrite render_from_app by auto. fold d. cbn [render_from].
              replace (S (S w) - 1 - 0) with (S w) by lia. rewrite <- (repeat_snoc d a), <- !app_assoc. cbn [app].
              rewrite ?neg_bit by assumption. reflexivity.
           ++ apply Forall_app. split; [assumption|]. constructor; [lia|]. constructor; [lia | assumption].
           ++ rewrite app_length. cbn [length]. rewrite <- HO. f_equal. lia.
    + destruct (Nat.eq_dec (S (S j)) w) as [Ew|Ew].
      * replace (w - 1 - S j) with 0 in HS by lia. cbn [repeat app] in HS. destruct v as [|b v].
        -- (* the last bar shrinks *)
           assert (EU : Nat.even (length u) = true).
           { cbn [length] in HO. rewrite Nat.add_1_r, Nat.even_succ, <- Nat.negb_even in HO. now destruct (Nat.even (length u)). }
           assert (Ex : x = 1%N) by (rewrite Ed; unfold flip; now rewrite EU). rewrite Ex in HS.
           rewrite (scan_one (u ++ [S j]) 0 (1 + k)) in HS.
           ++ injection HS as <-. right; right; right; right. exists u, w, (S j). split; [reflexivity|]. split; [reflexivity|]. lia.
           ++ cbn [repeat Nat.add app]. unfold render. rewrite render_from_app_even by auto. cbn [render_from repeat].
              rewrite <- !app_assoc. cbn [app]. reflexivity.
           ++ apply Forall_app. split; [assumption|]. constructor; [lia | constructor].
           ++ rewrite app_length. cbn [length] in *. exact HO.
        -- (* an edge moves left *)
           assert (Hb := Forall_inv Hv). assert (Hv' := Forall_inv_tail Hv). cbn beta in Hb.
           rewrite (scan_one (u ++ (S j) :: (S b) :: v) 0 k) in HS.
           ++ injection HS as <-. right; right; left. apply shift_app; lia.
           ++ cbn [repeat app]. unfold render. rewrite render_from_app by auto. rewrite <- Ed. cbn [render_from].
              cbn [repeat]. rewrite <- !app_assoc. cbn [app]. rewrite neg_bit by assumption. reflexivity.
           ++ apply Forall_app. split; [assumption|]. constructor; [lia|]. constructor; [lia | assumption].
           ++ rewrite app_length. cbn [length] in *. exact HO.
      * (* a new element splits this one *)
        rewrite (scan_one (u ++ (S j) :: 1 :: (w - 1 - S j) :: v) 0 k) in HS.
        -- injection HS as <-. left. rewrite !app_length. cbn [length]. lia.
        -- cbn [repeat app]. unfold render. rewrite render_from_app by auto. rewrite <- Ed. cbn [render_from].
           rewrite neg_bit by assumption. cbn [repeat]. rewrite <- !app_assoc. cbn [app]. rewrite <- ?app_assoc. reflexivity.
        -- apply Forall_app. split; [assumption|]. constructor; [lia|]. constructor; [lia|]. constructor; [lia | assumption].
        -- rewrite app_length. cbn [length]. rewrite <- HO. replace (length u + S (S (S (length v)))) with (S (S (length u + S (length v)))) by lia. now rewrite even_SS.
Qed.

(** ** What damage does to sums and distances *)
(** Sum of alternate elements, the first one counted or not *)
Fixpoint asum (b : bool) (ws : list nat) : nat :=
  match ws with [] => 0 | w :: tl => (if b then w else 0) + asum (negb b) tl end.
(** Number of places, of alternate places, where two lists differ *)
Fixpoint ham (ws ws' : list nat) : nat :=
  match ws, ws' with
  | x :: tl, x' :: tl' => (if Nat.eqb x x' then 0 else 1) + ham tl tl'
  | _, _ => 0
  end.
Fixpoint aham (b : bool) (ws ws' : list nat) : nat :=
  match ws, ws' with
  | x :: tl, x' :: tl' => (if b then if Nat.eqb x x' then 0 else 1 else 0) + aham (negb b) tl tl'
  | _, _ => 0
  end.

Lemma asum_app u v : forall b, asum b (u ++ v) = asum b u + asum (if Nat.even (length u) then b else negb b) v.
Proof.
  induction u as [|w u IH]; intros b; [reflexivity|]. cbn [app asum length]. rewrite IH, Nat.even_succ, <- Nat.negb_even.
  destruct (Nat.even (length u)), b; cbn [negb]; lia.
Qed.
Lemma ham_app u : forall u' v v', length u = length u' -> ham (u ++ v) (u' ++ v') = ham u u' + ham v v'.
Proof.
  induction u as [|w u IH]; intros [|w' u'] v v' H; try discriminate; [reflexivity|]. cbn [app ham].
  injection H as H. rewrite IH by assumption. lia.
Qed.
Lemma aham_app u : forall u' v v' b, length u = length u' -> aham b (u ++ v) (u' ++ v') = aham b u u' + aham (if Nat.even (length u) then b else negb b) v v'.
Proof.
  induction u as [|w u IH]; intros [|w' u'] v v' b H; try discriminate; [reflexivity|]. cbn [app aham length].
  injection H as H. rewrite IH by assumption. rewrite Nat.even_succ, <- Nat.negb_even.
  destruct (Nat.even (length u)), b; cbn [negb]; lia.
Qed.
Lemma ham_same u : ham u u = 0.
Proof. induction u; [reflexivity|]. cbn [ham]. now rewrite Nat.eqb_refl, IHu. Qed.
Lemma aham_same u : forall b, aham b u u = 0.
Proof. induction u; intros b; [reflexivity|]. cbn [aham]. rewrite Nat.eqb_refl, IHu. now destruct b. Qed.
Lemma ham_zero u : forall u', length u = length u' -> ham u u' = 0 -> u = u'.
Proof.
  induction u as [|w u IH]; intros [|w' u'] H E; try discriminate; [reflexivity|]. cbn [ham] in E. injection H as H.
  destruct (Nat.eqb_spec w w'); [|lia]. subst. f_equal. apply IH; [assumption | lia].
Qed.

Lemma shift_length u u' : shift u u' -> length u = length u'.
Proof. induction 1; cbn [length]; auto. Qed.
Lemma shift_asum u u' : shift u u' -> forall b, asum b u' = S (asum b u) \/ asum b u = S (asum b u').
Proof.
  induction 1 as [a b a' b' v H1 H2|x u u' H IH]; intros c; cbn [asum].
  - destruct c; cbn [negb]; lia.
  - destruct (IH (negb c)); [left | right]; lia.
Qed.
Lemma shift_aham u u' : shift u u' -> forall b, aham b u u' <= 1.
Proof.
  induction 1 as [a b a' b' v H1 H2|x u u' H IH]; intros c; cbn [aham].
  - rewrite aham_same. destruct c; cbn [negb]; [destruct (Nat.eqb a a') | destruct (Nat.eqb b b')]; lia.
  - rewrite Nat.eqb_refl. specialize (IH (negb c)). destruct c; lia.
Qed.
Lemma shift_ham u u' : shift u u' -> ham u u' <= 2.
Proof.
  induction 1 as [a b a' b' v H1 H2|x u u' H IH]; cbn [ham].
  - rewrite ham_same. destruct (Nat.eqb a a'), (Nat.eqb b b'); lia.
  - now rewrite Nat.eqb_refl.
Qed.
Lemma frayed_length u u' : frayed u u' -> length u = length u'.
Proof. intros [(a & a' & v & -> & -> & _)|(v & a & a' & -> & -> & _)]; [reflexivity | now rewrite !app_length]. Qed.
Lemma frayed_asum u u' : frayed u u' -> Nat.even (length u) = false -> asum true u' = S (asum true u) \/ asum true u = S (asum true u').
Proof.
  intros [(a & a' & v & -> & -> & H)|(v & a & a' & -> & -> & H)] HO.
  - cbn [asum]. lia.
  - rewrite app_length in HO. cbn [length] in HO. rewrite Nat.add_1_r, Nat.even_succ, <- Nat.negb_even in HO.
    rewrite !asum_app. destruct (Nat.even (length v)); [|discriminate]. cbn [asum]. lia.
Qed.
Lemma frayed_ham u u' : frayed u u' -> ham u u' <= 1.
Proof.
  intros [(a & a' & v & -> & -> & _)|(v & a & a' & -> & -> & _)].
  - cbn [ham]. rewrite ham_same. destruct (Nat.eqb a a'); lia.
  - rewrite ham_app, ham_same by reflexivity. cbn [ham]. destruct (Nat.eqb a a'); lia.
Qed.
Lemma frayed_aham u u' : frayed u u' -> forall b, aham b u u' <= 1.
Proof.
  intros [(a & a' & v & -> & -> & _)|(v & a & a' & -> & -> & _)] b.
  - cbn [aham]. rewrite aham_same. destruct b, (Nat.eqb a a'); lia.
  - rewrite aham_app, aham_same by reflexivity. cbn [aham]. destruct (Nat.even (length v)), b; cbn [negb]; destruct (Nat.eqb a a'); lia.
Qed.

(** Damage keeping the number of elements *)
Definition edged (ws ws' : list nat) : Prop := shift ws ws' \/ frayed ws ws'.
Lemma edged_asum u u' : edged u u' -> Nat.even (length u) = false -> asum true u' = S (asum true u) \/ asum true u = S (asum true u').
Proof. intros [H|H] HO; [now apply shift_asum | now apply frayed_asum]. Qed.
Lemma edged_ham u u' : edged u u' -> ham u u' <= 2.
Proof. intros [H|H]; [now apply shift_ham | apply frayed_ham in H; lia]. Qed.
Lemma edged_aham u u' b : edged u u' -> aham b u u' <= 1.
Proof. intros [H|H]; [now apply shift_aham | now apply frayed_aham]. Qed.
Lemma edged_length u u' : edged u u' -> length u = length u'.
Proof. intros [H|H]; [now apply shift_length | now apply frayed_length]. Qed.

(** ** Blocks *)
Lemma asum_blocks k q b (bs : list (list nat)) : Nat.even k = true ->
  Forall (fun ws => length ws = k /\ exists t, asum b ws = 2 * t + q) bs ->
  exists t, asum b (concat bs) = 2 * t + q * length bs.
Proof.
  intros Hk. induction 1 as [|ws bs [HL [t Ht]] _ [t' IH]]; [exists 0; cbn; lia|].
  exists (t + t'). cbn [concat length]. rewrite asum_app, HL, Hk, IH, Ht. lia.
Qed.
Lemma even_blocks_asum k b u v (bs : list (list nat)) : Nat.even k = true -> Forall (fun ws => length ws = k) bs ->
  asum b (u ++ concat bs ++ v) = asum b u + asum (if Nat.even (length u) then b else negb b) (concat bs) + asum (if Nat.even (length u) then b else negb b) v.
Proof.
  intros Hk HF. rewrite !asum_app. rewrite (concat_length_const k) by assumption.
  rewrite Nat.even_mul, Hk. cbn [orb]. lia.
Qed.

(** Characters of a table all have the parity [q]. *)
Definition oddness (b : bool) (t : list (list nat)) (k q : nat) : bool :=
  forallb (fun ws => Nat.eqb (length ws) k && Nat.eqb (asum b ws mod 2) q) t.
Lemma oddness_sound b t k q : oddness b t k q = true -> forall v ws, nth_error t v = Some ws ->
  length ws = k /\ exists n, asum b ws = 2 * n + q.
Proof.
  intros H v ws E. apply nth_error_In in E. unfold oddness in H. rewrite forallb_forall in H. specialize (H ws E).
  apply andb_prop in H. destruct H as [H1 H2]. apply Nat.eqb_eq in H1, H2. split; [assumption|].
  exists (asum b ws / 2). rewrite (Nat.div_mod (asum b ws) 2) at 1 by discriminate. now rewrite H2.
Qed.
Lemma read_all_Forall {A B} (f : A -> option B) (P : A -> Prop) l r : (forall x y, f x = Some y -> P x) ->
  read_all f l = Some r -> Forall P l.
Proof.
  intros HP. revert r. induction l as [|x l IH]; intros r H; [constructor|].
  apply read_all_cons in H. destruct H as (y & ys & H1 & H2 & _). constructor; [now apply (HP x y) | now apply (IH ys)].
Qed.

Definition parity_is (q n : nat) (ws : list nat) : Prop := exists t, asum true ws = 2 * t + q * n.

(** Symbols of characters with gaps: every block is a character and a narrow gap. *)
Lemma gap_blocks k ws bs cs : chop (S k) (ws ++ [1]) = Some bs -> read_all (gap_block k) bs = Some cs ->
  bs = map (fun c => c ++ [1]) cs /\ Forall (fun c => length c = k) cs /\ ws ++ [1] = concat (map (fun c => c ++ [1]) cs) /\ length ws + 1 = S k * length cs.
Proof.
  intros HC HR. pose proof (chop_length _ _ _ HC) as HL. pose proof (read_all_length _ _ _ HR) as HLR.
  apply chop_sound in HC. destruct HC as [HC HF].
  assert (E : bs = map (fun c => c ++ [1]) cs /\ Forall (fun c => length c = k) cs).
  { clear HC HL HLR. revert cs HR. induction HF as [|b bs Hb HF IH]; intros cs HR; [apply read_all_nil in HR; subst; split; constructor|].
    apply read_all_cons in HR. destruct HR as (c & cs' & H1 & H2 & ->). destruct (IH cs' H2) as [-> IH2].
    apply guard_Some in H1. destruct H1 as [HG HE]. injection HE as <-. apply widths_eqb_eq in HG.
    assert (EB : firstn k b ++ [1] = b) by (rewrite <- HG; apply firstn_skipn).
    split; [cbn [map]; now rewrite EB|]. constructor; [rewrite firstn_length, Hb; lia | assumption]. }
  destruct E as [E1 E2]. split; [assumption|]. split; [assumption|]. split; [now rewrite <- E1|].
  rewrite app_length in HL. cbn [length] in HL. rewrite HL, HLR. reflexivity.
Qed.
Lemma gap_parity k q ws cs : Nat.even (S k) = true -> ws ++ [1] = concat (map (fun c => c ++ [1]) cs) -> length ws + 1 = S k * length cs ->
  Forall (fun c => length c = k /\ exists t, asum true c = 2 * t + q) cs ->
  parity_is q (length cs) ws.
Proof.
  intros Hk HE HL HF. unfold parity_is.
  assert (HO : Nat.even (length ws) = false).
  { assert (H : Nat.even (length ws + 1) = true) by (rewrite HL, Nat.even_mul, Hk; reflexivity).
    rewrite Nat.add_1_r, Nat.even_succ, <- Nat.negb_even in H. now destruct (Nat.even (length ws)). }
  assert (HS : asum true (ws ++ [1]) = asum true ws) by (rewrite asum_app, HO; cbn; lia).
  rewrite <- HS, HE. destruct (asum_blocks (S k) q true (map (fun c => c ++ [1]) cs) Hk) as [t Ht].
  - apply Forall_map. revert HF. apply Forall_impl. intros c [HLc [t Ht]]. split; [rewrite app_length; cbn; lia|].
    exists t. rewrite asum_app, HLc. rewrite Nat.even_succ, <- Nat.negb_even in Hk. destruct (Nat.even k); [discriminate|]. cbn [negb asum]. lia.
  - exists t. rewrite Ht, map_length. reflexivity.
Qed.

Lemma c39_odd ws r : read_c39 ws = Some r -> exists n, length ws + 1 = 10 * n /\ parity_is 1 n ws.
Proof.
  intros H. apply obind_Some in H. destruct H as [bs [H1 H]]. apply obind_Some in H. destruct H as [cs [H2 H]].
  apply obind_Some in H. destruct H as [[[a mid] z] [H3 H]]. apply guard_Some in H. destruct H as [H HR].
  apply andb_prop in H. destruct H as [Ha Hz]. apply widths_eqb_eq in Ha, Hz. subst a z. apply strip_ends_form in H3.
  destruct (gap_blocks 9 ws bs cs H1 H2) as (_ & _ & HE & HL).
  exists (length cs). split; [exact HL|]. apply (gap_parity 9 1 ws cs); [reflexivity | assumption | assumption |].
  assert (ST : length c39_star = 9 /\ exists t, asum true c39_star = 2 * t + 1) by (split; [reflexivity | exists 3; reflexivity]).
  subst cs. constructor; [exact ST|]. apply Forall_app. split; [|constructor; [exact ST | constructor]].
  apply (read_all_Forall _ _ _ _ (fun x y E => match read_char_sound _ _ _ _ E with ex_intro _ v (conj E1 _) => oddness_sound true c39_table 9 1 ltac:(vm_compute; reflexivity) v x E1 end) HR).
Qed.
Lemma cod_odd ws r : read_cod ws = Some r -> exists n, length ws + 1 = 8 * n /\ parity_is 1 n ws.
Proof.
  intros H. apply obind_Some in H. destruct H as [bs [H1 H]]. apply obind_Some in H. destruct H as [cs [H2 HR]].
  destruct (gap_blocks 7 ws bs cs H1 H2) as (_ & _ & HE & HL).
  exists (length cs). split; [exact HL|]. apply (gap_parity 7 1 ws cs); [reflexivity | assumption | assumption |].
  apply (read_all_Forall _ _ _ _ (fun x y E => match read_char_sound _ _ _ _ E with ex_intro _ v (conj E1 _) => oddness_sound true cod_table 7 1 ltac:(vm_compute; reflexivity) v x E1 end) HR).
Qed.
Lemma c128_even ws r : read_c128 ws = Some r -> exists n, length ws = 6 * n + 7 /\ parity_is 0 n ws.
Proof.
  intros H. apply obind_Some in H. destruct H as [vs [H _]]. unfold read_values in H.
  destruct (trim_ends 0 7 ws) as [[a body] z] eqn:ET. apply trim_ends_whole in ET. destruct ET as [HW Ea].
  cbn [firstn] in Ea. subst a. cbn [app] in HW. apply guard_Some in H. destruct H as [Hz H]. apply widths_eqb_eq in Hz. subst z.
  apply obind_Some in H. destruct H as [bs [HC H]]. pose proof (chop_length _ _ _ HC) as HL. apply chop_sound in HC. destruct HC as [HC HF].
  exists (length bs). split; [rewrite HW, app_length, HL; reflexivity|].
  assert (HP : Forall (fun ws => length ws = 6 /\ exists t, asum true ws = 2 * t + 0) bs).
  { refine (read_all_Forall _ _ _ _ _ H). intros x y E. apply option_map_Some in E. destruct E as [v [E _]]. apply which_sound in E.
    exact (oddness_sound true c128_table 6 0 ltac:(vm_compute; reflexivity) v x E). }
  destruct (asum_blocks 6 0 true bs eq_refl HP) as [t Ht].
  exists (t + 4). rewrite HW, <- HC. change (concat bs ++ c128_stop) with ([] ++ concat bs ++ c128_stop).
  rewrite (even_blocks_asum 6) by (reflexivity || assumption). change (if Nat.even (length []) then true else negb true) with true. rewrite Ht. cbn. lia.
Qed.

(** ** Retail symbols *)
Definition is_B (x : parity * N) : nat := match fst x with PB => 1 | PA => 0 end.
Definition count_B (l : list (parity * N)) : nat := list_sum (map is_B l).
Lemma setA_oddness : oddness false setA_table 4 1 = true. Proof. reflexivity. Qed.
Lemma setB_oddness : oddness false setB_table 4 0 = true. Proof. reflexivity. Qed.
Lemma setC_oddness : oddness true setC_table 4 0 = true. Proof. reflexivity. Qed.
Lemma read_AB_odd ws x : read_AB ws = Some x -> length ws = 4 /\ exists t, asum false ws + is_B x = 2 * t + 1.
Proof.
  unfold read_AB. destruct (which setA_table ws) as [d|] eqn:EA.
  - intros H. injection H as <-. apply which_sound in EA. destruct (oddness_sound _ _ _ _ setA_oddness _ _ EA) as [HL [t Ht]].
    split; [assumption|]. exists t. cbn [is_B fst]. lia.
  - destruct (which setB_table ws) as [d|] eqn:EB; [|discriminate]. intros H. injection H as <-. apply which_sound in EB.
    destruct (oddness_sound _ _ _ _ setB_oddness _ _ EB) as [HL [t Ht]].
    split; [assumption|]. exists t. cbn [is_B fst]. lia.
Qed.
Lemma left_odd lb l : read_all read_AB lb = Some l ->
  Forall (fun b => length b = 4) lb /\ exists t, asum false (concat lb) + count_B l = 2 * t + length lb.
Proof.
  revert l. induction lb as [|b lb IH]; intros l H.
  - apply read_all_nil in H. subst l. split; [constructor|]. exists 0. reflexivity.
  - apply read_all_cons in H. destruct H as (x & xs & H1 & H2 & ->). destruct (IH xs H2) as [HF [t Ht]].
    destruct (read_AB_odd b x H1) as [HL [t1 Ht1]]. split; [now constructor|]. exists (t + t1).
    cbn [concat length]. rewrite asum_app, HL. cbn [Nat.even]. unfold count_B in *. cbn [map list_sum fold_right]. unfold list_sum in *. cbn [fold_right]. lia.
Qed.
Lemma right_even rb r : read_all read_C rb = Some r ->
  Forall (fun b => length b = 4) rb /\ exists t, asum true (concat rb) = 2 * t.
Proof.
  intros H. assert (HP : Forall (fun ws => length ws = 4 /\ exists t, asum true ws = 2 * t + 0) rb).
  { refine (read_all_Forall _ _ _ _ _ H). intros x y E. apply option_map_Some in E. destruct E as [v [E _]]. apply which_sound in E.
    exact (oddness_sound _ _ _ _ setC_oddness v x E). }
  split; [revert HP; apply Forall_impl; tauto|]. destruct (asum_blocks 4 0 true rb eq_refl HP) as [t Ht]. exists t. lia.
Qed.

Lemma halves_form n ws l r : read_halves n ws = Some (l, r) -> exists lb rb,
  ws = normal_guard ++ concat lb ++ centre_guard ++ concat rb ++ normal_guard /\ length lb = n /\ length rb = n /\
  read_all read_AB lb = Some l /\ read_all read_C rb = Some r.
Proof.
  intros H. apply guard_Some in H. destruct H as [H HR].
  apply andb_prop in H. destruct H as [H H4]. apply andb_prop in H. destruct H as [H H3].
  apply andb_prop in H. destruct H as [H1 H2]. apply Nat.eqb_eq in H1. apply widths_eqb_eq in H2, H3, H4.
  apply obind_Some in HR. destruct HR as [lb [HA HR]]. apply obind_Some in HR. destruct HR as [rb [HB HR]].
  apply obind_Some in HR. destruct HR as [l0 [HC HR]]. apply obind_Some in HR. destruct HR as [r0 [HD HR]].
  injection HR as -> ->. exists lb, rb.
  pose proof (chop_length _ _ _ HA) as LA. pose proof (chop_length _ _ _ HB) as LB.
  apply chop_sound in HA, HB. destruct HA as [HA _]. destruct HB as [HB _].
  rewrite firstn_length, skipn_length in LA, LB.
  split; [|split; [lia|split; [lia|split; assumption]]].
  assert (Skip : forall a b, skipn a (skipn b ws) = skipn (b + a) ws).
  { intros a b. generalize ws. induction b; intros w; [reflexivity|]. destruct w; [now rewrite !skipn_nil | apply IHb]. }
  rewrite <- (firstn_skipn 3 ws) at 1. rewrite H2. f_equal.
  rewrite <- (firstn_skipn (4 * n) (skipn 3 ws)), <- HA. f_equal. rewrite Skip.
  rewrite <- (firstn_skipn 5 (skipn (3 + 4 * n) ws)), H3. f_equal. rewrite Skip.
  rewrite <- (firstn_skipn (4 * n) (skipn (3 + 4 * n + 5) ws)), <- HB. f_equal. rewrite Skip. exact H4.
Qed.
Lemma even_4 n : Nat.even (4 * n) = true. Proof. now rewrite Nat.even_mul. Qed.
Lemma halves_odd n ws l r : read_halves n ws = Some (l, r) -> exists t, asum true ws + count_B l = 2 * t + n.
Proof.
  intros H. destruct (halves_form n ws l r H) as (lb & rb & -> & Hl & Hr & HA & HB).
  apply left_odd in HA. destruct HA as [LA [t Ht]]. apply right_even in HB. destruct HB as [LB [t' Ht']].
  exists (t + t' + 3). rewrite !asum_app. rewrite (concat_length_const 4 lb), (concat_length_const 4 rb), !even_4 by assumption.
  cbn [normal_guard centre_guard length Nat.even negb]. rewrite Ht'. rewrite Hl in Ht. change (asum true normal_guard) with 2. change (asum false centre_guard) with 2. lia.
Qed.

(** The number of left digits of even parity changes by no more than the number of changed elements. *)
Lemma count_B_ham lb : forall lb' l l', read_all read_AB lb = Some l -> read_all read_AB lb' = Some l' -> length lb = length lb' ->
  count_B l <= count_B l' + ham (concat lb) (concat lb') /\ count_B l' <= count_B l + ham (concat lb) (concat lb').
Proof.
  induction lb as [|b lb IH]; intros [|b' lb'] l l' H H' HL; try discriminate.
  - apply read_all_nil in H, H'. subst. cbn. lia.
  - apply read_all_cons in H, H'. destruct H as (x & xs & H1 & H2 & ->). destruct H' as (x' & xs' & H1' & H2' & ->).
    injection HL as HL. specialize (IH lb' xs xs' H2 H2' HL).
    destruct (read_AB_odd b x H1) as [L _]. destruct (read_AB_odd b' x' H1') as [L' _].
    cbn [concat]. rewrite ham_app by congruence.
    assert (HB : (is_B x = is_B x') \/ 1 <= ham b b').
    { destruct (ham b b') eqn:EH; [|right; lia]. left. apply ham_zero in EH; [|congruence]. subst b'. rewrite H1 in H1'. injection H1' as ->. reflexivity. }
    assert (is_B x <= 1 /\ is_B x' <= 1) by (unfold is_B; destruct (fst x), (fst x'); lia).
    unfold count_B, list_sum in *. cbn [map fold_right]. lia.
Qed.
Lemma parities_eqb_sound p : forall ps, parities_eqb p ps = true -> p = ps.
Proof.
  induction p as [|x p IH]; intros [|y ps]; cbn [parities_eqb]; intros E; try discriminate; [reflexivity|].
  apply andb_prop in E. destruct E as [E1 E2]. f_equal; [destruct x, y; (discriminate || reflexivity) | now apply IH].
Qed.
Lemma which_parity_sound t ps v : which_parity t ps = Some v -> nth_error t v = Some ps.
Proof.
  revert v. induction t as [|p t IH]; intros v; [discriminate|]. cbn [which_parity].
  destruct (parities_eqb p ps) eqn:E.
  - intros H. injection H as <-. cbn. f_equal. now apply parities_eqb_sound.
  - destruct (which_parity t ps) as [w|] eqn:EW; [|discriminate]. cbn. intros H. injection H as <-. cbn. now apply IH.
Qed.
Definition B_count (ps : list parity) : nat := list_sum (map (fun p => match p with PB => 1 | PA => 0 end) ps).
Lemma count_B_fst l : count_B l = B_count (map fst l).
Proof. unfold count_B, B_count. rewrite map_map. reflexivity. Qed.

Lemma ean13_edged ws ws' r : edged ws ws' -> read_ean13 ws = Some r -> read_ean13 ws' = None.
Proof.
  intros HE H. destruct (read_ean13 ws') as [r'|] eqn:H'; [exfalso | reflexivity].
  apply obind_Some in H, H'. destruct H as [[l rr] [H HP]]. destruct H' as [[l' rr'] [H' HP']].
  pose proof (halves_sig _ _ _ H) as [_ [HL _]].
  apply obind_Some in HP, HP'. destruct HP as [f [HP _]]. destruct HP' as [f' [HP' _]].
  apply which_parity_sound in HP, HP'. apply nth_error_In in HP, HP'.
  assert (HB : forall ps, In ps ean13_parities -> B_count ps = 0 \/ B_count ps = 3).
  { intros ps HI. cbn in HI. repeat destruct HI as [<-|HI]; try contradiction; cbn; auto. }
  apply HB in HP, HP'. rewrite <- count_B_fst in HP, HP'.
  destruct (halves_odd _ _ _ _ H) as [t Ht]. destruct (halves_odd _ _ _ _ H') as [t' Ht'].
  destruct (halves_form _ _ _ _ H) as (lb & rb & Ew & Hl & Hr & HA & HC). destruct (halves_form _ _ _ _ H') as (lb' & rb' & Ew' & Hl' & Hr' & HA' & HC').
  pose proof (count_B_ham lb lb' l l' HA HA' ltac:(congruence)) as HH.
  assert (HX : ham (concat lb) (concat lb') <= 2).
  { pose proof (edged_ham _ _ HE) as HX. rewrite Ew, Ew' in HX. rewrite ham_app, ham_same in HX by reflexivity.
    apply left_odd in HA, HA'. rewrite ham_app in HX; [lia|].
    rewrite (concat_length_const 4 lb), (concat_length_const 4 lb') by tauto. congruence. }
  destruct (edged_asum ws ws' HE) as [EA|EA]; [rewrite HL; reflexivity | lia | lia].
Qed.
Lemma fixed_edged n ps ws ws' l rr l' rr' : edged ws ws' -> read_halves n ws = Some (l, rr) -> read_halves n ws' = Some (l', rr') ->
  map fst l = ps -> map fst l' = ps -> False.
Proof.
  intros HE H H' E E'. pose proof (halves_sig _ _ _ H) as [_ [HL _]].
  destruct (halves_odd _ _ _ _ H) as [t Ht]. destruct (halves_odd _ _ _ _ H') as [t' Ht'].
  rewrite count_B_fst in Ht, Ht'. rewrite E in Ht. rewrite E' in Ht'.
  destruct (edged_asum ws ws' HE) as [EA|EA]; [|lia|lia].
  rewrite HL. replace (8 * n + 11) with (S (2 * (4 * n + 5))) by lia. rewrite Nat.even_succ, <- Nat.negb_even, Nat.even_mul. reflexivity.
Qed.
Lemma ean8_edged ws ws' r : edged ws ws' -> read_ean8 ws = Some r -> read_ean8 ws' = None.
Proof.
  intros HE H. destruct (read_ean8 ws') as [r'|] eqn:H'; [exfalso | reflexivity].
  apply obind_Some in H, H'. destruct H as [[l rr] [H HP]]. destruct H' as [[l' rr'] [H' HP']].
  apply guard_Some in HP, HP'. destruct HP as [HP _]. destruct HP' as [HP' _].
  apply andb_prop in HP, HP'. destruct HP as [HP _]. destruct HP' as [HP' _].
  apply parities_eqb_sound in HP, HP'. exact (fixed_edged 4 _ ws ws' l rr l' rr' HE H H' HP HP').
Qed.
Lemma upca_edged ws ws' r : edged ws ws' -> read_upca ws = Some r -> read_upca ws' = None.
Proof.
  intros HE H. destruct (read_upca ws') as [r'|] eqn:H'; [exfalso | reflexivity].
  apply obind_Some in H, H'. destruct H as [[l rr] [H HP]]. destruct H' as [[l' rr'] [H' HP']].
  apply guard_Some in HP, HP'. destruct HP as [HP _]. destruct HP' as [HP' _].
  apply andb_prop in HP, HP'. destruct HP as [HP _]. destruct HP' as [HP' _].
  apply parities_eqb_sound in HP, HP'. exact (fixed_edged 6 _ ws ws' l rr l' rr' HE H H' HP HP').
Qed.

(** Add-ons *)
Lemma addon_odd ws l : read_addon_blocks ws = Some l -> l <> [] -> exists t, asum true ws = 2 * t + count_B l.
Proof.
  intros H Hn. apply guard_Some in H. destruct H as [H1 H]. apply widths_eqb_eq in H1.
  apply obind_Some in H. destruct H as [bs [HC HR]]. apply chop_sound in HC. destruct HC as [HC HF].
  assert (HB : exists t, asum false (concat bs) = 2 * t + count_B l).
  { clear HC H1 Hn. revert l HR. induction bs as [|b bs IH]; intros l HR.
    - apply read_all_nil in HR. subst l. exists 0. reflexivity.
    - apply read_all_cons in HR. destruct HR as (x & xs & E1 & E2 & ->). inversion HF as [|? ? HL HF']; subst.
      destruct (IH HF' xs E2) as [t Ht]. apply guard_Some in E1. destruct E1 as [EG E1]. apply widths_eqb_eq in EG.
      destruct (read_AB_odd _ _ E1) as [_ [t' Ht']].
      assert (EB : asum false b = 1 + asum false (skipn 2 b)).
      { rewrite <- (firstn_skipn 2 b) at 1. rewrite EG. reflexivity. }
      exists (t + t' + 1 - is_B x). cbn [concat]. rewrite asum_app, HL. cbn [Nat.even]. unfold count_B, list_sum in *. cbn [map fold_right].
      assert (is_B x <= 1) by (unfold is_B; destruct (fst x); lia). lia. }
  destruct HB as [t Ht]. exists (S t). rewrite HC in Ht. rewrite <- (firstn_skipn 3 ws), H1.
  rewrite asum_app in Ht |- *. cbn [addon_separator addon_guard length Nat.even negb asum] in *. lia.
Qed.
Lemma ean5_form ws r : read_ean5 ws = Some r -> length r = 5 /\ length ws = 31 /\ exists t, asum true ws = 2 * t.
Proof.
  intros H. apply obind_Some in H. destruct H as [l [H1 H]]. apply obind_Some in H. destruct H as [v [H2 H]].
  apply guard_Some in H. destruct H as [H E]. injection E as <-. apply andb_prop in H. destruct H as [H3 _]. apply Nat.eqb_eq in H3.
  split; [assumption|]. rewrite map_length in H3.
  assert (Hn : l <> []) by (intros ->; discriminate).
  destruct (addon_sig ws l H1 Hn) as (_ & _ & _ & _ & _ & HL & _). rewrite H3 in HL. split; [exact HL|].
  apply which_parity_sound, nth_error_In in H2.
  assert (HB : B_count (map fst l) = 2).
  { cbn in H2. repeat destruct H2 as [<-|H2]; try contradiction; reflexivity. }
  rewrite <- count_B_fst in HB. destruct (addon_odd ws l H1 Hn) as [t Ht]. exists (t + 1). lia.
Qed.
Lemma ean2_form ws r : read_ean2 ws = Some r -> length r = 2 /\ length ws = 13.
Proof.
  intros H. apply obind_Some in H. destruct H as [l [H1 H]]. apply obind_Some in H. destruct H as [v [H2 H]].
  apply guard_Some in H. destruct H as [H E]. injection E as <-. apply andb_prop in H. destruct H as [H3 _]. apply Nat.eqb_eq in H3.
  split; [assumption|]. rewrite map_length in H3.
  assert (Hn : l <> []) by (intros ->; discriminate).
  destruct (addon_sig ws l H1 Hn) as (_ & _ & _ & _ & _ & HL & _). rewrite H3 in HL. exact HL.
Qed.

(** ** Code 93: characters have equal widths, so only one of them can have changed. *)
Lemma ham_two b : forall b', length b = length b' -> list_sum b = list_sum b' -> b <> b' -> 2 <= ham b b'.
Proof.
  induction b as [|x b IH]; intros [|x' b'] HL HS HN; try discriminate; [congruence|].
  injection HL as HL. unfold list_sum in *. cbn [fold_right] in HS. cbn [ham]. destruct (Nat.eqb_spec x x') as [->|Hx].
  - assert (2 <= ham b b') by (apply IH; [assumption | lia | congruence]). lia.
  - destruct (ham b b') eqn:E; [|lia]. apply ham_zero in E; [|assumption]. subst b'. lia.
Qed.
Definition one_block {A} (l l' : list A) : Prop := exists u b b' v, l = u ++ b :: v /\ l' = u ++ b' :: v /\ b <> b'.
Lemma ham_one_block k s (bs bs' : list (list nat)) :
  Forall (fun b => length b = k /\ list_sum b = s) bs -> Forall (fun b => length b = k /\ list_sum b = s) bs' ->
  length bs = length bs' -> ham (concat bs) (concat bs') <= 2 -> bs = bs' \/ one_block bs bs'.
Proof.
  intros H. revert bs'. induction H as [|b bs [HL HS] HF IH]; intros bs' H' HN HH; destruct H' as [|b' bs' [HL' HS'] HF'];
    try discriminate; [now left|]. injection HN as HN. cbn [concat] in HH. rewrite ham_app in HH by congruence.
  destruct (list_eq_dec Nat.eq_dec b b') as [->|Hb].
  - destruct (IH bs' HF' HN) as [->|(u & c & c' & v & -> & -> & Hc)]; [lia | now left |].
    right. exists (b' :: u), c, c', v. auto.
  - right. exists [], b, b', bs. assert (2 <= ham b b') by (apply ham_two; congruence).
    split; [reflexivity|]. split; [|assumption]. cbn [app]. f_equal.
    assert (HZ : ham (concat bs) (concat bs') = 0) by lia. clear - HF HF' HN HZ.
    revert bs' HF' HN HZ. induction HF as [|c bs [HL _] HF IH]; intros [|c' bs'] HF' HN HZ; try discriminate; [reflexivity|].
    injection HN as HN. inversion HF' as [|? ? [HL' _] HF2]; subst. cbn [concat] in HZ. rewrite ham_app in HZ by congruence.
    f_equal; [symmetry; apply ham_zero; [congruence | lia] | apply IH; [assumption | assumption | lia]].
Qed.
Lemma read_all_app {A B} (f : A -> option B) u v r : read_all f (u ++ v) = Some r ->
  exists ru rv, read_all f u = Some ru /\ read_all f v = Some rv /\ r = ru ++ rv.
Proof.
  revert r. induction u as [|x u IH]; intros r H; [exists [], r; auto|]. cbn [app] in H.
  apply read_all_cons in H. destruct H as (y & ys & H1 & H2 & ->). destruct (IH ys H2) as (ru & rv & H3 & H4 & ->).
  exists (y :: ru), rv. cbn [read_all]. rewrite H1, H3. auto.
Qed.
(** A different pattern is a different character. *)
Lemma read_char_inj l t b b' c : NoDup l -> read_char l t b = Some c -> read_char l t b' = Some c -> b = b'.
Proof.
  intros HN H H'. apply read_char_sound in H, H'. destruct H as (v & H1 & H2). destruct H' as (v' & H1' & H2').
  assert (v = v'). { apply (proj1 (NoDup_nth_error l) HN); [apply nth_error_Some; now rewrite H2 | congruence]. }
  subst v'. congruence.
Qed.
Lemma read_char_In l t b c : read_char l t b = Some c -> In c l.
Proof. intros H. apply read_char_sound in H. destruct H as (v & _ & H). now apply nth_error_In in H. Qed.
Lemma one_block_chars l t bs bs' r r' : NoDup l -> one_block bs bs' -> read_all (read_char l t) bs = Some r -> read_all (read_char l t) bs' = Some r' ->
  exists u c c' v, r = u ++ c :: v /\ r' = u ++ c' :: v /\ c' <> c /\ In c l /\ In c' l.
Proof.
  intros HN (u & b & b' & v & -> & -> & Hb) H H'. apply read_all_app in H, H'.
  destruct H as (ru & rv & H1 & H2 & ->). destruct H' as (ru' & rv' & H1' & H2' & ->).
  apply read_all_cons in H2, H2'. destruct H2 as (c & rv2 & H2 & H3 & ->). destruct H2' as (c' & rv2' & H2' & H3' & ->).
  rewrite H1 in H1'. injection H1' as <-. rewrite H3 in H3'. injection H3' as <-.
  exists ru, c, c', rv2. split; [reflexivity|]. split; [reflexivity|]. split.
  - intros ->. apply Hb. now apply (read_char_inj l t b b' c).
  - split; eapply read_char_In; eassumption.
Qed.
Lemma c93_nodup : NoDup c93_chars.
Proof. apply (NoDup_count_occ' N.eq_dec). intros x Hx. vm_compute in Hx. repeat destruct Hx as [<-|Hx]; try contradiction; vm_compute; reflexivity. Qed.
Lemma c11_nodup : NoDup c11_chars.
Proof. apply (NoDup_count_occ' N.eq_dec). intros x Hx. vm_compute in Hx. repeat destruct Hx as [<-|Hx]; try contradiction; vm_compute; reflexivity. Qed.
Lemma c93_even_widths : forallb (fun b => Nat.eqb (length b) 6 && Nat.eqb (list_sum b) 9) c93_table = true.
Proof. vm_compute. reflexivity. Qed.

Lemma c93_form ws r : read_c93 ws = Some r -> exists mid raw,
  ws = c93_star ++ concat mid ++ c93_star ++ [1] /\ read_all (read_char c93_chars c93_table) mid = Some raw /\
  c93_verify raw = Some r /\ Forall (fun b => length b = 6 /\ list_sum b = 9) mid.
Proof.
  intros H. apply obind_Some in H. destruct H as [raw [H HV]]. apply guard_Some in H. destruct H as [H1 H].
  apply obind_Some in H. destruct H as [bs [H2 H]]. apply obind_Some in H. destruct H as [[[a mid] z] [H3 H]].
  apply guard_Some in H. destruct H as [H HR]. apply andb_prop in H. destruct H as [Ha Hz].
  apply widths_eqb_eq in H1, Ha, Hz. subst a z. apply strip_ends_form in H3. subst bs.
  apply chop_sound in H2. destruct H2 as [HC _]. exists mid, raw. split; [|split; [assumption|split; [assumption|]]].
  - rewrite <- (rev_involutive ws) at 1. rewrite <- (firstn_skipn 1 (rev ws)) at 1. rewrite H1, rev_app_distr, <- HC.
    cbn [concat rev app]. rewrite concat_app. cbn [concat]. rewrite app_nil_r, <- !app_assoc. reflexivity.
  - refine (read_all_Forall _ _ _ _ _ HR). intros x y E. apply read_char_sound in E. destruct E as (v & E & _).
    apply nth_error_In in E. pose proof c93_even_widths as HT. rewrite forallb_forall in HT. specialize (HT x E).
    apply andb_prop in HT. rewrite !Nat.eqb_eq in HT. exact HT.
Qed.
Lemma sized k s (bs : list (list nat)) : Forall (fun b => length b = k /\ list_sum b = s) bs -> Forall (fun b => length b = k) bs.
Proof. apply Forall_impl. tauto. Qed.
Lemma edged_neq ws ws' : edged ws ws' -> Nat.even (length ws) = false -> ws <> ws'.
Proof. intros H HO ->. apply edged_asum in H; [lia | assumption]. Qed.
Lemma c93_edged ws ws' r : edged ws ws' -> Nat.even (length ws) = false -> read_c93 ws = Some r -> read_c93 ws' = None.
Proof.
  intros HE HO H. destruct (read_c93 ws') as [r'|] eqn:H'; [exfalso | reflexivity].
  destruct (c93_form ws r H) as (mid & raw & EW & HR & HV & HF). destruct (c93_form ws' r' H') as (mid' & raw' & EW' & HR' & HV' & HF').
  assert (HL : length mid = length mid').
  { pose proof (edged_length _ _ HE) as HL. rewrite EW, EW', !app_length in HL.
    rewrite (concat_length_const 6 mid), (concat_length_const 6 mid') in HL by (apply (sized 6 9); assumption).
    cbn [length] in HL. lia. }
  destruct (ham_one_block 6 9 mid mid' HF HF' HL) as [->|HB].
  - pose proof (edged_ham _ _ HE) as HH. rewrite EW, EW' in HH. rewrite ham_app, ham_same in HH by reflexivity.
    rewrite ham_app in HH; [lia|]. rewrite (concat_length_const 6 mid), (concat_length_const 6 mid') by (apply (sized 6 9); assumption).
    now rewrite HL.
  - apply (edged_neq ws ws' HE HO). congruence.
  - destruct (one_block_chars _ _ _ _ _ _ c93_nodup HB HR HR') as (u & c & c' & v & -> & -> & Hc & HI & HI').
    unfold c93_verify in HV, HV'. apply obind_Some in HV, HV'. destruct HV as [f [HV _]]. destruct HV' as [f' [HV' _]].
    rewrite (c93_subst 15 u c c' v) in HV'; try assumption; [discriminate | lia |]. rewrite HV. discriminate.
Qed.

(** ** Code 11: an edge next to a gap cannot move, so only one character can have changed. *)
Lemma split_same {A} (x : list A) : forall x' y y', length x = length x' -> x ++ y = x' ++ y' -> x = x' /\ y = y'.
Proof.
  induction x as [|c x IH]; intros [|c' x'] y y' HL E; try discriminate; [auto|].
  injection HL as HL. cbn [app] in E. injection E as -> E. destruct (IH x' y y' HL E) as [-> ->]. auto.
Qed.
Lemma shift_split x : forall x' y y', length x = length x' -> shift (x ++ y) (x' ++ y') ->
  (shift x x' /\ y = y') \/ (x = x' /\ shift y y') \/ last x 0 <> last x' 0.
Proof.
  induction x as [|a x IH]; intros [|a' x'] y y' HL H; try discriminate; [right; left; auto|].
  injection HL as HL. cbn [app] in H.
  destruct x as [|b x]; destruct x' as [|b' x']; try discriminate; cbn [app] in H.
  - inversion H as [p q p' q' v H1 H2|z u u' H1]; subst.
    + right; right. cbn. lia.
    + right; left. auto.
  - inversion H as [p q p' q' v H1 H2|z u u' H1]; subst.
    + injection HL as HL.
      assert (x = x' /\ y = y') as [-> ->].
      { apply split_same; [assumption|]. match goal with E : x ++ y = x' ++ y' |- _ => exact E | E : x' ++ y' = x ++ y |- _ => exact (eq_sym E) end. }
      left. split; [now apply shift_here | reflexivity].
    + specialize (IH (b' :: x') y y' HL H1). destruct IH as [[IH ->]|[[IH1 IH2]|IH]].
      * left. split; [now apply shift_later | reflexivity].
      * right; left. split; [now rewrite IH1 | assumption].
      * right; right. exact IH.
Qed.
Lemma shift_neq u u' : shift u u' -> u <> u'.
Proof. intros H ->. pose proof (shift_asum _ _ H true). lia. Qed.
Lemma shift_gapped cs : forall cs', Forall2 (fun c c' : list nat => length c = length c') cs cs' ->
  shift (concat (map (fun c => c ++ [1]) cs)) (concat (map (fun c => c ++ [1]) cs')) -> one_block cs cs'.
Proof.
  intros cs' HF. induction HF as [|c c' cs cs' HL HF IH]; cbn [map concat]; intros H; [inversion H|].
  apply shift_split in H; [|rewrite !app_length; now rewrite HL].
  destruct H as [[H HE]|[[HE H]|H]].
  - exists [], c, c', cs. split; [reflexivity|]. split.
    + cbn [app]. f_equal. clear - HF HE. induction HF as [|d d' cs cs' HL HF IH]; [reflexivity|].
      cbn [map concat] in HE. apply split_same in HE; [|rewrite !app_length; now rewrite HL]. destruct HE as [E HE].
      apply app_inj_tail in E. destruct E as [-> _]. f_equal. now apply IH.
    + intros ->. now apply shift_neq in H.
  - apply app_inj_tail in HE. destruct HE as [-> _]. destruct (IH H) as (u & b & b' & v & -> & -> & Hb).
    exists (c' :: u), b, b', v. auto.
  - rewrite !last_last in H. congruence.
Qed.
Lemma shift_snoc u u' : shift u u' -> forall x, shift (u ++ [x]) (u' ++ [x]).
Proof. intros H x. induction H; cbn [app]; [now apply shift_here | now apply shift_later]. Qed.

Lemma c11_form ws r : read_c11 ws = Some r -> exists mid raw,
  ws ++ [1] = concat (map (fun c => c ++ [1]) (c11_guard :: mid ++ [c11_guard])) /\ length ws + 1 = 6 * (2 + length mid) /\
  Forall (fun c => length c = 5) mid /\
  read_all (read_char c11_chars c11_table) mid = Some raw /\ c11_verify raw = Some r.
Proof.
  intros H. apply obind_Some in H. destruct H as [raw [H HV]].
  apply obind_Some in H. destruct H as [bs [H1 H]]. apply obind_Some in H. destruct H as [cs [H2 H]].
  apply obind_Some in H. destruct H as [[[a mid] z] [H3 H]]. apply guard_Some in H. destruct H as [H HR].
  apply andb_prop in H. destruct H as [Ha Hz]. apply widths_eqb_eq in Ha, Hz. subst a z. apply strip_ends_form in H3.
  destruct (gap_blocks 5 ws bs cs H1 H2) as (_ & HF & HE & HL). subst cs. exists mid, raw.
  split; [exact HE|]. split; [rewrite HL; cbn [length]; rewrite app_length; cbn [length]; lia|].
  split; [|split; assumption]. inversion HF as [|? ? _ HF']. apply Forall_app in HF'. tauto.
Qed.
Lemma c11_guard_last a : last (a ++ c11_guard) 0 = 1.
Proof. change c11_guard with ([1;1;2;2] ++ [1]). now rewrite app_assoc, last_last. Qed.
Lemma c11_ends ws r : read_c11 ws = Some r -> hd 0 ws = 1 /\ last ws 0 = 1.
Proof.
  intros H. destruct (c11_form ws r H) as (mid & raw & HE & _). rewrite map_cons, map_app in HE. cbn [map concat] in HE.
  rewrite concat_app in HE. cbn [concat] in HE. rewrite app_nil_r, !app_assoc in HE. apply app_inj_tail in HE. destruct HE as [-> _].
  split; [reflexivity | apply c11_guard_last].
Qed.
Lemma one_block_inner {A} (g : A) l l' : one_block (g :: l ++ [g]) (g :: l' ++ [g]) -> one_block l l'.
Proof.
  intros (u & b & b' & v & E & E' & Hb). destruct u as [|x u]; cbn [app] in E, E'; [congruence|].
  injection E as <- E. injection E' as E'. destruct v as [|y v] using rev_ind.
  - apply app_inj_tail in E, E'. destruct E as [_ E]. destruct E' as [_ E']. congruence.
  - clear IHv. rewrite app_comm_cons, app_assoc in E, E'. apply app_inj_tail in E, E'. destruct E as [-> _]. destruct E' as [-> _].
    exists u, b, b', v. auto.
Qed.
Lemma Forall2_lengths k (cs cs' : list (list nat)) : Forall (fun c => length c = k) cs -> Forall (fun c => length c = k) cs' ->
  length cs = length cs' -> Forall2 (fun c c' : list nat => length c = length c') cs cs'.
Proof.
  intros H. revert cs'. induction H; intros cs' H' HL; destruct H'; try discriminate; constructor; [congruence|]. apply IHForall; auto.
Qed.
Lemma verify_weights (raw raw' : list char) top : c11_verify raw' <> None -> length raw = length raw' -> top = (if Nat.ltb 11 (length raw) then 9 else 10)%N ->
  verify_last c11_chars 11 top raw' <> None.
Proof.
  unfold c11_verify. intros H HL ->. rewrite HL. destruct (Nat.ltb 11 (length raw')); [|exact H].
  intros E. rewrite E in H. now apply H.
Qed.
Lemma c11_edged ws ws' r : edged ws ws' -> Nat.even (length ws) = false -> read_c11 ws = Some r -> read_c11 ws' = None.
Proof.
  intros HE HO H. destruct (read_c11 ws') as [r'|] eqn:H'; [exfalso | reflexivity].
  destruct (c11_ends ws r H) as [A1 A2]. destruct (c11_ends ws' r' H') as [A1' A2'].
  assert (HS : shift ws ws').
  { destruct HE as [HE|[(a & a' & v & -> & -> & HE)|(u & a & a' & -> & -> & HE)]]; [assumption | |].
    - cbn [hd] in A1, A1'. lia.
    - rewrite last_last in A2, A2'. lia. }
  destruct (c11_form ws r H) as (mid & raw & EW & EL & HF & HR & HV). destruct (c11_form ws' r' H') as (mid' & raw' & EW' & EL' & HF' & HR' & HV').
  pose proof (edged_length _ _ HE) as HL.
  apply (fun h => shift_snoc _ _ h 1) in HS. rewrite EW, EW' in HS. apply shift_gapped in HS.
  - apply one_block_inner in HS.
    destruct (one_block_chars _ _ _ _ _ _ c11_nodup HS HR HR') as (u & c & c' & v & E1 & E2 & Hc & HI & HI').
    assert (HRL : length raw = length raw') by (subst; rewrite !app_length; reflexivity).
    set (top := (if Nat.ltb 11 (length raw) then 9 else 10)%N).
    assert (HT : (1 <= top <= 10)%N) by (unfold top; destruct (Nat.ltb 11 (length raw)); lia).
    assert (X : verify_last c11_chars 11 top raw <> None).
    { apply (verify_weights raw raw); [congruence | reflexivity | reflexivity]. }
    assert (X' : verify_last c11_chars 11 top raw' <> None).
    { apply (verify_weights raw raw'); [congruence | assumption | reflexivity]. }
    apply X'. rewrite E2. apply (c11_subst top u c c' v HT HI HI' Hc). now rewrite <- E1.
  - apply (Forall2_lengths 5).
    + constructor; [reflexivity|]. apply Forall_app. split; [assumption|]. constructor; [reflexivity | constructor].
    + constructor; [reflexivity|]. apply Forall_app. split; [assumption|]. constructor; [reflexivity | constructor].
    + cbn [length]. rewrite !app_length. cbn [length]. lia.
Qed.

(** ** 2 of 5: digits differ in at least two bars (or spaces), so none has changed. *)
Lemma ham_squash u : forall u', ham (squash u) (squash u') <= ham u u'.
Proof.
  induction u as [|x u IH]; intros [|x' u']; try (cbn; lia). rewrite !squash_cons. cbn [ham]. specialize (IH u').
  destruct (Nat.eqb_spec x x') as [->|_]; [rewrite Nat.eqb_refl; lia|]. destruct (Nat.eqb (narrow_or_wide x) (narrow_or_wide x')); lia.
Qed.
Lemma tf_apart : forallb (fun p => forallb (fun q => widths_eqb p q || Nat.ltb 1 (ham p q)) tf_table) tf_table = true.
Proof. vm_compute. reflexivity. Qed.
Lemma tf_digit_ham x x' d d' : read_tf_digit x = Some d -> read_tf_digit x' = Some d' -> ham x x' <= 1 -> d = d'.
Proof.
  unfold read_tf_digit. intros H H' HH. apply option_map_Some in H, H'. destruct H as (v & H & ->). destruct H' as (v' & H' & ->).
  pose proof (nth_error_In _ _ (which_sound _ _ _ H)) as HI. pose proof (nth_error_In _ _ (which_sound _ _ _ H')) as HI'.
  pose proof tf_apart as HT. rewrite forallb_forall in HT. specialize (HT _ HI). rewrite forallb_forall in HT. specialize (HT _ HI').
  pose proof (ham_squash x x') as HS. apply orb_prop in HT. destruct HT as [HT|HT].
  - apply widths_eqb_eq in HT. rewrite HT in H. rewrite H in H'. now injection H' as ->.
  - apply Nat.ltb_lt in HT. lia.
Qed.
Lemma ten (b : list nat) : length b = 10 -> exists a0 a1 a2 a3 a4 a5 a6 a7 a8 a9, b = [a0;a1;a2;a3;a4;a5;a6;a7;a8;a9].
Proof. intros H. do 10 (destruct b as [|? b]; [discriminate|]). destruct b; [|discriminate]. repeat eexists. Qed.
Lemma unweave_ham (b : list nat) b' x y x' y' : length b = 10 -> length b' = 10 -> unweave b = (x, y) -> unweave b' = (x', y') ->
  ham x x' = aham true b b' /\ ham y y' = aham false b b'.
Proof.
  intros H H' E E'. apply ten in H, H'.
  destruct H as (a0 & a1 & a2 & a3 & a4 & a5 & a6 & a7 & a8 & a9 & ->).
  destruct H' as (b0 & b1 & b2 & b3 & b4 & b5 & b6 & b7 & b8 & b9 & ->).
  cbn [unweave] in E, E'. injection E as <- <-. injection E' as <- <-. cbn [ham aham negb].
  split; lia.
Qed.
Lemma tf_blocks {B} (f : list nat -> option B) bs bs' r r' :
  (forall b b' d d', length b = 10 -> length b' = 10 -> f b = Some d -> f b' = Some d' ->
     aham true b b' <= 1 -> aham false b b' <= 1 -> d = d') ->
  Forall (fun b => length b = 10) bs -> Forall (fun b => length b = 10) bs' -> length bs = length bs' ->
  aham true (concat bs) (concat bs') <= 1 -> aham false (concat bs) (concat bs') <= 1 ->
  read_all f bs = Some r -> read_all f bs' = Some r' -> r = r'.
Proof.
  intros Hf HF. revert bs' r r'. induction HF as [|b bs HL HF IH]; intros bs' r r' HF' HN H1 H2 HR HR'; destruct HF' as [|b' bs' HL' HF'];
    try discriminate.
  - apply read_all_nil in HR, HR'. congruence.
  - injection HN as HN. cbn [concat] in H1, H2. rewrite aham_app, HL in H1, H2 by congruence. cbn [Nat.even] in H1, H2.
    apply read_all_cons in HR, HR'. destruct HR as (d & ds & E1 & E2 & ->). destruct HR' as (d' & ds' & E1' & E2' & ->).
    f_equal; [apply (Hf b b'); try assumption; lia | apply (IH bs'); try assumption; lia].
Qed.
Lemma body_aham b a a' body body' z z' : Nat.even (length a) = true -> length a = length a' -> length body = length body' ->
  aham b (a ++ body ++ z) (a' ++ body' ++ z') <= 1 -> aham b body body' <= 1.
Proof. intros HE HL HB. rewrite aham_app, HE by assumption. rewrite aham_app by assumption. lia. Qed.
Lemma trim_ends_mid n k (ws ws' a b z a' b' z' : list nat) : length ws = length ws' -> trim_ends n k ws = (a, b, z) -> trim_ends n k ws' = (a', b', z') ->
  ws = a ++ b ++ z /\ ws' = a' ++ b' ++ z' /\ length a = length a' /\ length b = length b' /\ (length a = n \/ a = ws).
Proof.
  intros HL H H'. destruct (trim_ends_whole _ _ _ _ _ _ H) as [E1 E2]. destruct (trim_ends_whole _ _ _ _ _ _ H') as [E1' E2'].
  split; [assumption|]. split; [assumption|]. split; [rewrite E2, E2', !firstn_length; lia|].
  unfold trim_ends in H, H'. injection H as _ <- _. injection H' as _ <- _.
  rewrite !rev_length, !skipn_length, !rev_length, !skipn_length. split; [lia|].
  rewrite E2. destruct (Nat.le_gt_cases n (length ws)); [left; rewrite firstn_length; lia | right; apply firstn_all2; lia].
Qed.
Lemma itf_close ws ws' r r' : length ws = length ws' -> (forall b, aham b ws ws' <= 1) -> read_itf ws = Some r -> read_itf ws' = Some r' -> r = r'.
Proof.
  intros HE HX. unfold read_itf. destruct (trim_ends 4 3 ws) as [[a body] z] eqn:ET. destruct (trim_ends 4 3 ws') as [[a' body'] z'] eqn:ET'.
  destruct (trim_ends_mid _ _ _ _ _ _ _ _ _ _ HE ET ET') as (EW & EW' & La & Lb & _).
  intros H H'. apply guard_Some in H, H'. destruct H as [HG H]. destruct H' as [_ H']. apply andb_prop in HG. destruct HG as [Ha _].
  apply widths_eqb_eq in Ha.
  apply obind_Some in H, H'. destruct H as (bs & HC & H). destruct H' as (bs' & HC' & H').
  apply obind_Some in H, H'. destruct H as (ds & HR & H). destruct H' as (ds' & HR' & H'). injection H as <-. injection H' as <-.
  f_equal. pose proof (chop_length _ _ _ HC) as L1. pose proof (chop_length _ _ _ HC') as L1'.
  apply chop_sound in HC, HC'. destruct HC as [HC HF]. destruct HC' as [HC' HF'].
  assert (HB : forall b, aham b (concat bs) (concat bs') <= 1).
  { intros b. rewrite HC, HC'. apply (body_aham b a a' body body' z z'); [subst a; reflexivity | assumption | assumption |].
    rewrite <- EW, <- EW'. apply HX. }
  revert HR HR'. apply (tf_blocks _ bs bs'); try assumption; [|lia|apply HB|apply HB].
  intros b b' d d' L L' Hf Hf' A1 A2. destruct (unweave b) as [x y] eqn:EU. destruct (unweave b') as [x' y'] eqn:EU'.
  destruct (unweave_ham b b' x y x' y' L L' EU EU') as [X Y].
  apply obind_Some in Hf, Hf'. destruct Hf as (d1 & D1 & Hf). destruct Hf' as (d1' & D1' & Hf').
  apply obind_Some in Hf, Hf'. destruct Hf as (d2 & D2 & Hf). destruct Hf' as (d2' & D2' & Hf'). injection Hf as <-. injection Hf' as <-.
  rewrite (tf_digit_ham x x' d1 d1' D1 D1') by lia. rewrite (tf_digit_ham y y' d2 d2' D2 D2') by lia. reflexivity.
Qed.
Lemma itf_edged ws ws' r r' : edged ws ws' -> read_itf ws = Some r -> read_itf ws' = Some r' -> r = r'.
Proof. intros HE. apply itf_close; [now apply edged_length | intros b; now apply edged_aham]. Qed.
Lemma stf_close ws ws' r r' : length ws = length ws' -> (forall b, aham b ws ws' <= 1) -> read_stf ws = Some r -> read_stf ws' = Some r' -> r = r'.
Proof.
  intros HE HX. unfold read_stf. destruct (trim_ends 6 5 ws) as [[a body] z] eqn:ET. destruct (trim_ends 6 5 ws') as [[a' body'] z'] eqn:ET'.
  destruct (trim_ends_mid _ _ _ _ _ _ _ _ _ _ HE ET ET') as (EW & EW' & La & Lb & _).
  intros H H'. apply guard_Some in H, H'. destruct H as [HG H]. destruct H' as [_ H']. apply andb_prop in HG. destruct HG as [Ha _].
  apply widths_eqb_eq in Ha. assert (L6 : length a = 6) by (apply (f_equal (@length nat)) in Ha; unfold squash in Ha; rewrite map_length in Ha; exact Ha).
  apply obind_Some in H, H'. destruct H as (bs & HC & HR). destruct H' as (bs' & HC' & HR').
  pose proof (chop_length _ _ _ HC) as L1. pose proof (chop_length _ _ _ HC') as L1'.
  apply chop_sound in HC, HC'. destruct HC as [HC HF]. destruct HC' as [HC' HF'].
  assert (HB : forall b, aham b (concat bs) (concat bs') <= 1).
  { intros b. rewrite HC, HC'. apply (body_aham b a a' body body' z z'); [rewrite L6; reflexivity | assumption | assumption |].
    rewrite <- EW, <- EW'. apply HX. }
  revert HR HR'. apply (tf_blocks _ bs bs'); try assumption; [|lia|apply HB|apply HB].
  intros b b' d d' L L' Hf Hf' A1 A2. destruct (unweave b) as [x y] eqn:EU. destruct (unweave b') as [x' y'] eqn:EU'.
  destruct (unweave_ham b b' x y x' y' L L' EU EU') as [X Y].
  apply guard_Some in Hf, Hf'. destruct Hf as [_ Hf]. destruct Hf' as [_ Hf'].
  apply (tf_digit_ham x x' d d' Hf Hf'). lia.
Qed.
Lemma stf_edged ws ws' r r' : edged ws ws' -> read_stf ws = Some r -> read_stf ws' = Some r' -> r = r'.
Proof. intros HE. apply stf_close; [now apply edged_length | intros b; now apply edged_aham]. Qed.

(** ** Numbers of elements *)

Lemma c93_count ws r : read_c93 ws = Some r -> exists n, length ws = 6 * n + 1.
Proof.
  intros H. apply c93_form in H. destruct H as (mid & raw & -> & _ & _ & HF). exists (2 + length mid).
  rewrite !app_length, (concat_length_const 6) by (apply (sized 6 9); assumption). cbn [length c93_star]. 
  change (length c93_star) with 6. lia.
Qed.
Lemma itf_count ws r : read_itf ws = Some r -> exists n, length ws = 10 * n + 7.
Proof.
  unfold read_itf. destruct (trim_ends 4 3 ws) as [[a body] z] eqn:ET. apply trim_ends_whole in ET. destruct ET as [HW _].
  intros H. apply guard_Some in H. destruct H as [H HR]. apply andb_prop in H. destruct H as [Ha Hz].
  apply widths_eqb_eq in Ha, Hz. apply obind_Some in HR. destruct HR as [bs [HC _]]. apply chop_length in HC.
  apply (f_equal (@length nat)) in Ha, Hz. unfold squash in Hz. rewrite map_length in Hz. cbn [length] in Ha, Hz.
  exists (length bs). rewrite HW, !app_length. lia.
Qed.
Lemma stf_count ws r : read_stf ws = Some r -> exists n, length ws = 10 * n + 11.
Proof.
  unfold read_stf. destruct (trim_ends 6 5 ws) as [[a body] z] eqn:ET. apply trim_ends_whole in ET. destruct ET as [HW _].
  intros H. apply guard_Some in H. destruct H as [H HR]. apply andb_prop in H. destruct H as [Ha Hz].
  apply widths_eqb_eq in Ha, Hz. apply obind_Some in HR. destruct HR as [bs [HC _]]. apply chop_length in HC.
  apply (f_equal (@length nat)) in Ha, Hz. unfold squash in Ha, Hz. rewrite map_length in Ha, Hz. cbn [length] in Ha, Hz.
  exists (length bs). rewrite HW, !app_length. lia.
Qed.

(** ** Readers and damage *)
Definition tolerant (y : symbology) : bool := match y with SItf | SStf => true | _ => false end.
Lemma odd_clash q ws ws' n n' : edged ws ws' -> Nat.even (length ws) = false -> n = n' -> parity_is q n ws -> parity_is q n' ws' -> False.
Proof. intros HE HO -> [t Ht] [t' Ht']. pose proof (edged_asum ws ws' HE HO) as X. remember (q * n'). destruct X; lia. Qed.

Lemma fixed_damage (R : list nat -> option (list N)) n ws ws' r : (forall ws r, R ws = Some r -> length ws = n) ->
  (forall ws ws' r, edged ws ws' -> R ws = Some r -> R ws' = None) -> damage ws ws' -> R ws = Some r -> R ws' = None.
Proof.
  intros HL HR HD H. destruct (R ws') as [r'|] eqn:H'; [exfalso | reflexivity].
  pose proof (HL _ _ H) as L. pose proof (HL _ _ H') as L'.
  destruct HD as [HD|[HD|HD]]; [lia | lia |]. rewrite (HR ws ws' r HD H) in H'. discriminate.
Qed.
Lemma read_damage y ws ws' r : damage ws ws' -> Nat.even (length ws) = false -> read_as y ws = Some r ->
  (y = SSupp -> exists l, r = Digits l /\ length l = 5) ->
  read_as y ws' = None \/ (tolerant y = true /\ read_as y ws' = Some r).
Proof.
  intros HD HO H HS. destruct y; cbn [read_as tolerant] in *.
  - left. apply option_map_Some in H. destruct H as (l & H & _). rewrite (fixed_damage read_ean13 59 ws ws' l); try reflexivity; try assumption.
    + intros w q E. apply obind_Some in E. destruct E as [[? ?] [E _]]. apply halves_sig in E. apply (proj1 (proj2 E)).
    + exact ean13_edged.
  - left. apply option_map_Some in H. destruct H as (l & H & _). rewrite (fixed_damage read_ean8 43 ws ws' l); try reflexivity; try assumption.
    + intros w q E. apply obind_Some in E. destruct E as [[? ?] [E _]]. apply halves_sig in E. apply (proj1 (proj2 E)).
    + exact ean8_edged.
  - left. apply option_map_Some in H. destruct H as (l & H & _). rewrite (fixed_damage read_upca 59 ws ws' l); try reflexivity; try assumption.
    + intros w q E. apply obind_Some in E. destruct E as [[? ?] [E _]]. apply halves_sig in E. apply (proj1 (proj2 E)).
    + exact upca_edged.
  - left. destruct (HS eq_refl) as (l & -> & L5). destruct (read_ean2 ws) as [l2|] eqn:E2.
    { injection H as ->. apply ean2_form in E2. lia. }
    apply option_map_Some in H. destruct H as (l' & H & E). injection E as <-. destruct (ean5_form _ _ H) as (_ & HL & t & Ht).
    destruct (read_ean2 ws') as [l2|] eqn:E2'.
    { exfalso. apply ean2_form in E2'. destruct HD as [HD|[HD|HD]]; [lia | lia |]. apply edged_length in HD. lia. }
    destruct (read_ean5 ws') as [l5|] eqn:E5'; [exfalso | reflexivity]. destruct (ean5_form _ _ E5') as (_ & HL' & t' & Ht').
    destruct HD as [HD|[HD|HD]]; [lia | lia |]. destruct (edged_asum _ _ HD HO); lia.
  - left. apply option_map_Some in H. destruct H as (l & H & _). destruct (read_c39 ws') as [l'|] eqn:H'; [exfalso | reflexivity].
    destruct (c39_odd _ _ H) as (n & L & P). destruct (c39_odd _ _ H') as (n' & L' & P').
    destruct HD as [HD|[HD|HD]]; [lia | lia |]. pose proof (edged_length _ _ HD). apply (odd_clash 1 ws ws' n n' HD HO); [lia | assumption | assumption].
  - left. apply option_map_Some in H. destruct H as (l & H & _). destruct (read_c39 ws') as [l'|] eqn:H'; [exfalso | reflexivity].
    destruct (c39_odd _ _ H) as (n & L & P). destruct (c39_odd _ _ H') as (n' & L' & P').
    destruct HD as [HD|[HD|HD]]; [lia | lia |]. pose proof (edged_length _ _ HD). apply (odd_clash 1 ws ws' n n' HD HO); [lia | assumption | assumption].
  - left. apply option_map_Some in H. destruct H as (l & H & _). destruct (read_c93 ws') as [l'|] eqn:H'; [exfalso | reflexivity].
    destruct (c93_count _ _ H) as (n & L). destruct (c93_count _ _ H') as (n' & L').
    destruct HD as [HD|[HD|HD]]; [lia | lia |]. rewrite (c93_edged ws ws' l HD HO H) in H'. discriminate.
  - left. apply option_map_Some in H. destruct H as (l & H & _). destruct (read_c11 ws') as [l'|] eqn:H'; [exfalso | reflexivity].
    destruct (c11_form _ _ H) as (m1 & _ & _ & L & _). destruct (c11_form _ _ H') as (m2 & _ & _ & L' & _).
    destruct HD as [HD|[HD|HD]]; [lia | lia |]. rewrite (c11_edged ws ws' l HD HO H) in H'. discriminate.
  - left. apply option_map_Some in H. destruct H as (l & H & _). destruct (read_cod ws') as [l'|] eqn:H'; [exfalso | reflexivity].
    destruct (cod_odd _ _ H) as (n & L & P). destruct (cod_odd _ _ H') as (n' & L' & P').
    destruct HD as [HD|[HD|HD]]; [lia | lia |]. pose proof (edged_length _ _ HD). apply (odd_clash 1 ws ws' n n' HD HO); [lia | assumption | assumption].
  - left. apply option_map_Some in H. destruct H as (l & H & _). destruct (read_c128 ws') as [l'|] eqn:H'; [exfalso | reflexivity].
    destruct (c128_even _ _ H) as (n & L & P). destruct (c128_even _ _ H') as (n' & L' & P').
    destruct HD as [HD|[HD|HD]]; [lia | lia |]. pose proof (edged_length _ _ HD). apply (odd_clash 0 ws ws' n n' HD HO); [lia | assumption | assumption].
  - apply option_map_Some in H. destruct H as (l & H & ->). destruct (read_itf ws') as [l'|] eqn:H'; [right; split; [reflexivity|] | now left].
    destruct (itf_count _ _ H) as (n & L). destruct (itf_count _ _ H') as (n' & L').
    destruct HD as [HD|[HD|HD]]; [lia | lia |]. now rewrite (itf_edged ws ws' l l' HD H H').
  - apply option_map_Some in H. destruct H as (l & H & ->). destruct (read_stf ws') as [l'|] eqn:H'; [right; split; [reflexivity|] | now left].
    destruct (stf_count _ _ H) as (n & L). destruct (stf_count _ _ H') as (n' & L').
    destruct HD as [HD|[HD|HD]]; [lia | lia |]. now rewrite (stf_edged ws ws' l l' HD H H').
Qed.

Lemma one_wrong_read y p s m m' r : (str_len s < 2 ^ 48)%N -> barcode y p s = Ret (Ok m) -> read_modules y m = Some r ->
  (y = SSupp -> length s = 5) -> one_wrong m m' ->
  read_modules y m' = None \/ (tolerant y = true /\ read_modules y m' = Some r).
Proof.
  intros Hs H HR H5 HW. destruct (barcode_shape y p s m Hs H) as (ws & Em & HO & HF).
  assert (H1 : Forall (fun w => 1 <= w) ws) by (revert HF; apply Forall_impl; lia).
  assert (HT : exists k, k <= 1 /\ tail y = repeat 0%N k).
  { destruct y; cbn [tail]; try (exists 0; split; [lia | reflexivity]). exists 1. split; [lia | reflexivity]. }
  destruct HT as (k & Hk & HT). rewrite HT in Em.
  assert (HS : scan m = Some ws) by (rewrite Em; apply (scan_one ws 0 k); [reflexivity | assumption | assumption]).
  unfold read_modules in HR |- *. rewrite HS in HR. cbn [obind] in HR.
  destruct (scan m') as [ws'|] eqn:HS'; cbn [obind]; [|now left].
  rewrite Em in HW. pose proof (damage_scan ws k m' ws' H1 HO Hk HW HS') as HD.
  apply (read_damage y ws ws' r HD HO HR). intros ->. specialize (H5 eq_refl).
  pose proof (barcode_meant SSupp p s m Hs H) as HM. cbn [meant] in HM. unfold read_modules in HM. rewrite HS in HM. cbn [obind] in HM.
  rewrite HR in HM. injection HM as ->. eexists. split; [reflexivity|]. unfold digits_of. now rewrite map_length.
Qed.
