(** * Proofs: ink added or lost all over a Code 39 or Codabar symbol *)
From Verif Require Import Rust M_Error Symbology M_Use S_Barcode S_Ean S_Text S_Linear S_Codabar S_Tf S_Code128 S_All S_Damage S_Ink
  P_Rust P_Barcode P_All P_Apart P_Damage P_Cell P_Cut P_Wrong P_Part P_Line P_Side P_Ink.
Local Open Scope nat_scope.

(** ** Characters stay in step *)
Section Sync.
  Context (r : N -> N -> bool).
  Local Notation R := (fun a b => r a b = true).
  Fixpoint zipb (a b : list N) : bool := match a, b with x :: a', y :: b' => r x y && zipb a' b' | _, _ => true end.
  Definition in_step (T T' : list (list N)) : bool :=
    forallb (fun a => forallb (fun b => negb (zipb (a ++ [1%N]) (b ++ [1%N])) || (length a =? length b)) T') T.
  Lemma zipb_prefix a : forall b x y, Forall2 R (a ++ x) (b ++ y) -> zipb a b = true.
  Proof.
    induction a as [|p a IH]; intros [|q b] x y H; try reflexivity. cbn [app] in H. inversion H; subst. cbn [zipb]. apply andb_true_intro. split; [assumption | now apply (IH b x y)].
  Qed.
  Lemma rel_length a b : Forall2 R a b -> length a = length b.
  Proof. induction 1; cbn [length]; congruence. Qed.
  Lemma rel_zipb a b : Forall2 R a b -> zipb a b = true.
  Proof. intros H. apply (zipb_prefix a b [] []). now rewrite !app_nil_r. Qed.
  Lemma starts_dark (T : list (list N)) As : Forall (fun a => exists t, a = 1%N :: t) T -> Forall (fun a => In a T) As -> exists t, concat As ++ [1%N] = 1%N :: t.
  Proof.
    intros HT H. destruct As as [|a As]; [now exists []|]. inversion H; subst. rewrite Forall_forall in HT. destruct (HT a) as [t ->]; [assumption|]. cbn [concat app]. now eexists.
  Qed.
  Lemma sync T T' : in_step T T' = true -> Forall (fun a => exists t, a = 1%N :: t) T -> Forall (fun a => exists t, a = 1%N :: t) T' ->
    forall As Bs, Forall (fun a => In a T) As -> Forall (fun b => In b T') Bs -> Forall2 R (concat As ++ [1%N]) (concat Bs ++ [1%N]) -> Forall2 (Forall2 R) As Bs.
  Proof.
    intros HS HT HT'. induction As as [|a As IH]; intros Bs HA HB H.
    - destruct Bs as [|b Bs]; [constructor|]. exfalso. apply rel_length in H. inversion HB; subst. rewrite Forall_forall in HT'. destruct (HT' b) as [t ->]; [assumption|].
      cbn [concat app length] in H. rewrite !app_length in H. cbn [length] in H. lia.
    - inversion HA as [|? ? Ha HA']; subst. destruct Bs as [|b Bs].
      { exfalso. apply rel_length in H. rewrite Forall_forall in HT. destruct (HT a) as [t ->]; [assumption|]. cbn [concat app length] in H. rewrite !app_length in H. cbn [length] in H. lia. }
      inversion HB as [|? ? Hb HB']; subst. cbn [concat] in H. rewrite <- !app_assoc in H.
      assert (HL : length a = length b).
      { destruct (starts_dark T As HT HA') as [t Et]. destruct (starts_dark T' Bs HT' HB') as [t' Et']. rewrite Et, Et' in H.
        change (a ++ 1%N :: t) with (a ++ [1%N] ++ t) in H. change (b ++ 1%N :: t') with (b ++ [1%N] ++ t') in H. rewrite !app_assoc in H. apply zipb_prefix in H.
        unfold in_step in HS. pose proof (proj1 (forallb_forall _ _) (proj1 (forallb_forall _ _) HS a Ha) b Hb) as E. cbv beta in E. rewrite H in E. now apply Nat.eqb_eq in E. }
      apply Forall2_app_inv_l in H. destruct H as (x & y & Hx & Hy & E). assert (Lx : length b = length x) by (rewrite <- HL; now apply rel_length).
      destruct (split_same b x _ _ Lx E) as [-> <-]. constructor; [assumption | now apply IH].
  Qed.
End Sync.

Definition more (a b : N) : bool := ((a =? b) || ((a =? 0) && (b =? 1)))%N.
Definition less (a b : N) : bool := more b a.
Lemma more_inked a b : inked a b -> Forall2 (fun p q => more p q = true) a b.
Proof. induction 1 as [|p q a b [->|[-> ->]] _ IH]; constructor; auto. unfold more. now rewrite N.eqb_refl. Qed.
Lemma less_inked a b : inked b a -> Forall2 (fun p q => less p q = true) a b.
Proof. intros H. apply more_inked in H. unfold less. induction H; constructor; auto. Qed.
Definition rg (c : list nat) : list N := render (c ++ [1]).
Lemma rg_blocks (n : nat) cs ws : Nat.even n = false -> Forall (fun c => length c = n) cs -> ws ++ [1] = concat (map (fun c => c ++ [1]) cs) -> render ws ++ [0%N] = concat (map rg cs) /\ Nat.even (length ws) = false.
Proof.
  intros Hn F E.
  assert (FE : Forall (fun c => Nat.even (length c) = true) (map (fun c => c ++ [1]) cs)).
  { apply Forall_map. revert F. apply Forall_impl. intros c <-. now rewrite app_length, Nat.add_1_r, Nat.even_succ, <- Nat.negb_even, Hn. }
  assert (O : Nat.even (length ws) = false).
  { assert (T : Nat.even (length (ws ++ [1])) = true).
    { rewrite E. clear - FE. induction FE as [|x l Hx _ IH]; [reflexivity|]. cbn [concat]. now rewrite app_length, Nat.even_add, Hx, IH. }
    rewrite app_length, Nat.add_1_r, Nat.even_succ, <- Nat.negb_even in T. now apply Bool.negb_true_iff. }
  split; [|assumption]. unfold render. change [0%N] with (render_from (1 - 1) [1]). rewrite <- render_from_app_odd by (assumption || now right).
  rewrite E, render_from_concat_even, map_map by (assumption || now right). reflexivity.
Qed.
Lemma rg_sync r n cs ds T T' ws zs : Nat.even n = false -> Forall (fun c => length c = n) cs -> Forall (fun c => length c = n) ds ->
  ws ++ [1] = concat (map (fun c => c ++ [1]) cs) -> zs ++ [1] = concat (map (fun c => c ++ [1]) ds) ->
  r 0%N 0%N = true -> r 1%N 1%N = true -> in_step r (map rg T) (map rg T') = true -> Forall (fun a => exists t, a = 1%N :: t) (map rg T) -> Forall (fun a => exists t, a = 1%N :: t) (map rg T') ->
  Forall (fun c => In c T) cs -> Forall (fun c => In c T') ds -> Forall2 (fun p q => r p q = true) (render ws) (render zs) ->
  Forall2 (fun c d => Forall2 (fun p q => r p q = true) (rg c) (rg d)) cs ds.
Proof.
  intros Hn Fc Fd Ec Ed R0 R1 HS HT HT' HC HD H. destruct (rg_blocks n cs ws Hn Fc Ec) as [Rc _]. destruct (rg_blocks n ds zs Hn Fd Ed) as [Rd _].
  assert (G : Forall2 (Forall2 (fun p q => r p q = true)) (map rg cs) (map rg ds)).
  { apply (sync r (map rg T) (map rg T') HS HT HT').
    - apply Forall_map. revert HC. apply Forall_impl. intros c. apply in_map.
    - apply Forall_map. revert HD. apply Forall_impl. intros c. apply in_map.
    - rewrite <- Rc, <- Rd. apply Forall2_app; [apply Forall2_app; [assumption|]|]; repeat constructor; assumption. }
  clear - G. revert ds G. induction cs as [|c cs IH]; intros [|d ds] G; inversion G; subst; constructor; auto.
Qed.
Definition anti (r : N -> N -> bool) (T T' : list (list nat)) : bool :=
  forallb (fun a => forallb (fun b => negb (zipb r (rg a) (rg b)) || negb (length (rg a) =? length (rg b)) || widths_eqb a b) T') T.
Lemma anti_same r T T' a b : anti r T T' = true -> In a T -> In b T' -> Forall2 (fun p q => r p q = true) (rg a) (rg b) -> a = b.
Proof.
  intros HA Ha Hb H. unfold anti in HA. pose proof (proj1 (forallb_forall _ _) (proj1 (forallb_forall _ _) HA a Ha) b Hb) as E. cbv beta in E.
  rewrite (rel_zipb r _ _ H), (rel_length r _ _ H), Nat.eqb_refl in E. now apply widths_eqb_eq in E.
Qed.
Lemma all_dark T : forallb (fun c => match c with w :: _ => 1 <=? w | [] => false end) T = true -> Forall (fun a => exists t, a = 1%N :: t) (map rg T).
Proof.
  intros H. apply Forall_map, Forall_forall. intros c Hc. pose proof (proj1 (forallb_forall _ _) H c Hc) as E. cbv beta in E. destruct c as [|[|w] c]; try discriminate.
  unfold rg, render. cbn [app render_from repeat]. now eexists.
Qed.

(** ** Codabar *)
Lemma cod_inked r a mid z a' mid' z' ws zs : r = more \/ r = less ->
  ws ++ [1] = concat (map (fun c => c ++ [1]) (a :: mid ++ [z])) -> Forall (fun c => length c = 7) (a :: mid ++ [z]) -> In a cod_starts -> In z cod_starts -> Forall (fun c => In c lib_inner) mid ->
  zs ++ [1] = concat (map (fun c => c ++ [1]) (a' :: mid' ++ [z'])) -> Forall (fun c => length c = 7) (a' :: mid' ++ [z']) -> In a' cod_starts -> In z' cod_starts -> Forall (fun c => In c cod_inner) mid' ->
  Forall2 (fun p q => r p q = true) (render ws) (render zs) -> ws = zs.
Proof.
  intros Hr E F Ha Hz Hm E' F' Ha' Hz' Hm' H.
  assert (R0 : r 0%N 0%N = true /\ r 1%N 1%N = true) by (destruct Hr as [-> | ->]; split; reflexivity).
  assert (ST : in_step r (map rg (cod_starts ++ lib_inner)) (map rg (cod_starts ++ cod_inner)) = true) by (destruct Hr as [-> | ->]; vm_compute; reflexivity).
  assert (A1 : anti r cod_starts cod_starts = true) by (destruct Hr as [-> | ->]; vm_compute; reflexivity).
  assert (A2 : anti r lib_inner cod_inner = true) by (destruct Hr as [-> | ->]; vm_compute; reflexivity).
  assert (P : Forall (fun c => In c (cod_starts ++ lib_inner)) (a :: mid ++ [z])).
  { constructor; [apply in_or_app; now left|]. apply Forall_app. split; [revert Hm; apply Forall_impl; intros c Hc; apply in_or_app; now right|]. constructor; [apply in_or_app; now left | constructor]. }
  assert (P' : Forall (fun c => In c (cod_starts ++ cod_inner)) (a' :: mid' ++ [z'])).
  { constructor; [apply in_or_app; now left|]. apply Forall_app. split; [revert Hm'; apply Forall_impl; intros c Hc; apply in_or_app; now right|]. constructor; [apply in_or_app; now left | constructor]. }
  pose proof (rg_sync r 7 _ _ _ _ ws zs eq_refl F F' E E' (proj1 R0) (proj2 R0) ST (all_dark (cod_starts ++ lib_inner) eq_refl) (all_dark (cod_starts ++ cod_inner) eq_refl) P P' H) as S.
  inversion S as [|? ? ? ? S1 S2]; subst. apply (anti_same r _ _ a a' A1 Ha Ha') in S1. subst a'.
  apply Forall2_app_inv_l in S2. destruct S2 as (x & y & Sx & Sy & Em). inversion Sy as [|? q ? ? S3 S4]; subst. inversion S4; subst. apply app_inj_tail in Em. destruct Em as [<- <-].
  apply (anti_same r _ _ z z' A1 Hz Hz') in S3. subst z'.
  assert (mid = mid').
  { clear - Sx Hm Hm' A2. revert Hm Hm'. induction Sx as [|c d l l' S _ IH]; intros H1 H2; [reflexivity|]. inversion H1; subst. inversion H2; subst. f_equal; [now apply (anti_same r lib_inner cod_inner) | now apply IH]. }
  subst mid'. rewrite <- E' in E. apply app_inj_tail in E. exact (proj1 E).
Qed.

(** ** Code 39 *)
Definition pairs_ok (r : N -> N -> bool) (ok : char -> char -> bool) (l : list char) (t : list (list nat)) : bool :=
  forallb (fun p => forallb (fun q => negb (zipb r (rg (snd p)) (rg (snd q))) || negb (length (rg (snd p)) =? length (rg (snd q))) || (fst p =? fst q)%N || ok (fst p) (fst q))
    (combine l t)) (combine l t).
Lemma nth_combine {A B} (l : list A) : forall (t : list B) v a b, nth_error l v = Some a -> nth_error t v = Some b -> In (a, b) (combine l t).
Proof. induction l as [|x l IH]; intros [|y t] [|v] a b H1 H2; try discriminate; cbn [nth_error combine] in *; [injection H1 as ->; injection H2 as ->; now left | right; now apply (IH t v)]. Qed.
Lemma pairs_read r ok l t u u' c d : pairs_ok r ok l t = true -> read_char l t c = Some u -> read_char l t d = Some u' ->
  Forall2 (fun p q => r p q = true) (rg c) (rg d) -> u = u' \/ ok u u' = true.
Proof.
  intros HP Ru Ru' Hcd. apply read_char_sound in Ru, Ru'. destruct Ru as (v & V1 & V2), Ru' as (v' & V1' & V2').
  pose proof (nth_combine _ _ _ _ _ V2 V1) as I. pose proof (nth_combine _ _ _ _ _ V2' V1') as I'.
  unfold pairs_ok in HP. pose proof (proj1 (forallb_forall _ _) (proj1 (forallb_forall _ _) HP _ I) _ I') as T. cbn [fst snd] in T.
  rewrite (rel_zipb r _ _ Hcd), (rel_length r _ _ Hcd), Nat.eqb_refl in T. cbn [negb orb] in T. apply orb_prop in T. destruct T as [T|T]; [left; now apply N.eqb_eq | now right].
Qed.
Lemma star_ink r ok l t star ws zs mid mid' x x' : pairs_ok r ok l t = true -> r 0%N 0%N = true -> r 1%N 1%N = true ->
  in_step r (map rg (star :: t)) (map rg (star :: t)) = true -> Forall (fun a => exists t, a = 1%N :: t) (map rg (star :: t)) -> length star = 9 ->
  ws ++ [1] = concat (map (fun c => c ++ [1]) (star :: mid ++ [star])) -> zs ++ [1] = concat (map (fun c => c ++ [1]) (star :: mid' ++ [star])) ->
  Forall (fun c => length c = 9) mid -> Forall (fun c => length c = 9) mid' -> read_all (read_char l t) mid = Some x -> read_all (read_char l t) mid' = Some x' ->
  Forall2 (fun p q => r p q = true) (render ws) (render zs) -> Forall2 (fun c d => c = d \/ ok c d = true) x x'.
Proof.
  intros HP R0 R1 ST AD LS E E' F F' RA RA' HI.
  assert (P : forall md x, Forall (fun c => length c = 9) md -> read_all (read_char l t) md = Some x ->
    Forall (fun c => length c = 9) (star :: md ++ [star]) /\ Forall (fun c => In c (star :: t)) (star :: md ++ [star])).
  { intros md l0 Fm Rm. apply table_In in Rm. split.
    - apply Forall_cons; [assumption|]. apply Forall_app. split; [assumption|]. apply Forall_cons; [assumption | apply Forall_nil].
    - apply Forall_cons; [now left|]. apply Forall_app. split; [|apply Forall_cons; [now left | apply Forall_nil]]. revert Rm. apply Forall_impl. intros c Hc. now right. }
  destruct (P mid x F RA) as [L1 I1]. destruct (P mid' x' F' RA') as [L2 I2].
  pose proof (rg_sync r 9 _ _ _ _ ws zs eq_refl L1 L2 E E' R0 R1 ST AD AD I1 I2 HI) as S.
  inversion S as [|? ? ? ? _ S2]; subst. apply Forall2_app_inv_l in S2. destruct S2 as (y & y' & Sx & Sy & Em). inversion Sy as [|? q ? ? S3 S4]; subst. inversion S4; subst. apply app_inj_tail in Em. destruct Em as [<- _].
  clear - HP RA RA' Sx. revert x x' RA RA'. induction Sx as [|c d mid mid' Hcd _ IH]; intros x x' RA RA'.
  - apply read_all_nil in RA, RA'. subst. constructor.
  - apply read_all_cons in RA. destruct RA as (u & us & Ru & RA & ->). apply read_all_cons in RA'. destruct RA' as (u' & us' & Ru' & RA' & ->). constructor; [|now apply IH].
    now apply (pairs_read r ok l t u u' c d).
Qed.
Lemma c39_step r : r = more \/ r = less -> in_step r (map rg (c39_star :: c39_table)) (map rg (c39_star :: c39_table)) = true.
Proof. intros [-> | ->]; vm_compute; reflexivity. Qed.
Lemma c39_dark : forallb (fun c => match c with w :: _ => 1 <=? w | [] => false end) (c39_star :: c39_table) = true.
Proof. vm_compute. reflexivity. Qed.
Lemma c39_ink r ok ws zs l l' : r = more \/ r = less -> pairs_ok r ok c39_chars c39_table = true -> read_c39 ws = Some l -> read_c39 zs = Some l' ->
  Forall2 (fun p q => r p q = true) (render ws) (render zs) -> Forall2 (fun c d => c = d \/ ok c d = true) l l'.
Proof.
  intros Hr HP H H' HI. destruct (c39_form _ _ H) as (mid & E & _ & F & RA). destruct (c39_form _ _ H') as (mid' & E' & _ & F' & RA').
  assert (R0 : r 0%N 0%N = true /\ r 1%N 1%N = true) by (destruct Hr as [-> | ->]; split; reflexivity).
  exact (star_ink r ok c39_chars c39_table c39_star ws zs mid mid' l l' HP (proj1 R0) (proj2 R0) (c39_step r Hr) (all_dark _ c39_dark) eq_refl E E' F F' RA RA' HI).
Qed.
Lemma c39_more : pairs_ok more (fun c _ => existsb (N.eqb c) light_chars) c39_chars c39_table = true.
Proof. vm_compute. reflexivity. Qed.
Lemma c39_less : pairs_ok less (fun _ d => existsb (N.eqb d) light_chars) c39_chars c39_table = true.
Proof. vm_compute. reflexivity. Qed.
