(** * Proofs: symbols printed one behind the other, touching *)
From Verif Require Import Rust M_Error M_Tf Symbology M_Use S_Barcode S_Ean S_Text S_Linear S_Codabar S_Tf S_Code128 S_All S_Cut S_Stream
  P_Rust P_Barcode P_Parse P_Tf P_All P_Apart P_Damage P_Cell P_Cut P_Wrong P_Part P_Line P_Stretch P_Part2 P_Side P_Ink4 P_Readable P_Marks P_Back.
Local Open Scope nat_scope.

Lemma symbol_reads y s m : symbol_of y s m -> exists p r, barcode y p s = Ret (Ok m) /\ (str_len s < 2 ^ 48)%N /\ read_modules y m = Some r /\ accepts y r.
Proof.
  intros (Hs & [p H] & HC & H8). destruct (readable_meant y p s m Hs H (fun E => proj2 (HC E)) H8) as (r & R & HM). exists p, r. split; [exact H|]. split; [exact Hs|]. split; [exact R|].
  destruct y; try exact I. destruct (HC eq_refl) as [HF HN]. cbn [meant] in HM. destruct (existsb (fun c => (c =? ch "+")%N) s); [discriminate|]. injection HM as ->. cbn [accepts]. now apply P_Codabar.exchange_framed.
Qed.

(** ** Where elements of two modules are printed in 2 of 5 symbols *)
Lemma stretch_no_two l : ~ In 2 (stretch 3 l).
Proof. unfold stretch. intros H. apply in_map_iff in H. destruct H as (x & E & _). destruct (Nat.eqb x 1); discriminate. Qed.
Lemma weave_no_two a b : ~ In 2 a -> ~ In 2 b -> ~ In 2 (weave a b).
Proof.
  revert b. induction a as [|x a IH]; intros [|z b] HA HB; cbn [weave]; try (intros []; fail); try (exact HA); try exact HB.
  intros [H|[H|H]]; [apply HA; now left | apply HB; now left|]. apply (IH b); [intros E; apply HA; now right | intros E; apply HB; now right | exact H].
Qed.
Lemma itf_twos p s m ws : (str_len s < 2 ^ 48)%N -> barcode SItf p s = Ret (Ok m) -> scan m = Some ws -> exists D, ws = D ++ [2;1;1] /\ ~ In 2 D.
Proof.
  intros Hs H HW. cbn [barcode] in H. apply run_Ok in H. destruct H as [b [HN HE]]. destruct (itf_accepted p s b HN) as [ds [HDs [_ [_ [E _]]]]].
  rewrite HE in E. injection E as ->. rewrite itf_scan in HW by assumption. injection HW as <-. unfold itf_symbol. exists ([1;1;1;1] ++ concat (map (itf_pair 3) (pairs ds))).
  split; [now rewrite <- app_assoc|]. intros H. apply in_app_or in H. destruct H as [H|H]; [cbn in H; lia|]. apply in_concat in H. destruct H as (l & Hl & H). apply in_map_iff in Hl. destruct Hl as ([x z] & <- & _).
  revert H. unfold itf_pair. apply weave_no_two; apply stretch_no_two.
Qed.
Lemma bars_no_two l : ~ In 2 l -> ~ In 2 (stf_bars l).
Proof.
  intros HN. induction l as [|x l IH]; [intros []|]. unfold stf_bars in *. cbn [map concat app]. intros [H|[H|H]]; [apply HN; left; exact H | discriminate H|].
  revert H. apply IH. intros H. apply HN. right. exact H.
Qed.
Lemma stf_shape ds : exists D, stf_symbol 3 2 ds = [2;1;2;1;1;1] ++ D ++ [2;1;1;1;2] /\ ~ In 2 D.
Proof.
  exists (concat (map (fun d => stf_bars (stretch 3 (tf_digit d))) ds)). split; [reflexivity|]. induction ds as [|d ds IH]; [intros []|].
  cbn [map concat]. intros H. apply in_app_or in H. destruct H as [H|H]; [revert H; apply bars_no_two, stretch_no_two | exact (IH H)].
Qed.
Lemma stf_twos p s m ws : (str_len s < 2 ^ 48)%N -> barcode SStf p s = Ret (Ok m) -> scan m = Some ws -> exists D, ws = [2;1;2;1;1;1] ++ D ++ [2;1;1;1;2] /\ ~ In 2 D.
Proof.
  intros Hs H HW. cbn [barcode] in H. apply run_Ok in H. destruct H as [b [HN HE]]. destruct (stf_accepted s b HN) as [m' [E [E' _]]]. rewrite HE in E. injection E as <-.
  apply tf_standard_Ok in HN. destruct HN as [HDs _]. apply digits_of_digits in HDs. rewrite E', stf_scan in HW by assumption. injection HW as <-. apply stf_shape.
Qed.
Lemma two_inside (D X D' Y : list nat) : D ++ 2 :: X = D' ++ Y -> length D < length D' -> In 2 D'.
Proof.
  intros E L. assert (N : nth_error (D' ++ Y) (length D) = Some 2) by (rewrite <- E, nth_error_app2, Nat.sub_diag by lia; reflexivity).
  rewrite nth_error_app1 in N by assumption. now apply nth_error_In in N.
Qed.
Lemma even_tail (u v : list nat) w w' : Nat.even (length (u ++ w :: v)) = false -> Nat.even (length (u ++ [w'])) = false -> v = [] \/ 2 <= length v.
Proof.
  intros H H'. rewrite app_length, Nat.even_add in H, H'. cbn [length] in H, H'. destruct v as [|v0 [|v1 v]]; [now left | | right; cbn [length]; lia].
  cbn [length Nat.even] in *. destruct (Nat.even (length u)); discriminate.
Qed.

(** ** No symbol begins with another one *)
Lemma no_prefix y s s' m b : y <> SSupp -> symbol_of y s m -> symbol_of y s' (m ++ b) -> b = [].
Proof.
  intros HY H H'. destruct (symbol_reads _ _ _ H) as (p & r & HB & Hs & R & A). destruct (symbol_reads _ _ _ H') as (p' & r' & HB' & Hs' & R' & A').
  destruct (printed_elements _ _ _ _ Hs HB) as (ws & S & E & HO & HP). destruct (printed_elements _ _ _ _ Hs' HB') as (zs & S' & E' & HO' & HP').
  destruct (in_dec N.eq_dec 1%N b) as [HI|HI].
  - exfalso. pose proof (marks_after y p s m b r r' Hs HB R A HI R' A') as L.
    assert (HX : short_right zs ws).
    { destruct (cut_right_scan zs (length (tail y)) m HP' HO') as [C|(w2 & C & HX)]; [|congruence|].
      - exists b. split; [|exact HI]. replace (repeat 0%N (length (tail y))) with (tail y) by (destruct y; reflexivity). now symmetry.
      - rewrite S in C. injection C as <-. exact HX. }
    destruct HX as (u & w & w' & v & EZ & EW & _ & Hw & HV). pose proof HO as HO2. pose proof HO' as HO2'. rewrite EZ in HO2'. rewrite EW in HO2. pose proof (even_tail u v w w' HO2' HO2) as ET.
    destruct y; try exact L; try congruence.
    + destruct (itf_twos _ _ _ _ Hs HB S) as (D & ED & _). destruct (itf_twos _ _ _ _ Hs' HB' S') as (D' & ED' & ND). rewrite ED in EW. rewrite ED' in EZ.
      change [2;1;1] with ([2;1] ++ [1]) in EW. rewrite app_assoc in EW. apply app_inj_tail in EW. destruct EW as [<- <-]. destruct ET as [->|ET].
      * change [2;1;1] with ([2;1] ++ [1]) in EZ. rewrite app_assoc in EZ. apply app_inj_tail in EZ. destruct EZ as [_ <-]. destruct HV; [lia | congruence].
      * rewrite <- app_assoc in EZ. apply ND. apply (two_inside D ([1] ++ w :: v) D' [2;1;1]); [now symmetry|]. apply (f_equal (@length nat)) in EZ. rewrite !app_length in EZ. cbn [length] in EZ. lia.
    + destruct (stf_twos _ _ _ _ Hs HB S) as (D & ED & _). destruct (stf_twos _ _ _ _ Hs' HB' S') as (D' & ED' & ND). rewrite ED in EW. rewrite ED' in EZ.
      change [2;1;1;1;2] with ([2;1;1;1] ++ [2]) in EW. rewrite !app_assoc in EW. apply app_inj_tail in EW. destruct EW as [<- <-]. destruct ET as [->|ET].
      * change [2;1;1;1;2] with ([2;1;1;1] ++ [2]) in EZ. rewrite !app_assoc in EZ. apply app_inj_tail in EZ. destruct EZ as [_ <-]. destruct HV; [lia | congruence].
      * rewrite <- !app_assoc in EZ. apply app_inv_head in EZ. apply ND. apply (two_inside D ([1;1;1] ++ w :: v) D' [2;1;1;1;2]); [now symmetry|]. apply (f_equal (@length nat)) in EZ. rewrite !app_length in EZ. cbn [length] in EZ. lia.
  - assert (EB : exists n, b = repeat 0%N n).
    { exists (length b). apply Forall_eq_repeat. apply Forall_forall. intros x Hx. pose proof (bits_of _ _ S') as HB2. apply Forall_app in HB2. destruct HB2 as [_ HB2].
      rewrite Forall_forall in HB2. destruct (HB2 x Hx) as [->| ->]; [reflexivity | contradiction]. }
    destruct EB as [n ->]. rewrite P_Back.scan_quiet, S in S'. injection S' as <-. rewrite E in E' at 1. rewrite <- app_assoc in E'. apply app_inv_head in E'. rewrite <- (app_nil_r (tail y)) in E' at 2. now apply app_inv_head in E'.
Qed.
(** ** No symbol ends with another one *)
Lemma no_suffix y s s' m b : y <> SItf -> symbol_of y s m -> symbol_of y s' (b ++ m) -> b = [].
Proof.
  intros HY H H'. destruct (symbol_reads _ _ _ H) as (p & r & HB & Hs & R & A). destruct (symbol_reads _ _ _ H') as (p' & r' & HB' & Hs' & R' & A').
  destruct (printed_elements _ _ _ _ Hs HB) as (ws & S & E & HO & HP). destruct (printed_elements _ _ _ _ Hs' HB') as (zs & S' & E' & HO' & HP').
  destruct b as [|x b]; [reflexivity|]. exfalso. destruct (printed_dark _ _ _ _ Hs' HB') as [t Et]. cbn [app] in Et. injection Et as -> _.
  pose proof (marks_before y p s m (1%N :: b) r r' Hs HB R A (or_introl eq_refl) R' A') as L.
  destruct y; try exact L; try congruence.
  assert (HX : short_left zs ws).
  { destruct (cut_left_scan zs 1 m HP' HO') as [C|(w2 & C & HX)]; [|congruence|].
    - exists (1%N :: b). split; [now symmetry | now left].
    - rewrite S in C. injection C as <-. exact HX. }
  destruct HX as (v & w & w' & u & EZ & EW & HE & Hw & HV).
  destruct (stf_twos _ _ _ _ Hs HB S) as (D & ED & _). destruct (stf_twos _ _ _ _ Hs' HB' S') as (D' & ED' & ND). rewrite ED in EW. rewrite ED' in EZ.
  cbn [app] in EW. injection EW as <- <-. destruct v as [|v0 [|v1 [|v2 [|v3 v]]]]; try discriminate HE.
  - cbn [app] in EZ. injection EZ as <- _. destruct HV; [lia | congruence].
  - cbn [app] in EZ. discriminate EZ.
  - apply ND. replace ((v0 :: v1 :: v2 :: v3 :: v) ++ w :: 1 :: 2 :: 1 :: 1 :: 1 :: D ++ [2; 1; 1; 1; 2]) with (([v0;v1;v2;v3] ++ v ++ [w;1]) ++ 2 :: [1;1;1] ++ D ++ [2;1;1;1;2]) in EZ by (cbn [app]; rewrite <- ?app_assoc; reflexivity).
    cbn [app] in EZ. destruct (v ++ [w; 1]) as [|q0 [|q1 q]] eqn:EQ; [destruct v; discriminate EQ | destruct v as [|? [|? ?]]; discriminate EQ|]. cbn [app] in EZ. injection EZ as _ _ _ _ _ _ EZ.
    apply (two_inside q ([1;1;1] ++ D ++ [2;1;1;1;2]) D' [2;1;1;1;2]); [now symmetry|]. apply (f_equal (@length nat)) in EZ. rewrite !app_length in EZ. cbn [length] in EZ. rewrite app_length in EZ. cbn [length] in EZ. lia.
Qed.

(** ** Lists of symbols *)
Lemma prefix_cases (a b c d : list N) : a ++ b = c ++ d -> (exists e, c = a ++ e) \/ (exists e, a = c ++ e).
Proof.
  revert c. induction a as [|x a IH]; intros [|z c] E; [left; now exists [] | left; now exists (z :: c) | right; now exists (x :: a)|].
  injection E as <- E. destruct (IH c E) as [[e ->]|[e ->]]; [left | right]; now exists e.
Qed.
Lemma prefix_unique (P : list N -> Prop) : ~ P [] -> (forall m b, P m -> P (m ++ b) -> b = []) ->
  forall ms ms', Forall P ms -> Forall P ms' -> concat ms = concat ms' -> ms = ms'.
Proof.
  intros HN HP. induction ms as [|m ms IH]; intros [|m' ms'] H H' E; [reflexivity | | |].
  - exfalso. cbn [concat] in E. symmetry in E. apply app_eq_nil in E. destruct E as [-> _]. now inversion H'.
  - exfalso. cbn [concat] in E. apply app_eq_nil in E. destruct E as [-> _]. now inversion H.
  - inversion H as [|? ? Hm Hms]; subst. inversion H' as [|? ? Hm' Hms']; subst. cbn [concat] in E. assert (EM : m = m').
    { destruct (prefix_cases _ _ _ _ E) as [[e ->]|[e ->]]; [rewrite (HP m e Hm Hm') | rewrite (HP m' e Hm' Hm)]; now rewrite app_nil_r. }
    subst m'. f_equal. apply IH; try assumption. now apply app_inv_head in E.
Qed.
Lemma rev_concat (ms : list (list N)) : rev (concat ms) = concat (map (@rev N) (rev ms)).
Proof. induction ms as [|m ms IH]; [reflexivity|]. cbn [concat rev]. rewrite rev_app_distr, IH, map_app, concat_app. cbn [map concat]. now rewrite app_nil_r. Qed.
Lemma suffix_unique (P : list N -> Prop) : ~ P [] -> (forall m b, P m -> P (b ++ m) -> b = []) ->
  forall ms ms', Forall P ms -> Forall P ms' -> concat ms = concat ms' -> ms = ms'.
Proof.
  intros HN HP ms ms' H H' E.
  assert (F : forall l, Forall P l -> Forall (fun m => P (rev m)) (map (@rev N) (rev l))).
  { intros l Hl. apply Forall_forall. intros x Hx. apply in_map_iff in Hx. destruct Hx as (z & <- & Hz). rewrite rev_involutive. apply in_rev in Hz. revert z Hz. now apply Forall_forall. }
  assert (EQ : map (@rev N) (rev ms) = map (@rev N) (rev ms')).
  { apply (prefix_unique (fun m => P (rev m))); [exact HN | | now apply F | now apply F | rewrite <- !rev_concat; now f_equal].
    intros m b Hm Hmb. rewrite rev_app_distr in Hmb. pose proof (HP _ _ Hm Hmb) as Hb. rewrite <- (rev_involutive b), Hb. reflexivity. }
  assert (EQ' : rev ms = rev ms').
  { rewrite <- (map_id (rev ms)), <- (map_id (rev ms')). rewrite <- (map_ext (fun x => rev (rev x)) (fun x => x) (@rev_involutive N)), <- (map_ext (fun x => rev (rev x)) (fun x => x) (@rev_involutive N)).
    rewrite <- !(map_map (@rev N) (@rev N)). now f_equal. }
  rewrite <- (rev_involutive ms), <- (rev_involutive ms'). now f_equal.
Qed.
Lemma symbol_some y : ~ symbol_in y [].
Proof. intros [s H]. destruct (symbol_reads _ _ _ H) as (p & r & HB & Hs & _). destruct (printed_dark _ _ _ _ Hs HB) as [t E]. discriminate E. Qed.
Lemma streams y ms ms' : Forall (symbol_in y) ms -> Forall (symbol_in y) ms' -> concat ms = concat ms' -> ms = ms'.
Proof.
  assert (D : y = SSupp \/ y <> SSupp) by (destruct y; (now left) || (right; discriminate)). destruct D as [->|HY].
  - apply suffix_unique; [apply symbol_some|]. intros m b [s H] [s' H']. apply (no_suffix SSupp s s' m b); [discriminate | exact H | exact H'].
  - apply prefix_unique; [apply symbol_some|]. intros m b [s H] [s' H']. apply (no_prefix y s s' m b); assumption.
Qed.
