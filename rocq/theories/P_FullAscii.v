(** * Proofs: full-ASCII mode of Code 39 and Code 93 *)
From Verif Require Import Rust M_Error M_Helpers M_Code39 M_Code93 Symbology M_Use S_Barcode S_Ean S_Text S_Linear S_Codabar S_Tf S_Code128
  S_All S_Heard S_Exact S_Errors S_FullAscii
  P_Rust P_Barcode P_Code39 P_Code93 P_All P_Exact P_Errors P_Apart P_Damage P_Reprint.

Definition spells (y : symbology) (c : char) : bool :=
  let s := spell_letter y c in
  forallb (fun x => existsb (N.eqb x) (alphabet y)) s && (1 <=? len s) && (len s <=? 2) &&
  match s with
  | [x] => match shift_of y x with None => x =? c | Some _ => false end
  | [x; z] => match shift_of y x with Some k => match shifted_letter k z with Some d => d =? c | None => false end | None => false end
  | _ => false
  end.
Lemma spells_all : forallb (fun n => spells SCode39 (N.of_nat n) && spells SCode39Checked (N.of_nat n) && spells SCode93 (N.of_nat n)) (seq 0 128) = true.
Proof. vm_compute. reflexivity. Qed.
Lemma spells_ok y c : full_mode y -> c < 128 -> spells y c = true.
Proof.
  intros HY Hc. pose proof spells_all as A. rewrite forallb_forall in A. specialize (A (N.to_nat c)). rewrite in_seq, N2Nat.id in A.
  specialize (A ltac:(lia)). apply andb_prop in A. destruct A as [A C]. apply andb_prop in A. destruct A as [A B]. destruct y; try contradiction; assumption.
Qed.
Lemma existsb_In (l : list N) x : existsb (N.eqb x) l = true -> In x l.
Proof. intros H. apply existsb_exists in H. destruct H as (z & I & E). apply N.eqb_eq in E. now subst. Qed.
Lemma spelling_known y t : full_mode y -> Forall (fun c => c < 128) t -> known y (full_spelling y t).
Proof.
  intros HY H. unfold full_spelling. induction H as [|c t Hc H IH]; [constructor|]. cbn [map concat]. apply Forall_app. split; [|exact IH].
  pose proof (spells_ok y c HY Hc) as S. unfold spells in S. cbv zeta in S. apply andb_prop in S. destruct S as [S _].
  apply andb_prop in S. destruct S as [S _]. apply andb_prop in S. destruct S as [S _]. rewrite forallb_forall in S. apply Forall_forall.
  intros x Hx. now apply existsb_In, S.
Qed.
Lemma spelling_text y t : full_mode y -> Forall (fun c => c < 128) t -> full_text y (full_spelling y t) = Some t.
Proof.
  intros HY H. unfold full_spelling. induction H as [|c t Hc H IH]; [reflexivity|]. cbn [map concat].
  pose proof (spells_ok y c HY Hc) as S. unfold spells in S. cbv zeta in S. apply andb_prop in S. destruct S as [_ S].
  destruct (spell_letter y c) as [|x [|z [|? ?]]]; try discriminate; cbn [app full_text].
  - destruct (shift_of y x); [discriminate|]. apply N.eqb_eq in S. subst x. now rewrite IH.
  - destruct (shift_of y x) as [k|]; [|discriminate]. destruct (shifted_letter k z) as [d|]; [|discriminate]. apply N.eqb_eq in S. subst d.
    cbn [obind]. now rewrite IH.
Qed.
Lemma spelling_length y t : full_mode y -> Forall (fun c => c < 128) t -> (length t <= length (full_spelling y t) <= 2 * length t)%nat.
Proof.
  intros HY H. unfold full_spelling. induction H as [|c t Hc H IH]; [cbn; lia|]. cbn [map concat length]. rewrite app_length.
  pose proof (spells_ok y c HY Hc) as S. unfold spells in S. cbv zeta in S. apply andb_prop in S. destruct S as [S _].
  apply andb_prop in S. destruct S as [S S2]. apply andb_prop in S. destruct S as [_ S1]. apply N.leb_le in S1, S2. unfold len in *.
  unfold str, char in *. lia.
Qed.

(** What is read from the symbol of any accepted string *)
Lemma read_full_exact y p s m : full_mode y -> str_len s < 2 ^ 48 -> barcode y p s = Ret (Ok m) -> obind (scan m) (read_full y) = full_text y s.
Proof.
  intros HY Hs H. assert (N8 : y = SCode128 -> len s < 2 ^ 31) by (destruct y; try discriminate; contradiction).
  pose proof (barcode_exact y p s m Hs N8 H) as HX. unfold read_modules in HX.
  destruct y; try contradiction; cbn [reads_back] in HX; destruct (scan m) as [ws|]; try discriminate; cbn [obind read_as read_full] in *;
    apply option_map_Some in HX; destruct HX as (a & E & Ea); injection Ea as Ea; rewrite E, <- Ea; cbn [obind].
  - reflexivity.
  - rewrite rev_app_distr. cbn [rev app]. rewrite rev_involutive. pose proof (c39_check_value s) as V. rewrite V, N.eqb_refl. reflexivity.
  - reflexivity.
Qed.
Lemma full_text_shorter y : forall n s t, (length s <= n)%nat -> full_text y s = Some t -> (length t <= length s)%nat /\
  ((exists c, In c s /\ shift_of y c <> None) -> (length t < length s)%nat).
Proof.
  induction n as [|n IH]; intros [|c s] t HL H; cbn [length] in HL; try lia.
  - injection H as <-. split; [cbn; lia|]. intros (x & [] & _).
  - injection H as <-. split; [cbn; lia|]. intros (x & [] & _).
  - cbn [full_text] in H. destruct (shift_of y c) as [k|] eqn:E.
    + destruct s as [|d s]; [discriminate|]. apply obind_Some in H. destruct H as (x & _ & H). apply option_map_Some in H.
      destruct H as (u & H & ->). cbn [length] in *. destruct (IH s u ltac:(lia) H) as [G _]. split; [|intros _]; lia.
    + apply option_map_Some in H. destruct H as (u & H & ->). cbn [length] in *. destruct (IH s u ltac:(lia) H) as [G1 G2]. split; [lia|].
      intros (x & [<-|Hx] & Sx); [contradiction|]. specialize (G2 (ex_intro _ x (conj Hx Sx))). lia.
Qed.
Lemma full_text_plain y s : Forall (fun c => shift_of y c = None) s -> full_text y s = Some s.
Proof. induction 1 as [|c s Hc H IH]; [reflexivity|]. cbn [full_text]. now rewrite Hc, IH. Qed.
Lemma full_text_itself y s : full_text y s = Some s <-> Forall (fun c => shift_of y c = None) s.
Proof.
  split; [|apply full_text_plain]. intros H. apply Forall_forall. intros c Hc. destruct (shift_of y c) eqn:E; [|reflexivity]. exfalso.
  destruct (full_text_shorter y (length s) s s (le_n _) H) as [_ G]. assert (length s < length s)%nat; [|lia].
  apply G. exists c. split; [assumption | congruence].
Qed.
Lemma full_ascii y p t : full_mode y -> Forall (fun c => c < 128) t -> t <> [] -> (length (full_spelling y t) <= 256)%nat ->
  exists m, barcode y p (full_spelling y t) = Ret (Ok m) /\ obind (scan m) (read_full y) = Some t.
Proof.
  intros HY H Hn HL. pose proof (spelling_known y t HY H) as K. pose proof (spelling_length y t HY H) as L.
  assert (F : fits y (length (full_spelling y t))).
  { destruct t; [contradiction|]. cbn [length] in L. destruct y; try contradiction; cbn [fits]; lia. }
  assert (G : exists m, barcode y p (full_spelling y t) = Ret (Ok m)).
  { apply accepts; try assumption; destruct y; try contradiction; try discriminate; cbn [with_check_digit]; tauto. }
  destruct G as [m G]. exists m. split; [assumption|]. rewrite (read_full_exact y p (full_spelling y t) m HY); [now apply spelling_text | | assumption].
  apply below_48. now apply (fits_small y).
Qed.
