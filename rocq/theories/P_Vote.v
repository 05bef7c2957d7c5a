(** * Proofs: majority of the pixels *)
From Verif Require Import Rust S_Image S_Wrong S_Vote P_Rust P_Illegible.
Local Open Scope nat_scope.

Lemma area_module xdim h k c : (1 <= xdim)%N -> In c (area xdim h k) -> (fst c / xdim)%N = N.of_nat k /\ (snd c < h)%N /\ (fst c < (N.of_nat k + 1) * xdim)%N.
Proof.
  destruct c as [x y]. unfold area. intros wide H. apply in_prod_iff in H. destruct H as [Hx Hy]. apply in_map_iff in Hx. destruct Hx as (i & <- & Hi). apply in_map_iff in Hy. destruct Hy as (j & <- & Hj).
  apply in_seq in Hi, Hj. cbn [fst snd]. split; [|lia]. symmetry. apply (N.div_unique _ _ _ (N.of_nat i)); lia.
Qed.
Lemma filter_three {B} (P Q R : B -> bool) (l : list B) : (forall x, In x l -> P x = true -> Q x = true \/ R x = true) -> length (filter P l) <= length (filter Q l) + length (filter R l).
Proof.
  induction l as [|x l IH]; intros H; [cbn; lia|]. specialize (IH (fun z Hz => H z (or_intror Hz))). cbn [filter]. pose proof (H x (or_introl eq_refl)) as Hx.
  destruct (P x); [destruct (Hx eq_refl) as [E|E]; rewrite E; [destruct (R x) | destruct (Q x)]; cbn [length]; lia | destruct (Q x), (R x); cbn [length]; lia].
Qed.
Lemma filter_all {B} (P : B -> bool) (l : list B) : (forall x, In x l -> P x = true) -> length (filter P l) = length l.
Proof. induction l as [|x l IH]; intros H; [reflexivity|]. cbn [filter]. rewrite (H x (or_introl eq_refl)). cbn [length]. f_equal. apply IH. intros z Hz. apply H. now right. Qed.
Lemma filter_none {B} (P : B -> bool) (l : list B) : (forall x, In x l -> P x = false) -> length (filter P l) = 0.
Proof. induction l as [|x l IH]; intros H; [reflexivity|]. cbn [filter]. rewrite (H x (or_introl eq_refl)). apply IH. intros z Hz. apply H. now right. Qed.

Lemma vote_right {A} (eqb : A -> A -> bool) (fg bg : A) (xdim h : N) b f' k : (forall a b, eqb a b = true <-> a = b) -> fg <> bg -> (1 <= xdim)%N -> (nth k b 0%N = 0%N \/ nth k b 0%N = 1%N) -> 2 * changed eqb xdim h (bars xdim fg bg b) f' k < length (area xdim h k) -> vote eqb fg xdim h f' k = nth k b 0%N.
Proof.
  intros eqb_eq apart wide HB HC. unfold vote. unfold changed in HC.
  assert (HF : forall c, In c (area xdim h k) -> bars xdim fg bg b (fst c) (snd c) = if (nth k b 0%N =? 0)%N then bg else fg).
  { intros c Hc. apply area_module in Hc; [|exact wide]. destruct Hc as [E _]. unfold bars. now rewrite E, Nat2N.id. }
  destruct HB as [HB|HB]; rewrite HB in *.
  - assert (L : length (filter (fun c => eqb (f' (fst c) (snd c)) fg) (area xdim h k)) <= length (filter (fun c => negb (eqb (f' (fst c) (snd c)) (bars xdim fg bg b (fst c) (snd c)))) (area xdim h k)) + length (filter (fun _ => false) (area xdim h k))).
    { apply filter_three. intros c Hc E. left. rewrite (HF c Hc). cbn [N.eqb]. apply eqb_eq in E. rewrite E. destruct (eqb fg bg) eqn:EB; [apply eqb_eq in EB; congruence | reflexivity]. }
    rewrite (filter_none (fun _ => false)) in L by reflexivity. destruct (Nat.ltb_spec (length (area xdim h k)) (2 * length (filter (fun c => eqb (f' (fst c) (snd c)) fg) (area xdim h k)))); [lia | reflexivity].
  - assert (L : length (filter (fun _ => true) (area xdim h k)) <= length (filter (fun c => eqb (f' (fst c) (snd c)) fg) (area xdim h k)) + length (filter (fun c => negb (eqb (f' (fst c) (snd c)) (bars xdim fg bg b (fst c) (snd c)))) (area xdim h k))).
    { apply filter_three. intros c Hc _. rewrite (HF c Hc). cbn [N.eqb]. destruct (eqb (f' (fst c) (snd c)) fg); [now left | now right]. }
    rewrite (filter_all (fun _ => true)) in L by reflexivity. destruct (Nat.ltb_spec (length (area xdim h k)) (2 * length (filter (fun c => eqb (f' (fst c) (snd c)) fg) (area xdim h k)))); [reflexivity | lia].
Qed.
Lemma skipn_cons_nth (l : list N) n : n < length l -> skipn n l = nth n l 0%N :: skipn (S n) l.
Proof. revert l. induction n as [|n IH]; intros [|x l] H; cbn [length] in H; try lia; [reflexivity|]. cbn [skipn nth]. rewrite (IH l) by lia. reflexivity. Qed.
Lemma wrong_count (P : nat -> bool) b c d : length c = length b -> forall n, d = length b - n -> (forall k, n <= k -> k < length b -> P k = false -> nth k c 0%N = nth k b 0%N) ->
  wrong_modules (skipn n b) (skipn n c) <= length (filter P (seq n d)).
Proof.
  intros LC. induction d as [|d IH]; intros n Ed HP.
  - rewrite (skipn_all2 b) by lia. cbn. lia.
  - rewrite (skipn_cons_nth b n), (skipn_cons_nth c n), wrong_cons by lia. cbn [seq filter]. specialize (IH (S n) ltac:(lia) ltac:(intros; apply HP; lia || assumption)).
    destruct (P n) eqn:EP; [cbn [length]; destruct (nth n b 0 =? nth n c 0)%N; lia|]. rewrite (HP n) by (lia || assumption). rewrite N.eqb_refl. lia.
Qed.
Lemma voted_length {A} (eqb : A -> A -> bool) fg xdim h f n : length (voted eqb fg xdim h f n) = n.
Proof. unfold voted. now rewrite map_length, seq_length. Qed.
Lemma voted_bits {A} (eqb : A -> A -> bool) fg xdim h f n : Forall (fun x => x = 0%N \/ x = 1%N) (voted eqb fg xdim h f n).
Proof. apply Forall_forall. intros x H. apply in_map_iff in H. destruct H as (k & <- & _). unfold vote. destruct (_ <? _); [now right | now left]. Qed.
Lemma voted_wrong {A} (eqb : A -> A -> bool) (fg bg : A) (xdim h : N) b f' : (forall a b, eqb a b = true <-> a = b) -> fg <> bg -> (1 <= xdim)%N -> Forall (fun x => x = 0%N \/ x = 1%N) b ->
  wrong_modules b (voted eqb fg xdim h f' (length b)) <= spoilt eqb xdim h (bars xdim fg bg b) f' (length b).
Proof.
  intros HE HA HX HB. unfold spoilt. apply (wrong_count _ b (voted eqb fg xdim h f' (length b)) (length b) (voted_length _ _ _ _ _ _) 0); [lia|].
  intros k _ Hk HP. apply Nat.leb_gt in HP. unfold voted. rewrite (nth_indep _ 0%N (vote eqb fg xdim h f' 0)) by (rewrite map_length, seq_length; exact Hk). rewrite map_nth, seq_nth by exact Hk.
  cbn [Nat.add]. apply (vote_right eqb fg bg); try assumption. rewrite Forall_forall in HB. apply HB. now apply nth_In.
Qed.
(** Only the pixels of the picture matter *)
Lemma changed_ext {A} (eqb : A -> A -> bool) xdim h f g f' k : (forall c, In c (area xdim h k) -> f (fst c) (snd c) = g (fst c) (snd c)) -> changed eqb xdim h f f' k = changed eqb xdim h g f' k.
Proof.
  unfold changed. generalize (area xdim h k) as l. induction l as [|c l IH]; intros H; [reflexivity|]. cbn [filter]. rewrite (H c (or_introl eq_refl)).
  specialize (IH (fun z Hz => H z (or_intror Hz))). destruct (negb _); cbn [length]; now rewrite IH.
Qed.
Lemma spoilt_ext {A} (eqb : A -> A -> bool) xdim h f g f' n : (forall k c, k < n -> In c (area xdim h k) -> f (fst c) (snd c) = g (fst c) (snd c)) -> spoilt eqb xdim h f f' n = spoilt eqb xdim h g f' n.
Proof.
  intros H. unfold spoilt. f_equal. apply filter_ext_in. intros k Hk. apply in_seq in Hk. rewrite (changed_ext eqb xdim h f g f' k); [reflexivity|]. intros c Hc. apply (H k c); [lia | exact Hc].
Qed.
