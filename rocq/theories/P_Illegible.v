(** * Proofs: illegible modules, and correcting readers *)
From Verif Require Import Rust M_Error Symbology M_Use S_Barcode S_Ean S_Text S_Linear S_Codabar S_Tf S_Code128 S_All S_Cell S_Several S_Wrong S_Illegible
  P_Rust P_Barcode P_Damage P_Wrong P_Line P_Several P_Readable.
Local Open Scope nat_scope.

Lemma illegible_cons o l : illegible (o :: l) = (match o with None => 1 | Some _ => 0 end) + illegible l.
Proof. unfold illegible. destruct o; reflexivity. Qed.
Lemma errors_cons o l x m : errors (o :: l) (x :: m) = (match o with None => 0 | Some z => if (z =? x)%N then 0 else 1 end) + errors l m.
Proof. unfold errors. cbn [combine filter fst snd]. destruct o as [z|]; [destruct (z =? x)%N|]; reflexivity. Qed.
Lemma wrong_cons x m z m' : wrong_modules (x :: m) (z :: m') = (if (x =? z)%N then 0 else 1) + wrong_modules m m'.
Proof. unfold wrong_modules. cbn [combine filter fst snd]. destruct (x =? z)%N; reflexivity. Qed.
Lemma apart_at_most l : forall m m', length l = length m -> length m' = length m -> wrong_modules m m' <= errors l m + errors l m' + illegible l.
Proof.
  induction l as [|o l IH]; intros [|x m] [|z m'] L L'; try discriminate; [cbn; lia|]. injection L as L. injection L' as L'. specialize (IH m m' L L').
  rewrite wrong_cons, !errors_cons, illegible_cons. destruct (N.eqb_spec x z) as [->|HN]; [lia|]. destruct o as [q|]; [|lia]. destruct (N.eqb_spec q x), (N.eqb_spec q z); (lia || congruence).
Qed.
Lemma fillings_spec l : forall m, In m (fillings l) -> length m = length l /\ errors l m = 0.
Proof.
  induction l as [|o l IH]; intros m H.
  - destruct H as [<-|[]]. now split.
  - assert (G : forall x, In m (map (cons x) (fillings l)) -> (match o with None => True | Some z => z = x end) -> length m = length (o :: l) /\ errors (o :: l) m = 0).
    { intros x HI HO. apply in_map_iff in HI. destruct HI as (t & <- & HI). destruct (IH t HI) as [HL HE]. split; [cbn [length]; now rewrite HL|]. rewrite errors_cons, HE. destruct o as [z|]; [|reflexivity]. subst z. now rewrite N.eqb_refl. }
    destruct o as [z|]; cbn [fillings] in H; [now apply (G z)|]. apply in_app_or in H. destruct H as [H|H]; [apply (G 0%N) | apply (G 1%N)]; (exact H || exact I).
Qed.
Lemma fillings_all l : forall m, Forall (fun x => x = 0%N \/ x = 1%N) m -> length l = length m -> errors l m = 0 -> In m (fillings l).
Proof.
  induction l as [|o l IH]; intros [|x m] HB L E; try discriminate; [now left|]. injection L as L. inversion HB as [|? ? Hx HB']; subst. rewrite errors_cons in E.
  assert (HI : In m (fillings l)) by (apply IH; [exact HB' | exact L | lia]). destruct o as [z|]; cbn [fillings].
  - destruct (N.eqb_spec z x) as [->|]; [|lia]. now apply in_map.
  - apply in_or_app. destruct Hx as [->| ->]; [left | right]; now apply in_map.
Qed.
Lemma inverted_spec m : forall t, In t (inverted_once m) -> length t = length m /\ wrong_modules m t <= 1 /\ (forall q, length q = length m -> wrong_modules q t <= wrong_modules q m + 1).
Proof.
  induction m as [|x m IH]; intros t H; [destruct H|]. assert (R : forall q, wrong_modules q q = 0) by (induction q as [|a q IQ]; [reflexivity | rewrite wrong_cons, N.eqb_refl; exact IQ]).
  destruct H as [<-|H].
  - split; [reflexivity|]. split; [rewrite wrong_cons, R; destruct (x =? 1 - x)%N; lia|]. intros [|a q] L; [discriminate|]. rewrite !wrong_cons. destruct (a =? 1 - x)%N, (a =? x)%N; lia.
  - apply in_map_iff in H. destruct H as (u & <- & H). destruct (IH u H) as (L & W & Q). split; [cbn [length]; now rewrite L|]. split; [rewrite wrong_cons, N.eqb_refl; lia|].
    intros [|a q] LQ; [discriminate|]. injection LQ as LQ. rewrite !wrong_cons. specialize (Q q LQ). lia.
Qed.
Lemma repairs_back m : forall m', Forall (fun x => x = 0%N \/ x = 1%N) m -> Forall (fun x => x = 0%N \/ x = 1%N) m' -> length m' = length m -> wrong_modules m m' <= 1 -> In m (repairs m').
Proof.
  assert (Z : forall a b, length b = length a -> wrong_modules a b = 0 -> a = b).
  { induction a as [|x a IH]; intros [|z b] L E; try discriminate; [reflexivity|]. injection L as L. rewrite wrong_cons in E. destruct (N.eqb_spec x z) as [->|]; [|lia]. f_equal. now apply IH. }
  intros m' HB HB' L W. destruct (wrong_modules m m') as [|n] eqn:E; [left; symmetry; now apply Z|]. right. assert (n = 0) by lia. subst n. clear W. revert m' HB' L E.
  induction m as [|x m IH]; intros [|z m'] HB' L E; try discriminate. injection L as L. inversion HB as [|? ? Hx HB1]; subst. inversion HB' as [|? ? Hz HB2]; subst. rewrite wrong_cons in E. cbn [inverted_once].
  destruct (N.eqb_spec x z) as [->|HN]; [right; apply in_map; now apply IH|]. left. f_equal; [destruct Hx as [->| ->], Hz as [->| ->]; (reflexivity || congruence)|]. symmetry. apply Z; [exact L | lia].
Qed.
Lemma common_spec m : forall m', length m' = length m -> length (common m m') = length m /\ illegible (common m m') = wrong_modules m m' /\ errors (common m m') m = 0 /\ errors (common m m') m' = 0.
Proof.
  induction m as [|x m IH]; intros [|z m'] L; try discriminate; [repeat split|]. injection L as L. destruct (IH m' L) as (A & B & C & D). cbn [common length]. rewrite illegible_cons, !errors_cons, wrong_cons, A, B, C, D.
  destruct (N.eqb_spec x z) as [->|]; [rewrite N.eqb_refl|]; repeat split.
Qed.
Lemma in_readings y ms r : In r (readings y ms) <-> exists m, In m ms /\ read_modules y m = Some r.
Proof.
  unfold readings. rewrite in_flat_map. split; intros (m & HI & H); exists m; (split; [exact HI|]).
  - destruct (read_modules y m) as [q|]; [destruct H as [->|[]]; reflexivity | destruct H].
  - rewrite H. now left.
Qed.
Lemma wrong_none a : forall b, length b = length a -> wrong_modules a b = 0 -> a = b.
Proof. induction a as [|x a IH]; intros [|z b] L E; try discriminate; [reflexivity|]. injection L as L. rewrite wrong_cons in E. destruct (N.eqb_spec x z) as [->|]; [|lia]. f_equal. now apply IH. Qed.
