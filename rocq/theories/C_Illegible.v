(** * C111: illegible modules, and readers that correct wrong ones *)
From Verif Require Import Rust M_Error Symbology M_Use S_Barcode S_Ean S_Text S_Linear S_Codabar S_Tf S_Code128 S_All S_Cell S_Several S_Wrong S_Illegible
  P_Damage P_Wrong P_Stretch P_Line P_Ink4 P_Readable P_Neg P_Illegible C_Wrong C_Several.

(** A line of which [illegible l] modules cannot be made out and [errors l m] are seen wrong.  As long as the former plus twice the latter is less
    than [needed] (C83), no other line that is readable differs from what is seen in as few modules as the printed one; in 2 of 5 another line may, with the same digits. *)
Theorem C111_nearest : forall y p s m, str_len s < 2 ^ 48 -> barcode y p s = Ret (Ok m) ->
  (y = SCodabar -> ~ In (ch "+") s) -> (y = SCode128 -> len s <= 6489) ->
  exists r, read_modules y m = Some r /\ meant y s (Some r) /\ verified y r /\
    forall l m' r', length l = length m -> length m' = length m -> (illegible l + 2 * errors l m < needed y s)%nat -> (errors l m' <= errors l m)%nat ->
      read_modules y m' = Some r' -> verified y r' -> m' = m \/ ((y = SItf \/ y = SStf) /\ r' = r).
Proof.
  intros y p s m Hs H HC H8. destruct (C83_data y p s m Hs H HC H8) as (r & R & HM & HW). exists r. split; [exact R|]. split; [exact HM|]. split.
  - destruct y; try exact I. cbn [meant] in HM. destruct HM as (c & HV & E). injection E as ->. exact HV.
  - intros l m' r' L L' HN HE R' HV'. apply (HW m' r' L'); [|exact R' | exact HV']. pose proof (apart_at_most l m m' L L'). lia.
Qed.
Print Assumptions C111_nearest.
(** So a reader that fills in the illegible modules in every way finds the data and nothing else, *)
Theorem C111_illegible : forall y p s m, str_len s < 2 ^ 48 -> barcode y p s = Ret (Ok m) ->
  (y = SCodabar -> ~ In (ch "+") s) -> (y = SCode128 -> len s <= 6489) ->
  exists r, meant y s (Some r) /\ verified y r /\
    forall l, length l = length m -> errors l m = 0%nat -> (illegible l < needed y s)%nat ->
      forall r', (In r' (readings y (fillings l)) /\ verified y r') <-> r' = r.
Proof.
  intros y p s m Hs H HC H8. destruct (C111_nearest y p s m Hs H HC H8) as (r & R & HM & HV & HW). exists r. split; [exact HM|]. split; [exact HV|].
  intros l L E HN r'. split.
  - intros [HI HV']. apply in_readings in HI. destruct HI as (m' & HF & R'). apply fillings_spec in HF. destruct HF as [L' E'].
    destruct (HW l m' r' L ltac:(congruence) ltac:(lia) ltac:(lia) R' HV') as [->|[_ ->]]; [congruence | reflexivity].
  - intros ->. split; [|exact HV]. apply in_readings. exists m. split; [|exact R]. apply fillings_all; [|exact L | exact E].
    destruct (printed_elements _ _ _ _ Hs H) as (ws & S & _). exact (bits_of _ _ S).
Qed.
Print Assumptions C111_illegible.
(** and one that tries to invert each module finds the data in spite of a wrong module: EAN-8, UPC-A, Code 39 with check character,
    Code 93 of up to 14 and Code 128 of up to 103 characters. *)
Theorem C111_corrected : forall y p s m, str_len s < 2 ^ 48 -> barcode y p s = Ret (Ok m) -> (2 < needed y s)%nat ->
  exists r, meant y s (Some r) /\ verified y r /\
    forall m', Forall (fun x => x = 0 \/ x = 1) m' -> length m' = length m -> (wrong_modules m m' <= 1)%nat ->
      forall r', (In r' (readings y (repairs m')) /\ verified y r') <-> r' = r.
Proof.
  intros y p s m Hs H HN.
  assert (HY : y <> SCodabar /\ (y = SCode128 -> len s <= 6489)).
  { destruct y; cbn [needed] in HN; (split; [try discriminate; lia | try discriminate]). intros _. destruct (Nat.leb_spec (length s) 103); [|lia]. unfold len. lia. }
  destruct HY as [HC H8]. destruct (C83_data y p s m Hs H ltac:(congruence) H8) as (r & R & HM & HW).
  assert (HV : verified y r) by (destruct y; try exact I; cbn [meant] in HM; destruct HM as (c & HV & E); injection E as ->; exact HV).
  exists r. split; [exact HM|]. split; [exact HV|]. intros m' HB L HD r'. split.
  - intros [HI HV']. apply in_readings in HI. destruct HI as (t & HF & R').
    assert (HT : length t = length m /\ (wrong_modules m t <= 2)%nat).
    { destruct HF as [<-|HF]; [split; [exact L | lia]|]. destruct (inverted_spec m' t HF) as (LT & _ & HQ). specialize (HQ m (eq_sym L)). split; [congruence | lia]. }
    destruct HT as [LT HT]. destruct (HW t r' LT ltac:(lia) R' HV') as [->|[_ ->]]; [congruence | reflexivity].
  - intros ->. split; [|exact HV]. apply in_readings. exists m. split; [|exact R]. apply repairs_back; [|exact HB | exact L | exact HD].
    destruct (printed_elements _ _ _ _ Hs H) as (ws & S & _). exact (bits_of _ _ S).
Qed.
Print Assumptions C111_corrected.
(** Code 93 of up to 14 characters: a reader that tries to replace each character finds the data in spite of a wrong character. *)
Theorem C111_code93_character : forall p s m, str_len s < 2 ^ 48 -> (length s <= 14)%nat -> barcode SCode93 p s = Ret (Ok m) ->
  exists ws, m = render ws /\ read_as SCode93 ws = Some (Text s) /\
    forall ws' ws'' r, cells_changed SCode93 1 ws ws' -> cells_changed SCode93 1 ws' ws'' -> read_as SCode93 ws'' = Some r -> ws'' = ws.
Proof.
  intros p s m Hs HL H. destruct (C86_data SCode93 p s m Hs I H ltac:(discriminate)) as (ws & r & E & R & _ & HW). exists ws. split; [exact E|]. split.
  - destruct (readable_meant SCode93 p s m Hs H ltac:(discriminate) ltac:(discriminate)) as (q & RQ & HM). cbn [meant] in HM. destruct (printed_elements _ _ _ _ Hs H) as (zs & S & EZ & HO & HP).
    cbn [tail] in EZ. rewrite app_nil_r in EZ. unfold read_modules in RQ. rewrite S in RQ. cbn [obind] in RQ.
    assert (EW : ws = zs); [|subst zs; congruence]. assert (SW : scan (render ws) = Some ws).
    { apply P_Barcode.scan_render; [eapply Forall_impl; [|exact (read_narrow _ _ _ R)]; intros a Ha; exact (proj1 Ha)|]. destruct (P_Neg.sizes SCode93 ws r R I) as [_ HS]. cbn [P_Neg.counted] in HS. destruct HS as [k ->]. replace (6 * k + 1)%nat with (1 + 2 * (3 * k))%nat by lia. now rewrite Nat.even_add_mul_2. }
    rewrite <- E, S in SW. congruence.
  - intros ws' ws'' q [C1|(v & C1 & C1')] [C2|(v2 & C2 & C2')] RQ; cbn [cells_changed] in *.
    + congruence.
    + rewrite C1 in C2. apply (HW 1%nat ws'' q); [cbn [characters_needed]; destruct (Nat.leb_spec (length s) 14); lia | right; exists v2; now split | exact RQ | exact I].
    + apply (HW 1%nat ws'' q); [cbn [characters_needed]; destruct (Nat.leb_spec (length s) 14); lia | right; exists v; split; [exact C1 | cbn [cells_changed]; congruence] | exact RQ | exact I].
    + apply (HW 2%nat ws'' q); [cbn [characters_needed]; destruct (Nat.leb_spec (length s) 14); lia | right; exists v; split; [exact C1|]; right; exists v2; split; [rewrite <- C1'; exact C2 | exact C2'] | exact RQ | exact I].
Qed.
Print Assumptions C111_code93_character.
(** The number of illegible modules cannot be raised: in every symbology there are two symbols that look the same but for [needed] modules. *)
Theorem C111_needed_tight : forall y, exists s t m m' r r' l, barcode y Debug s = Ret (Ok m) /\ barcode y Debug t = Ret (Ok m') /\ length l = length m /\
  illegible l = needed y s /\ errors l m = 0%nat /\ errors l m' = 0%nat /\ read_modules y m = Some r /\ read_modules y m' = Some r' /\ r <> r' /\ verified y r /\ verified y r'.
Proof.
  intros y. destruct (C83_every_symbology y) as (s & t & HP). destruct (C83_needed_tight y s t HP) as (m & m' & r & r' & B & B' & L & W & R & R' & HN & HV & HV').
  destruct (common_spec m m' L) as (LC & IC & EC & EC'). exists s, t, m, m', r, r', (common m m'). rewrite LC, IC, EC, EC', W. now repeat (split; [assumption || reflexivity|]).
Qed.
Print Assumptions C111_needed_tight.

Definition symbol (y : symbology) (s : str) : list N := match barcode y Debug s with Ret (Ok t) => t | _ => [] end.
(** Three illegible modules in an EAN-8 symbol, and a wrong one *)
Definition hide (n : nat) (l : seen) : seen := firstn n l ++ match skipn n l with _ :: t => None :: t | [] => [] end.
Example C111_case : let m := symbol SEan8 (lit "5510345") in let l := hide 4 (hide 5 (hide 50 (map Some m))) in
  illegible l = 3%nat /\ errors l m = 0%nat /\ readings SEan8 (fillings l) = [Digits [5;5;1;0;3;4;5;9]]
  /\ read_modules SEan8 (invert 10 m) = None /\ readings SEan8 (repairs (invert 10 m)) = [Digits [5;5;1;0;3;4;5;9]].
Proof. vm_compute. repeat split; reflexivity. Qed.
