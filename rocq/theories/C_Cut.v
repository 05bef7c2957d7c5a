(** * Property C74: a scan line that misses one end of the symbol *)
From Verif Require Import Rust M_Error Symbology M_Use S_Barcode S_Text S_Ean S_Linear S_Codabar S_Tf S_Code128 S_All S_Cut
  P_Cut P_Part.

(** ** C74.  Cut a printed symbol anywhere on one side, losing at least one dark module: the
    reader of the symbology refuses what is left.  The exceptions are those [lost_right] and
    [lost_left] spell out: 2 of 5 symbols can be read as fewer digits, those nearest to the side
    that is left, and five-digit add-ons cut on the right as their first two digits.  A Codabar
    reader must ask for the start and stop characters. *)
Theorem C74_cut_right : forall y p s m m' r r', str_len s < 2 ^ 48 -> barcode y p s = Ret (Ok m) ->
  read_modules y m = Some r -> accepts y r -> cut_right m m' ->
  read_modules y m' = Some r' -> accepts y r' -> lost_right y r r'.
Proof. exact cut_right_read. Qed.
Print Assumptions C74_cut_right.
Theorem C74_cut_left : forall y p s m m' r r', str_len s < 2 ^ 48 -> barcode y p s = Ret (Ok m) ->
  read_modules y m = Some r -> accepts y r -> cut_left m m' ->
  read_modules y m' = Some r' -> accepts y r' -> lost_left y r r'.
Proof. exact cut_left_read. Qed.
Print Assumptions C74_cut_left.
(** So a reader that expects a certain number of digits is never misled by a missing end. *)
Theorem C74_fixed_length : forall y p s m m' ds ds', str_len s < 2 ^ 48 -> barcode y p s = Ret (Ok m) ->
  read_modules y m = Some (Digits ds) -> cut_right m m' \/ cut_left m m' ->
  read_modules y m' = Some (Digits ds') -> (length ds' < length ds)%nat.
Proof.
  intros y p s m m' ds ds' Hs H HR HC HR'. assert (HA : forall l, accepts y (Digits l)) by (intros l; destruct y; exact I).
  assert (HE : forall e : list N, e <> [] -> (0 < length e)%nat) by (intros [|? ?]; [congruence | cbn [length]; lia]).
  destruct HC as [HC|HC].
  - pose proof (C74_cut_right y p s m m' _ _ Hs H HR (HA _) HC HR' (HA _)) as HL.
    destruct y; cbn [lost_right] in HL; try contradiction.
    + destruct HL as (l & E & H5 & E'). assert (ds = l) as -> by congruence. assert (ds' = firstn 2 l) as -> by congruence. rewrite firstn_length. lia.
    + destruct HL as (l & e & E & E' & He & _). injection E as ->. injection E' as ->. apply HE in He. rewrite app_length. lia.
    + destruct HL as (l & e & E & E' & He). injection E as ->. injection E' as ->. apply HE in He. rewrite app_length. lia.
  - pose proof (C74_cut_left y p s m m' _ _ Hs H HR (HA _) HC HR' (HA _)) as HL.
    destruct y; cbn [lost_left] in HL; try contradiction.
    + destruct HL as (l & e & E & E' & He & _). injection E as ->. injection E' as ->. apply HE in He. rewrite app_length. lia.
    + destruct HL as (l & e & E & E' & He). injection E as ->. injection E' as ->. apply HE in He. rewrite app_length. lia.
Qed.
Print Assumptions C74_fixed_length.
(** In terms of the data, without asking that the whole symbol is readable: only 2 of 5 symbols,
    five-digit add-ons and Codabar data without start and stop characters leave anything to read. *)
Theorem C74_data : forall y p s m m' r', str_len s < 2 ^ 48 -> barcode y p s = Ret (Ok m) -> cut_right m m' \/ cut_left m m' ->
  read_modules y m' = Some r' -> accepts y r' -> after_cut y s r'.
Proof. exact cut_after. Qed.
Print Assumptions C74_data.

(** Symbols of each kind cut at every module, from the right and from the left: nothing is read. *)
Definition printed (y : symbology) (s : str) : list N := match barcode y Debug s with Ret (Ok t) => t | _ => [] end.
Definition first_parts (m : list N) : list (list N) := map (fun n => firstn n m) (seq 0 (length m)).
Definition last_parts (m : list N) : list (list N) := map (fun n => skipn n m) (seq 1 (length m)).
Example C74_case : map (fun x => map (read_modules (fst x)) (first_parts (printed (fst x) (snd x)) ++ last_parts (printed (fst x) (snd x))))
    [(SEan8, lit "5512345"); (SSupp, lit "34"); (SCode93, lit "AB"); (SCode11, lit "12"); (SCode39, lit "A")] =
  [repeat None 134; repeat None 40; repeat None 110; repeat None 78; repeat None 76].
Proof. vm_compute. reflexivity. Qed.
Example C74_case_cut : cut_right (printed SEan8 (lit "5512345")) (firstn 40 (printed SEan8 (lit "5512345"))) /\
  cut_left (printed SEan8 (lit "5512345")) (skipn 40 (printed SEan8 (lit "5512345"))).
Proof.
  split.
  - exists (skipn 40 (printed SEan8 (lit "5512345"))). split; [symmetry; apply firstn_skipn|]. vm_compute. tauto.
  - exists (firstn 40 (printed SEan8 (lit "5512345"))). split; [symmetry; apply firstn_skipn|]. vm_compute. tauto.
Qed.
(** Cut Codabar symbols are never read with start and stop characters. *)
Example C74_case_codabar :
  filter (fun r => match r with Some _ => true | None => false end) (map (read_modules SCodabar) (first_parts (printed SCodabar (lit "A12B")))) =
    map (fun t => Some (Text t)) [lit "A"; lit "A"; lit "A1"; lit "A1"; lit "A12"; lit "A12"] /\
  filter (fun r => match r with Some _ => true | None => false end) (map (read_modules SCodabar) (last_parts (printed SCodabar (lit "A12B")))) =
    map (fun t => Some (Text t)) [lit "12C"; lit "12C"; lit "2C"; lit "2C"; lit "C"; lit "C"] /\
  read_modules SCodabar (printed SCodabar (lit "A12B")) = Some (Text (lit "A12C")) /\ cod_framed (lit "A12C").
Proof.
  split; [vm_compute; reflexivity|]. split; [vm_compute; reflexivity|]. split; [vm_compute; reflexivity|].
  exists (ch "A"), (lit "12"), (ch "C"). split; [reflexivity|]. split; [vm_compute; tauto|]. split; [vm_compute; tauto|].
  repeat constructor; intros H; vm_compute in H; repeat destruct H as [H|H]; try discriminate; contradiction.
Qed.

(** ** The exceptions exist: 1210 cut on the right is read as 12 and 3512 cut on the left as 12
    in interleaved, 125 and 012 as 12 in standard 2 of 5; the add-on 02001 cut on the right as 02. *)
Theorem C74_two_of_five_cut : exists m1 m2 m3 m4 m5,
  (cut_right (printed SItf (lit "1210")) m1 /\ read_modules SItf m1 = Some (Digits [1; 2])) /\
  (cut_left (printed SItf (lit "3512")) m2 /\ read_modules SItf m2 = Some (Digits [1; 2])) /\
  (cut_right (printed SStf (lit "125")) m3 /\ read_modules SStf m3 = Some (Digits [1; 2])) /\
  (cut_left (printed SStf (lit "012")) m4 /\ read_modules SStf m4 = Some (Digits [1; 2])) /\
  (cut_right (printed SSupp (lit "02001")) m5 /\ read_modules SSupp m5 = Some (Digits [0; 2])).
Proof.
  exists (firstn 27 (printed SItf (lit "1210"))), (skipn 15 (printed SItf (lit "3512"))), (firstn 45 (printed SStf (lit "125"))),
    (skipn 12 (printed SStf (lit "012"))), (firstn 20 (printed SSupp (lit "02001"))).
  split; [|split; [|split; [|split]]]; (split; [|vm_compute; reflexivity]).
  - exists (skipn 27 (printed SItf (lit "1210"))). split; [symmetry; apply firstn_skipn | vm_compute; tauto].
  - exists (firstn 15 (printed SItf (lit "3512"))). split; [symmetry; apply firstn_skipn | vm_compute; tauto].
  - exists (skipn 45 (printed SStf (lit "125"))). split; [symmetry; apply firstn_skipn | vm_compute; tauto].
  - exists (firstn 12 (printed SStf (lit "012"))). split; [symmetry; apply firstn_skipn | vm_compute; tauto].
  - exists (skipn 20 (printed SSupp (lit "02001"))). split; [symmetry; apply firstn_skipn | vm_compute; tauto].
Qed.
Print Assumptions C74_two_of_five_cut.

(** Cut at both ends, even a self-checking symbol can be misread: the middle of the Code 39
    symbol of 707 reads Z. *)
Theorem C74_both_ends_misread : exists a m' b, printed SCode39 (lit "707") = a ++ m' ++ b /\ In 1 a /\ In 1 b /\
  read_modules SCode39 m' = Some (Text (lit "Z")).
Proof.
  exists (firstn 14 (printed SCode39 (lit "707"))), (firstn 40 (skipn 14 (printed SCode39 (lit "707")))), (skipn 40 (skipn 14 (printed SCode39 (lit "707")))).
  split; [now rewrite !firstn_skipn|]. split; [vm_compute; tauto|]. split; [vm_compute; tauto|]. vm_compute. reflexivity.
Qed.
Print Assumptions C74_both_ends_misread.
