(** * Property C101: ink blots and scratches *)
From Verif Require Import Rust M_Error Symbology M_Use S_Barcode S_Text S_Ean S_Linear S_Codabar S_Tf S_Code128 S_All S_Cut S_Check128 S_Blot
  P_All P_Readable P_Check128 P_Blot.

(** ** C101.  Let every module of one stretch of the paper, of any length, come out dark: an ink blot
    over any part of the symbol, its quiet zones or both.  The clean symbol reads as what was encoded; the
    reader refuses the blotted one, or reads the same; it still reads it only where the blot changed nothing, or in the 2 of 5
    symbologies, whose readers tell wide from narrow and no more.  Left out are two-digit add-ons and Code 128
    symbols of 104 characters or more, where this is false (below). *)
Theorem C101_dark : forall y p s m q q', str_len s < 2 ^ 48 -> barcode y p s = Ret (Ok m) ->
  (y = SCodabar -> ~ In (ch "+") s) -> (y = SSupp -> length s = 5%nat) -> (y = SCode128 -> len s <= 103) ->
  on_paper m q -> blotted 1 q q' ->
  exists r, read_modules y m = Some r /\ meant y s (Some r) /\
    (read_modules y q' = None \/ read_modules y q' = Some r /\ (~ In y [SItf; SStf] -> q' = q)).
Proof.
  intros y p s m q q' Hs H HC H5 H128 HP (a & b & c & E & E').
  destruct (readable_meant y p s m Hs H HC) as (r & HR & HM); [intros Y; specialize (H128 Y); lia|].
  destruct (blot_read y p s m q q' 1 r Hs H HR H5 H128 HP) as [HN|[HQ HI]]; [now right | | |].
  - exists a, b, c. auto.
  - exists r. auto.
  - exists r. split; [assumption|]. split; [assumption|]. right. split; [assumption|]. intros N. apply HI. destruct y; cbn in *; tauto.
Qed.
Print Assumptions C101_dark.

(** The same for a stretch that comes out light, as long as something dark is left on either side. *)
Theorem C101_light_inside : forall y p s m q q' a b c, str_len s < 2 ^ 48 -> barcode y p s = Ret (Ok m) ->
  (y = SCodabar -> ~ In (ch "+") s) -> (y = SSupp -> length s = 5%nat) -> (y = SCode128 -> len s <= 103) ->
  on_paper m q -> q = a ++ b ++ c -> q' = a ++ repeat 0 (length b) ++ c -> In 1 a -> In 1 c ->
  exists r, read_modules y m = Some r /\ meant y s (Some r) /\
    (read_modules y q' = None \/ read_modules y q' = Some r /\ (~ In y [SItf; SStf] -> q' = q)).
Proof.
  intros y p s m q q' a b c Hs H HC H5 H128 HP E E' Ia Ic.
  destruct (readable_meant y p s m Hs H HC) as (r & HR & HM); [intros Y; specialize (H128 Y); lia|].
  destruct (blot_read y p s m q q' 0 r Hs H HR H5 H128 HP) as [HN|[HQ HI]]; [now left | | |].
  - exists a, b, c. auto.
  - exists r. auto.
  - exists r. split; [assumption|]. split; [assumption|]. right. split; [assumption|]. intros N. apply HI. destruct y; cbn in *; tauto.
Qed.
Print Assumptions C101_light_inside.

(** A scratch that takes an end of the symbol with it may leave a shorter symbol, as a cut does: the first two
    digits of a five-digit add-on, or fewer 2 of 5 digits.  Nothing else is read. *)
Theorem C101_light : forall y p s m q q' r', str_len s < 2 ^ 48 -> barcode y p s = Ret (Ok m) ->
  (y = SCodabar -> ~ In (ch "+") s) -> (y = SSupp -> length s = 5%nat) -> (y = SCode128 -> len s <= 103) ->
  on_paper m q -> blotted 0 q q' -> read_modules y q' = Some r' -> accepts y r' ->
  (read_modules y m = Some r' /\ meant y s (Some r')) \/ after_cut y s r'.
Proof.
  intros y p s m q q' r' Hs H HC H5 H128 HP HB HR' HA.
  destruct (readable_meant y p s m Hs H HC) as (r & HR & HM); [intros Y; specialize (H128 Y); lia|].
  destruct (scratch_read y p s m q q' r r' Hs H HR H5 H128 HP HB HR' HA) as [->|HX]; auto.
Qed.
Print Assumptions C101_light.

(** ** What the symbols left out can be read as.  Code 128 symbols of up to 6489 characters: one symbol character,
    at a place where the check character does not see it (103, 206, ...; C71), has become another one. *)
Theorem C101_code128_any_length : forall p s m q q' x a b c, barcode SCode128 p s = Ret (Ok m) -> len s <= 6489 ->
  on_paper m q -> q = a ++ b ++ c -> q' = a ++ repeat x (length b) ++ c -> x = 1 \/ (x = 0 /\ In 1 a /\ In 1 c) ->
  read_modules SCode128 q' = None \/ q' = q \/
  exists u v v' w, m = c128_bars (u ++ v :: w) /\ on_paper (c128_bars (u ++ v' :: w)) q' /\ v' <> v /\ weightless (length u) /\ w <> [].
Proof.
  intros p s m q q' x a b c H HL HP E E' HX. pose proof (readable_128 p s m H HL) as HR. destruct (read_modules SCode128 m) as [r|] eqn:ER; [|congruence].
  apply (blot_read_128 p s m q q' x r H ER HP); [destruct HX as [-> | [-> _]]; [now right | now left]|]. exists a, b, c. tauto.
Qed.
Print Assumptions C101_code128_any_length.
(** Two-digit add-ons: at least one digit is read right. *)
Theorem C101_ean2 : forall p s m q q' x a b c r', barcode SSupp p s = Ret (Ok m) -> length s = 2%nat ->
  on_paper m q -> q = a ++ b ++ c -> q' = a ++ repeat x (length b) ++ c -> x = 1 \/ (x = 0 /\ In 1 a /\ In 1 c) ->
  read_modules SSupp q' = Some r' ->
  exists d e d' e', digits_of s = [d; e] /\ read_modules SSupp m = Some (Digits [d; e]) /\ r' = Digits [d'; e'] /\ (d' = d \/ e' = e).
Proof.
  intros p s m q q' x a b c r' H HL HP E E' HX HR'.
  assert (HM : read_modules SSupp m = Some (Digits (digits_of s))).
  { destruct (readable_meant SSupp p s m) as (r & HR & HM); [|exact H | discriminate | discriminate | cbn [meant] in HM; congruence].
    destruct s as [|c0 [|c1 [|]]]; try discriminate. cbn [str_len fold_right]. unfold utf8_len.
    destruct (c0 <? 128), (c0 <? 2048), (c0 <? 65536), (c1 <? 128), (c1 <? 2048), (c1 <? 65536); reflexivity. }
  destruct s as [|c0 [|c1 [|]]]; try discriminate. cbn [digits_of map] in *.
  destruct (blot_read_2 p [c0; c1] m q q' x (c0 - 48) (c1 - 48) r' H HM HP) as (d' & e' & Er & HD); [destruct HX as [-> | [-> _]]; [now right | now left] | exists a, b, c; tauto | exact HR' |].
  exists (c0 - 48), (c1 - 48), d', e'. auto.
Qed.
Print Assumptions C101_ean2.

(** ** The exceptions are real. *)
Definition printed (y : symbology) (s : str) : list N := match barcode y Debug s with Ret (Ok t) => t | _ => [] end.
Definition blot (x : N) (i n : nat) (m : list N) : list N := firstn i m ++ repeat x (length (firstn n (skipn i m))) ++ skipn n (skipn i m).
Lemma blot_is x i n m : blotted x m (blot x i n m).
Proof. exists (firstn i m), (firstn n (skipn i m)), (skipn n (skipn i m)). split; [now rewrite !firstn_skipn | reflexivity]. Qed.
(** One dark module more, or one fewer, turns the add-on 01 into 08, or 08 into 01. *)
Theorem C101_ean2_misread : exists q q', blotted 1 (printed SSupp (lit "01")) q /\ read_modules SSupp q = Some (Digits [0; 8]) /\
  blotted 0 (printed SSupp (lit "08")) q' /\ read_modules SSupp q' = Some (Digits [0; 1]).
Proof.
  exists (blot 1 17 1 (printed SSupp (lit "01"))), (blot 0 17 1 (printed SSupp (lit "08"))).
  split; [apply blot_is|]. split; [vm_compute; reflexivity|]. split; [apply blot_is | vm_compute; reflexivity].
Qed.
Print Assumptions C101_ean2_misread.
(** A blot of four modules in a Code 128 symbol of 104 characters turns its last character, whose weight
    is 103, from a space into a y. *)
Definition filler : str := 385 :: repeat 65 102.
Theorem C101_code128_misread : exists q, blotted 1 (printed SCode128 (filler ++ lit " ")) q /\ len (filler ++ lit " ") = 104 /\
  read_modules SCode128 (printed SCode128 (filler ++ lit " ")) = Some (Tokens (repeat (TChar 65) 102 ++ [TChar 32])) /\
  read_modules SCode128 q = Some (Tokens (repeat (TChar 65) 102 ++ [TChar 121])).
Proof.
  exists (blot 1 1139 4 (printed SCode128 (filler ++ lit " "))). split; [apply blot_is|]. split; [reflexivity|]. split; vm_compute; reflexivity.
Qed.
Print Assumptions C101_code128_misread.

(** Every blot, from any module to any module, over small symbols on paper: what is read *)
Definition blots (x : N) (m : list N) : list (list N) :=
  flat_map (fun i => map (fun n => blot x i n m) (seq 1 (length m - i))) (seq 0 (length m)).
Definition found (y : symbology) (ps : list (list N)) : list reading :=
  flat_map (fun l => match read_modules y l with Some r => [r] | None => [] end) ps.
Definition paper (m : list N) : list N := repeat 0 3 ++ m ++ repeat 0 3.
Example C101_case : found SCode39 (blots 1 (paper (printed SCode39 (lit "A")))) = repeat (Text (lit "A")) 27 /\
  found SEan8 (blots 1 (paper (printed SEan8 (lit "1234567")))) = repeat (Digits [1; 2; 3; 4; 5; 6; 7; 0]) 47 /\
  found SItf (blots 1 (paper (printed SItf (lit "12")))) = repeat (Digits [1; 2]) 24 /\
  found SSupp (blots 0 (paper (printed SSupp (lit "12345")))) = repeat (Digits [1; 2; 3; 4; 5]) 52.
Proof. split; [vm_compute; reflexivity|]. split; [vm_compute; reflexivity|]. split; [vm_compute; reflexivity | vm_compute; reflexivity]. Qed.
(** The hypotheses of the theorems, for a blot of five modules that the reader refuses *)
Example C101_case_hypotheses : barcode SCode39 Debug (lit "A") = Ret (Ok (printed SCode39 (lit "A"))) /\
  on_paper (printed SCode39 (lit "A")) (paper (printed SCode39 (lit "A"))) /\
  blotted 1 (paper (printed SCode39 (lit "A"))) (blot 1 1 5 (paper (printed SCode39 (lit "A")))) /\
  read_modules SCode39 (blot 1 1 5 (paper (printed SCode39 (lit "A")))) = None.
Proof. split; [vm_compute; reflexivity|]. split; [exists 3%nat, 3%nat; reflexivity|]. split; [apply blot_is | vm_compute; reflexivity]. Qed.
