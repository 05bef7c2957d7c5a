(** * C108: other marks on the line of a symbol *)
From Verif Require Import Rust M_Error Symbology M_Use S_Barcode S_Ean S_Text S_Linear S_Codabar S_Tf S_Code128 S_All S_Cut P_Marks.

(** Anything at all printed behind a symbol, at any distance or touching it: the line is not read by the reader of the symbology, or it
    is a 2 of 5 symbol that gains digits behind its own, or a two-digit add-on that is taken for a five-digit one. *)
Theorem C108_after : forall y p s m b r r', str_len s < 2 ^ 48 -> barcode y p s = Ret (Ok m) -> read_modules y m = Some r -> accepts y r -> In 1 b ->
  read_modules y (m ++ b) = Some r' -> accepts y r' -> lost_right y r' r.
Proof. exact marks_after. Qed.
Print Assumptions C108_after.
(** In front of a symbol: only 2 of 5 symbols can gain anything. *)
Theorem C108_before : forall y p s m b r r', str_len s < 2 ^ 48 -> barcode y p s = Ret (Ok m) -> read_modules y m = Some r -> accepts y r -> In 1 b ->
  read_modules y (b ++ m) = Some r' -> accepts y r' ->
  match y with
  | SStf => exists ds e, r' = Digits (e ++ ds) /\ r = Digits ds
  | _ => lost_left y r' r
  end.
Proof. exact marks_before. Qed.
Print Assumptions C108_before.

(** So these lines are not read at all, whatever is printed next to the symbol: *)
Theorem C108_refused : forall y p s m b r, In y [SEan13; SEan8; SUpca; SCode39; SCode39Checked; SCode93; SCode11; SCode128] -> str_len s < 2 ^ 48 ->
  barcode y p s = Ret (Ok m) -> read_modules y m = Some r -> In 1 b -> read_modules y (m ++ b) = None /\ read_modules y (b ++ m) = None.
Proof.
  intros y p s m b r HY Hs H HR HB. assert (HA : forall r, accepts y r) by (intros r0; repeat (destruct HY as [<-|HY]; [exact I|]); destruct HY).
  split.
  - destruct (read_modules y (m ++ b)) as [r'|] eqn:E; [exfalso | reflexivity]. pose proof (C108_after y p s m b r r' Hs H HR (HA r) HB E (HA r')) as L.
    repeat (destruct HY as [<-|HY]; [exact L|]). destruct HY.
  - destruct (read_modules y (b ++ m)) as [r'|] eqn:E; [exfalso | reflexivity]. pose proof (C108_before y p s m b r r' Hs H HR (HA r) HB E (HA r')) as L.
    repeat (destruct HY as [<-|HY]; [exact L|]). destruct HY.
Qed.
Print Assumptions C108_refused.
Theorem C108_five_digits : forall p s m b, length s = 5%nat -> str_len s < 2 ^ 48 -> barcode SSupp p s = Ret (Ok m) -> In 1 b ->
  read_modules SSupp (m ++ b) = None /\ read_modules SSupp (b ++ m) = None.
Proof.
  intros p s m b L5 Hs H HB. pose proof (P_All.barcode_meant SSupp p s m Hs H) as HR. cbn [meant] in HR. split.
  - destruct (read_modules SSupp (m ++ b)) as [r'|] eqn:E; [exfalso | reflexivity]. destruct (C108_after SSupp p s m b _ r' Hs H HR I HB E I) as (ds & _ & L & E2).
    assert (E3 : digits_of s = firstn 2 ds) by congruence. apply (f_equal (@length N)) in E3. unfold digits_of in E3. rewrite map_length, firstn_length, L in E3. pose proof (eq_trans (eq_sym L5) E3) as E4. discriminate E4.
  - destruct (read_modules SSupp (b ++ m)) as [r'|] eqn:E; [exfalso | reflexivity]. exact (C108_before SSupp p s m b _ r' Hs H HR I HB E I).
Qed.
Print Assumptions C108_five_digits.
(** A Codabar reader that asks for start and stop characters *)
Theorem C108_codabar : forall p s m b t t', str_len s < 2 ^ 48 -> barcode SCodabar p s = Ret (Ok m) -> read_modules SCodabar m = Some (Text t) -> cod_framed t -> In 1 b ->
  read_modules SCodabar (m ++ b) = Some (Text t') \/ read_modules SCodabar (b ++ m) = Some (Text t') -> ~ cod_framed t'.
Proof.
  intros p s m b t t' Hs H HR HF HB [E|E] HF'; [exact (C108_after SCodabar p s m b _ _ Hs H HR HF HB E HF') | exact (C108_before SCodabar p s m b _ _ Hs H HR HF HB E HF')].
Qed.
Print Assumptions C108_codabar.

(** Marks on both sides: the symbologies in which no symbol contains another one *)
Theorem C108_both_sides : forall y p s m a b r, In y [SEan13; SEan8; SUpca; SCode93; SCode128] -> str_len s < 2 ^ 48 -> barcode y p s = Ret (Ok m) ->
  read_modules y m = Some r -> In 1 (a ++ b) -> read_modules y (a ++ m ++ b) = None.
Proof.
  intros y p s m a b r HY Hs H HR HB. destruct (read_modules y (a ++ m ++ b)) as [r'|] eqn:E; [exfalso | reflexivity].
  refine (marks_around y p s m a b r r' _ Hs H HR HB E). repeat (destruct HY as [<-|HY]; [reflexivity|]). destruct HY.
Qed.
Print Assumptions C108_both_sides.

Definition modules_of (y : symbology) (s : str) : list N := match barcode y Debug s with Ret (Ok m) => m | _ => [] end.
(** In Code 39 and Code 11 whole symbols occur inside others: that of 0 inside that of AKA1, and that of 0 inside that of 33--3. *)
Theorem C108_both_sides_misread :
  (exists a b m m', barcode SCode39 Debug (lit "0") = Ret (Ok m) /\ barcode SCode39 Debug (lit "AKA1") = Ret (Ok m') /\ m' = a ++ m ++ b /\ In 1 a /\ In 1 b /\
    read_modules SCode39 m = Some (Text (lit "0")) /\ read_modules SCode39 m' = Some (Text (lit "AKA1"))) /\
  (exists a b m m', barcode SCode11 Debug (lit "0") = Ret (Ok m) /\ barcode SCode11 Debug (lit "33--3") = Ret (Ok m') /\ m' = a ++ m ++ b /\ In 1 a /\ In 1 b /\
    read_modules SCode11 m = Some (Text (lit "0")) /\ read_modules SCode11 m' = Some (Text (lit "33--3"))).
Proof.
  split.
  - exists (firstn 18 (modules_of SCode39 (lit "AKA1"))), (skipn (18 + length (modules_of SCode39 (lit "0"))) (modules_of SCode39 (lit "AKA1"))). do 2 eexists. vm_compute. repeat split; repeat (first [left; reflexivity | right]).
  - exists (firstn 14 (modules_of SCode11 (lit "33--3"))), (skipn (14 + length (modules_of SCode11 (lit "0"))) (modules_of SCode11 (lit "33--3"))). do 2 eexists. vm_compute. repeat split; repeat (first [left; reflexivity | right]).
Qed.
Print Assumptions C108_both_sides_misread.
(** 2 of 5 symbols and two-digit add-ons do gain digits. *)
Theorem C108_gained :
  read_modules SItf (modules_of SItf (lit "12")) = Some (Digits [1; 2]) /\ read_modules SItf (modules_of SItf (lit "12") ++ render_from 0 [1;1;2;1;2;2;1;2;1;1]%nat) = Some (Digits [1; 2; 1; 0])
  /\ read_modules SStf (modules_of SStf (lit "12")) = Some (Digits [1; 2]) /\ read_modules SStf (modules_of SStf (lit "12") ++ render_from 1 [1;1;1;1;2;1;1;1;2]%nat) = Some (Digits [1; 2; 5])
  /\ read_modules SSupp (modules_of SSupp (lit "01")) = Some (Digits [0; 1]) /\
     read_modules SSupp (modules_of SSupp (lit "01") ++ skipn 20 (modules_of SSupp (lit "01010"))) = Some (Digits [0; 1; 0; 1; 0]).
Proof. vm_compute. repeat split; reflexivity. Qed.
Print Assumptions C108_gained.

(** Three symbols on a line, a symbol with a single dark module next to it, and one with a bar attached *)
Example C108_case :
  read_modules SCode39 (modules_of SCode39 (lit "A") ++ [0] ++ modules_of SCode39 (lit "B") ++ [0] ++ modules_of SCode39 (lit "C")) = None
  /\ read_modules SEan8 (modules_of SEan8 (lit "1234567") ++ [0; 0; 0; 0; 0; 1]) = None /\ read_modules SCode93 (1 :: modules_of SCode93 (lit "A")) = None
  /\ read_modules SCode128 ([1; 0] ++ modules_of SCode128 [192; 65] ++ [0; 1]) = None
  /\ read_modules SEan8 (modules_of SEan8 (lit "1234567") ++ [0; 0]) = Some (Digits [1; 2; 3; 4; 5; 6; 7; 0]).
Proof. vm_compute. repeat split; reflexivity. Qed.
