(** * C107: ink added, or lost, all over a symbol *)
From Verif Require Import Rust M_Error Symbology M_Use S_Barcode S_Ean S_Text S_Linear S_Codabar S_Tf S_Code128 S_All S_Ink P_Ink4.

(** Any number of light modules of a 2 of 5 symbol have come out dark: it is not read, or read with the digits that were printed. *)
Theorem C107_added : forall y p s m z, y = SItf \/ y = SStf -> str_len s < 2 ^ 48 -> barcode y p s = Ret (Ok m) -> inked m z ->
  read_modules y z = None \/ read_modules y z = read_modules y m.
Proof.
  intros y p s m z HY Hs H HI. assert (T : two_of_five y = true) by (destruct HY as [-> | ->]; reflexivity).
  assert (HR : exists r, read_modules y m = Some r).
  { pose proof (P_All.barcode_meant y p s m Hs H) as HM. destruct HY as [-> | ->]; cbn [meant] in HM; [destruct HM as (ds & _ & HM)|]; eauto. }
  destruct HR as [r HR]. rewrite HR. now apply (tf_added y p s m z r).
Qed.
Print Assumptions C107_added.
(** Any number of dark modules have come out light, but for the first and the last: the damaged symbol is not read. *)
Theorem C107_lost : forall y p s m z r, y = SItf \/ y = SStf -> str_len s < 2 ^ 48 -> barcode y p s = Ret (Ok m) -> faded m z ->
  read_modules y z = Some r -> z = m.
Proof. intros y p s m z r HY. apply tf_lost. destruct HY as [-> | ->]; reflexivity. Qed.
Print Assumptions C107_lost.

(** Codabar, read between start and stop characters: neither kind of damage is read over. *)
Theorem C107_codabar : forall p s m z t, str_len s < 2 ^ 48 -> cod_framed s -> barcode SCodabar p s = Ret (Ok m) -> inked m z \/ faded m z ->
  read_modules SCodabar z = Some (Text t) -> cod_framed t -> z = m.
Proof. exact cod_ink. Qed.
Print Assumptions C107_codabar.

(** Code 39: only the four characters that have no wide bar can be read as others when ink is added, and only as these four are
    others read when ink is lost. *)
Theorem C107_code39_added : forall y p s m z t t', y = SCode39 \/ y = SCode39Checked -> str_len s < 2 ^ 48 -> barcode y p s = Ret (Ok m) ->
  read_modules y m = Some (Text t) -> inked m z -> read_modules y z = Some (Text t') -> Forall2 (fun c d => c = d \/ In c (lit "$/+%")) t t'.
Proof. intros y p s m z t t' HY. apply c39_added. destruct HY as [-> | ->]; reflexivity. Qed.
Print Assumptions C107_code39_added.
Theorem C107_code39_lost : forall y p s m z t t', y = SCode39 \/ y = SCode39Checked -> str_len s < 2 ^ 48 -> barcode y p s = Ret (Ok m) ->
  read_modules y m = Some (Text t) -> faded m z -> read_modules y z = Some (Text t') -> Forall2 (fun c d => c = d \/ In d (lit "$/+%")) t t'.
Proof. intros y p s m z t t' HY. apply c39_lost. destruct HY as [-> | ->]; reflexivity. Qed.
Print Assumptions C107_code39_lost.

(** Two symbols of one width printed over each other are not read, or both carry what is read. *)
Theorem C107_overprinted : forall y p p' s s' m m', y = SItf \/ y = SStf -> str_len s < 2 ^ 48 -> str_len s' < 2 ^ 48 ->
  barcode y p s = Ret (Ok m) -> barcode y p' s' = Ret (Ok m') -> length m = length m' -> read_modules y m <> read_modules y m' ->
  read_modules y (over m m') = None.
Proof.
  intros y p p' s s' m m' HY Hs Hs' H H' HL HN. destruct (inked_over y p p' s s' m m' Hs Hs' H H' HL) as [I1 I2].
  destruct (C107_added y p s m _ HY Hs H I1) as [E|E]; [assumption|]. destruct (C107_added y p' s' m' _ HY Hs' H' I2) as [E'|E']; [assumption|]. congruence.
Qed.
Print Assumptions C107_overprinted.
Theorem C107_codabar_overprinted : forall p p' s s' m m' t, str_len s < 2 ^ 48 -> str_len s' < 2 ^ 48 -> cod_framed s -> cod_framed s' ->
  barcode SCodabar p s = Ret (Ok m) -> barcode SCodabar p' s' = Ret (Ok m') -> length m = length m' ->
  read_modules SCodabar (over m m') = Some (Text t) -> cod_framed t -> m = m'.
Proof.
  intros p p' s s' m m' t Hs Hs' F F' H H' HL HR HT. destruct (inked_over SCodabar p p' s s' m m' Hs Hs' H H' HL) as [I1 I2].
  rewrite <- (C107_codabar p s m _ t Hs F H (or_introl I1) HR HT). exact (C107_codabar p' s' m' _ t Hs' F' H' (or_introl I2) HR HT).
Qed.
Print Assumptions C107_codabar_overprinted.

(** No other symbology keeps this: one printed symbol of each can turn into another printed symbol by ink alone, and back by losing it. *)
Definition turns_into (q : symbology * str * str) : Prop := let '(y, s, s') := q in
  exists m m' r r', barcode y Debug s = Ret (Ok m) /\ barcode y Debug s' = Ret (Ok m') /\ inked m m' /\ faded m' m /\
    read_modules y m = Some r /\ read_modules y m' = Some r' /\ r <> r'.
Theorem C107_others_misread : Forall turns_into
  [(SEan13, lit "835337406812", lit "033331404812"); (SEan8, lit "2914177", lit "2614111"); (SUpca, lit "76317066907", lit "76317000905");
   (SSupp, lit "41586", lit "41326"); (SSupp, lit "01", lit "08"); (SCode39, lit "A$", lit "A5"); (SCode39Checked, lit "$", lit "5");
   (SCode93, lit "M6DO0", lit "MCU/+"); (SCode11, lit "806", lit "105"); (SCode128, 385 :: lit "l?ah", 385 :: lit "2?JN")].
Proof.
  assert (FD : forall m z, inked m z -> m = 1 :: removelast (tl m) ++ 1 :: repeat 0 0 -> z = 1 :: removelast (tl z) ++ 1 :: repeat 0 0 -> faded z m)
    by (intros m z H H1 H2; split; [assumption|]; eauto).
  repeat (apply Forall_cons; [|]); try apply Forall_nil; (do 4 eexists; split; [vm_compute; reflexivity|]; split; [vm_compute; reflexivity|];
    match goal with |- ?A /\ _ => assert (HI : A) by (repeat (constructor; [first [left; reflexivity | right; split; reflexivity]|]); constructor) end;
    split; [exact HI|]; split; [apply (FD _ _ HI); vm_compute; reflexivity|]; split; [vm_compute; reflexivity|]; split; [vm_compute; reflexivity | discriminate]).
Qed.
Print Assumptions C107_others_misread.

Definition modules_of (y : symbology) (s : str) : list N := match barcode y Debug s with Ret (Ok m) => m | _ => [] end.
(** Ink right behind the last bar of a 2 of 5 symbol is read over; the digits are not affected.  Two labels over each other are not read. *)
Example C107_case :
  read_modules SStf (removelast (modules_of SStf (lit "12")) ++ [1]) = Some (Digits [1; 2]) /\ modules_of SStf (lit "12") = removelast (modules_of SStf (lit "12")) ++ [0]
  /\ length (modules_of SItf (lit "12")) = length (modules_of SItf (lit "34")) /\ read_modules SItf (over (modules_of SItf (lit "12")) (modules_of SItf (lit "34"))) = None
  /\ read_modules SCode39 (over (modules_of SCode39 (lit "A$")) (modules_of SCode39 (lit "A5"))) = Some (Text (lit "A5")).
Proof. vm_compute. repeat split; reflexivity. Qed.
