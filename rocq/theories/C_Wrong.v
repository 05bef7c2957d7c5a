(** * Property C83: how many wrong modules it takes to be misread *)
From Verif Require Import Rust M_Error Symbology M_Use S_Barcode S_Text S_Ean S_Linear S_Codabar S_Tf S_Code128 S_All S_Cell S_Wrong
  P_Damage P_Wrong P_Readable.

(** ** C83.  A picture as long as the symbol that differs from it in fewer modules than [needed]
    is refused by a reader that verifies check characters.  Readers of 2 of 5 may still read the
    caller's digits.  Symbols that cannot be read even when undamaged (C30, C41) have no reading [r]. *)
Theorem C83_wrong_modules : forall y p s m m' r, str_len s < 2 ^ 48 -> barcode y p s = Ret (Ok m) ->
  read_modules y m = Some r -> length m' = length m -> (wrong_modules m m' < needed y s)%nat ->
  forall r', read_modules y m' = Some r' -> verified y r' -> m' = m \/ ((y = SItf \/ y = SStf) /\ r' = r).
Proof.
  intros y p s m m' r Hs H HR L HW r' HR' HV.
  destruct (several_wrong y p s m m' r r' Hs H HR (eq_sym L) HW HR' HV) as [E|[T E]]; [now left | right].
  split; [destruct y; auto; discriminate T | exact E].
Qed.
Print Assumptions C83_wrong_modules.
(** All symbols but those with a plus in Codabar, or of more than 6489 Code 128 characters, are readable. *)
Theorem C83_data : forall y p s m, str_len s < 2 ^ 48 -> barcode y p s = Ret (Ok m) ->
  (y = SCodabar -> ~ In (ch "+") s) -> (y = SCode128 -> len s <= 6489) ->
  exists r, read_modules y m = Some r /\ meant y s (Some r) /\
    forall m' r', length m' = length m -> (wrong_modules m m' < needed y s)%nat ->
      read_modules y m' = Some r' -> verified y r' -> m' = m \/ ((y = SItf \/ y = SStf) /\ r' = r).
Proof.
  intros y p s m Hs H HC H128. destruct (readable_meant y p s m Hs H HC H128) as (r & HR & HM).
  exists r. split; [exact HR|]. split; [exact HM|]. intros m' r' L W. exact (C83_wrong_modules y p s m m' r Hs H HR L W r').
Qed.
Print Assumptions C83_data.

(** The numbers cannot be raised: data of every symbology whose symbols differ in just so many
    modules, both accepted by verifying readers. *)
Definition pairs : list (symbology * str * str) :=
  [(SEan13, lit "100021000000", lit "200024000000"); (SEan8, lit "5510345", lit "5513345");
   (SUpca, lit "03600029145", lit "03610029145"); (SSupp, lit "01", lit "04"); (SSupp, lit "00000", lit "80008");
   (SCode39, lit "0", lit "9"); (SCode39Checked, lit "0", lit "9");
   (SCode93, lit "8", lit "P"); (SCode93, lit "WODE930ODE93ABC", lit "HODE93PODE93ABC");
   (SCode11, lit "1", lit "2"); (SCodabar, lit "A0A", lit "A2A");
   (SCode128, [192] ++ lit "XD", [192] ++ lit "WD");
   (SCode128, [192] ++ repeat 65 102 ++ lit "X", [192] ++ repeat 65 102 ++ lit "W");
   (SItf, lit "00", lit "80"); (SStf, lit "0", lit "8")].
Theorem C83_needed_tight : forall y s t, In (y, s, t) pairs -> exists m m' r r',
  barcode y Debug s = Ret (Ok m) /\ barcode y Debug t = Ret (Ok m') /\ length m' = length m /\ wrong_modules m m' = needed y s /\
  read_modules y m = Some r /\ read_modules y m' = Some r' /\ r <> r' /\ verified y r /\ verified y r'.
Proof.
  intros y s t H. cbn [pairs In] in H.
  repeat (destruct H as [H|H]; [injection H as <- <- <-; do 4 eexists;
    split; [vm_compute; reflexivity|]; split; [vm_compute; reflexivity|]; split; [vm_compute; reflexivity|];
    split; [vm_compute; reflexivity|]; split; [vm_compute; reflexivity|]; split; [vm_compute; reflexivity|];
    split; [discriminate|]; split;
    (exact I || (exists (lit "0"), (ch "0"); now split) || (exists (lit "9"), (ch "9"); now split)) | ]).
  contradiction.
Qed.
Print Assumptions C83_needed_tight.
Theorem C83_every_symbology : forall y, exists s t, In (y, s, t) pairs.
Proof. intros []; do 2 eexists; cbn [pairs In]; tauto. Qed.
Print Assumptions C83_every_symbology.
(** Modules 10 and 60 of a UPC-A symbol inverted, and neighbouring modules of a Code 93 symbol *)
Definition invert (n : nat) (m : list N) : list N := firstn n m ++ match skipn n m with x :: t => (1 - x) :: t | [] => [] end.
Definition printed (y : symbology) (s : str) : list N := match barcode y Debug s with Ret (Ok t) => t | _ => [] end.
Example C83_case : let m := printed SUpca (lit "03600029145") in let m' := invert 10 (invert 60 m) in
  length m' = length m /\ wrong_modules m m' = 2%nat /\ read_modules SUpca m <> None /\ read_modules SUpca m' = None.
Proof. vm_compute. repeat split; discriminate. Qed.
Example C83_case_93 : let m := printed SCode93 (lit "A") in
  map (fun i => (wrong_modules m (invert i (invert (S i) m)), read_modules SCode93 (invert i (invert (S i) m)))) (seq 0 45) = repeat (2%nat, None) 45.
Proof. vm_compute. reflexivity. Qed.
