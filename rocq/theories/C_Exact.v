(** * Property C58, continued: exactly what is read from the symbol of every accepted string *)
From Verif Require Import Rust M_Error Symbology M_Use S_Barcode S_Ean S_Text S_Linear S_Codabar S_Tf S_Code128 S_All S_Heard S_Exact
  P_Code128 P_Code128b P_All P_Exact.

(** [reads_back y s r] determines [r] from the caller's string alone, with all the faults of the code.
    Missing for C58: it must be the caller's data. *)
Theorem C58_exact_partial : forall y p s m, str_len s < 2 ^ 48 -> (y = SCode128 -> len s < 2 ^ 31) ->
  barcode y p s = Ret (Ok m) -> reads_back y s (read_modules y m).
Proof. exact barcode_exact. Qed.
Print Assumptions C58_exact_partial.
(** Hence what is read does not depend on the build profile, when both builds print something. *)
Theorem C58_profiles_partial : forall y s m m', str_len s < 2 ^ 48 -> (y = SCode128 -> len s < 2 ^ 31) ->
  barcode y Debug s = Ret (Ok m) -> barcode y Release s = Ret (Ok m') -> read_modules y m = read_modules y m'.
Proof.
  intros y s m m' Hs HL H H'. apply barcode_exact in H; try assumption. apply barcode_exact in H'; try assumption.
  destruct y; cbn [reads_back] in *; try congruence.
  destruct H as (segs & HM & -> & ->). destruct H' as (segs' & HM' & E & ->).
  assert (segs = segs') as -> by (apply spell_inj; [apply HM | apply HM' | assumption]). reflexivity.
Qed.
Print Assumptions C58_profiles_partial.
Definition printed_in (p : profile) (y : symbology) (s : str) : option reading :=
  match barcode y p s with Ret (Ok m) => read_modules y m | _ => None end.
Example C58_exact_case :
  printed_in Release SItf (lit "999999999999999") = Some (Digits (repeat 9 15 ++ [7]))
  /\ byte_check (repeat 9 15) = 7 /\ gs1_check (repeat 9 15) = 1
  /\ printed_in Debug SEan8 (lit "5512345") = Some (Digits (full_number 7 [5;5;1;2;3;4;5]))
  /\ full_number 7 [5;5;1;2;3;4;5] = [5;5;1;2;3;4;5;7]
  /\ printed_in Debug SCode39Checked (lit "A1") = Some (Text (lit "A1B"))
  /\ printed_in Debug SCodabar (lit "A+B") = None /\ printed_in Debug SCodabar (lit "A1B") = Some (Text (lit "A1C"))
  /\ printed_in Debug SCode128 (spell [(CA, [65; SHIFT; 1; 66])]) = Some (Tokens (map TChar (lit "AaB")))
  /\ wraps (2 ^ 31 - 1) = 0 /\ wraps (2 ^ 31) = 1 /\ wraps (103 * 2 ^ 32) mod 103 = 0.
Proof. repeat (split; [vm_compute; reflexivity|]). vm_compute. reflexivity. Qed.
