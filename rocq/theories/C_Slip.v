(** * C96: item numbers with a digit left out or added, or given to the wrong symbology *)
From Verif Require Import Rust M_Error Symbology M_Use S_Barcode S_Ean S_Text S_All S_Item P_Slip.

(** One digit left out of a complete number, wherever: always accepted, since the rest is taken for a number without check
    digit.  The symbol carries a valid number, which is the intended one only if all digits after the missing one are equal
    to it (and, for Interleaved 2 of 5, the check digit was right). *)
Theorem C96_digit_missing : forall y p u c v m, carrier y -> full_item y (u ++ c :: v) -> barcode y p (u ++ c :: v) = Ret (Ok m) ->
  exists m' k, barcode y p (u ++ v) = Ret (Ok m') /\
    read_modules y m' = Some (Digits (digits_of (u ++ v) ++ [k])) /\ gs1_valid (digits_of (u ++ v) ++ [k]) /\
    (read_modules y m' = read_modules y m <-> Forall (fun d => d = c) v /\ gs1_valid (digits_of (u ++ c :: v))).
Proof. exact digit_missing. Qed.
Print Assumptions C96_digit_missing.
(** One digit added to a number without check digit, wherever: exactly one digit is accepted at each place. *)
Theorem C96_digit_added : forall y p u v, verifying y -> unchecked_item y (u ++ v) ->
  exists c, digit_char c /\
    (exists m, barcode y p (u ++ c :: v) = Ret (Ok m) /\ read_modules y m = Some (Digits (digits_of (u ++ c :: v)))) /\
    forall d, digit_char d -> d <> c -> barcode y p (u ++ d :: v) = Ret (Err EChecksum).
Proof. exact digit_added. Qed.
Print Assumptions C96_digit_added.
(** A complete UPC-A number given to EAN-13, or a complete EAN-13 number given to Interleaved 2 of 5, is accepted, right or
    wrong, and a second check digit is appended.  The number carried is the intended one (with a zero before it) only if all
    digits are zero. *)
Theorem C96_second_check_digit : forall y y' p s, (y = SUpca /\ y' = SEan13) \/ (y = SEan13 /\ y' = SItf) -> full_item y s ->
  exists m k, barcode y' p s = Ret (Ok m) /\ read_modules y' m = Some (Digits (digits_of s ++ [k])) /\
    gs1_valid (digits_of s ++ [k]) /\
    (digits_of s ++ [k] = in_digits (item_digits y') (digits_of s) <-> Forall (fun c => c = ch "0") s).
Proof.
  intros y y' p s H. change (ch "0") with 48. apply wrong_carrier. destruct H as [[-> ->]|[-> ->]]; reflexivity.
Qed.
Print Assumptions C96_second_check_digit.
(** Complete numbers given to the other retail symbologies are refused. *)
Theorem C96_wrong_symbology : forall y y' p s, verifying y -> verifying y' -> y <> y' -> ~ (y = SUpca /\ y' = SEan13) -> full_item y s ->
  barcode y' p s = Ret (Err ELength).
Proof.
  intros y y' p s HV HV' HN HX. apply wrong_length; try assumption. intros E. apply HX.
  destruct y; try discriminate; injection E as <-; [destruct HV' | now split].
Qed.
Print Assumptions C96_wrong_symbology.

(** The UPC-A number 012345678905: a digit left out, and given to EAN-13 *)
Definition carried (y : symbology) (s : str) : option reading :=
  match barcode y Debug s with Ret (Ok m) => read_modules y m | _ => None end.
Example C96_case :
  full_item SUpca (lit "012345678905") /\
  carried SUpca (lit "012345678905") = Some (Digits [0;1;2;3;4;5;6;7;8;9;0;5]) /\
  carried SUpca (lit "01245678905") = Some (Digits [0;1;2;4;5;6;7;8;9;0;5;7]) /\
  carried SEan13 (lit "012345678905") = Some (Digits [0;1;2;3;4;5;6;7;8;9;0;5;0]) /\
  carried SEan13 (lit "012345678906") = Some (Digits [0;1;2;3;4;5;6;7;8;9;0;6;7]) /\
  barcode SEan8 Debug (lit "012345678905") = Ret (Err ELength).
Proof. split; [split; [repeat constructor; discriminate | reflexivity]|]. repeat split; vm_compute; reflexivity. Qed.
