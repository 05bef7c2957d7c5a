(** * Properties C43-C45, C59 and C60: all symbologies at once

    [barcode y p s] constructs a barcode of symbology [y] from [s] and encodes it. *)
From Verif Require Import Rust M_Error M_Ean13 M_Ean8 M_Upca M_EanSupp M_Code39 M_Code93 M_Code11
  M_Codabar M_Code128 M_Tf Symbology M_Use S_Barcode S_Text S_Ean S_Linear S_Codabar S_Tf S_Code128 S_All S_Size P_All P_Width.

(** ** C43 *)
Theorem C43_encode_modules : forall y p s m, str_len s < 2 ^ 48 -> barcode y p s = Ret (Ok m) ->
  Forall (fun x => x = 0 \/ x = 1) m /\ (exists t, m = 1 :: t) /\ (y <> SStf -> exists t, m = t ++ [1]).
Proof. exact barcode_modules. Qed.
Print Assumptions C43_encode_modules.
Example C43_case : barcode SStf Debug (lit "7") =
  Ret (Ok (modules "110110101010101110111011010110")) /\
  barcode SItf Debug (lit "17") = Ret (Ok (modules "10101110101010001110001101")) /\ str_len (lit "7") < 2 ^ 48.
Proof. vm_compute. repeat split. Qed.

(** ** C44.  The constructors whose model takes no profile contain no arithmetic at all. *)
Theorem C44_profile_independent : forall y s, profile_free y -> str_len s < 2 ^ 48 ->
  exists r, forall p, barcode y p s = Ret r.
Proof. exact barcode_any. Qed.
Print Assumptions C44_profile_independent.
Theorem C44_constructors : forall s,
  (exists r, forall p, ean13_new p s = Ret r) /\ (exists r, forall p, ean8_new p s = Ret r) /\
  (exists r, forall p, upca_new p s = Ret r) /\ (exists r, eansupp_new s = Ret r) /\
  (exists r, codabar_new s = Ret r) /\ (exists r, tf_standard s = Ret r).
Proof. exact constructors_any. Qed.
Print Assumptions C44_constructors.
Example C44_case : exists m, length m = 95%nat /\
  barcode SEan13 Debug (lit "750103131130") = Ret (Ok m) /\ barcode SEan13 Release (lit "750103131130") = Ret (Ok m) /\
  barcode SEan13 Debug (lit "75010313113X") = Ret (Err ECharacter).
Proof.
  exists (match barcode SEan13 Debug (lit "750103131130") with Ret (Ok m) => m | _ => [] end).
  split; [vm_compute; reflexivity|]. split; [vm_compute; reflexivity|]. split; vm_compute; reflexivity.
Qed.

(** ** C45 *)
Theorem C45_reversed_rejected : forall y p s m, str_len s < 2 ^ 48 -> directed y s ->
  barcode y p s = Ret (Ok m) -> read_modules y (rev m) = None.
Proof. exact barcode_mirror. Qed.
Print Assumptions C45_reversed_rejected.
Example C45_case : barcode SItf Debug (lit "17") = Ret (Ok (modules "10101110101010001110001101")) /\
  read_modules SItf (modules "10101110101010001110001101") = Some (Digits [1; 7]) /\
  read_modules SItf (rev (modules "10101110101010001110001101")) = None.
Proof. vm_compute. repeat split. Qed.
(** Unframed Codabar data can be read backwards, so the restriction in C45 is needed. *)
Example C45_codabar_needs_frame : exists m, barcode SCodabar Debug (lit "11") = Ret (Ok m) /\
  read_modules SCodabar (rev m) <> None /\ ~ directed SCodabar (lit "11").
Proof.
  exists (match barcode SCodabar Debug (lit "11") with Ret (Ok m) => m | _ => [] end).
  split; [vm_compute; reflexivity|]. split; [intros H; vm_compute in H; discriminate|].
  intros (a & mid & z & E & Ha & Hz). injection E as <- _. clear Hz. vm_compute in Ha. now repeat (destruct Ha as [Ha|Ha]; [discriminate Ha|]).
Qed.

(** ** C59 *)
Theorem C59_lengths : forall y p s m, str_len s < 2 ^ 48 -> barcode y p s = Ret (Ok m) ->
  modules_spec y s (length m).
Proof. exact barcode_length. Qed.
Print Assumptions C59_lengths.
(** Exactly, for the two whose characters differ in width: Code 11 eight modules to the character but seven for 0, 9 and -, counting the check
    characters; Codabar ten, but eleven for : / . and letters, and thirteen for the plus sign (eleven in the standard, C30). *)
Theorem C59_code11_width : forall p s m, str_len s < 2 ^ 48 -> barcode SCode11 p s = Ret (Ok m) ->
  let t := s ++ c11_C s :: (if Nat.ltb 10 (length s) then [c11_K s] else []) in
  (length m + among (lit "09-") t = 8 * length t + 15)%nat.
Proof. exact code11_exact. Qed.
Print Assumptions C59_code11_width.
Theorem C59_codabar_width : forall p s m, barcode SCodabar p s = Ret (Ok m) ->
  (length m + 1 = 10 * length s + among (lit ":/.ABCD") s + 3 * among (lit "+") s)%nat.
Proof. exact codabar_exact. Qed.
Print Assumptions C59_codabar_width.
Example C59_case_widths : exists m m', barcode SCode11 Debug (lit "19-") = Ret (Ok m) /\ length m = 44%nat /\ c11_C (lit "19-") = ch "9" /\
  barcode SCodabar Debug (lit "A1/+B") = Ret (Ok m') /\ length m' = 55%nat.
Proof.
  exists (match barcode SCode11 Debug (lit "19-") with Ret (Ok m) => m | _ => [] end), (match barcode SCodabar Debug (lit "A1/+B") with Ret (Ok m) => m | _ => [] end).
  split; [vm_compute; reflexivity|]. split; [vm_compute; reflexivity|]. split; [vm_compute; reflexivity|]. split; vm_compute; reflexivity.
Qed.
Example C59_case : exists m, barcode SCode93 Debug (lit "AB1") = Ret (Ok m) /\ length m = 64%nat.
Proof.
  exists (match barcode SCode93 Debug (lit "AB1") with Ret (Ok m) => m | _ => [] end).
  split; vm_compute; reflexivity.
Qed.

(** ** C60.  [scan] measures the runs of equal modules. *)
Theorem C60_element_widths : forall y p s m, str_len s < 2 ^ 48 -> barcode y p s = Ret (Ok m) ->
  exists ws, scan m = Some ws /\ m = render ws ++ tail y /\ Forall (fun w => 1 <= w <= max_width y)%nat ws.
Proof. exact barcode_widths. Qed.
Print Assumptions C60_element_widths.
Example C60_case : barcode SItf Debug (lit "17") = Ret (Ok (modules "10101110101010001110001101")) /\
  scan (modules "10101110101010001110001101") = Some [1;1;1;1;3;1;1;1;1;1;1;3;3;3;2;1;1]%nat.
Proof. vm_compute. repeat split. Qed.
