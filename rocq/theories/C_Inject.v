(** * Property C68: symbols determine their data, for all symbologies but Code 128 (C42) *)
From Verif Require Import Rust M_Error Symbology M_Use S_Text S_Linear S_All S_Inject P_Inject.

(** ** C68.  The two symbols may come from differently compiled programs. *)
Theorem C68_same_symbol_same_data : forall y p p' s s' m, y <> SCode128 -> str_len s < 2 ^ 48 -> str_len s' < 2 ^ 48 ->
  barcode y p s = Ret (Ok m) -> barcode y p' s' = Ret (Ok m) -> same_data y s s'.
Proof. exact same_symbol_same_data. Qed.
Print Assumptions C68_same_symbol_same_data.
(** Strings of the same length carry the same data only when they agree on all but the check digit. *)
Theorem C68_same_length : forall y p p' s s' m, y <> SCode128 -> str_len s < 2 ^ 32 -> str_len s' < 2 ^ 32 ->
  length s = length s' -> barcode y p s = Ret (Ok m) -> barcode y p' s' = Ret (Ok m) -> s = s'.
Proof. exact same_length_same_string. Qed.
Print Assumptions C68_same_length.
(** The exceptions in [same_data] are real: a check digit may be left out. *)
Theorem C68_retail_check_optional : forall y p p' s s' m m', match y with SEan13 | SEan8 | SUpca => True | _ => False end ->
  barcode y p s = Ret (Ok m) -> barcode y p' s' = Ret (Ok m') -> same_data y s s' -> m = m'.
Proof. exact same_data_same_symbol. Qed.
Print Assumptions C68_retail_check_optional.
Theorem C68_itf_check_optional : forall p p' s m, str_len s < 2 ^ 32 -> barcode SItf p s = Ret (Ok m) ->
  Nat.even (length s) = false -> exists c, digit_char c /\ barcode SItf p' (s ++ [c]) = Ret (Ok m).
Proof. exact itf_explicit_check. Qed.
Print Assumptions C68_itf_check_optional.
(** The check character of Code 39 may also be given by the caller, where there is room for it. *)
Theorem C68_code39_check_explicit : forall p p' s m, str_len s < 2 ^ 48 -> barcode SCode39Checked p s = Ret (Ok m) -> (length s <= 255)%nat ->
  barcode SCode39 p' (s ++ [c39_check s]) = Ret (Ok m).
Proof. exact code39_explicit_check. Qed.
Print Assumptions C68_code39_check_explicit.
Example C68_case : exists m, barcode SEan8 Debug (lit "5512345") = Ret (Ok m) /\ barcode SEan8 Release (lit "55123457") = Ret (Ok m) /\
  same_data SEan8 (lit "5512345") (lit "55123457").
Proof.
  exists (match barcode SEan8 Debug (lit "5512345") with Ret (Ok m) => m | _ => [] end).
  split; [vm_compute; reflexivity|]. split; vm_compute; reflexivity.
Qed.
Example C68_case_itf : exists m, barcode SItf Debug (lit "123") = Ret (Ok m) /\ barcode SItf Release (lit "1236") = Ret (Ok m).
Proof.
  exists (match barcode SItf Debug (lit "123") with Ret (Ok m) => m | _ => [] end).
  split; vm_compute; reflexivity.
Qed.
Example C68_case_code39 : exists m, barcode SCode39Checked Debug (lit "CODE39") = Ret (Ok m) /\ barcode SCode39 Release (lit "CODE39W") = Ret (Ok m)
  /\ barcode SCode39 Debug (repeat 65 257) = Ret (Err ELength).
Proof.
  exists (match barcode SCode39Checked Debug (lit "CODE39") with Ret (Ok m) => m | _ => [] end).
  repeat (split; [vm_compute; reflexivity|]). vm_compute. reflexivity.
Qed.
