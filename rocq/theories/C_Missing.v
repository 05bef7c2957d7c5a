(** * C113: a missing digit of an item number *)
From Verif Require Import Rust M_Error M_Ean13 M_Ean8 M_Upca Symbology M_Use S_Barcode S_Ean S_Text S_Linear S_Codabar S_Tf S_Code128 S_All P_Retail P_Missing P_Missing2 P_Missing3.

(** Of a number with its check digit one digit is not known, the place is: exactly one digit is accepted there, all others are refused for their check digit. *)
Theorem C113_ean13 : forall u v, Forall digit_char u -> Forall digit_char v -> (length u + length v = 12)%nat ->
  exists c, digit_char c /\ forall p c', digit_char c' ->
    ((exists b, ean13_new p (u ++ c' :: v) = Ret (Ok b)) <-> c' = c) /\ (c' <> c -> ean13_new p (u ++ c' :: v) = Ret (Err EChecksum)).
Proof. exact (hole_char mkEAN13 12 ltac:(lia)). Qed.
Print Assumptions C113_ean13.
Theorem C113_ean8 : forall u v, Forall digit_char u -> Forall digit_char v -> (length u + length v = 7)%nat ->
  exists c, digit_char c /\ forall p c', digit_char c' ->
    ((exists b, ean8_new p (u ++ c' :: v) = Ret (Ok b)) <-> c' = c) /\ (c' <> c -> ean8_new p (u ++ c' :: v) = Ret (Err EChecksum)).
Proof. exact (hole_char mkEAN8 7 ltac:(lia)). Qed.
Print Assumptions C113_ean8.
Theorem C113_upca : forall u v, Forall digit_char u -> Forall digit_char v -> (length u + length v = 11)%nat ->
  exists c, digit_char c /\ forall p c', digit_char c' ->
    ((exists b, upca_new p (u ++ c' :: v) = Ret (Ok b)) <-> c' = c) /\ (c' <> c -> upca_new p (u ++ c' :: v) = Ret (Err EChecksum)).
Proof. exact (hole_char mkUPCA 11 ltac:(lia)). Qed.
Print Assumptions C113_upca.
(** With two unknown digits there is one possibility for each value of the first, ten in all. *)
Theorem C113_two_missing : forall u v w, Forall digit_char u -> Forall digit_char v -> Forall digit_char w -> (length u + length v + length w = 11)%nat ->
  forall c1, digit_char c1 -> exists c2, digit_char c2 /\ forall p c, digit_char c -> ((exists b, ean13_new p (u ++ c1 :: v ++ c :: w) = Ret (Ok b)) <-> c = c2).
Proof.
  intros u v w HU HV HW HL c1 H1. destruct (C113_ean13 (u ++ c1 :: v) w) as (c2 & H2 & H).
  - apply Forall_app. split; [exact HU | now apply Forall_cons].
  - exact HW.
  - rewrite app_length. cbn [length]. lia.
  - exists c2. split; [exact H2|]. intros p c Hc. specialize (H p c Hc). rewrite <- app_assoc in H. exact (proj1 H).
Qed.
Print Assumptions C113_two_missing.

(** Code 39 with check character: all characters printed are known but one, the check character [k] among them.  Exactly one text is printed like this. *)
Theorem C113_code39 : forall u v k, Forall (fun c => In c c39_chars) u -> Forall (fun c => In c c39_chars) v -> In k c39_chars -> (length u + length v <= 255)%nat ->
  exists c, In c c39_chars /\ forall p c', In c' c39_chars ->
    ((exists m, barcode SCode39Checked p (u ++ c' :: v) = Ret (Ok m) /\ read_modules SCode39Checked m = Some (Text (u ++ c' :: v ++ [k]))) <-> c' = c).
Proof. exact c39_hole. Qed.
Print Assumptions C113_code39.
Example C113_code39_case : exists m, barcode SCode39Checked Debug (lit "A" ++ ch "7" :: lit "B") = Ret (Ok m) /\ read_modules SCode39Checked m = Some (Text (lit "A" ++ ch "7" :: lit "B" ++ [ch "S"])).
Proof. eexists. split; vm_compute; reflexivity. Qed.

(** Code 93: all characters printed are known but one of the text and the second check character; the first check character is [k].  Exactly one text is printed like this. *)
Theorem C113_code93 : forall u v k, Forall (fun c => In c c93_chars) u -> Forall (fun c => In c c93_chars) v -> In k c93_chars -> (length u + length v <= 255)%nat ->
  exists c, In c c93_chars /\ forall p c', In c' c93_chars ->
    ((exists m j, barcode SCode93 p (u ++ c' :: v) = Ret (Ok m) /\ obind (scan m) read_c93_raw = Some (u ++ c' :: v ++ [k; j])) <-> c' = c).
Proof. exact c93_hole. Qed.
Print Assumptions C113_code93.
Example C113_code93_case : exists m, barcode SCode93 Debug (lit "A" ++ ch "7" :: lit "B") = Ret (Ok m) /\ obind (scan m) read_c93_raw = Some (lit "A" ++ ch "7" :: lit "B" ++ [ch "8"; ch ")"]).
Proof. eexists. split; vm_compute; reflexivity. Qed.

(** Code 11: all characters printed are known but one of the text and what follows the first check character [k].  Exactly one text is printed like this. *)
Theorem C113_code11 : forall u v k, Forall (fun c => In c c11_chars) u -> Forall (fun c => In c c11_chars) v -> In k c11_chars -> (length u + length v <= 255)%nat ->
  exists c, In c c11_chars /\ forall p c', In c' c11_chars ->
    ((exists m j, barcode SCode11 p (u ++ c' :: v) = Ret (Ok m) /\ obind (scan m) read_c11_raw = Some (u ++ c' :: v ++ k :: j)) <-> c' = c).
Proof. exact c11_hole. Qed.
Print Assumptions C113_code11.
Example C113_code11_case : exists m, barcode SCode11 Debug (lit "12" ++ ch "-" :: lit "34") = Ret (Ok m) /\ obind (scan m) read_c11_raw = Some (lit "12" ++ ch "-" :: lit "34" ++ [ch "9"]).
Proof. eexists. split; vm_compute; reflexivity. Qed.

(** The third digit of 7501031311309 unreadable: only 0 is accepted. *)
Example C113_case : map (fun d => ean13_new Debug (lit "75" ++ (48 + d) :: lit "1031311309")) [0;1;2;3;4;5;6;7;8;9]
  = Ret (Ok (mkEAN13 [7;5;0;1;0;3;1;3;1;1;3;0])) :: repeat (Ret (Err EChecksum)) 9.
Proof. vm_compute. reflexivity. Qed.
