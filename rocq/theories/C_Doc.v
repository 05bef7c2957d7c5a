(** * Properties C80 and C81: what the documentation says about densities and number systems *)
From Verif Require Import Rust M_Error Symbology M_Use S_Barcode S_Ean S_Text S_Linear S_Code128 S_All S_Doc
  P_Rust P_All P_Code128b P_Exact P_Doc.

(** ** C80.  Code 93 encodes whatever Code 39 encodes (src/sym/code93.rs:3-4) *)
Theorem C80_code93_wider : forall p p' s m, str_len s < 2 ^ 48 -> barcode SCode39 p s = Ret (Ok m) ->
  exists m', barcode SCode93 p' s = Ret (Ok m').
Proof. exact code39_in_code93. Qed.
Print Assumptions C80_code93_wider.
(** in fewer modules from four characters on; with check characters in both, always *)
Theorem C80_code93_denser : forall p p' s m m', str_len s < 2 ^ 48 ->
  barcode SCode39 p s = Ret (Ok m) -> barcode SCode93 p' s = Ret (Ok m') -> (length m' < length m <-> 4 <= length s)%nat.
Proof.
  intros p p' s m m' Hs H H'. apply barcode_length in H; [|assumption]. apply barcode_length in H'; [|assumption].
  cbn [modules_spec] in *. lia.
Qed.
Print Assumptions C80_code93_denser.
Theorem C80_code93_denser_checked : forall p p' s m m', str_len s < 2 ^ 48 ->
  barcode SCode39Checked p s = Ret (Ok m) -> barcode SCode93 p' s = Ret (Ok m') -> (length m' < length m)%nat.
Proof.
  intros p p' s m m' Hs H H'. apply barcode_length in H; [|assumption]. apply barcode_length in H'; [|assumption].
  cbn [modules_spec] in *. lia.
Qed.
Print Assumptions C80_code93_denser_checked.
(** Interleaved 2 of 5 is narrower than Standard 2 of 5 (src/sym/tf.rs:8) *)
Theorem C80_itf_denser : forall p p' s m m', str_len s < 2 ^ 48 ->
  barcode SItf p s = Ret (Ok m) -> barcode SStf p' s = Ret (Ok m') -> (length m < length m')%nat.
Proof.
  intros p p' s m m' Hs H H'. assert (HN : s <> []) by (intros ->; cbn in H'; discriminate).
  apply barcode_length in H; [|assumption]. apply barcode_length in H'; [|assumption].
  cbn [modules_spec] in *. destruct s as [|c s]; [congruence|]. cbn [length] in *. destruct (Nat.even _); lia.
Qed.
Print Assumptions C80_itf_denser.
(** Code set C halves what digits take (src/sym/code128.rs:6) *)
Theorem C80_code128_double : forall p k s, Forall digit_char s -> Nat.even (length s) = true -> len s <= 6488 -> k <> CC ->
  exists m m', barcode SCode128 p (set_char CC :: s) = Ret (Ok m) /\ barcode SCode128 p (set_char k :: s) = Ret (Ok m') /\
    (2 * (length m - 35) = length m' - 35)%nat /\ (length m' - 35 = 11 * length s)%nat /\ (35 <= length m)%nat.
Proof.
  intros p k s H E HL HK. destruct (one_segment_barcode CC p s H E HL) as (m & Em & Lm). destruct (one_segment_barcode k p s H E HL) as (m' & Em' & Lm').
  exists m, m'. split; [assumption|]. split; [assumption|]. apply Nat.even_spec in E. destruct E as [n E].
  rewrite E, (Nat.mul_comm 2 n), Nat.div_mul in Lm by discriminate. destruct k; try congruence; lia.
Qed.
Print Assumptions C80_code128_double.
Example C80_case :
  (exists m m', barcode SCode39 Debug (lit "ABC") = Ret (Ok m) /\ barcode SCode93 Debug (lit "ABC") = Ret (Ok m') /\ length m = 64%nat /\ length m' = 64%nat) /\
  (exists m m', barcode SCode39 Debug (lit "ABCD") = Ret (Ok m) /\ barcode SCode93 Debug (lit "ABCD") = Ret (Ok m') /\ length m = 77%nat /\ length m' = 73%nat) /\
  (exists m m', barcode SCode128 Debug (set_char CC :: lit "123456") = Ret (Ok m) /\ barcode SCode128 Debug (set_char CB :: lit "123456") = Ret (Ok m') /\
     length m = 68%nat /\ length m' = 101%nat).
Proof. repeat (split; [do 2 eexists; repeat (split; [vm_compute; reflexivity|]); vm_compute; reflexivity|]). do 2 eexists. repeat (split; [vm_compute; reflexivity|]). vm_compute. reflexivity. Qed.

(** ** C81.  Bookland and JAN are other names of EAN13 (src/sym/ean13.rs:89-95), said to be of number system 978 and 49.
    Nothing checks it: *)
Theorem C81_number_system_refuted : exists s m, (forall p, barcode SEan13 p s = Ret (Ok m)) /\
  ~ starts_with [9; 7; 8] (digits_of s) /\ ~ starts_with [4; 9] (digits_of s).
Proof.
  exists (lit "750103131130"). exists (match barcode SEan13 Debug (lit "750103131130") with Ret (Ok m) => m | _ => [] end).
  split; [intros []; vm_compute; reflexivity|]. split; discriminate.
Qed.
Print Assumptions C81_number_system_refuted.
(** What holds: the number system printed is the caller's, so a reader that checks it refuses what the constructor should have refused. *)
Theorem C81_number_system_partial : forall p s m n, str_len s < 2 ^ 48 -> barcode SEan13 p s = Ret (Ok m) ->
  read_modules SEan13 m = Some (Digits n) -> forall l, (length l <= 12)%nat -> starts_with l n <-> starts_with l (digits_of s).
Proof. exact number_system_kept. Qed.
Print Assumptions C81_number_system_partial.
(** Every ten-digit book number has its thirteen-digit symbol, made from 978 and its nine digits, *)
Theorem C81_book_partial : forall p l, isbn10 l -> exists m n, barcode SEan13 p (lit "978" ++ text_of (firstn 9 l)) = Ret (Ok m) /\
  isbn13_of l n /\ read_modules SEan13 m = Some (Digits n).
Proof. exact book_barcode. Qed.
Print Assumptions C81_book_partial.
(** and no two share one. *)
Theorem C81_books_apart_partial : forall p p' l l' m, isbn10 l -> isbn10 l' ->
  barcode SEan13 p (lit "978" ++ text_of (firstn 9 l)) = Ret (Ok m) ->
  barcode SEan13 p' (lit "978" ++ text_of (firstn 9 l')) = Ret (Ok m) -> l = l'.
Proof.
  intros p p' l l' m H H' E E'. destruct (book_barcode p l H) as (m1 & n1 & E1 & (c1 & _ & N1 & _) & R1).
  destruct (book_barcode p' l' H') as (m2 & n2 & E2 & (c2 & _ & N2 & _) & R2).
  change (text_of ([9; 7; 8] ++ firstn 9 l)) with (lit "978" ++ text_of (firstn 9 l)) in E1.
  change (text_of ([9; 7; 8] ++ firstn 9 l')) with (lit "978" ++ text_of (firstn 9 l')) in E2.
  assert (m1 = m) as -> by congruence. assert (m2 = m) as -> by congruence. rewrite R1 in R2. injection R2 as R2.
  apply isbn10_core; try assumption. subst. cbn [app] in R2. injection R2 as R2. now apply app_inj_tail in R2.
Qed.
Print Assumptions C81_books_apart_partial.
Example C81_case : isbn10 [0; 3; 0; 6; 4; 0; 6; 1; 5; 2] /\ isbn13_of [0; 3; 0; 6; 4; 0; 6; 1; 5; 2] [9; 7; 8; 0; 3; 0; 6; 4; 0; 6; 1; 5; 7] /\
  isbn10 [0; 8; 0; 4; 4; 2; 9; 5; 7; 10] /\ ~ isbn10 [0; 3; 0; 6; 4; 0; 6; 1; 5; 3].
Proof.
  split; [split; [reflexivity|]; split; [repeat constructor|]; split; [repeat (constructor; [discriminate|]); constructor | reflexivity]|].
  split; [exists 7; repeat split|].
  split; [split; [reflexivity|]; split; [repeat constructor|]; split; [repeat (constructor; [discriminate|]); constructor | reflexivity]|].
  intros (_ & _ & _ & H). discriminate.
Qed.
