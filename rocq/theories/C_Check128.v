(** * Property C71: misread Code 128 symbol characters *)
From Verif Require Import Rust M_Error Symbology M_Use S_Barcode S_Text S_Linear S_Tf S_Code128 S_All S_Check128
  P_Check128 P_Readable.

(** ** C71.  In every readable symbol, one symbol character (start, data or check) printed or
    read as any other, or two different neighbours exchanged, makes the reader refuse.  The
    only exceptions: the data characters at places 103, 206, ... cannot be told apart, and the last
    data character may be exchanged with the check character when the check is at such a place. *)
Theorem C71_code128_misread : forall p s m, barcode SCode128 p s = Ret (Ok m) -> read_modules SCode128 m <> None ->
  exists vs, m = c128_bars vs /\
    (forall u v w v', vs = u ++ v :: w -> v' <= 105 -> v' <> v ->
       (weightless (length u) -> w = []) -> read_modules SCode128 (c128_bars (u ++ v' :: w)) = None) /\
    (forall u c d w, vs = u ++ c :: d :: w -> c <> d ->
       (weightless (S (length u)) -> w <> []) -> read_modules SCode128 (c128_bars (u ++ d :: c :: w)) = None).
Proof. exact c128_misread. Qed.
Print Assumptions C71_code128_misread.
(** Every symbol of up to 6489 characters is readable. *)
Theorem C71_readable : forall p s m, barcode SCode128 p s = Ret (Ok m) -> len s <= 6489 -> read_modules SCode128 m <> None.
Proof. exact readable_128. Qed.
Print Assumptions C71_readable.

(** The exceptions are real: texts that differ only in their 103rd (206th, ...) character print
    symbols that differ in that one symbol character only, *)
Theorem C71_blind_places : forall p a c c' b, Forall (fun x => 32 <= x <= 126) (a ++ c :: b) -> 32 <= c' <= 126 -> c <> c' ->
  len (a ++ c :: b) <= 6488 -> weightless (S (length a)) ->
  exists u v v' w, length u = S (length a) /\ v <> v' /\
    barcode SCode128 p (385 :: a ++ c :: b) = Ret (Ok (c128_bars (u ++ v :: w))) /\
    barcode SCode128 p (385 :: a ++ c' :: b) = Ret (Ok (c128_bars (u ++ v' :: w))).
Proof. exact c128_blind_subst. Qed.
Print Assumptions C71_blind_places.
(** and texts of 102 (205, ...) characters can have their last character exchanged with the check. *)
Theorem C71_blind_exchange : forall p a c, Forall (fun x => 32 <= x <= 126) (a ++ [c]) -> len (a ++ [c]) <= 6488 ->
  weightless (S (S (length a))) ->
  exists u v d, barcode SCode128 p (385 :: a ++ [c]) = Ret (Ok (c128_bars (u ++ [v; d]))) /\
    read_modules SCode128 (c128_bars (u ++ [d; v])) <> None.
Proof. exact c128_blind_swap. Qed.
Print Assumptions C71_blind_exchange.

(** HI in code set A: start 103, values 40 41, check 19 *)
Example C71_case : barcode SCode128 Debug (192 :: lit "HI") = Ret (Ok (c128_bars [103; 40; 41; 19]))
  /\ read_modules SCode128 (c128_bars [103; 40; 41; 19]) = Some (Tokens [TChar 72; TChar 73])
  /\ map (fun v => read_modules SCode128 (c128_bars [103; v; 41; 19])) [39; 41; 99; 105] = [None; None; None; None]
  /\ map (fun vs => read_modules SCode128 (c128_bars vs)) [[104; 40; 41; 19]; [103; 41; 40; 19]; [103; 40; 19; 41]; [40; 103; 41; 19]]
     = [None; None; None; None].
Proof. vm_compute. auto. Qed.
(** 103 letters A, and the last of them a B: the same check character *)
Example C71_blind_case : weightless (S (length (repeat 65 102))) /\
  c128_check (104 :: repeat 33 103) = c128_check (104 :: repeat 33 102 ++ [34]).
Proof. split; [exists 1%nat; split; [lia|reflexivity]|]. vm_compute. reflexivity. Qed.
