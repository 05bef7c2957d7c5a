(** * Properties C84 and C85: item numbers *)
From Verif Require Import Rust M_Error Symbology M_Use S_Barcode S_Ean S_Text S_All S_Item
  P_Gs1 P_Item.

(** ** C84.  Every carrier accepts an item number without check digit and prints it with the GS1 check digit, in both builds. *)
Theorem C84_carrier : forall y p s, carrier y -> unchecked_item y s ->
  exists m c, barcode y p s = Ret (Ok m) /\ read_modules y m = Some (Digits (digits_of s ++ [c])) /\
    gs1_valid (digits_of s ++ [c]).
Proof.
  intros y p s HC HU. destruct (item_printed y p s HC HU) as (m & HB & HR). exists m. eexists.
  split; [exact HB|]. split; [exact HR|]. apply gs1_check_valid.
Qed.
Print Assumptions C84_carrier.
(** One item number reads the same from whichever carriers it is printed in. *)
Theorem C84_one_number : forall y y' p p' s s',
  carrier y -> carrier y' -> unchecked_item y s -> unchecked_item y' s' ->
  in_digits 13 (digits_of s) = in_digits 13 (digits_of s') ->
  exists m m' l l', barcode y p s = Ret (Ok m) /\ barcode y' p' s' = Ret (Ok m') /\
    read_modules y m = Some (Digits l) /\ read_modules y' m' = Some (Digits l') /\
    in_digits 14 l = in_digits 14 l' /\ gs1_valid (in_digits 14 l).
Proof. exact item_number_once. Qed.
Print Assumptions C84_one_number.
(** With the check digit written by the caller: accepted by all that can carry it, or refused by all. *)
Theorem C84_same_acceptance : forall y y' p p' s s',
  verifying y -> verifying y' -> full_item y s -> full_item y' s' ->
  in_digits 14 (digits_of s) = in_digits 14 (digits_of s') ->
  (exists m m', barcode y p s = Ret (Ok m) /\ barcode y' p' s' = Ret (Ok m')) \/
  (barcode y p s = Ret (Err EChecksum) /\ barcode y' p' s' = Ret (Err EChecksum)).
Proof. exact item_accepted_once. Qed.
Print Assumptions C84_same_acceptance.
(** But ITF takes all fourteen digits on trust. *)
Theorem C84_itf_trusts : forall p s, full_item SItf s ->
  exists m, barcode SItf p s = Ret (Ok m) /\ read_modules SItf m = Some (Digits (digits_of s)).
Proof. exact itf_trusts. Qed.
Print Assumptions C84_itf_trusts.
Definition seen (y : symbology) (s : str) : option reading :=
  match barcode y Debug s with Ret (Ok m) => read_modules y m | _ => None end.
Example C84_case :
  seen SEan8 (lit "5512345") = Some (Digits [5;5;1;2;3;4;5;7])
  /\ seen SUpca (lit "00005512345") = Some (Digits [0;0;0;0;5;5;1;2;3;4;5;7])
  /\ seen SEan13 (lit "000005512345") = Some (Digits [0;0;0;0;0;5;5;1;2;3;4;5;7])
  /\ seen SItf (lit "0000005512345") = Some (Digits [0;0;0;0;0;0;5;5;1;2;3;4;5;7])
  /\ unchecked_item SEan8 (lit "5512345") /\ unchecked_item SItf (lit "0000005512345")
  /\ in_digits 13 (digits_of (lit "5512345")) = in_digits 13 (digits_of (lit "0000005512345"))
  /\ barcode SEan8 Debug (lit "55123456") = Ret (Err EChecksum)
  /\ barcode SEan13 Debug (lit "0000055123456") = Ret (Err EChecksum)
  /\ seen SItf (lit "00000055123456") = Some (Digits [0;0;0;0;0;0;5;5;1;2;3;4;5;6]).
Proof.
  do 4 (split; [vm_compute; reflexivity|]). do 2 (split; [split; [repeat constructor; discriminate | reflexivity]|]).
  repeat (split; [vm_compute; reflexivity|]). vm_compute. reflexivity.
Qed.

(** ** C85.  Two wrong digits: the constructor refuses exactly those that change the weighted sum modulo ten. *)
Theorem C85_two_wrong_digits : forall y p u c v d w c' d' m,
  verifying y -> full_item y (u ++ c :: v ++ d :: w) -> barcode y p (u ++ c :: v ++ d :: w) = Ret (Ok m) ->
  digit_char c' -> digit_char d' ->
  let change a b := item_weight (length v + 1 + length w) * (a - 48) + item_weight (length w) * (b - 48) in
  (change c' d' mod 10 = change c d mod 10 -> exists m', barcode y p (u ++ c' :: v ++ d' :: w) = Ret (Ok m')) /\
  (change c' d' mod 10 <> change c d mod 10 -> barcode y p (u ++ c' :: v ++ d' :: w) = Ret (Err EChecksum)).
Proof. exact two_wrong. Qed.
Print Assumptions C85_two_wrong_digits.
(** So a second wrong digit hides the first for one value in ten. *)
Theorem C85_one_in_ten : forall y p u c v d w c' m,
  verifying y -> full_item y (u ++ c :: v ++ d :: w) -> barcode y p (u ++ c :: v ++ d :: w) = Ret (Ok m) ->
  digit_char c' ->
  exists d', digit_char d' /\ (c' <> c -> d' <> d) /\
    (exists m', barcode y p (u ++ c' :: v ++ d' :: w) = Ret (Ok m')) /\
    forall e, digit_char e -> e <> d' -> barcode y p (u ++ c' :: v ++ e :: w) = Ret (Err EChecksum).
Proof.
  intros y p u c v d w c' m HV HF HB Hc.
  assert (Dc : digit_char c /\ digit_char d).
  { destruct HF as [HF _]. apply Forall_app in HF. destruct HF as [_ HF]. apply Forall_cons_iff in HF. destruct HF as [H1 HF].
    apply Forall_app in HF. destruct HF as [_ HF]. apply Forall_cons_iff in HF. tauto. }
  destruct Dc as [Dc Dd].
  pose proof (fun e He => two_wrong y p u c v d w c' e m HV HF HB Hc He) as T. cbv zeta in T.
  set (W := item_weight (length v + 1 + length w)) in *. set (X := item_weight (length w)) in *.
  assert (HW : W = 1 \/ W = 3) by (unfold W, item_weight; destruct (Nat.even _); auto).
  assert (HX : X = 1 \/ X = 3) by (unfold X, item_weight; destruct (Nat.even _); auto).
  clearbody W X. unfold digit_char in *.
  set (a := c - 48) in *. set (a' := c' - 48) in *. set (b := d - 48) in *.
  assert (Ba : a < 10) by lia. assert (Ba' : a' < 10) by lia. assert (Bb : b < 10) by lia.
  assert (Q : exists z, z < 10 /\ (W * a' + X * z) mod 10 = (W * a + X * b) mod 10).
  { exists ((W * a + X * b + 9 * W * a') * (if X =? 1 then 1 else 7) mod 10). split; [apply N.mod_lt; lia|].
    rewrite N.add_mod, (N.mul_mod X), N.mod_mod, <- N.mul_mod, <- N.add_mod by lia.
    destruct HX as [->| ->]; cbn [N.eqb Pos.eqb].
    - replace (W * a' + 1 * ((W * a + 1 * b + 9 * W * a') * 1)) with (W * a + 1 * b + (W * a') * 10) by lia. apply N.mod_add. lia.
    - replace (W * a' + 3 * ((W * a + 3 * b + 9 * W * a') * 7)) with (W * a + 3 * b + (2 * (W * a + 3 * b) + 19 * (W * a')) * 10) by lia. apply N.mod_add. lia. }
  destruct Q as (z & Bz & Ez). exists (z + 48). split; [lia|]. split.
  { intros Hne Hz. assert (z = b) by lia. subst z.
    assert (R : (W * a') mod 10 = (W * a) mod 10).
    { pose proof (N.div_mod (W * a' + X * b) 10 ltac:(lia)) as E1. pose proof (N.div_mod (W * a + X * b) 10 ltac:(lia)) as E2.
      rewrite Ez in E1. set (q1 := (W * a' + X * b) / 10) in *. set (q2 := (W * a + X * b) / 10) in *. set (r := (W * a + X * b) mod 10) in *.
      clearbody q1 q2 r. destruct (N.le_gt_cases q1 q2) as [L|L].
      - replace (W * a) with (W * a' + (q2 - q1) * 10) by lia. now rewrite N.mod_add by lia.
      - replace (W * a') with (W * a + (q1 - q2) * 10) by lia. now rewrite N.mod_add by lia. }
    assert (a' <> a) by lia.
    pose proof (N.div_mod (W * a') 10 ltac:(lia)) as E1. pose proof (N.div_mod (W * a) 10 ltac:(lia)) as E2. rewrite R in E1.
    destruct HW as [->| ->]; lia. }
  assert (S1 : forall e, 48 <= e <= 57 -> (W * a' + X * (e - 48)) mod 10 = (W * a + X * b) mod 10 -> e = z + 48).
  { intros e He E. rewrite <- Ez in E.
    pose proof (N.div_mod (W * a' + X * (e - 48)) 10 ltac:(lia)) as E1. pose proof (N.div_mod (W * a' + X * z) 10 ltac:(lia)) as E2. rewrite E in E1.
    destruct HX as [->| ->]; lia. }
  split.
  - apply (T (z + 48)); [lia|]. now rewrite N.add_sub.
  - intros e He Hne. apply (T e He). intros E. apply Hne. now apply S1.
Qed.
Print Assumptions C85_one_in_ten.
(** Exchanging two digits with one (or three, five, ...) digits between them is never noticed. *)
Theorem C85_jump_exchange : forall y p u c v d w m,
  verifying y -> full_item y (u ++ c :: v ++ d :: w) -> barcode y p (u ++ c :: v ++ d :: w) = Ret (Ok m) ->
  Nat.odd (length v) = true -> exists m', barcode y p (u ++ d :: v ++ c :: w) = Ret (Ok m').
Proof.
  intros y p u c v d w m HV HF HB HO.
  assert (Dc : digit_char c /\ digit_char d).
  { destruct HF as [HF _]. apply Forall_app in HF. destruct HF as [_ HF]. apply Forall_cons_iff in HF. destruct HF as [H1 HF].
    apply Forall_app in HF. destruct HF as [_ HF]. apply Forall_cons_iff in HF. tauto. }
  destruct (two_wrong y p u c v d w d c m HV HF HB (proj2 Dc) (proj1 Dc)) as [T _]. apply T.
  unfold item_weight. rewrite !Nat.even_add. cbn [Nat.even]. rewrite <- Nat.negb_odd, HO. cbn [negb].
  destruct (Nat.even (length w)); cbn [eqb Bool.eqb]; f_equal; lia.
Qed.
Print Assumptions C85_jump_exchange.
(** A doubled digit misread as another doubled digit is noticed unless the digits differ by five. *)
Theorem C85_twins : forall y p u c w d m,
  verifying y -> full_item y (u ++ c :: c :: w) -> barcode y p (u ++ c :: c :: w) = Ret (Ok m) ->
  digit_char d -> d <> c ->
  (differ_by_5 c d -> exists m', barcode y p (u ++ d :: d :: w) = Ret (Ok m')) /\
  (~ differ_by_5 c d -> barcode y p (u ++ d :: d :: w) = Ret (Err EChecksum)).
Proof.
  intros y p u c w d m HV HF HB Hd Hne.
  assert (Dc : digit_char c).
  { destruct HF as [HF _]. apply Forall_app in HF. destruct HF as [_ HF]. apply Forall_cons_iff in HF. tauto. }
  destruct (two_wrong y p u c [] c w d d m HV HF HB Hd Hd) as [T1 T2]. cbn [app length] in *.
  assert (E : (item_weight (0 + 1 + length w) * (d - 48) + item_weight (length w) * (d - 48)) mod 10 =
              (item_weight (0 + 1 + length w) * (c - 48) + item_weight (length w) * (c - 48)) mod 10 <-> differ_by_5 c d).
  { unfold item_weight. rewrite Nat.even_add. cbn [Nat.even Nat.add]. unfold digit_char, differ_by_5 in *.
    set (x := d - 48). set (z := c - 48).
    assert (X : forall b, (if eqb false b then 1 else 3) + (if b then 1 else 3) = 4) by (intros []; reflexivity).
    rewrite <- !N.mul_add_distr_r, X. 
    pose proof (N.div_mod (4 * x) 10 ltac:(lia)) as E1. pose proof (N.div_mod (4 * z) 10 ltac:(lia)) as E2.
    split.
    - intros G. rewrite G in E1. lia.
    - intros G. assert (Y : x = z + 5 \/ z = x + 5) by lia. destruct Y as [-> | ->].
      + replace (4 * (z + 5)) with (4 * z + 2 * 10) by lia. apply N.mod_add. lia.
      + replace (4 * (x + 5)) with (4 * x + 2 * 10) by lia. symmetry. apply N.mod_add. lia. }
  rewrite E in T1, T2. split; assumption.
Qed.
Print Assumptions C85_twins.
Definition accepts (y : symbology) (s : str) : bool :=
  match barcode y Debug s with Ret (Ok _) => true | _ => false end.
Example C85_case :
  full_item SEan13 (lit "7501031311309") /\ accepts SEan13 (lit "7501031311309") = true
  (* 1 and 3 exchanged across another digit; 3 and 1 next to each other *)
  /\ accepts SEan13 (lit "7503011311309") = true /\ accepts SEan13 (lit "7501013311309") = false
  (* 11 to 66 and to 22 *)
  /\ accepts SEan13 (lit "7501031366309") = true /\ accepts SEan13 (lit "7501031322309") = false
  /\ accepts SEan8 (lit "55123457") = true /\ accepts SEan8 (lit "00123457") = true.
Proof. split; [split; [repeat constructor; discriminate | reflexivity]|]. repeat (split; [vm_compute; reflexivity|]). vm_compute. reflexivity. Qed.
