(** * Property C75: a bar or space printed too wide or too narrow is never misread *)
From Verif Require Import Rust M_Error Symbology M_Use S_Barcode S_Text S_Ean S_Linear S_Codabar S_Tf S_Code128 S_All S_Cut S_Stretch
  P_All P_Damage P_Stretch.

(** ** C75.  Print any number of equal modules too many or too few at one place of a symbol
    (a bar or space lost, added, widened or narrowed by any amount): the reader of the symbology
    refuses.  Readers of 2 of 5, which tell wide from narrow only, refuse or still read the caller's digits.
    Codabar strings are framed and free of + signs (C30, C32), Code 128 strings not longer than
    6489 characters (C41). *)
Theorem C75_stretched : forall y p s m m', str_len s < 2 ^ 48 -> barcode y p s = Ret (Ok m) ->
  (y = SCodabar -> cod_framed s /\ ~ In (ch "+") s) -> (y = SCode128 -> len s <= 6489) ->
  stretched m m' -> forall r', read_modules y m' = Some r' -> accepts y r' ->
  (y = SItf \/ y = SStf) /\ read_modules y m = Some r' /\ meant y s (Some r').
Proof.
  intros y p s m m' Hs H HC H128 HS r' HR HA.
  destruct (stretched_read y p s m m' r' Hs H HC H128 HS HR HA) as (HT & HE & HM).
  split; [destruct y; auto; discriminate | auto].
Qed.
Print Assumptions C75_stretched.
(** In particular all other symbologies but Codabar refuse outright. *)
Theorem C75_stretched_refused : forall y p s m m', str_len s < 2 ^ 48 -> barcode y p s = Ret (Ok m) ->
  ~ In y [SItf; SStf; SCodabar] -> (y = SCode128 -> len s <= 6489) ->
  stretched m m' -> read_modules y m' = None.
Proof.
  intros y p s m m' Hs H HY H128 HS. destruct (read_modules y m') as [r'|] eqn:E; [exfalso | reflexivity].
  destruct (C75_stretched y p s m m' Hs H) with (r' := r') as [[->| ->] _]; try assumption.
  - intros ->. exfalso. apply HY. cbn. tauto.
  - destruct y; try exact I. exfalso. apply HY. cbn. tauto.
  - apply HY. cbn. tauto.
  - apply HY. cbn. tauto.
Qed.
Print Assumptions C75_stretched_refused.
(** A Codabar reader that does not ask for start and stop characters is misled: the 0 of A0D
    with one space widened reads as the start character C. *)
Theorem C75_codabar_unframed_misread : exists m m', barcode SCodabar Debug (lit "A0D") = Ret (Ok m) /\ stretched m m' /\
  read_modules SCodabar m = Some (Text (lit "A0D")) /\ read_modules SCodabar m' = Some (Text (lit "ACD")).
Proof.
  eexists. exists (modules "10110010010101001001101010011001"). split; [vm_compute; reflexivity|]. split.
  - exists (modules "10110010010101"), 0, 1%nat, 2%nat, (modules "1001101010011001").
    split; [vm_compute; reflexivity|]. split; [vm_compute; reflexivity|]. split; [discriminate|]. right. split; vm_compute; tauto.
  - split; vm_compute; reflexivity.
Qed.
Print Assumptions C75_codabar_unframed_misread.

(** Element [i] of a symbol set to width [w] *)
Definition printed (y : symbology) (s : str) : list N := match barcode y Debug s with Ret (Ok t) => t | _ => [] end.
Definition resize (i w : nat) (ws : list nat) : list nat := firstn i ws ++ w :: skipn (S i) ws.
Definition resized (y : symbology) (s : str) (w : nat) : list (option reading) :=
  match scan (printed y s) with
  | Some ws => map (fun i => if Nat.eqb (nth i ws 0%nat) w then None else read_modules y (render (resize i w ws))) (seq 0 (length ws))
  | None => []
  end.
Example C75_case : map (fun x => map (resized (fst x) (snd x)) [0;1;2;3;5]%nat)
    [(SEan8, lit "5512345"); (SSupp, lit "51"); (SCode93, lit "AB"); (SCode11, lit "12"); (SCode39, lit "A")] =
  [repeat (repeat None 43) 5; repeat (repeat None 13) 5; repeat (repeat None 37) 5; repeat (repeat None 29) 5; repeat (repeat None 29) 5].
Proof. vm_compute. reflexivity. Qed.
Example C75_case_stretched : stretched (modules "110101") (modules "11000101") /\ stretched (modules "110101") (modules "11101")
  /\ stretched (modules "110101") (modules "0101").
Proof.
  split; [|split].
  - exists (modules "11"), 0, 1%nat, 3%nat, (modules "101"). do 2 (split; [vm_compute; reflexivity|]).
    split; [discriminate | right; split; vm_compute; tauto].
  - exists (modules "11"), 0, 1%nat, 0%nat, (modules "101"). do 2 (split; [vm_compute; reflexivity|]).
    split; [discriminate | right; split; vm_compute; tauto].
  - exists [], 1, 2%nat, 0%nat, (modules "0101"). do 2 (split; [vm_compute; reflexivity|]).
    split; [discriminate | now left].
Qed.
(** Interleaved 2 of 5: a wide bar of 1234 printed one module wider or narrower is still read. *)
Example C75_case_itf : filter (fun x => match x with Some _ => true | None => false end) (resized SItf (lit "1234") 2) =
    repeat (Some (Digits [1;2;3;4])) 8
  /\ filter (fun x => match x with Some _ => true | None => false end) (resized SItf (lit "1234") 5) = [].
Proof. split; vm_compute; reflexivity. Qed.
