(** * Property C70: a symbol with a single wrong module is never misread *)
From Verif Require Import Rust M_Error Symbology M_Use S_Barcode S_Text S_Ean S_Linear S_Codabar S_Tf S_Code128 S_All S_Damage
  P_All P_Damage P_Readable.

(** ** C70.  Any one module printed as anything else: the reader of the symbology refuses.
    Readers of 2 of 5 may still read the same digits, since they accept wide elements of two
    or three modules.  Two-digit add-ons are left out, see below.  Symbols that cannot be read
    even when undamaged (Codabar with + signs, C30) have no reading [r]. *)
Theorem C70_one_wrong_module : forall y p s m m' r, str_len s < 2 ^ 48 -> barcode y p s = Ret (Ok m) ->
  read_modules y m = Some r -> (y = SSupp -> length s = 5%nat) -> one_wrong m m' ->
  match y with
  | SItf | SStf => read_modules y m' = None \/ read_modules y m' = Some r
  | _ => read_modules y m' = None
  end.
Proof.
  intros y p s m m' r Hs H HR H5 HW.
  destruct (one_wrong_read y p s m m' r Hs H HR H5 HW) as [E|[ET E]]; destruct y; auto; discriminate ET.
Qed.
Print Assumptions C70_one_wrong_module.
(** All symbols but those with a plus in Codabar, or of more than 6489 Code 128 characters, are readable. *)
Theorem C70_data : forall y p s m m', str_len s < 2 ^ 48 -> barcode y p s = Ret (Ok m) ->
  (y = SCodabar -> ~ In (ch "+") s) -> (y = SCode128 -> len s <= 6489) -> (y = SSupp -> length s = 5%nat) -> one_wrong m m' ->
  exists r, read_modules y m = Some r /\ meant y s (Some r) /\
    match y with
    | SItf | SStf => read_modules y m' = None \/ read_modules y m' = Some r
    | _ => read_modules y m' = None
    end.
Proof.
  intros y p s m m' Hs H HC H128 H5 HW. destruct (readable_meant y p s m Hs H HC H128) as (r & HR & HM).
  exists r. split; [exact HR|]. split; [exact HM|]. exact (C70_one_wrong_module y p s m m' r Hs H HR H5 HW).
Qed.
Print Assumptions C70_data.

(** Module [n] of a picture inverted *)
Definition invert (n : nat) (m : list N) : list N := firstn n m ++ match skipn n m with x :: t => (1 - x) :: t | [] => [] end.
Definition printed (y : symbology) (s : str) : list N := match barcode y Debug s with Ret (Ok t) => t | _ => [] end.
Lemma invert_wrong n m : (n < length m)%nat -> Forall (fun x => x = 0 \/ x = 1) m -> one_wrong m (invert n m).
Proof.
  intros Hn HF. unfold invert. destruct (skipn n m) as [|x t] eqn:E.
  - apply (f_equal (@length N)) in E. rewrite skipn_length in E. cbn [length] in E. lia.
  - exists (firstn n m), x, (1 - x), t. split; [rewrite <- E; now rewrite firstn_skipn|]. split; [reflexivity|].
    rewrite Forall_forall in HF. specialize (HF x). destruct HF as [->| ->]; try discriminate.
    rewrite <- (firstn_skipn n m), E. apply in_or_app. right. now left.
Qed.
(** Every module of some symbols inverted in turn; all refused *)
Example C70_case : map (fun x => map (fun n => read_modules (fst x) (invert n (printed (fst x) (snd x)))) (seq 0 (length (printed (fst x) (snd x)))))
    [(SEan8, lit "5512345"); (SSupp, lit "51234"); (SCode93, lit "AB"); (SCode11, lit "12"); (SCodabar, lit "A1B"); (SCode39, lit "A")] =
  [repeat None 67; repeat None 47; repeat None 55; repeat None 39; repeat None 31; repeat None 38].
Proof. vm_compute. reflexivity. Qed.
Example C70_case_one_wrong : one_wrong (printed SEan8 (lit "5512345")) (invert 40 (printed SEan8 (lit "5512345"))).
Proof. apply invert_wrong; [vm_compute; lia|]. repeat (apply Forall_cons; [vm_compute; auto|]). apply Forall_nil. Qed.
(** 2 of 5 symbols are sometimes still read, correctly. *)
Example C70_case_itf : map (fun x => filter (fun n => match read_modules (fst x) (invert n (printed (fst x) (snd x))) with Some _ => true | None => false end)
      (seq 0 (length (printed (fst x) (snd x))))) [(SItf, lit "1234"); (SStf, lit "1234")] = [[39%nat]; [71%nat]] /\
  read_modules SItf (invert 39 (printed SItf (lit "1234"))) = Some (Digits [1;2;3;4]) /\
  read_modules SStf (invert 71 (printed SStf (lit "1234"))) = Some (Digits [1;2;3;4]).
Proof. split; [vm_compute; reflexivity|]. split; vm_compute; reflexivity. Qed.

(** Two-digit add-ons are misread after a single wrong module: 01 as 04. *)
Theorem C70_ean2_misread : exists m m', barcode SSupp Debug (lit "01") = Ret (Ok m) /\ one_wrong m m' /\
  read_modules SSupp m = Some (Digits [0; 1]) /\ read_modules SSupp m' = Some (Digits [0; 4]).
Proof.
  exists (printed SSupp (lit "01")), (invert 15 (printed SSupp (lit "01"))).
  split; [vm_compute; reflexivity|]. split.
  - apply invert_wrong; [vm_compute; lia|]. repeat (apply Forall_cons; [vm_compute; auto|]). apply Forall_nil.
  - split; vm_compute; reflexivity.
Qed.
Print Assumptions C70_ean2_misread.
