(** * Property C65: symbols of one symbology are never taken for symbols of another *)
From Verif Require Import Rust M_Error Symbology M_Use S_Barcode S_Text S_Ean S_Linear S_Codabar S_Tf S_Code128 S_All
  P_All P_Apart.

(** ** C65.  [read_modules y'] is the reader of symbology [y'].  Codabar symbols are those with
    start and stop characters, on either side. *)
Theorem C65_symbols_apart : forall y y' p s m r, str_len s < 2 ^ 48 -> (y = SCodabar -> cod_framed s) ->
  barcode y p s = Ret (Ok m) ->
  read_modules y' m = Some r -> (y' = SCodabar -> exists t, r = Text t /\ cod_framed t) -> same_kind y y'.
Proof. exact symbols_apart. Qed.
Print Assumptions C65_symbols_apart.
Example C65_same_kind_meaning : forall y y', same_kind y y' <->
  y = y' \/ (y = SEan13 /\ y' = SUpca) \/ (y = SUpca /\ y' = SEan13) \/
  (y = SCode39 /\ y' = SCode39Checked) \/ (y = SCode39Checked /\ y' = SCode39).
Proof. intros y y'. destruct y, y'; cbn [same_kind]; intuition discriminate. Qed.
(** What an EAN-13 reader makes of a UPC-A symbol and conversely *)
Theorem C65_upca_ean13 : forall m ds,
  read_modules SUpca m = Some (Digits ds) <-> read_modules SEan13 m = Some (Digits (0 :: ds)).
Proof.
  intros m ds. unfold read_modules. destruct (scan m) as [ws|]; cbn [obind read_as]; [|split; discriminate].
  pose proof (upca_is_ean13 ws ds) as H. split; intros E.
  - destruct (read_upca ws) as [l|] eqn:U; [|discriminate]. cbn [option_map] in E. injection E as ->.
    rewrite (proj1 H eq_refl). reflexivity.
  - destruct (read_ean13 ws) as [l|] eqn:U; [|discriminate]. cbn [option_map] in E. injection E as ->.
    rewrite (proj2 H eq_refl). reflexivity.
Qed.
Print Assumptions C65_upca_ean13.
Example C65_case : exists m, barcode SUpca Debug (lit "01234567890") = Ret (Ok m) /\
  read_modules SUpca m = Some (Digits [0;1;2;3;4;5;6;7;8;9;0;5]) /\
  read_modules SEan13 m = Some (Digits [0;0;1;2;3;4;5;6;7;8;9;0;5]) /\
  map (fun y => match read_modules y m with Some _ => true | None => false end)
    [SEan8; SSupp; SCode39; SCode93; SCode11; SCodabar; SCode128; SItf; SStf] = repeat false 9.
Proof.
  exists (match barcode SUpca Debug (lit "01234567890") with Ret (Ok m) => m | _ => [] end).
  split; [vm_compute; reflexivity|]. split; [vm_compute; reflexivity|]. split; vm_compute; reflexivity.
Qed.
(** The restriction on Codabar is needed: without start and stop characters, which the code does
    not ask for (C32), Codabar and Code 11 print the same bars for different data. *)
Theorem C65_unframed_codabar_alike : exists s t m, s <> t /\
  (forall p, barcode SCode11 p s = Ret (Ok m)) /\ (forall p, barcode SCodabar p t = Ret (Ok m)).
Proof.
  exists (lit "02555"), (lit "$4./:1"),
         (match barcode SCode11 Debug (lit "02555") with Ret (Ok m) => m | _ => [] end).
  split; [intros H; vm_compute in H; discriminate|].
  split; intros []; vm_compute; reflexivity.
Qed.
Print Assumptions C65_unframed_codabar_alike.
