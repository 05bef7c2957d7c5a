(** * Printed symbols are readable *)
From Verif Require Import Rust M_Error Symbology M_Use S_Barcode S_Text S_Ean S_Linear S_Codabar S_Tf S_Code128 S_All
  P_All P_Stretch.

Lemma readable_meant y p s m : str_len s < 2 ^ 48 -> barcode y p s = Ret (Ok m) ->
  (y = SCodabar -> ~ In (ch "+") s) -> (y = SCode128 -> len s <= 6489) ->
  exists r, read_modules y m = Some r /\ meant y s (Some r).
Proof.
  intros Hs H HC H128. assert (D : y = SCodabar \/ y <> SCodabar) by (destruct y; (left; reflexivity) || (right; discriminate)). destruct D as [-> | N].
  - pose proof (barcode_meant _ p s m Hs H) as HM. cbn [meant] in *.
    destruct (existsb (fun c => c =? ch "+") s) eqn:E; [|eauto]. exfalso. apply existsb_exists in E. destruct E as (c & Hc & E).
    apply N.eqb_eq in E. subst c. exact (HC eq_refl Hc).
  - destruct (readable y p s m Hs H ltac:(congruence) H128) as (r & R & _ & M). eauto.
Qed.
Lemma str_len_upper s : str_len s <= 4 * len s.
Proof.
  unfold len. induction s as [|c s IH]; [reflexivity|]. cbn [length]. unfold str_len in *. cbn [map fold_right].
  assert (utf8_len c <= 4) by (unfold utf8_len; repeat (destruct (_ <? _)); lia). lia.
Qed.
Lemma readable_128 p s m : barcode SCode128 p s = Ret (Ok m) -> len s <= 6489 -> read_modules SCode128 m <> None.
Proof.
  intros H HL. destruct (readable_meant SCode128 p s m) as (r & R & _); [|assumption|discriminate|auto|congruence].
  pose proof (str_len_upper s). lia.
Qed.
