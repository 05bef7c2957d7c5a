(** * Property C102: where each character is printed *)
From Verif Require Import Rust M_Error Symbology M_Use S_Barcode S_Ean S_Text S_Linear S_Codabar S_Tf S_Code128 S_All S_Size S_Place P_Place.

(** Every digit, character or Code 128 value shown, check characters included, has its drawing
    at its place.  (The first digit of EAN-13 has none.) *)
Theorem C102_places : forall y p s m, str_len s < 2 ^ 48 -> barcode y p s = Ret (Ok m) ->
  exists t, shown y s t /\
    forall i c, (y = SEan13 -> i <> 0%nat) -> nth_error t i = Some c -> printed m (place y t i) (drawing y t i c).
Proof. exact symbol_printed. Qed.
Print Assumptions C102_places.
(** What is printed before a place is decided by what is shown before it; but the digits of an
    add-on decide together in which sets they are drawn. *)
Theorem C102_beginnings : forall y p p' s s' m m', str_len s < 2 ^ 48 -> str_len s' < 2 ^ 48 -> y <> SSupp ->
  barcode y p s = Ret (Ok m) -> barcode y p' s' = Ret (Ok m') ->
  exists t t', shown y s t /\ shown y s' t' /\
    forall i, (i < length t)%nat -> (i < length t')%nat -> firstn i t = firstn i t' ->
      place y t' i = place y t i /\ firstn (place y t i) m' = firstn (place y t i) m /\ (place y t i <= length m)%nat.
Proof. exact beginnings. Qed.
Print Assumptions C102_beginnings.
(** Without the exception it would be wrong. *)
Theorem C102_addon_beginnings : exists s s' m m',
  barcode SSupp Debug s = Ret (Ok m) /\ barcode SSupp Debug s' = Ret (Ok m') /\
  firstn 1 s = firstn 1 s' /\ length s = length s' /\ firstn 13 m' <> firstn 13 m.
Proof.
  exists (lit "12"), (lit "14"). do 2 eexists. split; [vm_compute; reflexivity|]. split; [vm_compute; reflexivity|].
  split; [reflexivity|]. split; [reflexivity|]. vm_compute. discriminate.
Qed.
Print Assumptions C102_addon_beginnings.
Definition modules_from (o n : nat) (r : M (result (list N))) : list N := match r with Ret (Ok m) => firstn n (skipn o m) | _ => [] end.
Example C102_case :
  shown SCode11 (lit "10-2") (lit "10-24") /\ place SCode11 (lit "10-24") 3 = 30%nat /\
  modules_from 30 7 (barcode SCode11 Debug (lit "10-2")) = modules "1001011" /\ render (c11_pattern (ch "2")) = modules "1001011" /\
  drawing SEan13 [7;5;0;1;0;3;1;3;1;1;3;0;9] 3 1 = modules "0011001" /\ place SEan13 [7;5;0;1;0;3;1;3;1;1;3;0;9] 3 = 17%nat /\
  modules_from 17 7 (barcode SEan13 Release (lit "750103131130")) = modules "0011001" /\
  place SItf [1;2;3;4] 3 = 22%nat /\ modules_from 22 18 (barcode SItf Debug (lit "1234")) = render (itf_pair 3 (3, 4)) /\
  modules_from 11 10 (barcode SCodabar Debug (lit "AB+")) = render (cod_pattern (ch "C")) /\
  modules_from 22 12 (barcode SCodabar Debug (lit "AB+")) = modules "101100110011".
Proof. repeat split; vm_compute; reflexivity. Qed.
