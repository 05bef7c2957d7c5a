(** * Property C72: one printed character replaced by something else *)
From Verif Require Import Rust M_Error Symbology M_Use S_Barcode S_Text S_Ean S_Linear S_Codabar S_Tf S_Code128 S_All S_Check128 S_Cell
  P_Cell P_Readable.

(** ** C72.  Every symbol with a check character is readable, and when the elements of any one
    of its characters (digit, data, check, start or stop) are replaced by as many elements of
    arbitrary widths, a reader that verifies the check character refuses it.  For Code 128 this is
    said of the symbols that can be read at all (C40) and the places that weigh something (C71). *)
Theorem C72_one_wrong_character : forall y p s m, str_len s < 2 ^ 48 -> checked y s -> barcode y p s = Ret (Ok m) ->
  (y = SCode128 -> read_modules y m <> None) ->
  exists ws r, m = render ws /\ read_as y ws = Some r /\ verified y r /\
    forall ws' r', cell_changed y ws ws' -> read_as y ws' = Some r' -> ~ verified y r'.
Proof. exact cell_detected. Qed.
Print Assumptions C72_one_wrong_character.
(** Code 128 symbols of up to 6489 characters are all readable. *)
Theorem C72_data : forall y p s m, str_len s < 2 ^ 48 -> checked y s -> barcode y p s = Ret (Ok m) -> (y = SCode128 -> len s <= 6489) ->
  exists ws r, m = render ws /\ read_as y ws = Some r /\ verified y r /\
    forall ws' r', cell_changed y ws ws' -> read_as y ws' = Some r' -> ~ verified y r'.
Proof.
  intros y p s m Hs HC H H128. apply (C72_one_wrong_character y p s m Hs HC H). intros ->. exact (readable_128 p s m H (H128 eq_refl)).
Qed.
Print Assumptions C72_data.

(** The fourth digit of 750103131130 (a 1 of set A) replaced by each of the twenty left-hand
    patterns: only the right one is read. *)
Definition fourth (b : list nat) : list nat :=
  firstn 11 (ean13_symbol [7;5;0;1;0;3;1;3;1;1;3;0;9]) ++ b ++ skipn 15 (ean13_symbol [7;5;0;1;0;3;1;3;1;1;3;0;9]).
Example C72_case : barcode SEan13 Debug (lit "750103131130") = Ret (Ok (render (fourth (nth 1 setA_table []))))
  /\ map (fun b => read_as SEan13 (fourth b)) setB_table = repeat None 10
  /\ map (fun b => read_as SEan13 (fourth b)) setA_table =
     None :: Some (Digits [7;5;0;1;0;3;1;3;1;1;3;0;9]) :: repeat None 8
  /\ cell_changed SEan13 (fourth [2;2;2;1]%nat) (fourth [1;2;2;2]%nat).
Proof.
  split; [vm_compute; reflexivity|]. split; [vm_compute; reflexivity|]. split; [vm_compute; reflexivity|].
  unfold fourth. eexists _, _, _, _. split; [reflexivity|]. split; [reflexivity|]. split; [discriminate|].
  split; [reflexivity|]. split; [reflexivity|]. exists 2%nat. split; [lia|]. left. reflexivity.
Qed.
