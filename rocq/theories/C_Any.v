(** * C92: a reader that tries every symbology in both directions *)
From Verif Require Import Rust M_Error Symbology M_Use S_Barcode S_Text S_Ean S_Linear S_Codabar S_Tf S_Code128 S_All S_Cut S_Any
  P_All P_Any P_Stretch.

(** From behind, no symbol of any symbology can be read as a symbol of any symbology. *)
Theorem C92_nothing_backwards : forall y y' p s m r, str_len s < 2 ^ 48 -> (y = SCodabar -> cod_framed s) ->
  barcode y p s = Ret (Ok m) ->
  (y' = SCodabar -> exists t, r = Text t /\ cod_framed t) -> read_modules y' (rev m) <> Some r.
Proof. exact nothing_backwards. Qed.
Print Assumptions C92_nothing_backwards.

(** Whatever is found in a printed symbol, by any of the readers in either direction, is found from left to right, by a
    reader of this symbology (or of its twin), and is the same data. *)
Theorem C92_one_finding : forall y y' p s m r, str_len s < 2 ^ 48 -> (y = SCodabar -> cod_framed s) ->
  barcode y p s = Ret (Ok m) -> found y' r m ->
  same_kind y y' /\ read_modules y' m = Some r /\ exists r0, read_modules y m = Some r0 /\ same_item r r0.
Proof. exact found_once. Qed.
Print Assumptions C92_one_finding.
(** It is found, as the caller's data, unless a plus is printed in Codabar or a Code 128 symbol has more than 6489 characters. *)
Theorem C92_data_found : forall y p s m, str_len s < 2 ^ 48 -> barcode y p s = Ret (Ok m) ->
  (y = SCodabar -> cod_framed s /\ ~ In (ch "+") s) -> (y = SCode128 -> len s <= 6489) ->
  exists r, found y r m /\ meant y s (Some r).
Proof.
  intros y p s m Hs H HC H8. destruct (readable y p s m Hs H HC H8) as (r & R & A & HM). exists r. split; [|assumption].
  split; [now left|]. intros ->. destruct r as [l | t | l]; [|exists t; now split|]; cbn [meant] in HM; destruct (existsb (fun c : N => c =? ch "+") s); discriminate HM.
Qed.
Print Assumptions C92_data_found.

Definition readers : list symbology :=
  [SEan13; SEan8; SUpca; SSupp; SCode39; SCode39Checked; SCode93; SCode11; SCodabar; SCode128; SItf; SStf].
Definition findings (y : symbology) (s : str) : list (symbology * reading) :=
  match barcode y Debug s with
  | Ret (Ok m) => flat_map (fun z => flat_map (fun l => match read_modules z l with Some r => [(z, r)] | None => [] end) [m; rev m]) readers
  | _ => []
  end.
Example C92_case :
  findings SUpca (lit "01234567890") = [(SEan13, Digits [0;0;1;2;3;4;5;6;7;8;9;0;5]); (SUpca, Digits [0;1;2;3;4;5;6;7;8;9;0;5])] /\
  findings SItf (lit "12") = [(SItf, Digits [1;2])] /\
  findings SSupp (lit "52499") = [(SSupp, Digits [5;2;4;9;9])] /\
  findings SCode93 (lit "A/1") = [(SCode93, Text (lit "A/1"))] /\
  findings SCode39 (lit "A/1") = [(SCode39, Text (lit "A/1")); (SCode39Checked, Text (lit "A/1"))] /\
  findings SCodabar (lit "A12A") = [(SCodabar, Text (lit "A12A"))] /\ cod_framed (lit "A12A").
Proof.
  do 6 (split; [vm_compute; reflexivity|]). exists (ch "A"), (lit "12"), (ch "A"). split; [reflexivity|].
  split; [left; reflexivity|]. split; [left; reflexivity|]. 
  constructor; [|constructor; [|constructor]]; intros H; repeat destruct H as [H|H]; try discriminate H; exact H.
Qed.
(** The restriction on Codabar is needed: see C45_codabar_needs_frame and C65_unframed_codabar_alike. *)
