(** * C106: symbols next to each other without quiet zones *)
From Verif Require Import Rust M_Error Symbology M_Use S_Barcode S_Ean S_Text S_Linear S_Codabar S_Tf S_Code128 S_All S_Cross P_Side2.

(** Two symbols next to each other, however small the space between them, or without any: they are not taken for one symbol. *)
Theorem C106_never_one : forall y p p' s s' m m' g, str_len s < 2 ^ 48 -> str_len s' < 2 ^ 48 ->
  barcode y p s = Ret (Ok m) -> barcode y p' s' = Ret (Ok m') -> y <> SCodabar -> read_modules y (m ++ repeat 0 g ++ m') = None.
Proof. exact side_by_side. Qed.
Print Assumptions C106_never_one.
(** Codabar has no start or stop pattern that is not a character: symbols one module apart are one symbol, that of both texts together;
    at any other distance they are not. *)
Theorem C106_codabar : forall p p' s s' m m' g, barcode SCodabar p s = Ret (Ok m) -> barcode SCodabar p' s' = Ret (Ok m') ->
  read_modules SCodabar (m ++ repeat 0 g ++ m') = if Nat.eqb g 1 then report SCodabar (s ++ s') else None.
Proof. exact codabar_side. Qed.
Print Assumptions C106_codabar.

Definition modules_of (y : symbology) (s : str) : list N := match barcode y Debug s with Ret (Ok m) => m | _ => [] end.
Definition together (y : symbology) (g : nat) (s s' : str) : option reading := read_modules y (modules_of y s ++ repeat 0 g ++ modules_of y s').
(** With the gap between two characters, and without any *)
Example C106_case :
  map (fun g => together SCode39 g (lit "AB") (lit "CD")) [0; 1; 2]%nat = [None; None; None]
  /\ map (fun g => together SItf g (lit "12") (lit "34")) [0; 1; 2; 3]%nat = [None; None; None; None]
  /\ together SCode128 0 [192; 65] [192; 66] = None
  /\ together SCode128 0 [] [192; 66] = Some (Tokens [TChar 66])
  /\ map (fun g => together SCodabar g (lit "A1A") (lit "B2B")) [0; 1; 2]%nat = [None; Some (Text (lit "A1AC2C")); None].
Proof. vm_compute. repeat split; reflexivity. Qed.
