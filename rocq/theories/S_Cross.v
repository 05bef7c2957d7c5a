(** * Specification: scan lines that cross from one symbol into another *)
From Verif Require Import Rust Symbology S_Barcode S_Ean S_Text S_Linear S_Codabar S_Tf S_Code128 S_All.

(** The beginning of the one list, up to item number [i], and the other list from item
    number [j] on.  A scan line that leaves one symbol and enters the next sees this of
    their modules. *)
Definition crossing {A} (i j : nat) (l l' : list A) : list A := firstn i l ++ skipn j l'.

(** Between which of the things shown a line may cross: before any of them, or behind the
    last one; between pairs in Interleaved 2 of 5. *)
Definition between (y : symbology) (t : list N) (i : nat) : Prop :=
  match y with
  | SItf => Nat.even i = true /\ (i <= length t)%nat
  | SCodabar | SSupp => (i < length t)%nat
  | _ => (i <= length t)%nat
  end.
(** What readers of symbologies without check characters report (Codabar: C30) *)
Definition report (y : symbology) (u : list N) : option reading :=
  match y with
  | SCodabar => if existsb (fun c => c =? ch "+") u then None else Some (Text (map exchange u))
  | SItf | SStf => Some (Digits u)
  | _ => Some (Text u)
  end.
