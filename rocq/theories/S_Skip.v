(** * Specification: printed characters missing, or printed again *)
From Verif Require Import Rust Symbology S_Barcode S_Text S_Linear S_Tf S_Code128 S_All.
Local Open Scope nat_scope.

(** Elements in front of the first data character, and from one data character to the next
    (interleaved 2 of 5: pair of digits) *)
Definition lead (y : symbology) : nat :=
  match y with SCode39 | SCode39Checked => 10 | SCodabar => 8 | SItf => 4 | _ => 6 end.
Definition stride (y : symbology) : nat :=
  match y with SCode39 | SCode39Checked | SItf | SStf => 10 | SCodabar => 8 | _ => 6 end.

(** The first [i] items, and then those from number [j] on: the items from [i] to [j] are
    missing when [i < j], those from [j] to [i] come twice when [j < i]. *)
Definition mend {A} (i j : nat) (l : list A) : list A := firstn i l ++ skipn j l.
(** The same of the data characters of a symbol *)
Definition splice (y : symbology) (i j : nat) (ws : list nat) : list nat :=
  mend (lead y + stride y * i) (lead y + stride y * j) ws.

(** Data characters in what is read: all of them, but Codabar's start and stop *)
Definition characters (y : symbology) (r : reading) : nat :=
  match y, r with
  | SCodabar, Text t => length t - 2
  | SItf, Digits l => Nat.div2 (length l)
  | _, Text t => length t
  | _, Digits l => length l
  | _, Tokens l => length l
  end.
Definition spliced (y : symbology) (i j : nat) (r : reading) : reading :=
  match y, r with
  | SCodabar, Text t => Text (mend (S i) (S j) t)
  | SItf, Digits l => Digits (mend (2 * i) (2 * j) l)
  | _, Text t => Text (mend i j t)
  | _, Digits l => Digits (mend i j l)
  | _, Tokens l => Tokens (mend i j l)
  end.

(** Sum of values *)
Definition total (vs : list N) : N := fold_right N.add 0%N vs.
(** What Code 128 characters mean after a start character *)
Definition decode_start (st : N) (data : list N) : option (list token) :=
  (if st =? 103 then decode CA false data
   else if st =? 104 then decode CB false data
   else if st =? 105 then decode CC false data
   else None)%N.
