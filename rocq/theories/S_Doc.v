(** * Specification of book numbers (ISO 2108) and number systems *)
From Verif Require Import Rust S_Barcode S_Ean S_Text.

(** A ten-digit book number: nine digits and a check digit up to ten, written X; weights 10 to 1, modulo 11 *)
Fixpoint falling_sum (w : N) (l : list N) : N :=
  match l with
  | [] => 0
  | d :: tl => w * d + falling_sum (w - 1) tl
  end.
Definition isbn10 (l : list N) : Prop :=
  length l = 10%nat /\ Forall is_digit (firstn 9 l) /\ Forall (fun d => d <= 10) l /\ falling_sum 10 l mod 11 = 0.
(** The same book in thirteen digits: 978, the nine digits, the retail check digit *)
Definition isbn13_of (l n : list N) : Prop :=
  exists c, is_digit c /\ n = [9; 7; 8] ++ firstn 9 l ++ [c] /\ gs1_valid n.
Definition starts_with (l n : list N) : Prop := firstn (length l) n = l.
