(** * Specification: the structure symbol characters have by their standards' rules, without tables

    Two of five, three of nine, sums of modules and parities.  The texts of the standards give
    these rules beside the tables; the tables of the other S files are not used here. *)
From Verif Require Import Rust Symbology S_Text S_Linear.

Definition wides (ws : list nat) : nat := length (filter (Nat.leb 2) ws).
(** Every other element: bars of a character that begins with a bar, and its spaces *)
Fixpoint odd_ones (ws : list nat) : list nat :=
  match ws with
  | x :: _ :: tl => x :: odd_ones tl
  | l => l
  end.
Definition even_ones (ws : list nat) : list nat := odd_ones (List.tl ws).

(** Weights 1, 2, 4, 7 and none: the two wide ones of five elements add up to the digit, eleven counting as nought *)
Fixpoint weigh_wides (weights : list N) (ws : list nat) : N :=
  match weights, ws with
  | x :: xs, w :: tl => (if Nat.leb 2 w then x else 0) + weigh_wides xs tl
  | _, _ => 0
  end.
Definition two_of_five (d : N) (ws : list nat) : Prop :=
  length ws = 5%nat /\ wides ws = 2%nat /\ weigh_wides [1; 2; 4; 7; 0] ws mod 11 = d.

(** Code 39: bars by the place in a row of ten, the wide space by the row; four characters have wide spaces only *)
Definition row (s : str) (spaces : list nat) (c : char) (ws : list nat) : Prop :=
  exists k, nth_error s k = Some c /\ two_of_five ((N.of_nat k + 1) mod 10) (odd_ones ws) /\ even_ones ws = spaces.
Definition three_of_nine (c : char) (ws : list nat) : Prop :=
  length ws = 9%nat /\ wides ws = 3%nat /\
  (row (lit "1234567890") [1; 2; 1; 1]%nat c ws \/
   row (lit "ABCDEFGHIJ") [1; 1; 2; 1]%nat c ws \/
   row (lit "KLMNOPQRST") [1; 1; 1; 2]%nat c ws \/
   row (lit "UVWXYZ-. *") [2; 1; 1; 1]%nat c ws \/
   exists k, nth_error (lit "$/+%") k = Some c /\ odd_ones ws = [1; 1; 1; 1; 1]%nat /\ nth_error (even_ones ws) (3 - k) = Some 1%nat).

(** Code 11: 1 to 8 as in two of five, the others have one wide element *)
Definition code_11 (c : char) (ws : list nat) : Prop :=
  (49 <= c <= 56 /\ two_of_five (c - 48) ws) \/
  (length ws = 5%nat /\ wides ws = 1%nat /\ exists k, nth_error ws k = Some 2%nat /\ nth_error [ch "9"; 0; ch "-"; 0; ch "0"] k = Some c).

(** Codabar: wide bars and wide spaces by kind of character *)
Definition codabar_kind (c : char) (ws : list nat) : Prop :=
  length ws = 7%nat /\
  ((In c (lit "0123456789-$") /\ wides (odd_ones ws) = 1%nat /\ wides (even_ones ws) = 1%nat) \/
   (In c (lit ":/.+") /\ wides (odd_ones ws) = 3%nat /\ wides (even_ones ws) = 0%nat) \/
   (In c (lit "ABCD") /\ wides (odd_ones ws) = 1%nat /\ wides (even_ones ws) = 2%nat)).

(** Retail digits: seven modules, two bars, two spaces; odd or even number of dark modules *)
Definition left_digit (even : bool) (ws : list nat) : Prop :=
  length ws = 4%nat /\ list_sum ws = 7%nat /\ Nat.even (list_sum (even_ones ws)) = even.
Definition right_digit (ws : list nat) : Prop :=
  length ws = 4%nat /\ list_sum ws = 7%nat /\ Nat.even (list_sum (odd_ones ws)) = true.
Definition evens (l : list bool) : nat := length (filter (fun x => x) l).
Definition halves (n : nat) (parities : list bool -> Prop) (ws : list nat) : Prop :=
  exists ps l r, length ps = n /\ length r = n /\ Forall2 left_digit ps l /\ Forall right_digit r /\ parities ps /\
    ws = [1; 1; 1]%nat ++ concat l ++ [1; 1; 1; 1; 1]%nat ++ concat r ++ [1; 1; 1]%nat.

(** Characters separated by narrow spaces *)
Definition spaced (bs : list (list nat)) (ws : list nat) : Prop := ws ++ [1%nat] = concat (map (fun b => b ++ [1%nat]) bs).

(** Two digits, one in the bars and one in the spaces *)
Definition woven (x : N * N) (ws : list nat) : Prop :=
  length ws = 10%nat /\ two_of_five (fst x) (odd_ones ws) /\ two_of_five (snd x) (even_ones ws).
Fixpoint two_by_two (l : list N) : list (N * N) :=
  match l with
  | a :: b :: tl => (a, b) :: two_by_two tl
  | _ => []
  end.

(** Structure of the whole symbol of a string *)
Definition built (y : symbology) (s : str) (ws : list nat) : Prop :=
  match y with
  | SEan13 => halves 6 (fun ps => hd true ps = false /\ (evens ps = 0 \/ evens ps = 3)%nat) ws
  | SUpca => halves 6 (fun ps => evens ps = 0%nat) ws
  | SEan8 => halves 4 (fun ps => evens ps = 0%nat) ws
  | SSupp => exists ps l, Forall2 left_digit ps l /\ (length ps = 2%nat \/ (length ps = 5%nat /\ evens ps = 2%nat)) /\
      ws ++ [1; 1]%nat = [1; 1; 2]%nat ++ concat (map (fun b => b ++ [1; 1]%nat) l)
  | SCode39 => exists bs, Forall2 three_of_nine (lit "*" ++ s ++ lit "*") bs /\ spaced bs ws
  | SCode39Checked => exists c bs, Forall2 three_of_nine (lit "*" ++ s ++ c :: lit "*") bs /\ spaced bs ws
  | SCode93 => exists bs, length bs = (length s + 4)%nat /\ Forall (fun b => length b = 6%nat /\ list_sum b = 9%nat) bs /\ ws = concat bs ++ [1%nat]
  | SCode11 => exists cs a bs z, (length cs = 1 \/ length cs = 2)%nat /\ Forall2 code_11 (s ++ cs) bs /\
      a = [1; 1; 2; 2; 1]%nat /\ z = a /\ spaced (a :: bs ++ [z]) ws
  | SCodabar => exists bs, Forall2 codabar_kind s bs /\ spaced bs ws
  | SCode128 => exists bs, Forall (fun b => length b = 6%nat /\ list_sum b = 11%nat /\ Nat.even (list_sum (odd_ones b)) = true) bs /\
      ws = concat bs ++ [2; 3; 3; 1; 1; 1; 2]%nat
  | SItf => exists ds bs, (ds = digits_of s \/ exists c, ds = digits_of s ++ [c]) /\ Nat.even (length ds) = true /\
      Forall2 woven (two_by_two ds) bs /\ ws = [1; 1; 1; 1]%nat ++ concat bs ++ [2; 1; 1]%nat
  | SStf => exists bs, Forall2 (fun d b => length b = 10%nat /\ two_of_five d (odd_ones b) /\ even_ones b = [1; 1; 1; 1; 1]%nat) (digits_of s) bs /\
      ws = [2; 1; 2; 1; 1; 1]%nat ++ concat bs ++ [2; 1; 1; 1; 2]%nat
  end.
