(** * Specification: numbers written as text, and splitting texts *)
From Verif Require Import Rust S_Barcode S_Text.

(** ASCII digit, as a test *)
Definition digitb (c : char) : bool := (48 <=? c) && (c <=? 57).
(** Value of a sequence of decimal digits, most significant first *)
Definition decimal (ds : list N) : N := fold_left (fun v d => 10 * v + d) ds 0.
(** A natural number in its canonical decimal notation: at least one digit, only digits, no
    superfluous leading zero. *)
Definition read_dec (s : str) : option N :=
  match s with
  | [] => None
  | c :: tl =>
      if forallb digitb s && (match tl with [] => true | _ => negb (c =? 48) end)
      then Some (decimal (digits_of s)) else None
  end.
(** Two lowercase hexadecimal digits *)
Definition read_hex1 (c : char) : option N :=
  if digitb c then Some (c - 48)
  else if (97 <=? c) && (c <=? 102) then Some (c - 87)
  else None.
Definition read_hex2 (a b : char) : option N :=
  let? x := read_hex1 a in let? y := read_hex1 b in Some (16 * x + y).

(** The longest prefix of characters satisfying [f], and the rest *)
Fixpoint span (f : char -> bool) (s : str) : str * str :=
  match s with
  | c :: tl => if f c then let (a, b) := span f tl in (c :: a, b) else ([], s)
  | [] => ([], [])
  end.
(** The pieces of a text between separators *)
Fixpoint split_on (sep : char) (s : str) : list str :=
  match s with
  | [] => [[]]
  | c :: tl =>
      if c =? sep then [] :: split_on sep tl
      else match split_on sep tl with
           | l :: ls => (c :: l) :: ls
           | [] => [[c]]
           end
  end.
Definition is_space (c : char) : bool := (c =? 32) || (c =? 10) || (c =? 13) || (c =? 9).
Fixpoint skip_space (s : str) : str :=
  match s with
  | c :: tl => if is_space c then skip_space tl else s
  | [] => []
  end.
(** Remove a given prefix *)
Fixpoint eat (pre s : str) : option str :=
  match pre, s with
  | [], _ => Some s
  | a :: pre', b :: s' => if a =? b then eat pre' s' else None
  | _ :: _, [] => None
  end.
