(** * Specification: a reader of JSON (RFC 8259)

    Stricter than the standard: numbers are natural numbers without leading zeros, strings
    have no escapes.  Whatever this reader accepts is well-formed JSON with the meaning it
    returns. *)
From Verif Require Import Rust S_Barcode S_Text S_Num.

Inductive json : Type :=
| JNum (n : N)
| JStr (s : str)
| JArr (l : list json)
| JObj (m : list (str * json)).

(** A quoted string; 34 is the quote, 92 the backslash *)
Definition json_plain (c : char) : bool := (32 <=? c) && negb (c =? 34) && negb (c =? 92).
Definition json_string (s : str) : option (str * str) :=
  match s with
  | 34 :: r => let (a, b) := span json_plain r in
               match b with 34 :: b' => Some (a, b') | _ => None end
  | _ => None
  end.
Definition json_number (s : str) : option (N * str) :=
  let (a, b) := span digitb s in let? n := read_dec a in Some (n, b).

(** 123 125 are the braces, 91 93 the brackets, 44 the comma, 58 the colon *)
Fixpoint json_value (fuel : nat) (s : str) : option (json * str) :=
  match fuel with
  | O => None
  | S f =>
      match skip_space s with
      | 123 :: r =>
          match skip_space r with
          | 125 :: r' => Some (JObj [], r')
          | _ => let? x := json_members f r in Some (JObj (fst x), snd x)
          end
      | 91 :: r =>
          match skip_space r with
          | 93 :: r' => Some (JArr [], r')
          | _ => let? x := json_elements f r in Some (JArr (fst x), snd x)
          end
      | 34 :: r => let? x := json_string (34 :: r) in Some (JStr (fst x), snd x)
      | r => let? x := json_number r in Some (JNum (fst x), snd x)
      end
  end
with json_elements (fuel : nat) (s : str) : option (list json * str) :=
  match fuel with
  | O => None
  | S f =>
      let? v := json_value f s in
      match skip_space (snd v) with
      | 44 :: r => let? x := json_elements f r in Some (fst v :: fst x, snd x)
      | 93 :: r => Some ([fst v], r)
      | _ => None
      end
  end
with json_members (fuel : nat) (s : str) : option (list (str * json) * str) :=
  match fuel with
  | O => None
  | S f =>
      let? k := json_string (skip_space s) in
      match skip_space (snd k) with
      | 58 :: r =>
          let? v := json_value f r in
          match skip_space (snd v) with
          | 44 :: r' => let? x := json_members f r' in Some ((fst k, fst v) :: fst x, snd x)
          | 125 :: r' => Some ([(fst k, fst v)], r')
          | _ => None
          end
      | _ => None
      end
  end.
(** A JSON text is one value; every nested call consumes a character, so twice the length
    is enough fuel *)
Definition read_json (s : str) : option json :=
  let? x := json_value (2 * length s) s in
  match skip_space (snd x) with [] => Some (fst x) | _ => None end.
