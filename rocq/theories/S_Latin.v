(** * Specification: texts and GS1 element strings in Code 128 *)
From Verif Require Import Rust Symbology S_Barcode S_Ean S_Text S_Linear S_Codabar S_Tf S_Code128 S_All.

(** ** What a reader transmits (ISO/IEC 15417, 4.3.4): FNC4 adds 128 to the next character, two in a row add 128
    to all characters until two in a row again, and one of them then exempts the next character. *)
Fixpoint transmit (latched once : bool) (ts : list token) : list N :=
  match ts with
  | [] => []
  | TChar c :: tl => (if xorb latched once then c + 128 else c) :: transmit latched false tl
  | TFnc 4 :: tl => if once then transmit (negb latched) false tl else transmit latched true tl
  | TFnc _ :: tl => transmit latched once tl
  end.
Definition read_text (m : list N) : option (list N) :=
  match read_modules SCode128 m with
  | Some (Tokens ts) => Some (transmit false false ts)
  | _ => None
  end.

(** ** How a caller can write any text of characters below 256: control characters in code set A, the others in
    code set B, U+00F7 for DEL, FNC4 before those from 128 on, and a code set character where the code set changes *)
Definition home (c : char) : cset := if c mod 128 <? 32 then CA else CB.
Definition is_A (k : cset) : bool := match k with CA => true | _ => false end.
Definition spelled (c : char) : str :=
  (if 128 <=? c then [FNC4] else []) ++ [if c mod 128 =? 127 then 247 else c mod 128].
Fixpoint text_segments (t : str) : list segment :=
  match t with
  | [] => []
  | c :: tl =>
      match text_segments tl with
      | (k, body) :: rest =>
          if Bool.eqb (is_A k) (is_A (home c)) then (k, spelled c ++ body) :: rest
          else (home c, spelled c) :: (k, body) :: rest
      | [] => [(home c, spelled c)]
      end
  end.
Definition text_message (t : str) : str := spell (text_segments t).

(** ** GS1-128: FNC1 comes first, and fields of variable length are parted by FNC1, transmitted as GS (29) *)
Definition gs1_transmit (ts : list token) : option (list N) :=
  match ts with
  | TFnc 1 :: tl => Some (lit "]C1" ++ map (fun t => match t with TChar c => c | TFnc _ => 29 end) tl)
  | _ => None
  end.
Definition read_gs1 (m : list N) : option (list N) :=
  match read_modules SCode128 m with
  | Some (Tokens ts) => gs1_transmit ts
  | _ => None
  end.
Fixpoint joined_by (sep : list N) (fields : list (list N)) : list N :=
  match fields with
  | [] => []
  | [f] => f
  | f :: tl => f ++ sep ++ joined_by sep tl
  end.
(** In code set B, or in code set C when all fields are even numbers of digits *)
Definition gs1_message (k : cset) (fields : list str) : str := set_char k :: FNC1 :: joined_by [FNC1] fields.
Definition gs1_field (k : cset) (f : str) : Prop :=
  match k with
  | CC => Forall (fun c => 48 <= c <= 57) f /\ Nat.even (length f) = true
  | CB => Forall (fun c => 32 <= c <= 126) f
  | CA => Forall (fun c => c <= 95) f
  end.
