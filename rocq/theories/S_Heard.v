(** * Specification: what a Code 128 reader hears when SHIFT is written as the library does

    The library prints the character after SHIFT with the value it has in the current code
    set, the reader looks that value up in the other one of the sets A and B. *)
From Verif Require Import Rust S_Barcode S_Linear S_Tf S_Code128.

Inductive heard : Type := HToken (t : token) | HShift | HSet (k : cset).
Definition same_set (a b : cset) : bool :=
  match a, b with CA, CA | CB, CB | CC, CC => true | _, _ => false end.
(** A character written in set [k] and looked up in set [e] *)
Definition hear_char (k e : cset) (c : char) : heard :=
  if c =? SHIFT then HShift
  else if same_set k e then HToken (char_token c)
  else if c =? FNC4 then HSet k
  else if c =? 247 then HToken (TChar 31)
  else if c <? 32 then HToken (TChar (c + 96))
  else if (96 <=? c) && (c <? 127) then HToken (TChar (c - 96))
  else HToken (char_token c).
(** The reader is in set [r], [sh] tells whether it has just seen SHIFT; returns what it
    hears and how it is left. *)
Fixpoint hear_body (k r : cset) (sh : bool) (body : str) : list token * (cset * bool) :=
  match body with
  | [] => ([], (r, sh))
  | c :: tl =>
      match hear_char k (if sh then shifted r else r) c with
      | HShift => hear_body k r true tl
      | HSet r' => hear_body k r' false tl
      | HToken t => let '(ts, st) := hear_body k r false tl in (t :: ts, st)
      end
  end.
Definition hear_segment (k r : cset) (sh : bool) (body : str) : list token * (cset * bool) :=
  match k with
  | CC => (map char_token (settle_body None body), (CC, false))
  | _ => hear_body k r sh body
  end.
(** The character that changes to set [k] is taken for FNC4 by a reader that is already there. *)
Fixpoint hear_rest (r : cset) (sh : bool) (segs : list segment) : list token :=
  match segs with
  | [] => []
  | (k, body) :: tl =>
      let there := same_set k (if sh then shifted r else r) in
      let '(ts, (r', sh')) := hear_segment k (if there then r else k) false body in
      (if there then [TFnc 4] else []) ++ ts ++ hear_rest r' sh' tl
  end.
Definition hear (segs : list segment) : list token :=
  match segs with
  | [] => []
  | (k, body) :: tl =>
      let '(ts, (r', sh')) := hear_segment k k false body in ts ++ hear_rest r' sh' tl
  end.

(** Messages in which every SHIFT has its character in the same segment, and that is not FNC4 *)
Fixpoint shift_closed (pending : bool) (body : str) : Prop :=
  match body with
  | [] => pending = false
  | c :: tl =>
      if c =? SHIFT then shift_closed true tl
      else (pending = true -> c <> FNC4) /\ shift_closed false tl
  end.
Definition shifts_closed (segs : list segment) : Prop := Forall (fun x => shift_closed false (snd x)) segs.
(** The other character with the same value: control characters and lower case *)
Definition partner (c : char) : token :=
  if c =? 247 then TChar 31 else if c <? 32 then TChar (c + 96)
  else if (96 <=? c) && (c <? 127) then TChar (c - 96) else char_token c.
Fixpoint partnered (pending : bool) (body : str) : list token :=
  match body with
  | [] => []
  | c :: tl =>
      if c =? SHIFT then partnered true tl
      else (if pending then partner c else char_token c) :: partnered false tl
  end.
Definition exchanged (segs : list segment) : list token :=
  concat (map (fun x => partnered false (snd x)) segs).
