(** * Specification of Code 128 (ISO/IEC 15417)

    Nothing here refers to the model. *)
From Verif Require Import Rust S_Barcode S_Linear S_Tf.

(** ** Code sets, and how callers write them: the library's documentation reserves
    U+00C0, U+0181, U+0106 for code sets A, B, C, U+0179 to U+017C for FNC1 to FNC4 and
    U+017D for SHIFT; U+00F7 stands for DEL. *)
Inductive cset : Type := CA | CB | CC.
Definition set_char (k : cset) : char := match k with CA => 192 | CB => 385 | CC => 262 end.
Definition FNC1 : char := 377.
Definition FNC2 : char := 378.
Definition FNC3 : char := 379.
Definition FNC4 : char := 380.
Definition SHIFT : char := 381.

Definition digit (c : char) : bool := (48 <=? c) && (c <=? 57).
Definition legal (k : cset) (c : char) : Prop :=
  match k with
  | CA => c < 96 \/ In c [FNC1; FNC2; FNC3; FNC4; SHIFT]
  | CB => 32 <= c <= 126 \/ c = 247 \/ In c [FNC1; FNC2; FNC3; FNC4; SHIFT]
  | CC => digit c = true \/ c = FNC1
  end.

(** ** The input language: segments, each a code set and a body *)
Definition segment : Type := cset * str.
Definition spell (segs : list segment) : str :=
  concat (map (fun x => set_char (fst x) :: snd x) segs).
Definition digits_in (s : str) : nat := length (filter digit s).
Definition segment_ok (x : segment) : Prop :=
  Forall (legal (fst x)) (snd x) /\ (fst x = CC -> Nat.even (digits_in (snd x)) = true).
Fixpoint all_change (ks : list cset) : Prop :=
  match ks with
  | k :: (k' :: _) as tl => k <> k' /\ all_change tl
  | _ => True
  end.
Definition message_ok (segs : list segment) : Prop :=
  segs <> [] /\ Forall segment_ok segs /\ all_change (map fst segs).

(** ** Symbol values *)
Definition start_value (k : cset) : N := match k with CA => 103 | CB => 104 | CC => 105 end.
(** CODE A, CODE B, CODE C *)
Definition switch_value (k : cset) : N := match k with CA => 101 | CB => 100 | CC => 99 end.
Definition fn_value (k : cset) (c : char) : N :=
  if c =? FNC1 then 102 else if c =? FNC2 then 97 else if c =? FNC3 then 96
  else if c =? SHIFT then 98 else (* FNC4 *) match k with CA => 101 | _ => 100 end.
Definition char_value (k : cset) (c : char) : N :=
  match k with
  | CA => if c <? 32 then c + 64 else if c <? 96 then c - 32 else fn_value k c
  | _ => if c <? 127 then c - 32 else if c =? 247 then 95 else fn_value k c
  end.
Definition pair_value (x y : char) : N := 10 * (x - 48) + (y - 48).
(** Code set C: a pair of digits is one symbol; its place is that of the second digit. *)
Fixpoint pair_values (first : option char) (body : str) : list N :=
  match body with
  | [] => []
  | c :: tl =>
      if digit c then
        match first with
        | None => pair_values (Some c) tl
        | Some x => pair_value x c :: pair_values None tl
        end
      else fn_value CC c :: pair_values first tl
  end.
Definition body_values (k : cset) (body : str) : list N :=
  match k with
  | CC => pair_values None body
  | _ => map (char_value k) body
  end.
Definition message_values (segs : list segment) : list N :=
  match segs with
  | [] => []
  | (k, body) :: tl =>
      start_value k :: body_values k body
        ++ concat (map (fun x => switch_value (fst x) :: body_values (fst x) (snd x)) tl)
  end.

(** Check value: start + sum of position times value, modulo 103 *)
Fixpoint position_sum (i : N) (vs : list N) : N :=
  match vs with
  | [] => 0
  | v :: tl => i * v + position_sum (i + 1) tl
  end.
Definition c128_sum (vs : list N) : N :=
  match vs with
  | [] => 0
  | v :: tl => v + position_sum 1 tl
  end.
Definition c128_check (vs : list N) : N := c128_sum vs mod 103.

(** ** Element widths of values 0-105 and of the stop character *)
Definition c128_table : list (list nat) := table
    "212222 222122 222221 121223 121322 131222 122213 122312 132212 221213 221312 231212 112232 122132 122231 113222 123122 123221 223211 221132 221231 213212 223112 312131 311222 321122 321221 312212 322112 322211 212123 212321 232121 111323 131123 131321 112313 132113 132311 211313 231113 231311 112133 112331 132131 113123 113321 133121 313121 211331 231131 213113 213311 213131 311123 311321 331121 312113 312311 332111 314111 221411 431111 111224 111422 121124 121421 141122 141221 112214 112412 122114 122411 142112 142211 241211 221114 413111 241112 134111 111242 121142 121241 114212 124112 124211 411212 421112 421211 212141 214121 412121 111143 111341 131141 114113 114311 411113 411311 113141 114131 311141 411131 211412 211214 211232".
Definition c128_stop : list nat := [2;3;3;1;1;1;2]%nat.
Definition c128_pattern (v : N) : list nat := nth (N.to_nat v) c128_table [].
Definition symbol_with (vs : list N) (chk : N) : list nat :=
  concat (map c128_pattern (vs ++ [chk])) ++ c128_stop.
Definition c128_symbol (vs : list N) : list nat := symbol_with vs (c128_check vs).

(** ** Reader *)
Inductive token : Type := TChar (c : N) | TFnc (n : N).
Inductive action : Type := Out (l : list token) | Shift | Switch (k : cset).
Definition interpret (k : cset) (v : N) : option action :=
  match k with
  | CC =>
      if v <? 100 then Some (Out [TChar (48 + v / 10); TChar (48 + v mod 10)])
      else if v =? 100 then Some (Switch CB) else if v =? 101 then Some (Switch CA)
      else if v =? 102 then Some (Out [TFnc 1]) else None
  | _ =>
      if v <? 96 then
        Some (Out [TChar (match k with CA => if v <? 64 then v + 32 else v - 64 | _ => v + 32 end)])
      else if v =? 96 then Some (Out [TFnc 3]) else if v =? 97 then Some (Out [TFnc 2])
      else if v =? 98 then Some Shift else if v =? 99 then Some (Switch CC)
      else if v =? 100 then Some (match k with CA => Switch CB | _ => Out [TFnc 4] end)
      else if v =? 101 then Some (match k with CA => Out [TFnc 4] | _ => Switch CA end)
      else if v =? 102 then Some (Out [TFnc 1]) else None
  end.
(** SHIFT: read one symbol in the other one of sets A and B *)
Definition shifted (k : cset) : cset := match k with CA => CB | CB => CA | CC => CC end.
Fixpoint decode (k : cset) (shift : bool) (vs : list N) : option (list token) :=
  match vs with
  | [] => Some []
  | v :: tl =>
      match interpret (if shift then shifted k else k) v with
      | None => None
      | Some (Out l) => let? r := decode k false tl in Some (l ++ r)
      | Some Shift => decode k true tl
      | Some (Switch k') => decode k' false tl
      end
  end.
Definition read_values (ws : list nat) : option (list N) :=
  let '(_, body, z) := trim_ends 0 7 ws in
  guard (widths_eqb z c128_stop)
    (let? bs := chop 6 body in
     read_all (fun b => option_map N.of_nat (which c128_table b)) bs).
Definition decode_checked (vs : list N) : option (list token) :=
  match rev vs with
  | [] => None
  | chk :: front =>
      match rev front with
      | [] => None
      | st :: data =>
          guard (chk =? c128_check (st :: data))
            (if st =? 103 then decode CA false data
             else if st =? 104 then decode CB false data
             else if st =? 105 then decode CC false data
             else None)
      end
  end.
Definition read_c128 (ws : list nat) : option (list token) :=
  let? vs := read_values ws in decode_checked vs.

(** ** What the caller wrote: the characters without the code-set characters *)
Definition char_token (c : char) : token :=
  if c =? 247 then TChar 127 else if c <? 128 then TChar c
  else if c =? FNC1 then TFnc 1 else if c =? FNC2 then TFnc 2
  else if c =? FNC3 then TFnc 3 else TFnc 4.
Definition meaning (segs : list segment) : list token :=
  concat (map (fun x => map char_token (filter (fun c => negb (c =? SHIFT)) (snd x))) segs).

(** In code set C, FNC1 stands between pairs of digits, not inside one. *)
Fixpoint aligned_body (even : bool) (body : str) : Prop :=
  match body with
  | [] => True
  | c :: tl => if digit c then aligned_body (negb even) tl else even = true /\ aligned_body even tl
  end.
Definition aligned (segs : list segment) : Prop :=
  Forall (fun x => fst x = CC -> aligned_body true (snd x)) segs.
(** SHIFT is written only before characters that code sets A and B have in common. *)
Definition common (c : char) : Prop := 32 <= c < 96 \/ In c [FNC1; FNC2; FNC3].
Fixpoint shift_ok (pending : bool) (body : str) : Prop :=
  match body with
  | [] => pending = false
  | c :: tl =>
      if c =? SHIFT then shift_ok true tl
      else (pending = true -> common c) /\ shift_ok false tl
  end.
Definition shifts_ok (segs : list segment) : Prop := Forall (fun x => shift_ok false (snd x)) segs.
Definition no_shift (segs : list segment) : Prop := Forall (fun x => ~ In SHIFT (snd x)) segs.

(** Moving the FNC1 characters out of the digit pairs of code set C *)
Fixpoint settle_body (first : option char) (body : str) : str :=
  match body with
  | [] => []
  | c :: tl =>
      if digit c then
        match first with
        | None => settle_body (Some c) tl
        | Some x => x :: c :: settle_body None tl
        end
      else c :: settle_body first tl
  end.
Definition settle (segs : list segment) : list segment :=
  map (fun x => (fst x, match fst x with CC => settle_body None (snd x) | _ => snd x end)) segs.

(** What a 32-bit signed computation makes of the check sum: the number of symbols is cast
    to i32 first, and only that many symbols are counted (none when it is negative). *)
Definition counted (n : N) : nat := Z.to_nat (wrap_i32 (Z.of_N n)).
Definition counted_sum (vs : list N) : N := c128_sum (firstn (counted (len vs)) vs).
