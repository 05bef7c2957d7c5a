(** * Specification of the GS1 retail symbologies

    From the GS1 General Specifications, section 5.2 (EAN-13, EAN-8, UPC-A and
    the two- and five-digit add-ons).  Nothing here refers to the model. *)
From Coq Require Import NArith List Bool.
From Verif Require Import S_Barcode.
Import ListNotations.

(** ** Check digit.  Weights 1, 3, 1, 3, ... from the rightmost (check) digit;
    a number is valid when the weighted sum is a multiple of ten. *)
Fixpoint alt_sum (w w' : N) (l : list N) : N :=
  match l with
  | [] => 0
  | d :: tl => w * d + alt_sum w' w tl
  end%N.
Definition gs1_sum (l : list N) : N := alt_sum 1 3 (rev l).
Definition gs1_valid (l : list N) : Prop := (gs1_sum l mod 10 = 0)%N.
Definition gs1_validb (l : list N) : bool := (gs1_sum l mod 10 =? 0)%N.
(** The digit to append (S_Ean does not rely on its uniqueness; see P_Ean). *)
Definition gs1_check (d : list N) : N := ((10 - alt_sum 3 1 (rev d) mod 10) mod 10)%N.

(** Digits whose exchange the check digit cannot see. *)
Definition differ_by_5 (x y : N) : Prop := (x = y + 5 \/ y = x + 5)%N.

(** ** Symbol characters: element widths of digits 0-9.
    Set A (odd parity): space bar space bar. *)
Definition setA_table : list (list nat) :=
  [[3;2;1;1]; [2;2;2;1]; [2;1;2;2]; [1;4;1;1]; [1;1;3;2];
   [1;2;3;1]; [1;1;1;4]; [1;3;1;2]; [1;2;1;3]; [3;1;1;2]].
(** Set B (even parity): the mirror images, space bar space bar. *)
Definition setB_table : list (list nat) :=
  [[1;1;2;3]; [1;2;2;2]; [2;2;1;2]; [1;1;4;1]; [2;3;1;1];
   [1;3;2;1]; [4;1;1;1]; [2;1;3;1]; [3;1;2;1]; [2;1;1;3]].
(** Set C: as set A with bars and spaces exchanged: bar space bar space. *)
Definition setC_table : list (list nat) := setA_table.

Inductive parity : Type := PA | PB.
Definition set_table (p : parity) : list (list nat) :=
  match p with PA => setA_table | PB => setB_table end.
Definition widths (t : list (list nat)) (d : N) : list nat := nth (N.to_nat d) t [].

(** EAN-13: parities of the six left digits, chosen by the first digit. *)
Definition ean13_parities : list (list parity) :=
  [[PA;PA;PA;PA;PA;PA]; [PA;PA;PB;PA;PB;PB]; [PA;PA;PB;PB;PA;PB]; [PA;PA;PB;PB;PB;PA]; [PA;PB;PA;PA;PB;PB];
   [PA;PB;PB;PA;PA;PB]; [PA;PB;PB;PB;PA;PA]; [PA;PB;PA;PB;PA;PB]; [PA;PB;PA;PB;PB;PA]; [PA;PB;PB;PA;PB;PA]].

Definition normal_guard : list nat := [1;1;1].
Definition centre_guard : list nat := [1;1;1;1;1].

Definition draw_left (ps : list parity) (ds : list N) : list nat :=
  concat (map (fun x => widths (set_table (fst x)) (snd x)) (combine ps ds)).
Definition draw_right (ds : list N) : list nat :=
  concat (map (widths setC_table) ds).

(** ** Symbols, as element widths *)

(** Thirteen digits, the last one being the check digit. *)
Definition ean13_symbol (ds : list N) : list nat :=
  normal_guard
    ++ draw_left (nth (N.to_nat (hd 0%N ds)) ean13_parities []) (firstn 6 (skipn 1 ds))
    ++ centre_guard ++ draw_right (skipn 7 ds) ++ normal_guard.
(** Twelve digits *)
Definition upca_symbol (ds : list N) : list nat :=
  normal_guard ++ draw_left [PA;PA;PA;PA;PA;PA] (firstn 6 ds)
    ++ centre_guard ++ draw_right (skipn 6 ds) ++ normal_guard.
(** Eight digits *)
Definition ean8_symbol (ds : list N) : list nat :=
  normal_guard ++ draw_left [PA;PA;PA;PA] (firstn 4 ds)
    ++ centre_guard ++ draw_right (skipn 4 ds) ++ normal_guard.

(** Add-ons: guard 1 1 2, digits separated by a space and a bar of width 1. *)
Definition addon_guard : list nat := [1;1;2].
Definition addon_separator : list nat := [1;1].
(** Two digits: parities by value modulo 4. *)
Definition ean2_parities : list (list parity) := [[PA;PA]; [PA;PB]; [PB;PA]; [PB;PB]].
Definition ean2_variant (ds : list N) : N :=
  match ds with [a; b] => ((10 * a + b) mod 4)%N | _ => 0%N end.
(** Five digits: parities by 3*(d1+d3+d5) + 9*(d2+d4), last digit. *)
Definition ean5_parities : list (list parity) :=
  [[PB;PB;PA;PA;PA]; [PB;PA;PB;PA;PA]; [PB;PA;PA;PB;PA]; [PB;PA;PA;PA;PB]; [PA;PB;PB;PA;PA];
   [PA;PA;PB;PB;PA]; [PA;PA;PA;PB;PB]; [PA;PB;PA;PB;PA]; [PA;PB;PA;PA;PB]; [PA;PA;PB;PA;PB]].
Definition ean5_variant (ds : list N) : N :=
  match ds with
  | [a; b; c; d; e] => ((3 * (a + c + e) + 9 * (b + d)) mod 10)%N
  | _ => 0%N
  end.
Fixpoint draw_addon (first : bool) (ps : list parity) (ds : list N) : list nat :=
  match ps, ds with
  | p :: ps', d :: ds' =>
      (if first then [] else addon_separator)
        ++ widths (set_table p) d ++ draw_addon false ps' ds'
  | _, _ => []
  end.
Definition ean2_symbol (ds : list N) : list nat :=
  addon_guard ++ draw_addon true (nth (N.to_nat (ean2_variant ds)) ean2_parities []) ds.
Definition ean5_symbol (ds : list N) : list nat :=
  addon_guard ++ draw_addon true (nth (N.to_nat (ean5_variant ds)) ean5_parities []) ds.

(** ** Readers: from element widths to digits *)
Definition read_AB (ws : list nat) : option (parity * N) :=
  match which setA_table ws with
  | Some d => Some (PA, N.of_nat d)
  | None => match which setB_table ws with
            | Some d => Some (PB, N.of_nat d)
            | None => None
            end
  end.
Definition read_C (ws : list nat) : option N := option_map N.of_nat (which setC_table ws).

Definition parity_eqb (a b : parity) : bool :=
  match a, b with PA, PA | PB, PB => true | _, _ => false end.
Fixpoint parities_eqb (a b : list parity) : bool :=
  match a, b with
  | [], [] => true
  | x :: a', y :: b' => parity_eqb x y && parities_eqb a' b'
  | _, _ => false
  end.
Fixpoint which_parity (t : list (list parity)) (ps : list parity) : option nat :=
  match t with
  | [] => None
  | p :: tl => if parities_eqb p ps then Some 0 else option_map S (which_parity tl ps)
  end.

(** The two halves of a retail symbol with [n] digits a side:
    parities and digits on the left, digits on the right. *)
Definition read_halves (n : nat) (ws : list nat) : option (list (parity * N) * list N) :=
  guard (Nat.eqb (length ws) (3 + 4 * n + 5 + 4 * n + 3)
         && widths_eqb (firstn 3 ws) normal_guard
         && widths_eqb (firstn 5 (skipn (3 + 4 * n) ws)) centre_guard
         && widths_eqb (skipn (3 + 4 * n + 5 + 4 * n) ws) normal_guard)
    (let? lb := chop 4 (firstn (4 * n) (skipn 3 ws)) in
     let? rb := chop 4 (firstn (4 * n) (skipn (3 + 4 * n + 5) ws)) in
     let? l := read_all read_AB lb in
     let? r := read_all read_C rb in
     Some (l, r)).

(** EAN-13: thirteen digits, verified *)
Definition read_ean13 (ws : list nat) : option (list N) :=
  let? (l, r) := read_halves 6 ws in
  let? f := which_parity ean13_parities (map fst l) in
  let ds := N.of_nat f :: map snd l ++ r in
  guard (gs1_validb ds) (Some ds).
(** UPC-A: twelve digits, verified *)
Definition read_upca (ws : list nat) : option (list N) :=
  let? (l, r) := read_halves 6 ws in
  let ds := map snd l ++ r in
  guard (parities_eqb (map fst l) [PA;PA;PA;PA;PA;PA] && gs1_validb ds) (Some ds).
(** EAN-8: eight digits, verified *)
Definition read_ean8 (ws : list nat) : option (list N) :=
  let? (l, r) := read_halves 4 ws in
  let ds := map snd l ++ r in
  guard (parities_eqb (map fst l) [PA;PA;PA;PA] && gs1_validb ds) (Some ds).

(** Add-ons: after the guard, blocks of four elements separated by 1 1. *)
Definition read_addon_blocks (ws : list nat) : option (list (parity * N)) :=
  guard (widths_eqb (firstn 3 ws) addon_guard)
    (let? bs := chop 6 (addon_separator ++ skipn 3 ws) in
     read_all (fun b => guard (widths_eqb (firstn 2 b) addon_separator) (read_AB (skipn 2 b))) bs).
Definition read_ean2 (ws : list nat) : option (list N) :=
  let? l := read_addon_blocks ws in
  let ds := map snd l in
  let? v := which_parity ean2_parities (map fst l) in
  guard (Nat.eqb (length ds) 2 && (N.of_nat v =? ean2_variant ds)%N) (Some ds).
Definition read_ean5 (ws : list nat) : option (list N) :=
  let? l := read_addon_blocks ws in
  let ds := map snd l in
  let? v := which_parity ean5_parities (map fst l) in
  guard (Nat.eqb (length ds) 5 && (N.of_nat v =? ean5_variant ds)%N) (Some ds).
