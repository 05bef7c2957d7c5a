(** * Specification vocabulary: printed bars and spaces

    A linear symbol is described in the symbology standards by the widths of its
    elements, alternately bar, space, bar, ... in units of the narrow module.
    Nothing here refers to the model. *)
From Coq Require Import NArith List Bool.
Import ListNotations.

(** ** Printing: modules of a sequence of elements, the first being a bar. *)
Fixpoint render_from (b : N) (ws : list nat) : list N :=
  match ws with
  | [] => []
  | w :: tl => repeat b w ++ render_from (1 - b)%N tl
  end.
Definition render (ws : list nat) : list N := render_from 1%N ws.

(** ** Scanning: drop the quiet zones, measure the runs of equal modules. *)
Fixpoint drop_light (l : list N) : list N :=
  match l with
  | 0%N :: tl => drop_light tl
  | _ => l
  end.
Definition trim (l : list N) : list N := rev (drop_light (rev (drop_light l))).

Fixpoint runs (b : N) (n : nat) (l : list N) : list nat :=
  match l with
  | [] => [n]
  | x :: tl => if (x =? b)%N then runs b (S n) tl else n :: runs x 1 tl
  end.

Definition is_module (x : N) : bool := (x =? 0)%N || (x =? 1)%N.

(** Element widths of a picture, from the first to the last bar; [None] when
    something is neither bar nor space, or there is no bar at all. *)
Definition scan (l : list N) : option (list nat) :=
  if forallb is_module l then
    match trim l with
    | [] => None
    | x :: tl => Some (runs x 1 tl)
    end
  else None.

(** ** Reading helpers *)

(** Cut a list in blocks of exactly [n] elements. *)
Fixpoint chop_fuel {A} (fuel n : nat) (l : list A) : option (list (list A)) :=
  match l with
  | [] => Some []
  | _ =>
      match fuel with
      | O => None
      | S f =>
          if Nat.ltb (length l) n then None
          else match chop_fuel f n (skipn n l) with
               | Some bs => Some (firstn n l :: bs)
               | None => None
               end
      end
  end.
Definition chop {A} (n : nat) (l : list A) : option (list (list A)) :=
  chop_fuel (length l) n l.

(** Apply a partial reader to every element. *)
Fixpoint read_all {A B} (f : A -> option B) (l : list A) : option (list B) :=
  match l with
  | [] => Some []
  | x :: tl =>
      match f x, read_all f tl with
      | Some y, Some ys => Some (y :: ys)
      | _, _ => None
      end
  end.

Fixpoint widths_eqb (a b : list nat) : bool :=
  match a, b with
  | [], [] => true
  | x :: a', y :: b' => Nat.eqb x y && widths_eqb a' b'
  | _, _ => false
  end.

(** Which entry of a table of width patterns is this? *)
Fixpoint which (t : list (list nat)) (ws : list nat) : option nat :=
  match t with
  | [] => None
  | p :: tl => if widths_eqb p ws then Some 0 else option_map S (which tl ws)
  end.

Definition obind {A B} (o : option A) (f : A -> option B) : option B :=
  match o with Some a => f a | None => None end.
Notation "'let?' x := e1 'in' e2" := (obind e1 (fun x => e2))
  (at level 200, x pattern, e1 at level 200, e2 at level 200).

Definition guard {A} (b : bool) (o : option A) : option A := if b then o else None.
