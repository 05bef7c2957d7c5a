(** * Specification: illegible modules, and correcting readers *)
From Verif Require Import Rust Symbology S_All.
Local Open Scope nat_scope.

(** What is seen of a line: a module, or a place that cannot be made out *)
Definition seen : Type := list (option N).
Definition illegible (l : seen) : nat := length (filter (fun o => match o with None => true | Some _ => false end) l).
(** At how many places is something else seen than [m] has there? *)
Definition errors (l : seen) (m : list N) : nat :=
  length (filter (fun x => match fst x with None => false | Some z => negb (z =? snd x)%N end) (combine l m)).
(** The lines that are seen like this when the illegible places are filled in *)
Fixpoint fillings (l : seen) : list (list N) :=
  match l with
  | [] => [[]]
  | Some x :: tl => map (cons x) (fillings tl)
  | None :: tl => map (cons 0%N) (fillings tl) ++ map (cons 1%N) (fillings tl)
  end.
(** The lines that differ from [m] in one module at most *)
Fixpoint inverted_once (m : list N) : list (list N) :=
  match m with [] => [] | x :: tl => ((1 - x)%N :: tl) :: map (cons x) (inverted_once tl) end.
Definition repairs (m : list N) : list (list N) := m :: inverted_once m.
(** A reader that tries all these lines *)
Definition readings (y : symbology) (ms : list (list N)) : list reading :=
  flat_map (fun m => match read_modules y m with Some r => [r] | None => [] end) ms.
(** Two lines laid over each other: what they have in common *)
Fixpoint common (m m' : list N) : seen :=
  match m, m' with x :: tl, z :: tl' => (if (x =? z)%N then Some x else None) :: common tl tl' | _, _ => [] end.
