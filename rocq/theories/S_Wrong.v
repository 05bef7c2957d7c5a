(** * Specification: several wrong modules *)
From Verif Require Import Rust Symbology.
Local Open Scope nat_scope.

(** In how many places do two pictures of the same length differ? *)
Definition wrong_modules (m m' : list N) : nat :=
  length (filter (fun x => negb (fst x =? snd x)%N) (combine m m')).

(** How many wrong modules it takes before a reader can be misled *)
Definition needed (y : symbology) (s : str) : nat :=
  match y with
  | SUpca | SEan8 | SCode39Checked => 4
  | SCode128 => if length s <=? 103 then 4 else 2
  | SCode93 => if length s <=? 14 then 3 else 2
  | SSupp => if length s =? 5 then 2 else 1
  | SEan13 | SCode39 | SCode11 | SCodabar | SItf | SStf => 2
  end.
