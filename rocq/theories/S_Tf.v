(** * Specification of the 2-of-5 symbologies

    ISO/IEC 16390 (Interleaved 2 of 5) and Industrial 2 of 5.  Nothing here refers to
    the model. *)
From Verif Require Import Rust S_Barcode S_Linear.

(** Narrow (1) and wide (2) elements of the ten digits, weights 1 2 4 7 and parity *)
Definition tf_table : list (list nat) := table
    "11221 21112 12112 22111 11212 21211 12211 11122 21121 12121".
Definition tf_digit (d : N) : list nat := nth (N.to_nat d) tf_table [].
(** Print wide elements [w] modules wide *)
Definition stretch (w : nat) (ws : list nat) : list nat :=
  map (fun x => if Nat.eqb x 1 then 1%nat else w) ws.
(** What a reader sees: narrow, or wide (between twice and three times as wide) *)
Definition squash (ws : list nat) : list nat :=
  map (fun x => match x with 1 => 1 | 2 | 3 => 2 | _ => 0 end)%nat ws.

Fixpoint weave (a b : list nat) : list nat :=
  match a, b with
  | x :: a', y :: b' => x :: y :: weave a' b'
  | _, _ => []
  end.
Fixpoint unweave (l : list nat) : list nat * list nat :=
  match l with
  | x :: y :: tl => let '(a, b) := unweave tl in (x :: a, y :: b)
  | _ => ([], [])
  end.
Fixpoint pairs {A} (l : list A) : list (A * A) :=
  match l with
  | x :: y :: tl => (x, y) :: pairs tl
  | _ => []
  end.

(** ** Interleaved: first digit of a pair in the bars, second in the spaces.
    [w] is the width of wide elements, [g] the width of the wide bar of the stop pattern
    (the standard has [g = w]). *)
Definition itf_pair (w : nat) (x : N * N) : list nat :=
  weave (stretch w (tf_digit (fst x))) (stretch w (tf_digit (snd x))).
Definition itf_symbol (w g : nat) (ds : list N) : list nat :=
  [1; 1; 1; 1]%nat ++ concat (map (itf_pair w) (pairs ds)) ++ [g; 1; 1]%nat.

(** ** Standard (industrial): digits in the bars, all spaces narrow *)
Definition stf_bars (ws : list nat) : list nat := concat (map (fun x => [x; 1%nat]) ws).
Definition stf_symbol (w g : nat) (ds : list N) : list nat :=
  stf_bars [g; g; 1%nat] ++ concat (map (fun d => stf_bars (stretch w (tf_digit d))) ds)
    ++ [g; 1; 1; 1; g]%nat.

(** ** Readers *)
Definition read_tf_digit (ws : list nat) : option N :=
  option_map N.of_nat (which tf_table (squash ws)).
(** Cut off [n] elements in front and [k] at the end. *)
Definition trim_ends (n k : nat) (ws : list nat) : list nat * list nat * list nat :=
  let tl := skipn n ws in
  (firstn n ws, rev (skipn k (rev tl)), rev (firstn k (rev tl))).
Definition read_itf (ws : list nat) : option (list N) :=
  let '(a, body, z) := trim_ends 4 3 ws in
  guard (widths_eqb a [1; 1; 1; 1]%nat && widths_eqb (squash z) [2; 1; 1]%nat)
    (let? bs := chop 10 body in
     let? ds := read_all (fun b => let '(x, y) := unweave b in
                                   let? d := read_tf_digit x in
                                   let? e := read_tf_digit y in Some [d; e]) bs in
     Some (concat ds)).
Definition read_stf (ws : list nat) : option (list N) :=
  let '(a, body, z) := trim_ends 6 5 ws in
  guard (widths_eqb (squash a) [2; 1; 2; 1; 1; 1]%nat && widths_eqb (squash z) [2; 1; 1; 1; 2]%nat)
    (let? bs := chop 10 body in
     read_all (fun b => let '(x, y) := unweave b in
                        guard (widths_eqb y [1; 1; 1; 1; 1]%nat) (read_tf_digit x)) bs).

(** Two widths only, one of them narrow *)
Definition one_ratio (ws : list nat) : Prop :=
  exists w, Forall (fun x => x = 1%nat \/ x = w) ws.
