(** * Specification: edges printed out of place *)
From Verif Require Import Rust Symbology S_Barcode S_All S_Blind.
From Coq Require Import ZArith.

(** Where the edges of a symbol belong: [x] samples to the module, the first edge at sample [q]; leading and trailing edges of
    bars take turns *)
Fixpoint edges (x q : nat) (ws : list nat) : list nat :=
  match ws with
  | [] => [q]
  | w :: tl => q :: edges x (q + x * w) tl
  end.
(** A line of [n] samples with the given edges: a sample is dark if it lies behind an odd number of edges *)
Definition behind (es : list nat) (i : nat) : nat := length (filter (fun e => Nat.leb e i) es).
Definition picture (es : list nat) (n : nat) : list N :=
  map (fun i => if Nat.odd (behind es i) then 1%N else 0%N) (seq 0 n).

(** Every edge moved by less than [1/t] of a module *)
Definition moved (t x : nat) (es es' : list nat) : Prop :=
  Forall2 (fun e e' => t * (e - e') < x /\ t * (e' - e) < x)%nat es es'.
(** No more than [1/t] *)
Definition moved_up_to (t x : nat) (es es' : list nat) : Prop :=
  Forall2 (fun e e' => t * (e - e') <= x /\ t * (e' - e) <= x)%nat es es'.
(** Ink that spreads (or recedes): all leading edges moved by [l], all trailing edges by [t] *)
Fixpoint shifted (l t : Z) (es es' : list nat) : Prop :=
  match es, es' with
  | [], [] => True
  | e :: tl, e' :: tl' => (Z.of_nat e' = Z.of_nat e + l)%Z /\ shifted t l tl tl'
  | _, _ => False
  end.

(** A reader that knows the grid looks at the middle of every module *)
Definition samples (x q : nat) (line : list N) : list N :=
  map (fun j => nth (q + x * j + x / 2) line 0%N) (seq 0 (S (length line / x))).
Definition grid_read (y : symbology) (x q : nat) (line : list N) : option reading := read_modules y (samples x q line).
(** A reader that knows the module width only rounds the width of every element *)
Definition nearest (x w : nat) : nat := ((2 * w + x) / (2 * x))%nat.
Definition rounded_read (y : symbology) (x : nat) (line : list N) : option reading :=
  let? ws := scan line in read_as y (map (nearest x) ws).
(** A reader that knows neither: the narrowest bar and the narrowest space have one module each *)
Fixpoint every_other {A} (l : list A) : list A :=
  match l with
  | a :: _ :: tl => a :: every_other tl
  | l => l
  end.
Definition bars (ws : list nat) : list nat := every_other ws.
Definition spaces (ws : list nat) : list nat := every_other (tl ws).
Fixpoint corrected (x b s : nat) (ws : list nat) : list nat :=
  match ws with
  | [] => []
  | w :: tl => ((w + x - b) / x)%nat :: corrected x s b tl
  end.
Definition spread_read (y : symbology) (line : list N) : option reading :=
  let? ws := scan line in
  let b := narrowest (bars ws) in
  let s := narrowest (spaces ws) in
  read_as y (corrected ((b + s) / 2) b s ws).
