(** * Rust semantics used by the model

    This file is not a model of barcoders code: it fixes the meaning of the
    Rust language and core-library features that the modelled code uses. *)
From Coq Require Export NArith ZArith List Bool Lia.
From Coq Require Ascii String.
Export ListNotations String.StringSyntax.
Global Open Scope N_scope.
Global Open Scope list_scope.

(** ** Panics.  A Rust call either returns a value or panics. *)
Inductive panic : Type :=
| PanicOverflow   (* arithmetic overflow with overflow checks on *)
| PanicIndex      (* slice or array index / range out of bounds *)
| PanicUnwrap     (* Option::unwrap / Option::expect on None *)
| PanicExplicit   (* panic!(..) *)
| PanicDivZero    (* remainder by zero *)
| PanicAlloc.     (* buffer size not representable *)

Inductive M (A : Type) : Type :=
| Ret (a : A)
| Panic (p : panic).
Arguments Ret {A} a.
Arguments Panic {A} p.

Definition bind {A B} (m : M A) (f : A -> M B) : M B :=
  match m with
  | Ret a => f a
  | Panic p => Panic p
  end.

Notation "x <- e1 ;; e2" := (bind e1 (fun x => e2))
  (at level 61, e1 at next level, right associativity).

Definition panics {A} (m : M A) : Prop := exists p, m = Panic p.
Definition returns {A} (m : M A) : Prop := exists a, m = Ret a.

(** Iterating a fallible closure, as [iter().map(f).collect()] does. *)
Fixpoint mapM {A B} (f : A -> M B) (l : list A) : M (list B) :=
  match l with
  | [] => Ret []
  | x :: tl => y <- f x ;; ys <- mapM f tl ;; Ret (y :: ys)
  end.

(** [iter().fold(init, f)] / a [for] loop updating one accumulator. *)
Fixpoint foldM {A B} (f : B -> A -> M B) (l : list A) (acc : B) : M B :=
  match l with
  | [] => Ret acc
  | x :: tl => acc' <- f acc x ;; foldM f tl acc'
  end.

(** ** Build profile: Debug has overflow checks, Release wraps. *)
Inductive profile : Type := Debug | Release.

(** Result of an unsigned operation whose exact value [n] may exceed [bits]. *)
Definition fit_u (bits : N) (p : profile) (n : N) : M N :=
  if n <? 2 ^ bits then Ret n
  else match p with
       | Debug => Panic PanicOverflow
       | Release => Ret (n mod 2 ^ bits)
       end.

Definition add_u (bits : N) (p : profile) (a b : N) : M N := fit_u bits p (a + b).
Definition mul_u (bits : N) (p : profile) (a b : N) : M N := fit_u bits p (a * b).
Definition sub_u (bits : N) (p : profile) (a b : N) : M N :=
  if b <=? a then Ret (a - b)
  else match p with
       | Debug => Panic PanicOverflow
       | Release => Ret ((2 ^ bits + a - b) mod 2 ^ bits)
       end.
Definition rem_u (a b : N) : M N :=
  if b =? 0 then Panic PanicDivZero else Ret (a mod b).

(** [x as u8], [x as u32] from a wider unsigned type: truncation. *)
Definition cast_u (bits n : N) : N := n mod 2 ^ bits.

(** Two's-complement reading of an integer, as i32. *)
Definition wrap_i32 (z : Z) : Z := ((z + 2 ^ 31) mod 2 ^ 32 - 2 ^ 31)%Z.
Definition fit_i32 (p : profile) (z : Z) : M Z :=
  if ((- 2 ^ 31 <=? z) && (z <? 2 ^ 31))%Z then Ret z
  else match p with
       | Debug => Panic PanicOverflow
       | Release => Ret (wrap_i32 z)
       end.
Definition add_i32 (p : profile) (a b : Z) : M Z := fit_i32 p (a + b)%Z.
Definition mul_i32 (p : profile) (a b : Z) : M Z := fit_i32 p (a * b)%Z.

(** usize is 64 bits wide on the modelled target. *)
Definition usize_bits : N := 64.

(** ** Slices, vectors *)
Definition len {A} (l : list A) : N := N.of_nat (length l).

Definition index {A} (l : list A) (i : N) : M A :=
  match nth_error l (N.to_nat i) with
  | Some x => Ret x
  | None => Panic PanicIndex
  end.

(** [&l[lo..hi]] *)
Definition slice {A} (l : list A) (lo hi : N) : M (list A) :=
  if (lo <=? hi) && (hi <=? len l)
  then Ret (firstn (N.to_nat (hi - lo)) (skipn (N.to_nat lo) l))
  else Panic PanicIndex.

(** [&l[lo..]] *)
Definition slice_from {A} (l : list A) (lo : N) : M (list A) :=
  if lo <=? len l then Ret (skipn (N.to_nat lo) l) else Panic PanicIndex.

(** [Option::unwrap], [Option::expect] *)
Definition unwrap {A} (o : option A) : M A :=
  match o with Some x => Ret x | None => Panic PanicUnwrap end.

(** [Iterator::position] *)
Fixpoint position {A} (f : A -> bool) (l : list A) : option N :=
  match l with
  | [] => None
  | x :: tl => if f x then Some 0 else option_map N.succ (position f tl)
  end.

(** [iter().enumerate()] *)
Fixpoint enumerate_from {A} (i : N) (l : list A) : list (N * A) :=
  match l with
  | [] => []
  | x :: tl => (i, x) :: enumerate_from (i + 1) tl
  end.
Definition enumerate {A} (l : list A) : list (N * A) := enumerate_from 0 l.

(** [a.zip(b)] is [List.combine]. *)

(** ** Characters and strings.
    A [char] is a Unicode scalar value; a [&str] is the sequence of its
    scalar values, which its UTF-8 bytes determine and are determined by. *)
Definition char := N.
Definition str := list char.

Definition utf8_len (c : char) : N :=
  if c <? 0x80 then 1
  else if c <? 0x800 then 2
  else if c <? 0x10000 then 3
  else 4.

(** [str::len()]: number of UTF-8 bytes. *)
Definition str_len (s : str) : N := fold_right (fun c n => utf8_len c + n) 0 s.

(** String literals of the Rust source (ASCII ones). *)
Definition lit (s : String.string) : str := map Ascii.N_of_ascii (String.list_ascii_of_string s).
Arguments lit s%string_scope.
(** Character literals: the first character of an ASCII literal. *)
Definition ch (s : String.string) : char := hd 0 (lit s).
Arguments ch s%string_scope.

Fixpoint str_eqb (a b : list N) : bool :=
  match a, b with
  | [], [] => true
  | x :: a', y :: b' => (x =? y) && str_eqb a' b'
  | _, _ => false
  end.

(** [char::to_digit(10)] *)
Definition to_digit10 (c : char) : option N :=
  if (48 <=? c) && (c <=? 57) then Some (c - 48) else None.
(** [char::from_digit(i, 10)] *)
Definition from_digit10 (i : N) : option char :=
  if i <? 10 then Some (i + 48) else None.
(** [char::is_ascii_digit] *)
Definition is_ascii_digit (c : char) : bool := (48 <=? c) && (c <=? 57).

(** [0..n] *)
Definition range (n : N) : list N := map N.of_nat (seq 0 (N.to_nat n)).

(** Decimal printing of an unsigned integer ([format!("{}", n)]). *)
Fixpoint dec_digits (fuel : nat) (n : N) (acc : str) : str :=
  match fuel with
  | O => acc
  | S f =>
      let acc' := (n mod 10 + 48) :: acc in
      if n / 10 =? 0 then acc' else dec_digits f (n / 10) acc'
  end.
(** A number of [k] binary digits has at most [k] decimal digits. *)
Definition fmt_dec (n : N) : str := dec_digits (S (N.to_nat (N.size n))) n [].
