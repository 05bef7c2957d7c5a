(** * Specification of Code 39, Code 93 and Code 11

    Element widths from ISO/IEC 16388 (Code 39), AIM BC5 (Code 93) and AIM USD-8
    (Code 11); wide elements drawn two modules wide.  Nothing here refers to the model. *)
From Verif Require Import Rust S_Barcode.

(** ** Tables written as texts of widths *)
Definition pat (s : str) : list nat := map (fun c => N.to_nat (c - 48)) s.
(** Words separated by single spaces *)
Fixpoint words (cur : str) (s : str) : list str :=
  match s with
  | [] => [rev cur]
  | c :: tl => if c =? 32 then rev cur :: words [] tl else words (c :: cur) tl
  end.
Definition table (s : String.string) : list (list nat) := map pat (words [] (lit s)).
Arguments table s%string_scope.

(** ** Alphabets: a character's value is its position. *)
Fixpoint value_in (l : list char) (c : char) : option nat :=
  match l with
  | [] => None
  | x :: tl => if x =? c then Some O else option_map S (value_in tl c)
  end.
(** Value of a character of the alphabet (0 for others; only used on members). *)
Definition value (l : list char) (c : char) : N :=
  match value_in l c with Some v => N.of_nat v | None => 0 end.
Definition char_of (l : list char) (v : N) : char := nth (N.to_nat v) l 0.
Definition pattern (l : list char) (t : list (list nat)) (c : char) : list nat :=
  nth (N.to_nat (value l c)) t [].
(** Which character has these widths? *)
Definition read_char (l : list char) (t : list (list nat)) (ws : list nat) : option char :=
  match which t ws with
  | Some v => nth_error l v
  | None => None
  end.

(** ** Weighted check sums: weights 1, 2, ..., top, 1, 2, ... from the right. *)
Fixpoint weigh (top w : N) (vs : list N) : N :=
  match vs with
  | [] => 0
  | v :: tl => w * v + weigh top (if w =? top then 1 else w + 1) tl
  end.
Definition weighted (top : N) (vs : list N) : N := weigh top 1 (rev vs).

(** Check sum of a message over alphabet [l], modulo [n] *)
Definition check_sum (l : list char) (n top : N) (cs : list char) : N :=
  weighted top (map (value l) cs) mod n.
(** Verify the last character as check character of those before it, and drop it. *)
Definition verify_last (l : list char) (n top : N) (cs : list char) : option (list char) :=
  match rev cs with
  | [] => None
  | k :: front => guard (value l k =? check_sum l n top (rev front)) (Some (rev front))
  end.

(** ** Code 39 *)
Definition c39_chars : list char := lit "0123456789ABCDEFGHIJKLMNOPQRSTUVWXYZ-. $/+%".
Definition c39_table : list (list nat) := table
    "111221211 211211112 112211112 212211111 111221112 211221111 112221111 111211212 211211211 112211211 211112112 112112112 212112111 111122112 211122111 112122111 111112212 211112211 112112211 111122211 211111122 112111122 212111121 111121122 211121121 112121121 111111222 211111221 112111221 111121221 221111112 122111112 222111111 121121112 221121111 122121111 121111212 221111211 122111211 121212111 121211121 121112121 111212121".
(** The start and stop character, an asterisk *)
Definition c39_star : list nat := pat (lit "121121211").
Definition c39_value : char -> N := value c39_chars.
Definition c39_pattern : char -> list nat := pattern c39_chars c39_table.
(** Optional check character: sum of the values modulo 43 *)
Definition c39_sum (cs : list char) : N := fold_right N.add 0 (map c39_value cs).
Definition c39_check (cs : list char) : char := char_of c39_chars (c39_sum cs mod 43).
(** A message followed by its check character *)
Definition c39_valid (cs : list char) : Prop :=
  exists d c, cs = d ++ [c] /\ c39_value c = c39_sum d mod 43.
(** Characters separated by a narrow space *)
Definition c39_symbol (cs : list char) : list nat :=
  c39_star ++ [1%nat] ++ concat (map (fun c => c39_pattern c ++ [1%nat]) cs) ++ c39_star.

(** Reader: blocks of nine elements and a gap; first and last must be asterisks. *)
Definition strip_ends {A} (l : list A) : option (A * list A * A) :=
  match l with
  | [] => None
  | x :: tl => match rev tl with
               | [] => None
               | y :: mid => Some (x, rev mid, y)
               end
  end.
Definition gap_block (n : nat) (b : list nat) : option (list nat) :=
  guard (widths_eqb (skipn n b) [1%nat]) (Some (firstn n b)).
Definition read_c39 (ws : list nat) : option (list char) :=
  let? bs := chop 10 (ws ++ [1%nat]) in
  let? cs := read_all (gap_block 9) bs in
  let? (a, mid, z) := strip_ends cs in
  guard (widths_eqb a c39_star && widths_eqb z c39_star)
    (read_all (read_char c39_chars c39_table) mid).

(** ** Code 93.  The four shift characters have no ASCII form; like the library
    the alphabet writes them as parentheses and brackets. *)
Definition c93_chars : list char := lit "0123456789ABCDEFGHIJKLMNOPQRSTUVWXYZ-. $/+%()[]".
Definition c93_table : list (list nat) := table
    "131112 111213 111312 111411 121113 121212 121311 111114 131211 141111 211113 211212 211311 221112 221211 231111 112113 112212 112311 122112 132111 111123 111222 111321 121122 131121 212112 212211 211122 211221 221121 222111 112122 112221 122121 123111 121131 311112 311211 321111 112131 113121 211131 121221 312111 311121 122211".
Definition c93_star : list nat := pat (lit "111141").
Definition c93_value : char -> N := value c93_chars.
Definition c93_pattern : char -> list nat := pattern c93_chars c93_table.
(** Check characters C (weights to 20) and K (weights to 15), modulo 47 *)
Definition c93_sum (top : N) (cs : list char) : N := check_sum c93_chars 47 top cs.
Definition c93_C (cs : list char) : char := char_of c93_chars (c93_sum 20 cs).
Definition c93_K (cs : list char) : char := char_of c93_chars (c93_sum 15 (cs ++ [c93_C cs])).
(** No gaps; stop character followed by a termination bar *)
Definition c93_symbol (cs : list char) : list nat :=
  c93_star ++ concat (map c93_pattern cs) ++ c93_star ++ [1%nat].

(** Reader: all characters between start and stop, unverified. *)
Definition read_c93_raw (ws : list nat) : option (list char) :=
  guard (widths_eqb (firstn 1 (rev ws)) [1%nat])
    (let? bs := chop 6 (rev (skipn 1 (rev ws))) in
     let? (a, mid, z) := strip_ends bs in
     guard (widths_eqb a c93_star && widths_eqb z c93_star)
       (read_all (read_char c93_chars c93_table) mid)).
(** Verify K over everything before it, then C, and return the data. *)
Definition c93_verify (cs : list char) : option (list char) :=
  let? front := verify_last c93_chars 47 15 cs in
  verify_last c93_chars 47 20 front.
Definition read_c93 (ws : list nat) : option (list char) :=
  let? cs := read_c93_raw ws in c93_verify cs.

(** ** Code 11 *)
Definition c11_chars : list char := lit "0123456789-".
Definition c11_table : list (list nat) := table
    "11112 21112 12112 22111 11212 21211 12211 11122 21121 21111 11211".
Definition c11_guard : list nat := pat (lit "11221").
Definition c11_value : char -> N := value c11_chars.
Definition c11_pattern : char -> list nat := pattern c11_chars c11_table.
(** Check characters C (weights to 10) and K (weights to 9), both modulo 11;
    K is used when there are more than ten data characters. *)
Definition c11_sum (top : N) (cs : list char) : N := check_sum c11_chars 11 top cs.
Definition c11_C (cs : list char) : char := char_of c11_chars (c11_sum 10 cs).
Definition c11_K (cs : list char) : char := char_of c11_chars (c11_sum 9 (cs ++ [c11_C cs])).
Definition c11_checked (cs : list char) : list char :=
  cs ++ [c11_C cs] ++ (if Nat.ltb 10 (length cs) then [c11_K cs] else []).
Definition c11_symbol (cs : list char) : list nat :=
  c11_guard ++ [1%nat] ++ concat (map (fun c => c11_pattern c ++ [1%nat]) cs) ++ c11_guard.

Definition read_c11_raw (ws : list nat) : option (list char) :=
  let? bs := chop 6 (ws ++ [1%nat]) in
  let? cs := read_all (gap_block 5) bs in
  let? (a, mid, z) := strip_ends cs in
  guard (widths_eqb a c11_guard && widths_eqb z c11_guard)
    (read_all (read_char c11_chars c11_table) mid).
(** More than eleven characters on paper (ten data and C) means K is present. *)
Definition c11_verify (cs : list char) : option (list char) :=
  let? front := (if Nat.ltb 11 (length cs) then verify_last c11_chars 11 9 cs else Some cs) in
  verify_last c11_chars 11 10 front.
Definition read_c11 (ws : list nat) : option (list char) :=
  let? cs := read_c11_raw ws in c11_verify cs.
