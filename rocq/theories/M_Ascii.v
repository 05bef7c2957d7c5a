(** * Model of src/generators/ascii.rs *)
From Verif Require Import Rust M_Error.

(** src/generators/ascii.rs:15-21, struct ASCII, public fields (usize) *)
Record ASCII : Type := mkASCII { ascii_height : N; ascii_xdim : N }.

(** ascii.rs:24, CHARS *)
Definition ascii_CHARS : list char := [ch " "; ch "#"].

(** ascii.rs:34-39, ASCII::new (and Default, 26-30) *)
Definition ascii_new : ASCII := mkASCII 10 1.

(** ascii.rs:41-46, generate_row: flat_map of repeat(..).take(xdim).  The closure
    indexes CHARS once per module, whatever xdim is.
    Simplification: exhausting memory is not modelled. *)
Definition ascii_generate_row (g : ASCII) (barcode : list N) : M str :=
  runs <- mapM (fun d => c <- index ascii_CHARS d ;;
                         Ret (repeat c (N.to_nat (ascii_xdim g)))) barcode ;;
  Ret (concat runs).

(** ascii.rs:48-62, generate *)
Definition ascii_generate (p : profile) (g : ASCII) (barcode : list N) : M (result str) :=
  row <- ascii_generate_row g barcode ;;
  out <- foldM (fun output x =>
                  let '(i, _) := x in
                  let output := output ++ row in
                  last <- sub_u usize_bits p (ascii_height g) 1 ;;
                  Ret (if i <? last then output ++ [10] else output))
               (enumerate (range (ascii_height g))) [] ;;
  Ret (Ok out).
