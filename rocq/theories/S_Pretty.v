(** * Specification: reading the pretty-printed Debug notation of Rust values

    The notation of S_Debug.v laid out in lines: every value within parentheses, brackets or braces stands on lines of its
    own, indented by four spaces more than the line it belongs to, with a comma behind it, and the closing sign follows on a
    line of its own.  The reader insists on this layout. *)
From Verif Require Import Rust S_Barcode S_Text S_Num S_Ean S_Exact S_Debug.

(** A line break and the indentation of the next line *)
Definition line (depth : nat) : str := 10 :: repeat 32 (4 * depth).

Fixpoint read_laid (fuel depth : nat) (s : str) {struct fuel} : option (tree * str) :=
  match fuel with
  | O => None
  | S n =>
      match s with
      | [] => None
      | c :: tl =>
          if c =? ch "[" then
            match eat (lit "]") tl with
            | Some r => Some (TList [], r)
            | None => match laid_items n depth (ch "]") tl with Some (x :: l, r) => Some (TList (x :: l), r) | _ => None end
            end
          else if c =? 39 then
            match read_escaped tl with
            | Some (x, q :: r) => guard (q =? 39) (Some (TQuote x, r))
            | _ => None
            end
          else if c =? 34 then match read_text_to n tl with Some (t, r) => Some (TText t, r) | None => None end
          else if digitb c then
            let (d, r) := span digitb s in Some (TNum (decimal (digits_of d)), r)
          else if letterb c then
            let (name, r) := span nameb s in
            match eat (lit "(") r with
            | Some r1 => match laid_items n depth (ch ")") r1 with Some (x :: l, r') => Some (TCall name (x :: l), r') | _ => None end
            | None =>
                match eat (lit " {") r with
                | Some r2 => match laid_fields n depth r2 with Some (x :: l, r') => Some (TRecord name (x :: l), r') | _ => None end
                | None => Some (TName name, r)
                end
            end
          else None
      end
  end
(** The values on the lines below, and the closing sign *)
with laid_items (fuel depth : nat) (close : char) (s : str) {struct fuel} : option (list tree * str) :=
  match fuel with
  | O => None
  | S n =>
      match eat (line (S depth)) s with
      | None => match eat (line depth ++ [close]) s with Some r => Some ([], r) | None => None end
      | Some r =>
          match read_laid n (S depth) r with
          | None => None
          | Some (v, r1) =>
              match eat (lit ",") r1 with
              | None => None
              | Some r2 => match laid_items n depth close r2 with Some (l, r3) => Some (v :: l, r3) | None => None end
              end
          end
      end
  end
with laid_fields (fuel depth : nat) (s : str) {struct fuel} : option (list (str * tree) * str) :=
  match fuel with
  | O => None
  | S n =>
      match eat (line (S depth)) s with
      | None => match eat (line depth ++ lit "}") s with Some r => Some ([], r) | None => None end
      | Some r =>
          let (name, r0) := span nameb r in
          match eat (lit ": ") r0 with
          | None => None
          | Some r0' =>
              match read_laid n (S depth) r0' with
              | None => None
              | Some (v, r1) =>
                  match eat (lit ",") r1 with
                  | None => None
                  | Some r2 => match laid_fields n depth r2 with Some (l, r3) => Some ((name, v) :: l, r3) | None => None end
                  end
              end
          end
      end
  end.
Definition read_pretty (s : str) : option tree :=
  match read_laid (length s) 0 s with
  | Some (t, []) => Some t
  | _ => None
  end.
