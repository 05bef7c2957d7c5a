(** * Specification: full-ASCII mode of Code 39 and Code 93

    Four characters of the symbologies shift the letter after them (AIM BC5 for Code 93, ISO/IEC 16388 for
    Code 39): $ and a letter for control characters, + and a letter for lower case, / and a letter for punctuation,
    % and a letter for the rest.  In Code 39 the shift characters are the printed signs themselves; Code 93 has four
    characters of its own, which the library writes as parentheses and brackets. *)
From Verif Require Import Rust Symbology S_Barcode S_Text S_Linear S_All.

Inductive shift_kind : Type := Dollar | Percent | Slash | Plus.
(** What a letter means after a shift character *)
Definition shifted_letter (k : shift_kind) (c : char) : option char :=
  if (65 <=? c) && (c <=? 90) then
    let n := c - 65 in
    match k with
    | Dollar => Some (1 + n)
    | Plus => Some (97 + n)
    | Slash => if n <? 15 then Some (33 + n) else if c =? ch "Z" then Some (ch ":") else None
    | Percent =>
        if n <? 5 then Some (27 + n)
        else if n <? 10 then Some (59 + (n - 5))
        else if n <? 15 then Some (91 + (n - 10))
        else if n <? 20 then Some (123 + (n - 15))
        else if c =? ch "U" then Some 0
        else if c =? ch "V" then Some (ch "@")
        else if c =? ch "W" then Some (ch "`")
        else Some 127
    end
  else None.

(** The shift characters of a symbology *)
Definition shift_of (y : symbology) (c : char) : option shift_kind :=
  match y with
  | SCode93 => if c =? ch "(" then Some Dollar else if c =? ch ")" then Some Percent
               else if c =? ch "[" then Some Slash else if c =? ch "]" then Some Plus else None
  | _ => if c =? ch "$" then Some Dollar else if c =? ch "%" then Some Percent
         else if c =? ch "/" then Some Slash else if c =? ch "+" then Some Plus else None
  end.
(** The text that the characters of a symbol stand for *)
Fixpoint full_text (y : symbology) (s : str) : option str :=
  match s with
  | [] => Some []
  | c :: tl =>
      match shift_of y c with
      | None => option_map (cons c) (full_text y tl)
      | Some k =>
          match tl with
          | [] => None
          | d :: tl' => let? x := shifted_letter k d in option_map (cons x) (full_text y tl')
          end
      end
  end.
(** A reader in full-ASCII mode; with check characters, when the reader has been told that they are there *)
Definition read_full (y : symbology) (ws : list nat) : option str :=
  match y with
  | SCode39 => obind (read_c39 ws) (full_text y)
  | SCode39Checked =>
      obind (read_c39 ws) (fun t => match rev t with
        | [] => None
        | c :: d => guard (c39_value c =? c39_sum (rev d) mod 43) (full_text y (rev d))
        end)
  | SCode93 => obind (read_c93 ws) (full_text y)
  | _ => None
  end.
Definition full_mode (y : symbology) : Prop :=
  match y with SCode39 | SCode39Checked | SCode93 => True | _ => False end.

(** How to write a character: as it is, or the first shifted letter that means it *)
Definition shift_char (y : symbology) (k : shift_kind) : char :=
  match y, k with
  | SCode93, Dollar => ch "(" | SCode93, Percent => ch ")" | SCode93, Slash => ch "[" | SCode93, Plus => ch "]"
  | _, Dollar => ch "$" | _, Percent => ch "%" | _, Slash => ch "/" | _, Plus => ch "+"
  end.
Definition plain (y : symbology) (c : char) : bool :=
  existsb (N.eqb c) c39_chars && match shift_of y c with None => true | Some _ => false end.
Definition letters : list char := lit "ABCDEFGHIJKLMNOPQRSTUVWXYZ".
Definition spell_letter (y : symbology) (c : char) : str :=
  if plain y c then [c]
  else
    match filter (fun x => match shifted_letter (fst x) (snd x) with Some d => d =? c | None => false end)
            (list_prod [Dollar; Plus; Slash; Percent] letters) with
    | (k, l) :: _ => [shift_char y k; l]
    | [] => []
    end.
Definition full_spelling (y : symbology) (t : str) : str := concat (map (spell_letter y) t).
