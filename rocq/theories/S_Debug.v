(** * Specification: reading the Debug notation of Rust values

    Numbers, characters in single quotes, texts in double quotes, names, names with values in parentheses, lists in
    brackets, and names with fields in braces. *)
From Verif Require Import Rust M_Error Symbology S_Barcode S_Text S_Num S_Ean S_Linear S_Codabar S_Tf S_Code128 S_All S_Exact.

Inductive tree : Type :=
| TNum (n : N)
| TQuote (c : char)
| TText (s : str)
| TName (name : str)
| TCall (name : str) (args : list tree)
| TList (items : list tree)
| TRecord (name : str) (fields : list (str * tree)).

Definition letterb (c : char) : bool := ((65 <=? c) && (c <=? 90)) || ((97 <=? c) && (c <=? 122)).
Definition nameb (c : char) : bool := letterb c || digitb c || (c =? 95).
(** A character or an escape *)
Fixpoint hex_value (v : N) (s : str) : option (N * str) :=
  match s with
  | [] => None
  | c :: tl => if c =? ch "}" then Some (v, tl) else let? d := read_hex1 c in hex_value (16 * v + d) tl
  end.
Definition read_escaped (s : str) : option (char * str) :=
  match s with
  | [] => None
  | c :: tl =>
      if c =? 92 then
        match tl with
        | e :: tl' =>
            if e =? ch "0" then Some (0, tl') else if e =? ch "t" then Some (9, tl')
            else if e =? ch "n" then Some (10, tl') else if e =? ch "r" then Some (13, tl')
            else if (e =? 34) || (e =? 39) || (e =? 92) then Some (e, tl')
            else if e =? ch "u" then
              match tl' with
              | b :: tl'' => guard (b =? ch "{") (hex_value 0 tl'')
              | [] => None
              end
            else None
        | [] => None
        end
      else Some (c, tl)
  end.
(** The characters up to the closing double quote *)
Fixpoint read_text_to (fuel : nat) (s : str) : option (str * str) :=
  match fuel with
  | O => None
  | S n =>
      match s with
      | [] => None
      | c :: tl =>
          if c =? 34 then Some ([], tl)
          else match read_escaped s with
               | None => None
               | Some (x, r) => match read_text_to n r with Some (t, r') => Some (x :: t, r') | None => None end
               end
      end
  end.
Fixpoint read_value (fuel : nat) (s : str) {struct fuel} : option (tree * str) :=
  match fuel with
  | O => None
  | S n =>
      match s with
      | [] => None
      | c :: tl =>
          if c =? ch "[" then match read_items n (ch "]") tl with Some (l, r) => Some (TList l, r) | None => None end
          else if c =? 39 then
            match read_escaped tl with
            | Some (x, q :: r) => guard (q =? 39) (Some (TQuote x, r))
            | _ => None
            end
          else if c =? 34 then match read_text_to n tl with Some (t, r) => Some (TText t, r) | None => None end
          else if digitb c then
            let (d, r) := span digitb s in Some (TNum (decimal (digits_of d)), r)
          else if letterb c then
            let (name, r) := span nameb s in
            match r with
            | a :: r1 =>
                if a =? ch "(" then match read_items n (ch ")") r1 with Some (l, r') => Some (TCall name l, r') | None => None end
                else
                  match eat (lit " { ") r with
                  | Some r2 => match read_fields n r2 with Some (l, r') => Some (TRecord name l, r') | None => None end
                  | None => Some (TName name, r)
                  end
            | [] => Some (TName name, r)
            end
          else None
      end
  end
with read_items (fuel : nat) (close : char) (s : str) {struct fuel} : option (list tree * str) :=
  match fuel with
  | O => None
  | S n =>
      match s with
      | [] => None
      | c :: tl =>
          if c =? close then Some ([], tl)
          else
            match read_value n s with
            | Some (v, e :: r) =>
                if e =? close then Some ([v], r)
                else
                  match eat (lit ", ") (e :: r) with
                  | Some r' => match read_items n close r' with Some (l, r2) => Some (v :: l, r2) | None => None end
                  | None => None
                  end
            | _ => None
            end
      end
  end
with read_fields (fuel : nat) (s : str) {struct fuel} : option (list (str * tree) * str) :=
  match fuel with
  | O => None
  | S n =>
      let (name, r) := span nameb s in
      match eat (lit ": ") r with
      | None => None
      | Some r1 =>
          match read_value n r1 with
          | None => None
          | Some (v, r2) =>
              match eat (lit " }") r2 with
              | Some r3 => Some ([(name, v)], r3)
              | None =>
                  match eat (lit ", ") r2 with
                  | Some r3 => match read_fields n r3 with Some (l, r4) => Some ((name, v) :: l, r4) | None => None end
                  | None => None
                  end
              end
          end
      end
  end.
Definition read_debug (s : str) : option tree :=
  match read_value (length s) s with
  | Some (t, []) => Some t
  | _ => None
  end.

(** ** What the texts of the library should say *)
Definition numbers (l : list N) : tree := TList (map TNum l).
Definition quotes (s : str) : tree := TList (map TQuote s).
Definition truth (b : bool) : tree := TName (if b then lit "true" else lit "false").
(** Names of the characters of Codabar *)
Definition cod_names : list (char * str) :=
  combine (lit "0123456789-$:/.+ABCD")
    [lit "Zero"; lit "One"; lit "Two"; lit "Three"; lit "Four"; lit "Five"; lit "Six"; lit "Seven"; lit "Eight"; lit "Nine";
     lit "Dash"; lit "Dollar"; lit "Colon"; lit "Slash"; lit "Point"; lit "Plus"; lit "A"; lit "B"; lit "C"; lit "D"].
Definition cod_name (c : char) : str :=
  match find (fun x => fst x =? c) cod_names with Some x => snd x | None => [] end.
(** Code 128: the code set in force at each symbol value of [message_values]; a change of code set is itself written in the
    set it leaves. *)
Fixpoint later_sets (k : cset) (segs : list segment) : list cset :=
  match segs with
  | [] => []
  | (k', body) :: tl => k :: repeat k' (length (body_values k' body)) ++ later_sets k' tl
  end.
Definition message_sets (segs : list segment) : list cset :=
  match segs with
  | [] => []
  | (k, body) :: tl => k :: repeat k (length (body_values k body)) ++ later_sets k tl
  end.
Definition set_name (k : cset) : str := match k with CA => lit "A" | CB => lit "B" | CC => lit "C" end.
Definition message_tree (segs : list segment) : tree :=
  TList (map (fun x => TRecord (lit "Unit") [(lit "kind", TName (set_name (fst x))); (lit "index", TNum (snd x))])
           (combine (message_sets segs) (message_values segs))).
(** The value made from an accepted text: the data it will draw (the check digit of a retail number is dropped, that of
    Interleaved 2 of 5 is there) *)
Definition new_value (y : symbology) (s : str) (t : tree) : Prop :=
  let ds := digits_of s in
  match y with
  | SEan13 => t = TCall (lit "EAN13") [numbers (firstn 12 ds)]
  | SEan8 => t = TCall (lit "EAN8") [numbers (firstn 7 ds)]
  | SUpca => t = TCall (lit "UPCA") [numbers (firstn 11 ds)]
  | SSupp => t = TCall (if Nat.eqb (length s) 2 then lit "EAN2" else lit "EAN5") [numbers ds]
  | SCode39 => t = TRecord (lit "Code39") [(lit "data", quotes s); (lit "checksum", truth false)]
  | SCode39Checked => t = TRecord (lit "Code39") [(lit "data", quotes s); (lit "checksum", truth true)]
  | SCode93 => t = TCall (lit "Code93") [quotes s]
  | SCode11 => t = TCall (lit "Code11") [quotes s]
  | SCodabar => t = TCall (lit "Codabar") [TList (map (fun c => TName (cod_name c)) s)]
  | SCode128 => exists segs, message_ok segs /\ s = spell segs /\ t = TCall (lit "Code128") [message_tree segs]
  | SItf => t = TCall (lit "Interleaved") [numbers (if Nat.even (length s) then ds else ds ++ [byte_check ds])]
  | SStf => t = TCall (lit "Standard") [numbers ds]
  end.
Definition four (name : str) (a b c d : N) : tree := TRecord name [(lit "rgba", numbers [a; b; c; d])].
Definition error_name (e : error) : str :=
  match e with
  | ECharacter => lit "Character" | ELength => lit "Length" | EGenerate => lit "Generate" | EChecksum => lit "Checksum"
  end.
(** What a terminal or a log file shows on one line: visible ASCII and the space, and beyond ASCII what has a glyph *)
Definition visible (glyph : char -> bool) (c : char) : Prop := (32 <= c /\ c <= 126) \/ (128 <= c /\ glyph c = true).
