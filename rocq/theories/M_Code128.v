(** * Model of src/sym/code128.rs *)
From Verif Require Import Rust M_Error M_Helpers M_Tables.

(** src/sym/code128.rs:68-73, enum UnitKind *)
Inductive unit_kind : Type := KA | KB | KC.
(** code128.rs:62-66, struct Unit; index() (242-246) is [u_index] *)
Record unit128 : Type := mkUnit { u_kind : unit_kind; u_index : N }.
(** code128.rs:77-83, enum CharacterSet *)
Inductive charset : Type := SetA | SetB | SetC | SetNone.

Definition charset_eqb (a b : charset) : bool :=   (* derived PartialEq, code128.rs:77 *)
  match a, b with
  | SetA, SetA | SetB, SetB | SetC, SetC | SetNone, SetNone => true
  | _, _ => false
  end.

(** The three code-set characters: U+00C0, U+0181, U+0106 (code128.rs:13-15) *)
Definition chA : char := 0xC0.
Definition chB : char := 0x181.
Definition chC : char := 0x106.
Definition is_set_char (c : char) : bool := (c =? chA) || (c =? chB) || (c =? chC).

(** code128.rs:249-256, CharacterSet::from_char *)
Definition charset_from_char (c : char) : result charset :=
  if c =? chA then Ok SetA
  else if c =? chB then Ok SetB
  else if c =? chC then Ok SetC
  else Err ECharacter.

(** code128.rs:258-266, CharacterSet::unit *)
Definition charset_unit (s : charset) (n : N) : result unit128 :=
  match s with
  | SetA => Ok (mkUnit KA n)
  | SetB => Ok (mkUnit KB n)
  | SetC => Ok (mkUnit KC n)
  | SetNone => Err ECharacter
  end.

(** code128.rs:268-275, CharacterSet::index *)
Definition charset_index (s : charset) : result N :=
  match s with
  | SetA => Ok 0
  | SetB => Ok 1
  | SetC => Ok 2
  | SetNone => Err ECharacter
  end.

(** c.0[p]: column p of a row of the table (p is 0, 1 or 2, never out of range) *)
Definition column (p : N) (row : list str * list N) : str :=
  nth (N.to_nat p) (fst row) [].

(** code128.rs:277-284, CharacterSet::lookup *)
Definition charset_lookup (s : charset) (t : str) : result unit128 :=
  match charset_index s with
  | Err e => Err e
  | Ok p =>
      match position (fun row => str_eqb (column p row) t) code128_CHARS with
      | Some i => charset_unit s i
      | None => Err ECharacter
      end
  end.

(** code128.rs:240, struct Code128(Vec<Unit>), private field *)
Inductive Code128 : Type := mkCode128 (d0 : list unit128).
Definition c128_0 (b : Code128) : list unit128 := let 'mkCode128 d := b in d.

(** State of the tokenizer: units, char_set, carry (code128.rs:301-303) *)
Record tok : Type := mkTok { t_units : list unit128; t_set : charset; t_carry : option char }.
Definition tok0 : tok := mkTok [] SetNone None.

Definition is_nil {A} (l : list A) : bool := match l with [] => true | _ => false end.

(** code128.rs:305-338, one iteration of the loop of Code128::parse *)
Definition code128_step (st : tok) (c : char) : result tok :=
  if is_set_char c && is_nil (t_units st) then
    match charset_from_char c with
    | Err e => Err e
    | Ok s =>
        match charset_lookup s (lit "START-" ++ [c]) with
        | Err e => Err e
        | Ok u => Ok (mkTok (t_units st ++ [u]) s (t_carry st))
        end
    end
  else if is_set_char c then
    if charset_eqb (t_set st) SetC && (match t_carry st with Some _ => true | None => false end)
    then Err ECharacter
    else
      match charset_lookup (t_set st) [c] with
      | Err e => Err e
      | Ok u =>
          match charset_from_char c with
          | Err e => Err e
          | Ok s => Ok (mkTok (t_units st ++ [u]) s (t_carry st))
          end
      end
  else if is_ascii_digit c && charset_eqb (t_set st) SetC then
    match t_carry st with
    | None => Ok (mkTok (t_units st) (t_set st) (Some c))
    | Some n =>
        match charset_lookup (t_set st) [n; c] with
        | Err e => Err e
        | Ok u => Ok (mkTok (t_units st ++ [u]) (t_set st) None)
        end
    end
  else
    match charset_lookup (t_set st) [c] with
    | Err e => Err e
    | Ok u => Ok (mkTok (t_units st ++ [u]) (t_set st) (t_carry st))
    end.

Fixpoint code128_loop (st : tok) (chars : list char) : result tok :=
  match chars with
  | [] => Ok st
  | c :: tl =>
      match code128_step st c with
      | Err e => Err e
      | Ok st' => code128_loop st' tl
      end
  end.

(** code128.rs:300-344, Code128::parse *)
Definition code128_parse (chars : list char) : result (list unit128) :=
  match code128_loop tok0 chars with
  | Err e => Err e
  | Ok st => match t_carry st with Some _ => Err ECharacter | None => Ok (t_units st) end
  end.

(** code128.rs:290-297, Code128::new *)
Definition code128_new (data : str) : result Code128 :=
  if str_len data <? 2 then Err ELength
  else result_map mkCode128 (code128_parse data).

(** code128.rs:351, the range 0..self.0.len() as i32 (empty when negative) *)
Definition range_i32 (n : Z) : list Z := map Z.of_nat (seq 0 (Z.to_nat n)).

(** code128.rs:347-355, checksum_value.  [sum % 103] is Rust's truncated
    remainder, [as u8] wraps. *)
Definition code128_checksum_value (p : profile) (b : Code128) : M N :=
  sum <- foldM (fun t x =>
                  let '(u, i) := x in
                  m <- mul_i32 p (wrap_i32 (Z.of_N (u_index u))) (Z.max 1 i) ;;
                  add_i32 p t m)
               (combine (c128_0 b) (range_i32 (wrap_i32 (Z.of_N (len (c128_0 b)))))) 0%Z ;;
  Ret (Z.to_N ((Z.rem sum 103) mod 256)%Z).

(** code128.rs:365-367, unit_encoding *)
Definition code128_unit_encoding (u : unit128) : M (list N) :=
  row <- index code128_CHARS (u_index u) ;; Ret (snd row).

(** code128.rs:357-363, checksum_encoding *)
Definition code128_checksum_encoding (p : profile) (b : Code128) : M (list N) :=
  v <- code128_checksum_value p b ;;
  code128_unit_encoding (mkUnit KA v).

(** code128.rs:369-373, payload *)
Definition code128_payload (b : Code128) : M (list N) :=
  slices <- mapM code128_unit_encoding (c128_0 b) ;;
  Ret (join_iters slices).

(** code128.rs:377-386, encode *)
Definition code128_encode (p : profile) (b : Code128) : M (list N) :=
  pl <- code128_payload b ;;
  cs <- code128_checksum_encoding p b ;;
  Ret (join_slices [pl; cs; code128_STOP; code128_TERM]).
