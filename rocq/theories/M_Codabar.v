(** * Model of src/sym/codabar.rs *)
From Verif Require Import Rust M_Error M_Parse M_Helpers.

(** src/sym/codabar.rs:16-37, enum Unit *)
Inductive cunit : Type :=
| UZero | UOne | UTwo | UThree | UFour | UFive | USix | USeven | UEight | UNine
| UDash | UDollar | UColon | USlash | UPoint | UPlus | UA | UB | UC | UD.

(** codabar.rs:40-63, Unit::lookup *)
Definition codabar_lookup (u : cunit) : list N :=
  match u with
  | UZero => [1; 0; 1; 0; 1; 0; 0; 1; 1]
  | UOne => [1; 0; 1; 0; 1; 1; 0; 0; 1]
  | UTwo => [1; 0; 1; 0; 0; 1; 0; 1; 1]
  | UThree => [1; 1; 0; 0; 1; 0; 1; 0; 1]
  | UFour => [1; 0; 1; 1; 0; 1; 0; 0; 1]
  | UFive => [1; 1; 0; 1; 0; 1; 0; 0; 1]
  | USix => [1; 0; 0; 1; 0; 1; 0; 1; 1]
  | USeven => [1; 0; 0; 1; 0; 1; 1; 0; 1]
  | UEight => [1; 0; 0; 1; 1; 0; 1; 0; 1]
  | UNine => [1; 1; 0; 1; 0; 0; 1; 0; 1]
  | UDash => [1; 0; 1; 0; 0; 1; 1; 0; 1]
  | UDollar => [1; 0; 1; 1; 0; 0; 1; 0; 1]
  | UColon => [1; 1; 0; 1; 0; 1; 1; 0; 1; 1]
  | USlash => [1; 1; 0; 1; 1; 0; 1; 0; 1; 1]
  | UPoint => [1; 1; 0; 1; 1; 0; 1; 1; 0; 1]
  | UPlus => [1; 0; 1; 1; 0; 0; 1; 1; 0; 0; 1; 1]
  | UA => [1; 0; 1; 1; 0; 0; 1; 0; 0; 1]
  | UB => [1; 0; 1; 0; 0; 1; 0; 0; 1; 1]
  | UC => [1; 0; 0; 1; 0; 0; 1; 0; 1; 1]
  | UD => [1; 0; 1; 0; 0; 1; 1; 0; 0; 1]
  end.

(** codabar.rs:65-89, Unit::from_char *)
Definition codabar_from_char (c : char) : option cunit :=
  if c =? ch "0" then Some UZero
  else if c =? ch "1" then Some UOne
  else if c =? ch "2" then Some UTwo
  else if c =? ch "3" then Some UThree
  else if c =? ch "4" then Some UFour
  else if c =? ch "5" then Some UFive
  else if c =? ch "6" then Some USix
  else if c =? ch "7" then Some USeven
  else if c =? ch "8" then Some UEight
  else if c =? ch "9" then Some UNine
  else if c =? ch "-" then Some UDash
  else if c =? ch "$" then Some UDollar
  else if c =? ch "/" then Some USlash
  else if c =? ch ":" then Some UColon
  else if c =? ch "." then Some UPoint
  else if c =? ch "+" then Some UPlus
  else if c =? ch "A" then Some UA
  else if c =? ch "B" then Some UB
  else if c =? ch "C" then Some UC
  else if c =? ch "D" then Some UD
  else None.

(** codabar.rs:94, struct Codabar(Vec<Unit>), private field *)
Inductive Codabar : Type := mkCodabar (d0 : list cunit).
Definition codabar_0 (b : Codabar) : list cunit := let 'mkCodabar d := b in d.

(** codabar.rs:131-136, valid_chars *)
Definition codabar_valid_chars : list char := lit "0123456789-/.:+$ABCD".

(** codabar.rs:99-104, new (with parse, lines 123-128) *)
Definition codabar_new (data : str) : M (result Codabar) :=
  match parse codabar_valid_chars 1 256 data with
  | Err e => Ret (Err e)
  | Ok d =>
      units <- mapM (fun c => unwrap (codabar_from_char c)) d ;;
      Ret (Ok (mkCodabar units))
  end.

(** codabar.rs:108-120, encode *)
Definition codabar_encode (p : profile) (b : Codabar) : M (list N) :=
  foldM (fun enc x =>
           let '(i, u) := x in
           let enc := enc ++ codabar_lookup u in
           last <- sub_u usize_bits p (len (codabar_0 b)) 1 ;;
           Ret (if i <? last then enc ++ [0] else enc))
        (enumerate (codabar_0 b)) [].
