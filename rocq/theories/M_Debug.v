(** * Model of the derived Debug implementations

    The attributes [derive(Debug)] of /repo/src make [format!("{:?}", value)] write the name of the type or variant and its
    fields in the order of their declaration.  The compiler expands them to calls of [debug_struct], [debug_tuple] and
    [debug_list] of core::fmt; their plain (not pretty-printed) output is modelled here. *)
From Verif Require Import Rust M_Error M_Ean13 M_Ean8 M_Upca M_EanSupp M_Code39 M_Code93 M_Code11 M_Codabar M_Code128 M_Tf
  M_Ascii M_Json M_Svg M_Image Symbology.

(** core::fmt::builders: entries parted by a comma and a space *)
Definition commas (l : list str) : str :=
  match l with
  | [] => []
  | x :: tl => x ++ flat_map (fun y => lit ", " ++ y) tl
  end.
(** Formatter::debug_list (slices, arrays and Vec) *)
Definition debug_list {A} (f : A -> str) (l : list A) : str := lit "[" ++ commas (map f l) ++ lit "]".
(** Formatter::debug_tuple (tuple structs and variants) *)
Definition debug_tuple (name : str) (fields : list str) : str := name ++ lit "(" ++ commas fields ++ lit ")".
(** Formatter::debug_struct *)
Definition debug_struct (name : str) (fields : list (str * str)) : str :=
  name ++ lit " { " ++ commas (map (fun x => fst x ++ lit ": " ++ snd x) fields) ++ lit " }".
(** Which characters from 128 on are written as they are is decided by tables of core (core::unicode); the library does not
    touch them.  They are an argument of everything below, and the theorems hold whatever the tables say. *)
Class unicode := printable : char -> bool.
Section Tables.
Context {tables : unicode}.
(** Debug of char and of str: core::char::methods::escape_debug_ext, written with as few hexadecimal digits as possible *)
Definition hex_digit (d : N) : char := if d <? 10 then 48 + d else 87 + d.
Definition backslash : char := 92.
Fixpoint hex_digits (fuel : nat) (c : N) (acc : str) : str :=
  match fuel with
  | O => acc
  | S n => if c <? 16 then hex_digit c :: acc else hex_digits n (c / 16) (hex_digit (c mod 16) :: acc)
  end.
Definition debug_escape (quote c : char) : str :=
  if c =? 0 then [backslash; ch "0"] else if c =? 9 then [backslash; ch "t"]
  else if c =? 10 then [backslash; ch "n"] else if c =? 13 then [backslash; ch "r"]
  else if (c =? quote) || (c =? backslash) then [backslash; c]
  else if (c <? 32) || (c =? 127) || (negb (c <? 128) && negb (printable c)) then
    [backslash; ch "u"; ch "{"] ++ hex_digits (N.size_nat c) c [] ++ [ch "}"]
  else [c].
Definition debug_char (c : char) : str := [39] ++ debug_escape 39 c ++ [39].
Definition debug_str (s : str) : str := [34] ++ flat_map (debug_escape 34) s ++ [34].
(** Debug of u8, u32, usize is Display. *)
Definition debug_bool (b : bool) : str := if b then lit "true" else lit "false".

(** src/error.rs:8-18 *)
Definition debug_error (e : error) : str :=
  match e with
  | ECharacter => lit "Character"
  | ELength => lit "Length"
  | EGenerate => lit "Generate"
  | EChecksum => lit "Checksum"
  end.
(** core::result::Result *)
Definition debug_result {A} (f : A -> str) (r : result A) : str :=
  match r with
  | Ok a => debug_tuple (lit "Ok") [f a]
  | Err e => debug_tuple (lit "Err") [debug_error e]
  end.

(** ** Symbologies *)
(** ean13.rs:86-87, ean8.rs:14-15, upca.rs:70-71 *)
Definition debug_ean13 (b : EAN13) : str := debug_tuple (lit "EAN13") [debug_list fmt_dec (ean13_0 b)].
Definition debug_ean8 (b : EAN8) : str := debug_tuple (lit "EAN8") [debug_list fmt_dec (ean8_0 b)].
Definition debug_upca (b : UPCA) : str := debug_tuple (lit "UPCA") [debug_list fmt_dec (upca_0 b)].
(** ean_supp.rs:41-47 *)
Definition debug_eansupp (b : EANSUPP) : str :=
  match b with
  | EAN2 d => debug_tuple (lit "EAN2") [debug_list fmt_dec d]
  | EAN5 d => debug_tuple (lit "EAN5") [debug_list fmt_dec d]
  end.
(** code39.rs:65-70 *)
Definition debug_code39 (b : Code39) : str :=
  debug_struct (lit "Code39") [(lit "data", debug_list debug_char (c39_data b)); (lit "checksum", debug_bool (c39_checksum b))].
(** code93.rs:73-74, code11.rs:35-36 *)
Definition debug_code93 (b : Code93) : str := debug_tuple (lit "Code93") [debug_list debug_char (c93_0 b)].
Definition debug_code11 (b : Code11) : str := debug_tuple (lit "Code11") [debug_list debug_char (c11_0 b)].
(** codabar.rs:15-37, enum Unit; 93-94, Codabar *)
Definition debug_cunit (u : cunit) : str :=
  match u with
  | UZero => lit "Zero" | UOne => lit "One" | UTwo => lit "Two" | UThree => lit "Three" | UFour => lit "Four"
  | UFive => lit "Five" | USix => lit "Six" | USeven => lit "Seven" | UEight => lit "Eight" | UNine => lit "Nine"
  | UDash => lit "Dash" | UDollar => lit "Dollar" | UColon => lit "Colon" | USlash => lit "Slash" | UPoint => lit "Point"
  | UPlus => lit "Plus" | UA => lit "A" | UB => lit "B" | UC => lit "C" | UD => lit "D"
  end.
Definition debug_codabar (b : Codabar) : str := debug_tuple (lit "Codabar") [debug_list debug_cunit (codabar_0 b)].
(** code128.rs:62-73, struct Unit and enum UnitKind; 239-240, Code128 *)
Definition debug_kind (k : unit_kind) : str := match k with KA => lit "A" | KB => lit "B" | KC => lit "C" end.
Definition debug_unit (u : unit128) : str :=
  debug_struct (lit "Unit") [(lit "kind", debug_kind (u_kind u)); (lit "index", fmt_dec (u_index u))].
Definition debug_code128 (b : Code128) : str := debug_tuple (lit "Code128") [debug_list debug_unit (c128_0 b)].
(** tf.rs:31-37 *)
Definition debug_tf (b : TF) : str :=
  match b with
  | Standard d => debug_tuple (lit "Standard") [debug_list fmt_dec d]
  | Interleaved d => debug_tuple (lit "Interleaved") [debug_list fmt_dec d]
  end.

(** ** Generators *)
(** ascii.rs:14-21, json.rs:19-25 *)
Definition debug_ascii (g : ASCII) : str :=
  debug_struct (lit "ASCII") [(lit "height", fmt_dec (ascii_height g)); (lit "xdim", fmt_dec (ascii_xdim g))].
Definition debug_json (g : JSON) : str :=
  debug_struct (lit "JSON") [(lit "height", fmt_dec (json_height g)); (lit "xdim", fmt_dec (json_xdim g))].
(** svg.rs:54-58, Color; 92-106, SVG *)
Definition debug_color (c : color) : str :=
  debug_struct (lit "Color") [(lit "rgba", debug_list fmt_dec [red c; green c; blue c; alpha c])].
Definition debug_option {A} (f : A -> str) (o : option A) : str :=
  match o with
  | None => lit "None"
  | Some a => debug_tuple (lit "Some") [f a]
  end.
Definition debug_svg (g : SVG) : str :=
  debug_struct (lit "SVG") [(lit "height", fmt_dec (svg_height g)); (lit "xdim", fmt_dec (svg_xdim g));
    (lit "foreground", debug_color (svg_foreground g)); (lit "background", debug_color (svg_background g));
    (lit "xmlns", debug_option debug_str (svg_xmlns g))].
(** image.rs:83-87, Color; 111-121, Rotation; 31-54 and 123-132, Image *)
Definition debug_rgba (c : rgba) : str :=
  debug_struct (lit "Color") [(lit "rgba", debug_list fmt_dec [px_r c; px_g c; px_b c; px_a c])].
Definition debug_rotation (r : rotation) : str :=
  match r with
  | RZero => lit "Zero" | RNinety => lit "Ninety" | ROneEighty => lit "OneEighty" | RTwoSeventy => lit "TwoSeventy"
  end.
Definition debug_variant (v : variant) : str :=
  match v with VGif => lit "GIF" | VPng => lit "PNG" | VWebp => lit "WEBP" | VBuffer => lit "ImageBuffer" end.
Definition debug_image (g : Image) : str :=
  debug_struct (debug_variant (img_variant g)) [(lit "height", fmt_dec (img_height g)); (lit "xdim", fmt_dec (img_xdim g));
    (lit "rotation", debug_rotation (img_rotation g));
    (lit "foreground", debug_rgba (img_foreground g)); (lit "background", debug_rgba (img_background g))].

(** [format!("{:?}", X::new(data))] *)
Definition debug_new (y : symbology) (p : profile) (s : str) : M str :=
  match y with
  | SEan13 => r <- ean13_new p s ;; Ret (debug_result debug_ean13 r)
  | SEan8 => r <- ean8_new p s ;; Ret (debug_result debug_ean8 r)
  | SUpca => r <- upca_new p s ;; Ret (debug_result debug_upca r)
  | SSupp => r <- eansupp_new s ;; Ret (debug_result debug_eansupp r)
  | SCode39 => Ret (debug_result debug_code39 (code39_new s))
  | SCode39Checked => Ret (debug_result debug_code39 (code39_with_checksum s))
  | SCode93 => Ret (debug_result debug_code93 (code93_new s))
  | SCode11 => Ret (debug_result debug_code11 (code11_new s))
  | SCodabar => r <- codabar_new s ;; Ret (debug_result debug_codabar r)
  | SCode128 => Ret (debug_result debug_code128 (code128_new s))
  | SItf => r <- tf_interleaved p s ;; Ret (debug_result debug_tf r)
  | SStf => r <- tf_standard s ;; Ret (debug_result debug_tf r)
  end.
End Tables.
