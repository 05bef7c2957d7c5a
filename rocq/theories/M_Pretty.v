(** * Model of the derived Debug implementations, pretty-printed

    [format!("{:#?}", value)] runs the same derived implementations as {:?} (see M_Debug.v) with the alternate flag set, which
    makes [debug_struct], [debug_tuple] and [debug_list] of core::fmt::builders write one field or entry to a line.  The texts
    of numbers, characters, texts, truth values and variants without fields do not depend on the flag. *)
From Verif Require Import Rust M_Error M_Ean13 M_Ean8 M_Upca M_EanSupp M_Code39 M_Code93 M_Code11 M_Codabar M_Code128 M_Tf
  M_Ascii M_Json M_Svg M_Image Symbology M_Debug.
Section Tables.
Context {tables : unicode}.

Definition newline : char := 10.
(** core::fmt::builders::PadAdapter: four spaces before whatever follows a line break, and before the first character *)
Fixpoint pad_from (on_newline : bool) (s : str) : str :=
  match s with
  | [] => []
  | c :: tl => (if on_newline then lit "    " else []) ++ c :: pad_from (c =? newline) tl
  end.
(** One field or entry: padded, followed by a comma and a line break *)
Definition pad_entry (s : str) : str := pad_from true (s ++ lit "," ++ [newline]).
(** Formatter::debug_list *)
Definition pretty_list {A} (f : A -> str) (l : list A) : str :=
  lit "[" ++ (match l with [] => [] | _ => [newline] end) ++ flat_map (fun x => pad_entry (f x)) l ++ lit "]".
(** Formatter::debug_tuple, with at least one field *)
Definition pretty_tuple (name : str) (fields : list str) : str :=
  name ++ lit "(" ++ [newline] ++ flat_map pad_entry fields ++ lit ")".
(** Formatter::debug_struct, with at least one field *)
Definition pretty_struct (name : str) (fields : list (str * str)) : str :=
  name ++ lit " {" ++ [newline] ++ flat_map (fun x => pad_entry (fst x ++ lit ": " ++ snd x)) fields ++ lit "}".

(** core::result::Result *)
Definition pretty_result {A} (f : A -> str) (r : result A) : str :=
  match r with
  | Ok a => pretty_tuple (lit "Ok") [f a]
  | Err e => pretty_tuple (lit "Err") [debug_error e]
  end.

(** ** Symbologies *)
(** ean13.rs:86-87, ean8.rs:14-15, upca.rs:70-71 *)
Definition pretty_ean13 (b : EAN13) : str := pretty_tuple (lit "EAN13") [pretty_list fmt_dec (ean13_0 b)].
Definition pretty_ean8 (b : EAN8) : str := pretty_tuple (lit "EAN8") [pretty_list fmt_dec (ean8_0 b)].
Definition pretty_upca (b : UPCA) : str := pretty_tuple (lit "UPCA") [pretty_list fmt_dec (upca_0 b)].
(** ean_supp.rs:41-47 *)
Definition pretty_eansupp (b : EANSUPP) : str :=
  match b with
  | EAN2 d => pretty_tuple (lit "EAN2") [pretty_list fmt_dec d]
  | EAN5 d => pretty_tuple (lit "EAN5") [pretty_list fmt_dec d]
  end.
(** code39.rs:65-70 *)
Definition pretty_code39 (b : Code39) : str :=
  pretty_struct (lit "Code39") [(lit "data", pretty_list debug_char (c39_data b)); (lit "checksum", debug_bool (c39_checksum b))].
(** code93.rs:73-74, code11.rs:35-36 *)
Definition pretty_code93 (b : Code93) : str := pretty_tuple (lit "Code93") [pretty_list debug_char (c93_0 b)].
Definition pretty_code11 (b : Code11) : str := pretty_tuple (lit "Code11") [pretty_list debug_char (c11_0 b)].
(** codabar.rs:15-37, enum Unit; 93-94, Codabar *)
Definition pretty_codabar (b : Codabar) : str := pretty_tuple (lit "Codabar") [pretty_list debug_cunit (codabar_0 b)].
(** code128.rs:62-73, struct Unit and enum UnitKind; 239-240, Code128 *)
Definition pretty_unit (u : unit128) : str :=
  pretty_struct (lit "Unit") [(lit "kind", debug_kind (u_kind u)); (lit "index", fmt_dec (u_index u))].
Definition pretty_code128 (b : Code128) : str := pretty_tuple (lit "Code128") [pretty_list pretty_unit (c128_0 b)].
(** tf.rs:31-37 *)
Definition pretty_tf (b : TF) : str :=
  match b with
  | Standard d => pretty_tuple (lit "Standard") [pretty_list fmt_dec d]
  | Interleaved d => pretty_tuple (lit "Interleaved") [pretty_list fmt_dec d]
  end.

(** ** Generators *)
(** ascii.rs:14-21, json.rs:19-25 *)
Definition pretty_ascii (g : ASCII) : str :=
  pretty_struct (lit "ASCII") [(lit "height", fmt_dec (ascii_height g)); (lit "xdim", fmt_dec (ascii_xdim g))].
Definition pretty_json (g : JSON) : str :=
  pretty_struct (lit "JSON") [(lit "height", fmt_dec (json_height g)); (lit "xdim", fmt_dec (json_xdim g))].
(** svg.rs:54-58, Color; 92-106, SVG *)
Definition pretty_color (c : color) : str :=
  pretty_struct (lit "Color") [(lit "rgba", pretty_list fmt_dec [red c; green c; blue c; alpha c])].
Definition pretty_option {A} (f : A -> str) (o : option A) : str :=
  match o with
  | None => lit "None"
  | Some a => pretty_tuple (lit "Some") [f a]
  end.
Definition pretty_svg (g : SVG) : str :=
  pretty_struct (lit "SVG") [(lit "height", fmt_dec (svg_height g)); (lit "xdim", fmt_dec (svg_xdim g));
    (lit "foreground", pretty_color (svg_foreground g)); (lit "background", pretty_color (svg_background g));
    (lit "xmlns", pretty_option debug_str (svg_xmlns g))].
(** image.rs:83-87, Color; 111-121, Rotation; 31-54 and 123-132, Image *)
Definition pretty_rgba (c : rgba) : str :=
  pretty_struct (lit "Color") [(lit "rgba", pretty_list fmt_dec [px_r c; px_g c; px_b c; px_a c])].
Definition pretty_image (g : Image) : str :=
  pretty_struct (debug_variant (img_variant g)) [(lit "height", fmt_dec (img_height g)); (lit "xdim", fmt_dec (img_xdim g));
    (lit "rotation", debug_rotation (img_rotation g));
    (lit "foreground", pretty_rgba (img_foreground g)); (lit "background", pretty_rgba (img_background g))].

(** [format!("{:#?}", X::new(data))] *)
Definition pretty_new (y : symbology) (p : profile) (s : str) : M str :=
  match y with
  | SEan13 => r <- ean13_new p s ;; Ret (pretty_result pretty_ean13 r)
  | SEan8 => r <- ean8_new p s ;; Ret (pretty_result pretty_ean8 r)
  | SUpca => r <- upca_new p s ;; Ret (pretty_result pretty_upca r)
  | SSupp => r <- eansupp_new s ;; Ret (pretty_result pretty_eansupp r)
  | SCode39 => Ret (pretty_result pretty_code39 (code39_new s))
  | SCode39Checked => Ret (pretty_result pretty_code39 (code39_with_checksum s))
  | SCode93 => Ret (pretty_result pretty_code93 (code93_new s))
  | SCode11 => Ret (pretty_result pretty_code11 (code11_new s))
  | SCodabar => r <- codabar_new s ;; Ret (pretty_result pretty_codabar r)
  | SCode128 => Ret (pretty_result pretty_code128 (code128_new s))
  | SItf => r <- tf_interleaved p s ;; Ret (pretty_result pretty_tf r)
  | SStf => r <- tf_standard s ;; Ret (pretty_result pretty_tf r)
  end.
End Tables.
