(** * C100: the pretty-printed Debug texts of symbols and generators *)
From Verif Require Import Rust M_Error M_Svg M_Image M_Ascii M_Json Symbology M_Use M_Debug M_Pretty S_Barcode S_Text S_Num S_Code128
  S_All S_Debug S_Pretty P_Debug P_Pretty P_Oneline.

(** For every symbology and every input: the pretty-printed text of what the constructor returned is laid out in lines as it
    should be; it names the error if the input is refused, and otherwise it shows exactly the data taken over from the input.
    It panics only where the constructor itself does. *)
Theorem C100_new_shown : forall (tables : unicode) y p s,
  match pretty_new y p s with
  | Panic r => barcode y p s = Panic r
  | Ret t =>
      (exists e, barcode y p s = Ret (Err e) /\ read_pretty t = Some (TCall (lit "Err") [TName (error_name e)])) \/
      ((forall e, barcode y p s <> Ret (Err e)) /\
       exists v, new_value y s v /\ read_pretty t = Some (TCall (lit "Ok") [v]))
  end.
Proof. exact @new_pretty. Qed.
Print Assumptions C100_new_shown.
(** It says the same as the text on one line. *)
Theorem C100_same_as_plain : forall (tables : unicode) y p s,
  match debug_new y p s, pretty_new y p s with
  | Ret t, Ret t' => exists v, read_debug t = Some v /\ read_pretty t' = Some v
  | Panic r, Panic r' => r = r'
  | _, _ => False
  end.
Proof. exact @new_laid. Qed.
Print Assumptions C100_same_as_plain.
(** Two inputs with the same pretty-printed text have the same outcome: error or symbol. *)
Theorem C100_same_text_same_outcome : forall (tables : unicode) y p s s' t, pretty_new y p s = Ret t -> pretty_new y p s' = Ret t ->
  barcode y p s = barcode y p s'.
Proof. exact @same_laid. Qed.
Print Assumptions C100_same_text_same_outcome.

(** Apart from the line breaks of the layout the pretty-printed texts contain nothing but visible characters and spaces. *)
Theorem C100_only_line_breaks : forall (tables : unicode) y p s t, pretty_new y p s = Ret t -> Forall (fun c => 32 <= c <= 126 \/ c = 10) t.
Proof. exact @new_lines. Qed.
Print Assumptions C100_only_line_breaks.
Theorem C100_svg_only_line_breaks : forall (tables : unicode) g, Forall (fun c => visible tables c \/ c = 10) (pretty_svg g).
Proof. exact @laid_svg_gen. Qed.
Print Assumptions C100_svg_only_line_breaks.

(** Every setting of a generator can be read off its pretty-printed text. *)
Theorem C100_ascii : forall g, read_pretty (pretty_ascii g) = Some (TRecord (lit "ASCII")
  [(lit "height", TNum (ascii_height g)); (lit "xdim", TNum (ascii_xdim g))]).
Proof. exact (@ascii_laid (fun _ => true)). Qed.
Print Assumptions C100_ascii.
Theorem C100_json : forall g, read_pretty (pretty_json g) = Some (TRecord (lit "JSON")
  [(lit "height", TNum (json_height g)); (lit "xdim", TNum (json_xdim g))]).
Proof. exact (@json_laid (fun _ => true)). Qed.
Print Assumptions C100_json.
(** Namespaces of any characters, whichever of them core takes for printable *)
Theorem C100_svg : forall (tables : unicode) h x fr fg fb fa br bg bb ba ns,
  read_pretty (pretty_svg (mkSVG h x (mkColor fr fg fb fa) (mkColor br bg bb ba) ns)) = Some (TRecord (lit "SVG")
    [(lit "height", TNum h); (lit "xdim", TNum x);
     (lit "foreground", TRecord (lit "Color") [(lit "rgba", TList [TNum fr; TNum fg; TNum fb; TNum fa])]);
     (lit "background", TRecord (lit "Color") [(lit "rgba", TList [TNum br; TNum bg; TNum bb; TNum ba])]);
     (lit "xmlns", match ns with None => TName (lit "None") | Some u => TCall (lit "Some") [TText u] end)]).
Proof. intros. apply svg_laid. Qed.
Print Assumptions C100_svg.
Theorem C100_image : forall v h x r fr fg fb fa br bg bb ba,
  read_pretty (pretty_image (mkImage v h x r (mkRgba fr fg fb fa) (mkRgba br bg bb ba))) = Some (TRecord
    (match v with VGif => lit "GIF" | VPng => lit "PNG" | VWebp => lit "WEBP" | VBuffer => lit "ImageBuffer" end)
    [(lit "height", TNum h); (lit "xdim", TNum x);
     (lit "rotation", TName (match r with RZero => lit "Zero" | RNinety => lit "Ninety" | ROneEighty => lit "OneEighty"
                                        | RTwoSeventy => lit "TwoSeventy" end));
     (lit "foreground", TRecord (lit "Color") [(lit "rgba", TList [TNum fr; TNum fg; TNum fb; TNum fa])]);
     (lit "background", TRecord (lit "Color") [(lit "rgba", TList [TNum br; TNum bg; TNum bb; TNum ba])])]).
Proof. intros. apply (@image_laid (fun _ => true)). Qed.
Print Assumptions C100_image.

(** A two-digit add-on, a Code 128 message and a refused input, line by line *)
Example C100_case : forall tables : unicode,
  pretty_new SSupp Debug (lit "34") =
    Ret (lit "Ok(" ++ [10] ++ lit "    EAN2(" ++ [10] ++ lit "        [" ++ [10] ++ lit "            3," ++ [10] ++
         lit "            4," ++ [10] ++ lit "        ]," ++ [10] ++ lit "    )," ++ [10] ++ lit ")") /\
  pretty_new SCode128 Debug ([385] ++ lit "x") =
    Ret (lit "Ok(" ++ [10] ++ lit "    Code128(" ++ [10] ++ lit "        [" ++ [10] ++
         lit "            Unit {" ++ [10] ++ lit "                kind: B," ++ [10] ++ lit "                index: 104," ++ [10] ++ lit "            }," ++ [10] ++
         lit "            Unit {" ++ [10] ++ lit "                kind: B," ++ [10] ++ lit "                index: 88," ++ [10] ++ lit "            }," ++ [10] ++
         lit "        ]," ++ [10] ++ lit "    )," ++ [10] ++ lit ")") /\
  pretty_new SUpca Debug (lit "12345678901X") = Ret (lit "Err(" ++ [10] ++ lit "    Character," ++ [10] ++ lit ")").
Proof. intros tables. repeat split; vm_compute; reflexivity. Qed.
(** The reader refuses a text that is indented differently, lacks a comma, or stands on one line. *)
Example C100_case_reader : forall tables : unicode,
  read_pretty (lit "Err(" ++ [10] ++ lit "    Character," ++ [10] ++ lit ")") = Some (TCall (lit "Err") [TName (lit "Character")]) /\
  read_pretty (lit "Err(" ++ [10] ++ lit "  Character," ++ [10] ++ lit ")") = None /\
  read_pretty (lit "Err(" ++ [10] ++ lit "    Character" ++ [10] ++ lit ")") = None /\
  read_pretty (lit "Err(Character)") = None /\
  read_pretty (pretty_svg (mkSVG 80 2 (mkColor 255 0 0 255) (mkColor 0 0 0 0) (Some [104; 34; 92; 39; 10; 32]))) =
    Some (TRecord (lit "SVG")
      [(lit "height", TNum 80); (lit "xdim", TNum 2);
       (lit "foreground", TRecord (lit "Color") [(lit "rgba", TList [TNum 255; TNum 0; TNum 0; TNum 255])]);
       (lit "background", TRecord (lit "Color") [(lit "rgba", TList [TNum 0; TNum 0; TNum 0; TNum 0])]);
       (lit "xmlns", TCall (lit "Some") [TText [104; 34; 92; 39; 10; 32]])]).
Proof. intros tables. repeat split; vm_compute; reflexivity. Qed.
