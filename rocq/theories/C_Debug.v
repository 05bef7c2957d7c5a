(** * C95: what the Debug texts of symbols and generators say *)
From Verif Require Import Rust M_Error M_Svg M_Image M_Ascii M_Json Symbology M_Use M_Debug S_Barcode S_Text S_Num S_Code128 S_All S_Debug
  P_Debug P_Oneline.

(** For every symbology and every input: the Debug text of what the constructor returned is well-formed; it names the error
    if the input is refused, and otherwise it shows exactly the data taken over from the input.  It panics only where the
    constructor itself does. *)
Theorem C95_new_shown : forall (tables : unicode) y p s,
  match debug_new y p s with
  | Panic r => barcode y p s = Panic r
  | Ret t =>
      (exists e, barcode y p s = Ret (Err e) /\ read_debug t = Some (TCall (lit "Err") [TName (error_name e)])) \/
      ((forall e, barcode y p s <> Ret (Err e)) /\
       exists v, new_value y s v /\ read_debug t = Some (TCall (lit "Ok") [v]))
  end.
Proof. exact @new_shown. Qed.
Print Assumptions C95_new_shown.
(** Two inputs with the same Debug text have the same outcome: error or symbol. *)
Theorem C95_same_text_same_outcome : forall (tables : unicode) y p s s' t, debug_new y p s = Ret t -> debug_new y p s' = Ret t ->
  barcode y p s = barcode y p s'.
Proof. exact @same_text. Qed.
Print Assumptions C95_same_text_same_outcome.

(** The Debug texts stay on one line: whatever the input or the namespace contains, no control character, line break or
    character without a glyph gets through.  The texts of accepted and refused data are ASCII. *)
Theorem C95_one_line : forall (tables : unicode) y p s t, debug_new y p s = Ret t -> Forall (fun c => 32 <= c <= 126) t.
Proof. exact @new_ascii. Qed.
Print Assumptions C95_one_line.
Theorem C95_generators_one_line : forall (tables : unicode) a j v i,
  Forall (visible tables) (debug_ascii a) /\ Forall (visible tables) (debug_json j) /\
  Forall (visible tables) (debug_svg v) /\ Forall (visible tables) (debug_image i).
Proof. intros. repeat split; [apply vis_ascii_gen | apply vis_json_gen | apply vis_svg_gen | apply vis_image_gen]. Qed.
Print Assumptions C95_generators_one_line.

(** Every setting of a generator can be read off its Debug text. *)
Theorem C95_ascii : forall g, read_debug (debug_ascii g) = Some (TRecord (lit "ASCII")
  [(lit "height", TNum (ascii_height g)); (lit "xdim", TNum (ascii_xdim g))]).
Proof. exact (@ascii_shown (fun _ => true)). Qed.
Print Assumptions C95_ascii.
Theorem C95_json : forall g, read_debug (debug_json g) = Some (TRecord (lit "JSON")
  [(lit "height", TNum (json_height g)); (lit "xdim", TNum (json_xdim g))]).
Proof. exact (@json_shown (fun _ => true)). Qed.
Print Assumptions C95_json.
(** Namespaces of any characters, whichever of them core takes for printable *)
Theorem C95_svg : forall (tables : unicode) h x fr fg fb fa br bg bb ba ns,
  read_debug (debug_svg (mkSVG h x (mkColor fr fg fb fa) (mkColor br bg bb ba) ns)) = Some (TRecord (lit "SVG")
    [(lit "height", TNum h); (lit "xdim", TNum x);
     (lit "foreground", TRecord (lit "Color") [(lit "rgba", TList [TNum fr; TNum fg; TNum fb; TNum fa])]);
     (lit "background", TRecord (lit "Color") [(lit "rgba", TList [TNum br; TNum bg; TNum bb; TNum ba])]);
     (lit "xmlns", match ns with None => TName (lit "None") | Some u => TCall (lit "Some") [TText u] end)]).
Proof. intros. apply svg_shown. Qed.
Print Assumptions C95_svg.
Theorem C95_image : forall v h x r fr fg fb fa br bg bb ba,
  read_debug (debug_image (mkImage v h x r (mkRgba fr fg fb fa) (mkRgba br bg bb ba))) = Some (TRecord
    (match v with VGif => lit "GIF" | VPng => lit "PNG" | VWebp => lit "WEBP" | VBuffer => lit "ImageBuffer" end)
    [(lit "height", TNum h); (lit "xdim", TNum x);
     (lit "rotation", TName (match r with RZero => lit "Zero" | RNinety => lit "Ninety" | ROneEighty => lit "OneEighty"
                                        | RTwoSeventy => lit "TwoSeventy" end));
     (lit "foreground", TRecord (lit "Color") [(lit "rgba", TList [TNum fr; TNum fg; TNum fb; TNum fa])]);
     (lit "background", TRecord (lit "Color") [(lit "rgba", TList [TNum br; TNum bg; TNum bb; TNum ba])])]).
Proof. intros. apply (@image_shown (fun _ => true)). Qed.
Print Assumptions C95_image.

(** Debug texts of a retail number (check digit dropped), an odd Interleaved 2 of 5 number (check digit added), a Code 128
    message with a change of code set, and a refused input *)
Example C95_case : forall tables : unicode,
  debug_new SEan8 Debug (lit "55123457") = Ret (lit "Ok(EAN8([5, 5, 1, 2, 3, 4, 5]))") /\
  debug_new SItf Debug (lit "123") = Ret (lit "Ok(Interleaved([1, 2, 3, 6]))") /\
  debug_new SCode128 Debug ([385] ++ lit "x" ++ [262] ++ lit "42") =
    Ret (lit "Ok(Code128([Unit { kind: B, index: 104 }, Unit { kind: B, index: 88 }, Unit { kind: B, index: 99 }, Unit { kind: C, index: 42 }]))") /\
  debug_new SCodabar Debug (lit "A1.B") = Ret (lit "Ok(Codabar([A, One, Point, B]))") /\
  debug_new SCode39Checked Debug (lit "A-1") = Ret (lit "Ok(Code39 { data: ['A', '-', '1'], checksum: true })") /\
  debug_new SUpca Debug (lit "12345678901X") = Ret (lit "Err(Character)").
Proof. intros tables. repeat split; vm_compute; reflexivity. Qed.
Example C95_case_reader : forall tables : unicode,
  read_debug (debug_svg (mkSVG 80 2 (mkColor 255 0 0 255) (mkColor 0 0 0 0) (Some [104; 34; 92; 39; 10; 27]))) =
    Some (TRecord (lit "SVG")
      [(lit "height", TNum 80); (lit "xdim", TNum 2);
       (lit "foreground", TRecord (lit "Color") [(lit "rgba", TList [TNum 255; TNum 0; TNum 0; TNum 255])]);
       (lit "background", TRecord (lit "Color") [(lit "rgba", TList [TNum 0; TNum 0; TNum 0; TNum 0])]);
       (lit "xmlns", TCall (lit "Some") [TText [104; 34; 92; 39; 10; 27]])]) /\
  read_debug (lit "EAN2([1 2])") = None /\ read_debug (lit "EAN2[1, 2]") = None.
Proof. intros tables. repeat split; vm_compute; reflexivity. Qed.
(** A namespace with an e-acute and a character outside the basic plane, under tables that call both or neither of them
    printable *)
Example C95_case_tables :
  let g := mkSVG 80 2 (mkColor 0 0 0 255) (mkColor 0 0 0 0) (Some [233; 128512]) in
  let shows (u : unicode) (t : str) := debug_svg g = lit "SVG { height: 80, xdim: 2, foreground: Color { rgba: [0, 0, 0, 255] }, " ++
    lit "background: Color { rgba: [0, 0, 0, 0] }, xmlns: Some(" ++ [34] ++ t ++ [34] ++ lit ") }" in
  shows (fun _ => true) [233; 128512] /\ shows (fun _ => false) (lit "\u{e9}\u{1f600}").
Proof. split; vm_compute; reflexivity. Qed.
(** Delete and escape do not get through. *)
Example C95_case_control : forall tables : unicode, @debug_str tables [65; 127; 27; 10; 66] = [34] ++ lit "A\u{7f}\u{1b}\nB" ++ [34].
Proof. intros tables. vm_compute. reflexivity. Qed.
