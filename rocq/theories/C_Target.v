(** * Property C87: targets with a narrower usize *)
From Verif Require Import Rust M_Error M_Ascii M_Image Symbology M_Use M_Target S_Barcode S_Linear S_All P_Rust P_Weighted P_Code93 P_Image2 P_All P_Target.

(** ** C87.  The library does not say on which targets it runs.  A usize of 16 bits or more, whatever the build profile, gives the
    result of a 64-bit target, for every symbology but Code 93. *)
Theorem C87_every_width : forall w y p s, 16 <= w -> str_len s < 2 ^ 32 -> y <> SCode93 ->
  barcode_at w y p s = barcode y p s.
Proof. intros w y p s Hw Hs Hy. apply barcode_at_same; [assumption | assumption | contradiction]. Qed.
Print Assumptions C87_every_width.
Theorem C87_17_bits : forall w y p s, 17 <= w -> str_len s < 2 ^ 32 -> barcode_at w y p s = barcode y p s.
Proof. intros w y p s Hw Hs. apply barcode_at_same; [lia | assumption | auto]. Qed.
Print Assumptions C87_17_bits.

(** Code 93 with 16 bits: the result is the same exactly as long as both weighted sums fit; if one does not, a debug build panics
    and a release build returns a symbol of the usual length that no reader accepts. *)
Theorem C87_code93_16_bits : forall p s m, str_len s < 2 ^ 32 -> barcode SCode93 p s = Ret (Ok m) ->
  let c := weighted 20 (map c93_value s) in
  let k := weighted 15 (map c93_value (s ++ [c93_C s])) in
  (c < 2 ^ 16 /\ k < 2 ^ 16 -> barcode_at 16 SCode93 p s = Ret (Ok m)) /\
  (2 ^ 16 <= c \/ 2 ^ 16 <= k ->
     match p with
     | Debug => barcode_at 16 SCode93 p s = Panic PanicOverflow
     | Release => exists m', barcode_at 16 SCode93 p s = Ret (Ok m') /\ length m' = length m /\ read_modules SCode93 m' = None
     end).
Proof. exact code93_16. Qed.
Print Assumptions C87_code93_16_bits.
(** Up to 137 characters both sums fit; 138 characters are too many for some data. *)
Theorem C87_code93_137 : forall p s, str_len s < 2 ^ 32 -> (length s <= 137)%nat -> barcode_at 16 SCode93 p s = barcode SCode93 p s.
Proof. exact code93_16_short. Qed.
Print Assumptions C87_code93_137.
Theorem C87_code93_138 : exists s, length s = 138%nat /\ (exists m, barcode SCode93 Debug s = Ret (Ok m)) /\
  barcode_at 16 SCode93 Debug s = Panic PanicOverflow /\
  (exists m, barcode_at 16 SCode93 Release s = Ret (Ok m) /\ read_modules SCode93 m = None).
Proof.
  exists (repeat 93 138 : str). split; [apply repeat_length|]. apply code93_16_long.
  - vm_compute. reflexivity.
  - apply Forall_forall. intros c HI. apply repeat_spec in HI. subst c. apply (nth_error_In _ 46). reflexivity.
  - split; vm_compute; discriminate.
  - vm_compute. discriminate.
Qed.
Print Assumptions C87_code93_138.

(** Text output does not depend on the width at all, a picture only through the size its buffer may have: what comes out is what
    comes out with 64 bits, and it comes out exactly if the four bytes of each pixel fit a signed number of the width. *)
Theorem C87_text : forall w p g b, ascii_generate_at w p g b = ascii_generate p g b.
Proof. exact ascii_at. Qed.
Print Assumptions C87_text.
Theorem C87_picture : forall w p g b, 1 <= w <= 64 ->
  (forall r, image_generate_buffer_at w p g b = Ret r -> image_generate_buffer p g b = Ret r) /\
  (returns (image_generate_buffer_at w p g b) <->
   returns (image_generate_buffer p g b) /\ 4 * (len b * img_xdim g) * img_height g < 2 ^ (w - 1)).
Proof. exact image_at. Qed.
Print Assumptions C87_picture.
(** With 64 bits these are the functions of the other files. *)
Theorem C87_64_bits :
  (forall y p s, barcode_at 64 y p s = barcode y p s) /\
  (forall p g b, ascii_generate_at 64 p g b = ascii_generate p g b) /\
  (forall p g b, image_generate_buffer_at 64 p g b = image_generate_buffer p g b).
Proof. exact target_64. Qed.
Print Assumptions C87_64_bits.

(** Fewer than 16 bits would not do: 256 characters of value 42 overflow 13 *)
Example C87_case :
  barcode_at 16 SCode93 Debug (lit "TEST93") = barcode SCode93 Debug (lit "TEST93") /\
  barcode_at 32 SCode11 Release (lit "123-45") = barcode SCode11 Release (lit "123-45") /\
  (exists m, barcode_at 16 SCode39Checked Debug (lit "ABC") = Ret (Ok m)) /\
  barcode_at 13 SCode39Checked Debug (repeat (ch "%") 256) = Panic PanicOverflow /\
  image_generate_buffer_at 16 Debug (image_png 8192) [1] = Panic PanicAlloc /\
  ascii_generate_at 16 Debug (mkASCII 1 1) [1; 0; 1] = Ret (Ok (lit "# #")).
Proof.
  split; [vm_compute; reflexivity|]. split; [vm_compute; reflexivity|]. split; [eexists; vm_compute; reflexivity|].
  split; [vm_compute; reflexivity|]. split; vm_compute; reflexivity.
Qed.
