(** * Property C69: pictures turned upside down are not misread *)
From Verif Require Import Rust M_Error M_Image Symbology M_Use S_Barcode S_Codabar S_Image S_Gen S_All P_Image P_Gen P_All P_Turned.

(** ** C69.  The picture is read along the line [line] by someone who takes it to be turned by
    half a turn more or less than it is.  [directed] leaves out Codabar without start and stop
    characters. *)
Theorem C69_upside_down : forall y p s m g line, str_len s < 2 ^ 48 -> directed y s -> barcode y p s = Ret (Ok m) ->
  1 <= img_xdim g -> fits g m -> line < img_height g -> img_foreground g <> img_background g ->
  exists buf m', image_generate_buffer p g m = Ret (Ok buf) /\
    image_modules (match img_rotation g with
                   | RZero => ROneEighty | ROneEighty => RZero | RNinety => RTwoSeventy | RTwoSeventy => RNinety
                   end) (img_foreground g) (img_background g) (img_xdim g) line buf = Some m' /\
    m' = rev m /\ read_modules y m' = None.
Proof.
  intros y p s m g line Hs HD E Hx HF Hl HC. destruct (barcode_modules y p s m Hs E) as [HM _].
  destruct (image_opposite p g m line HM Hx HF Hl HC) as (buf & Eo & R). exists buf, (rev m).
  split; [assumption|]. split; [exact R|]. split; [reflexivity|]. exact (barcode_mirror y p s m Hs HD E).
Qed.
Print Assumptions C69_upside_down.
Example C69_case : exists m buf, barcode SItf Debug (lit "17") = Ret (Ok m) /\ directed SItf (lit "17") /\
  image_generate_buffer Debug (mkImage VPng 2 1 ROneEighty rgba_black rgba_white) m = Ret (Ok buf) /\
  image_modules RZero rgba_black rgba_white 1 1 buf = Some (rev m) /\ read_modules SItf (rev m) = None /\
  image_modules ROneEighty rgba_black rgba_white 1 1 buf = Some m /\ read_modules SItf m = Some (Digits [1; 7]).
Proof.
  exists (match barcode SItf Debug (lit "17") with Ret (Ok m) => m | _ => [] end).
  exists (match barcode SItf Debug (lit "17") with
          | Ret (Ok m) => match image_generate_buffer Debug (mkImage VPng 2 1 ROneEighty rgba_black rgba_white) m with Ret (Ok t) => t | _ => mkBuffer 0 0 [] end
          | _ => mkBuffer 0 0 [] end).
  split; [vm_compute; reflexivity|]. split; [exact I|]. repeat (split; [vm_compute; reflexivity|]). vm_compute. reflexivity.
Qed.
