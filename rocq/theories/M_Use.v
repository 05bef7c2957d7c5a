(** * The calling sequence of the library's documentation

    README.md and the module comments of src/sym: construct a barcode from a string, then
    call encode().  Nothing is modelled here that is not in the other files. *)
From Verif Require Import Rust M_Error M_Ean13 M_Ean8 M_Upca M_EanSupp M_Code39 M_Code93 M_Code11
  M_Codabar M_Code128 M_Tf Symbology.

(** [let b = new(data)?; Ok(b.encode())] *)
Definition run {B} (new : M (result B)) (encode : B -> M (list N)) : M (result (list N)) :=
  r <- new ;;
  match r with
  | Err e => Ret (Err e)
  | Ok b => m <- encode b ;; Ret (Ok m)
  end.
Definition barcode (y : symbology) (p : profile) (s : str) : M (result (list N)) :=
  match y with
  | SEan13 => run (ean13_new p s) (ean13_encode p)
  | SEan8 => run (ean8_new p s) (ean8_encode p)
  | SUpca => run (upca_new p s) (upca_encode p)
  | SSupp => run (eansupp_new s) (eansupp_encode p)
  | SCode39 => run (Ret (code39_new s)) (code39_encode p)
  | SCode39Checked => run (Ret (code39_with_checksum s)) (code39_encode p)
  | SCode93 => run (Ret (code93_new s)) (code93_encode p)
  | SCode11 => run (Ret (code11_new s)) (code11_encode p)
  | SCodabar => run (codabar_new s) (codabar_encode p)
  | SCode128 => run (Ret (code128_new s)) (code128_encode p)
  | SItf => run (tf_interleaved p s) tf_encode
  | SStf => run (tf_standard s) tf_encode
  end.
