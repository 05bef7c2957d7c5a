(** * Model of src/generators/image.rs and of the image-crate calls it makes *)
From Verif Require Import Rust M_Error.

(** src/generators/image.rs:84-87, struct Color; an Rgba<u8> pixel
    (to_rgba, 105-107, is the identity on the four bytes). *)
Record rgba : Type := mkRgba { px_r : N; px_g : N; px_b : N; px_a : N }.
Definition rgba_black : rgba := mkRgba 0 0 0 255.          (* image.rs:96-98 *)
Definition rgba_white : rgba := mkRgba 255 255 255 255.    (* image.rs:101-103 *)
Definition rgba_zero : rgba := mkRgba 0 0 0 0.             (* Zero::zero() of each subpixel *)

(** image.rs:112-121, enum Rotation *)
Inductive rotation : Type := RZero | RNinety | ROneEighty | RTwoSeventy.

(** image.rs:31-54 and 123-132, enum Image: four variants with the same fields,
    modelled as a tag and the fields. *)
Inductive variant : Type := VGif | VPng | VWebp | VBuffer.
Record Image : Type := mkImage {
  img_variant : variant;
  img_height : N;
  img_xdim : N;
  img_rotation : rotation;
  img_foreground : rgba;
  img_background : rgba }.

(** image.rs:56-70, macro image_defaults *)
Definition image_default (v : variant) (height : N) : Image :=
  mkImage v height 1 RZero rgba_black rgba_white.
(** image.rs:136-138, gif; 141-143, png; 146-148, webp; 151-153, image_buffer *)
Definition image_gif (height : N) : Image := image_default VGif height.
Definition image_png (height : N) : Image := image_default VPng height.
Definition image_webp (height : N) : Image := image_default VWebp height.
Definition image_image_buffer (height : N) : Image := image_default VBuffer height.

(** ** The image crate (version 0.25; not part of /repo).

    An ImageBuffer<Rgba<u8>, Vec<u8>> is a width, a height and the pixels in
    row-major order; here one list entry per pixel instead of four bytes. *)
Record buffer : Type := mkBuffer { buf_w : N; buf_h : N; buf_px : list rgba }.

(** ImageBuffer::new panics when 4*w*h bytes overflow usize, and allocating more
    than isize::MAX bytes panics with capacity overflow.
    Simplification: running out of memory below that size is not modelled. *)
Definition buffer_new (w h : N) : M buffer :=
  if 4 * w * h <? 2 ^ 63
  then Ret (mkBuffer w h (repeat rgba_zero (N.to_nat (w * h))))
  else Panic PanicAlloc.

Fixpoint list_update {A} (l : list A) (n : nat) (x : A) : list A :=
  match l, n with
  | [], _ => []
  | _ :: tl, O => x :: tl
  | y :: tl, S n' => y :: list_update tl n' x
  end.

(** ImageBuffer::put_pixel: panics outside the image *)
Definition put_pixel (b : buffer) (x y : N) (c : rgba) : M buffer :=
  if (x <? buf_w b) && (y <? buf_h b)
  then Ret (mkBuffer (buf_w b) (buf_h b)
              (list_update (buf_px b) (N.to_nat (y * buf_w b + x)) c))
  else Panic PanicIndex.

(** ImageBuffer::get_pixel: panics outside the image *)
Definition get_pixel (b : buffer) (x y : N) : M rgba :=
  if (x <? buf_w b) && (y <? buf_h b)
  then index (buf_px b) (y * buf_w b + x)
  else Panic PanicIndex.

(** All pixel coordinates, row by row: for y in 0..h, for x in 0..w *)
Definition coords (w h : N) : list (N * N) :=
  flat_map (fun y => map (fun x => (x, y)) (range w)) (range h).

(** imageops::rotate90, rotate180, rotate270: each copies every pixel to a fresh
    buffer.  u32 subtractions cannot underflow inside the loops and are written
    as exact subtractions. *)
Definition rotate_with (b : buffer) (w' h' : N) (place : N -> N -> N * N) : M buffer :=
  out <- buffer_new w' h' ;;
  foldM (fun out xy =>
           let '(x, y) := xy in
           c <- get_pixel b x y ;;
           put_pixel out (fst (place x y)) (snd (place x y)) c)
        (coords (buf_w b) (buf_h b)) out.
Definition rotate90 (b : buffer) : M buffer :=
  rotate_with b (buf_h b) (buf_w b) (fun x y => (buf_h b - y - 1, x)).
Definition rotate180 (b : buffer) : M buffer :=
  rotate_with b (buf_w b) (buf_h b) (fun x y => (buf_w b - x - 1, buf_h b - y - 1)).
Definition rotate270 (b : buffer) : M buffer :=
  rotate_with b (buf_h b) (buf_w b) (fun x y => (y, buf_w b - x - 1)).

(** ** The modelled code *)

(** image.rs:199-201, the innermost loop: xdim pixels of module i in row y *)
Definition place_module (p : profile) (xdim y i : N) (c : rgba) (buf : buffer) : M buffer :=
  foldM (fun buf q =>
           x0 <- mul_u 32 p (cast_u 32 i) xdim ;;
           x <- add_u 32 p x0 q ;;
           put_pixel buf x y c)
        (range xdim) buf.

(** image.rs:196-202, one row *)
Definition place_row (p : profile) (g : Image) (barcode : list N) (y : N) (buf : buffer)
  : M buffer :=
  foldM (fun buf x =>
           let '(i, b) := x in
           let c := if b =? 0 then img_background g else img_foreground g in
           place_module p (img_xdim g) y i c buf)
        (enumerate barcode) buf.

(** image.rs:185-213, place_pixels *)
Definition place_pixels (p : profile) (g : Image) (barcode : list N) : M buffer :=
  width <- mul_u 32 p (cast_u 32 (len barcode)) (img_xdim g) ;;
  buf <- buffer_new width (img_height g) ;;
  buf <- foldM (fun buf y => place_row p g barcode y buf) (range (img_height g)) buf ;;
  match img_rotation g with
  | RNinety => rotate90 buf
  | ROneEighty => rotate180 buf
  | RTwoSeventy => rotate270 buf
  | RZero => Ret buf
  end.

(** image.rs:176-183, generate_buffer; to_rgba8 of an ImageRgba8 is a copy *)
Definition image_generate_buffer (p : profile) (g : Image) (barcode : list N)
  : M (result buffer) :=
  buf <- place_pixels p g barcode ;; Ret (Ok buf).

(** ImageFormat values used by image.rs:158-163 *)
Inductive image_format : Type := FGif | FPng | FWebP.

(** DynamicImage::write_to: a codec is any function from a format and a picture
    to bytes or a failure (None), or a panic.  The codecs are outside the model:
    [generate] takes one as an argument. *)
Definition codec : Type := image_format -> buffer -> M (option (list N)).

(** image.rs:157-172, generate *)
Definition image_generate (p : profile) (write_to : codec) (g : Image) (barcode : list N)
  : M (result (list N)) :=
  match (match img_variant g with
         | VGif => Some FGif
         | VPng => Some FPng
         | VWebp => Some FWebP
         | VBuffer => None
         end) with
  | None => Ret (Err EGenerate)
  | Some format =>
      img <- place_pixels p g barcode ;;
      bytes <- write_to format img ;;
      match bytes with
      | Some bs => Ret (Ok bs)
      | None => Ret (Err EGenerate)
      end
  end.
