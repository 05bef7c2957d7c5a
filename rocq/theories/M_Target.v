(** * The functions that compute with usize, for targets whose usize has [w] bits

    The other files fix usize to 64 bits ([usize_bits]).  Here the same functions again, line by line, with the
    width as an argument; [P_Target.target_64] says that at 64 bits they are the functions of the other files.
    Everything else in the library computes with u8, u32, i32 or char and does not depend on the target.
    Simplification: as elsewhere, running out of memory is not modelled, so the only trace of the address
    space is the size limit of an image buffer. *)
From Verif Require Import Rust M_Error M_Parse M_Helpers M_Tables M_Ean13 M_Ean8 M_Upca M_EanSupp M_Code39 M_Code93 M_Code11
  M_Codabar M_Code128 M_Tf M_Ascii M_Image Symbology M_Use.

(** code39.rs:93-99, checksum_char *)
Definition code39_checksum_char_at (w : N) (p : profile) (b : Code39) : M (option char) :=
  sum <- foldM (fun acc c => i <- code39_char_pos c ;; add_u w p acc i) (c39_data b) 0 ;;
  idx <- rem_u sum (len code39_CHARS) ;;
  Ret (option_map fst (nth_error code39_CHARS (N.to_nat idx))).
(** code39.rs:101-106, checksum_encoding *)
Definition code39_checksum_encoding_at (w : N) (p : profile) (b : Code39) : M (list N) :=
  oc <- code39_checksum_char_at w p b ;;
  match oc with Some c => code39_char_encoding c | None => Panic PanicExplicit end.
(** code39.rs:122-134, payload *)
Definition code39_payload_at (w : N) (p : profile) (b : Code39) : M (list N) :=
  enc <- foldM (fun enc c => e <- code39_char_encoding c ;; Ret (code39_push_encoding enc e)) (c39_data b) [0] ;;
  if c39_checksum b
  then e <- code39_checksum_encoding_at w p b ;; Ret (code39_push_encoding enc e)
  else Ret enc.
(** code39.rs:138-142, encode *)
Definition code39_encode_at (w : N) (p : profile) (b : Code39) : M (list N) :=
  pl <- code39_payload_at w p b ;; Ret (join_slices [code39_GUARD; pl; code39_GUARD]).

(** code93.rs:93-96, closure weight *)
Definition code93_weight_at (w : N) (p : profile) (data_len threshold i : N) : M N :=
  k <- sub_u w p data_len i ;;
  r <- rem_u k threshold ;;
  Ret (if r =? 0 then threshold else r).
(** code93.rs:91-103, checksum_char *)
Definition code93_checksum_char_at (w : N) (p : profile) (data : list char) (threshold : N) : M (option char) :=
  idx <- foldM (fun acc x =>
                  let '(i, c) := x in
                  pos <- code93_char_pos c ;;
                  v <- code93_weight_at w p (len data) threshold i ;;
                  t <- mul_u w p v pos ;;
                  add_u w p acc t)
               (enumerate data) 0 ;;
  r <- rem_u idx (len code93_CHARS) ;;
  Ret (option_map fst (nth_error code93_CHARS (N.to_nat r))).
(** code93.rs:122-138, payload, with c_checksum_char (106-108) and k_checksum_char (111-116) *)
Definition code93_payload_at (w : N) (p : profile) (b : Code93) : M (list N) :=
  oc <- code93_checksum_char_at w p (c93_0 b) 20 ;;
  c <- unwrap oc ;;
  ok <- code93_checksum_char_at w p (c93_0 b ++ [c]) 15 ;;
  k <- unwrap ok ;;
  enc <- foldM (fun enc ch => e <- code93_char_encoding ch ;; Ret (code93_push_encoding enc e)) (c93_0 b) [] ;;
  ce <- code93_char_encoding c ;;
  ke <- code93_char_encoding k ;;
  Ret (code93_push_encoding (code93_push_encoding enc ce) ke).
(** code93.rs:142-147, encode *)
Definition code93_encode_at (w : N) (p : profile) (b : Code93) : M (list N) :=
  pl <- code93_payload_at w p b ;; Ret (join_slices [code93_GUARD; pl; code93_GUARD; code93_TERMINATOR]).

(** code11.rs:56-73, checksum_char *)
Definition code11_checksum_char_at (w : N) (p : profile) (data : list char) (threshold : N) : M (option char) :=
  idx <- foldM (fun acc x =>
                  let '(i, c) := x in
                  pos <- code11_char_pos c ;;
                  i1 <- add_u w p i 1 ;;
                  v <- code11_weight threshold i1 ;;
                  t <- mul_u w p v pos ;;
                  add_u w p acc t)
               (enumerate (rev data)) 0 ;;
  r <- rem_u idx (len code11_CHARS) ;;
  Ret (option_map fst (nth_error code11_CHARS (N.to_nat r))).
(** code11.rs:93-113, payload, with c_checksum_char (76-78) and k_checksum_char (81-86) *)
Definition code11_payload_at (w : N) (p : profile) (b : Code11) : M (list N) :=
  oc <- code11_checksum_char_at w p (c11_0 b) 10 ;;
  c <- unwrap oc ;;
  enc <- foldM (fun enc ch => e <- code11_char_encoding ch ;; Ret (code11_push_encoding enc e)) (c11_0 b) [] ;;
  ce <- code11_char_encoding c ;;
  let enc := code11_push_encoding enc ce in
  if 10 <? len (c11_0 b) then
    ok <- code11_checksum_char_at w p (c11_0 b ++ [c]) 9 ;;
    k <- unwrap ok ;;
    ke <- code11_char_encoding k ;;
    Ret (code11_push_encoding enc ke)
  else Ret enc.
(** code11.rs:117-121, encode *)
Definition code11_encode_at (w : N) (p : profile) (b : Code11) : M (list N) :=
  pl <- code11_payload_at w p b ;; Ret (join_slices [code11_GUARD; code11_SEPARATOR; pl; code11_GUARD]).

(** codabar.rs:108-120, encode *)
Definition codabar_encode_at (w : N) (p : profile) (b : Codabar) : M (list N) :=
  foldM (fun enc x =>
           let '(i, u) := x in
           let enc := enc ++ codabar_lookup u in
           last <- sub_u w p (len (codabar_0 b)) 1 ;;
           Ret (if i <? last then enc ++ [0] else enc))
        (enumerate (codabar_0 b)) [].

(** The calling sequence of [M_Use.barcode] *)
Definition barcode_at (w : N) (y : symbology) (p : profile) (s : str) : M (result (list N)) :=
  match y with
  | SCode39 => run (Ret (code39_new s)) (code39_encode_at w p)
  | SCode39Checked => run (Ret (code39_with_checksum s)) (code39_encode_at w p)
  | SCode93 => run (Ret (code93_new s)) (code93_encode_at w p)
  | SCode11 => run (Ret (code11_new s)) (code11_encode_at w p)
  | SCodabar => run (codabar_new s) (codabar_encode_at w p)
  | _ => barcode y p s
  end.

(** ascii.rs:48-62, generate *)
Definition ascii_generate_at (w : N) (p : profile) (g : ASCII) (barcode : list N) : M (result str) :=
  row <- ascii_generate_row g barcode ;;
  out <- foldM (fun output x =>
                  let '(i, _) := x in
                  let output := output ++ row in
                  last <- sub_u w p (ascii_height g) 1 ;;
                  Ret (if i <? last then output ++ [10] else output))
               (enumerate (range (ascii_height g))) [] ;;
  Ret (Ok out).

(** ImageBuffer::new: 4*w*h bytes must fit isize *)
Definition buffer_new_at (w : N) (width height : N) : M buffer :=
  if 4 * width * height <? 2 ^ (w - 1)
  then Ret (mkBuffer width height (repeat rgba_zero (N.to_nat (width * height))))
  else Panic PanicAlloc.
(** imageops::rotate90, rotate180, rotate270 *)
Definition rotate_with_at (w : N) (b : buffer) (w' h' : N) (place : N -> N -> N * N) : M buffer :=
  out <- buffer_new_at w w' h' ;;
  foldM (fun out xy =>
           let '(x, y) := xy in
           c <- get_pixel b x y ;;
           put_pixel out (fst (place x y)) (snd (place x y)) c)
        (coords (buf_w b) (buf_h b)) out.
Definition rotate90_at (w : N) (b : buffer) : M buffer :=
  rotate_with_at w b (buf_h b) (buf_w b) (fun x y => (buf_h b - y - 1, x)).
Definition rotate180_at (w : N) (b : buffer) : M buffer :=
  rotate_with_at w b (buf_w b) (buf_h b) (fun x y => (buf_w b - x - 1, buf_h b - y - 1)).
Definition rotate270_at (w : N) (b : buffer) : M buffer :=
  rotate_with_at w b (buf_h b) (buf_w b) (fun x y => (y, buf_w b - x - 1)).
(** image.rs:185-213, place_pixels *)
Definition place_pixels_at (w : N) (p : profile) (g : Image) (barcode : list N) : M buffer :=
  width <- mul_u 32 p (cast_u 32 (len barcode)) (img_xdim g) ;;
  buf <- buffer_new_at w width (img_height g) ;;
  buf <- foldM (fun buf y => place_row p g barcode y buf) (range (img_height g)) buf ;;
  match img_rotation g with
  | RNinety => rotate90_at w buf
  | ROneEighty => rotate180_at w buf
  | RTwoSeventy => rotate270_at w buf
  | RZero => Ret buf
  end.
(** image.rs:176-183, generate_buffer *)
Definition image_generate_buffer_at (w : N) (p : profile) (g : Image) (barcode : list N) : M (result buffer) :=
  buf <- place_pixels_at w p g barcode ;; Ret (Ok buf).
