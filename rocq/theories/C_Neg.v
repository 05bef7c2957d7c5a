(** * C109: pictures in negative *)
From Verif Require Import Rust M_Error M_Svg M_Image Symbology M_Use S_Barcode S_Ean S_Text S_Linear S_Codabar S_Tf S_Code128 S_All S_Cut S_Gen S_Svg S_Image S_Neg P_Svg P_Svg2 P_Image P_Image2 P_Gen P_Readable P_Neg.

(** A line that is read is not read in negative, whatever the dark paper around it; on light paper i and j are 0.  [accepts] asks for start
    and stop characters in Codabar, and for nothing otherwise. *)
Theorem C109_negative : forall y m r i j r', read_modules y m = Some r -> accepts y r -> read_modules y (on_dark i j m) = Some r' -> ~ accepts y r'.
Proof. intros y m r i j r' H HA H' HA'. exact (not_negative y m r i j r' H HA H' HA'). Qed.
Print Assumptions C109_negative.
Theorem C109_printed : forall y p s m, str_len s < 2 ^ 48 -> barcode y p s = Ret (Ok m) ->
  (y = SCodabar -> cod_framed s /\ ~ In (ch "+") s) -> (y = SCode128 -> len s <= 6489) ->
  exists r, meant y s (Some r) /\ read_modules y m = Some r /\ forall i j r', read_modules y (on_dark i j m) = Some r' -> ~ accepts y r'.
Proof.
  intros y p s m Hs H HC H8. destruct (readable_meant y p s m Hs H (fun E => proj2 (HC E)) H8) as (r & R & HM). exists r. split; [exact HM|]. split; [exact R|].
  intros i j r' E. apply (C109_negative y m r i j r' R); [|exact E]. destruct y; try exact I. destruct (HC eq_refl) as [HF HN].
  cbn [meant] in HM. destruct (existsb (fun c => c =? ch "+") s); [discriminate|]. injection HM as ->. cbn [accepts]. now apply P_Codabar.exchange_framed.
Qed.
Print Assumptions C109_printed.
(** So a picture is light on dark or dark on light, and a reader that tries both finds at most one reading. *)
Theorem C109_one_polarity : forall y m, (exists r, read_modules y m = Some r /\ accepts y r) -> (exists r, read_modules y (negative m) = Some r /\ accepts y r) -> False.
Proof.
  intros y m (r & H & HA) (r' & H' & HA'). apply (C109_negative y m r 0 0 r' H HA); [|exact HA']. unfold on_dark. cbn [repeat app]. now rewrite app_nil_r.
Qed.
Print Assumptions C109_one_polarity.

(** Backwards: the symbologies in which this holds on any paper *)
Theorem C109_backwards : forall y m r i j r', In y [SCode39; SCode39Checked; SCode93; SCodabar; SCode128; SItf; SStf] ->
  read_modules y m = Some r -> accepts y r -> read_modules y (rev (on_dark i j m)) = Some r' -> ~ accepts y r'.
Proof. intros y m r i j r' HY H HA H' HA'. exact (not_negative_back y m r i j r' HY H HA H' HA'). Qed.
Print Assumptions C109_backwards.
(** and all of them, when the paper is dark on both sides or on neither *)
Theorem C109_backwards_printed : forall y p s m r i j r', str_len s < 2 ^ 48 -> barcode y p s = Ret (Ok m) -> (i = 0 <-> j = 0)%nat ->
  read_modules y m = Some r -> accepts y r -> read_modules y (rev (on_dark i j m)) = Some r' -> ~ accepts y r'.
Proof. intros y p s m r i j r' Hs HB HE H HA H' HA'. exact (not_negative_even y p s m r i j r' Hs HB HE H HA H' HA'). Qed.
Print Assumptions C109_backwards_printed.

Definition modules_of (y : symbology) (s : str) : list N := match barcode y Debug s with Ret (Ok m) => m | _ => [] end.
(** With dark paper on one side only, retail symbols, add-ons and Code 11 symbols can be read backwards in negative, as other data;
    and Codabar symbols without start and stop characters even forwards. *)
Theorem C109_one_side_misread :
  (exists m, barcode SEan8 Debug (lit "3333331") = Ret (Ok m) /\ read_modules SEan8 m = Some (Digits [3;3;3;3;3;3;1;1]) /\ read_modules SEan8 (rev (on_dark 1 0 m)) = Some (Digits [1;1;3;3;3;3;3;3]))
  /\ (exists m, barcode SUpca Debug (lit "33331111111") = Ret (Ok m) /\ read_modules SUpca m = Some (Digits [3;3;3;3;1;1;1;1;1;1;1;1]) /\ read_modules SUpca (rev (on_dark 1 0 m)) = Some (Digits [1;1;1;1;1;1;1;1;3;3;3;3]))
  /\ (exists m, barcode SEan13 Debug (lit "033331111111") = Ret (Ok m) /\ read_modules SEan13 m = Some (Digits [0;3;3;3;3;1;1;1;1;1;1;1;1]) /\ read_modules SEan13 (rev (on_dark 1 0 m)) = Some (Digits [0;1;1;1;1;1;1;1;1;3;3;3;3]))
  /\ (exists m, barcode SSupp Debug (lit "69") = Ret (Ok m) /\ read_modules SSupp m = Some (Digits [6;9]) /\ read_modules SSupp (rev (on_dark 3 0 m)) = Some (Digits [3;9]))
  /\ (exists m, barcode SCode11 Debug (lit "6") = Ret (Ok m) /\ read_modules SCode11 m = Some (Text (lit "6")) /\ read_modules SCode11 (rev (on_dark 0 1 m)) = Some (Text (lit "7")))
  /\ (exists m, barcode SCodabar Debug (lit "1") = Ret (Ok m) /\ read_modules SCodabar m = Some (Text (lit "1")) /\ read_modules SCodabar (on_dark 1 0 m) = Some (Text (lit "0"))).
Proof. repeat split; eexists; vm_compute; repeat split; reflexivity. Qed.
Print Assumptions C109_one_side_misread.

(** Pictures whose bars are the lighter colour: to a reader that takes the background for dark they show the negative. *)
Theorem C109_light_bars : forall p b, Forall (fun x => x = 0 \/ x = 1) b ->
  (forall g y, good_svg g -> 1 <= svg_xdim g -> len b * svg_xdim g < 2 ^ 32 -> y < svg_height g ->
     let f := svg_foreground g in let k := svg_background g in
     let fg := (red f, green f, blue f) in let bg := (red k, green k, blue k) in
     fg <> bg -> exists out, svg_generate p g b = Ret (Ok out) /\ svg_modules bg fg (svg_xdim g) y out = Some (negative b)) /\
  (forall g k, 1 <= img_xdim g -> fits g b -> k < img_height g -> img_foreground g <> img_background g ->
     exists buf, image_generate_buffer p g b = Ret (Ok buf) /\
       image_modules (img_rotation g) (img_background g) (img_foreground g) (img_xdim g) k buf = Some (negative b)).
Proof.
  intros p b H. split.
  - intros g y HG Hx HF Hy f k fg bg HC. destruct (svg_modules_drawing p g b y HG HF Hx Hy HC H) as (out & E & HM). exists out. split; [exact E|].
    unfold svg_modules in *. destruct (read_svg out) as [d|]; [|discriminate]. cbn [obind] in *. destruct (d_box d) as [[[x0 y0] w] h]. apply P_Apart.obind_Some in HM. destruct HM as (line & -> & HM). cbn [obind].
    apply (line_negative rgb_eqb (fun x y => proj1 (rgb_eqb_true x y)) fg bg); assumption.
  - intros g k Hx HF Hk HC. destruct (image_modules_picture p g b k HF Hx Hk HC H) as (buf & E & HM). exists buf. split; [exact E|].
    unfold image_modules in *. apply P_Apart.obind_Some in HM. destruct HM as (line & -> & HM). cbn [obind].
    apply (line_negative rgba_eqb (fun x y => proj1 (rgba_eqb_true x y)) (img_foreground g) (img_background g)); assumption.
Qed.
Print Assumptions C109_light_bars.

(** A symbol, its negative on light and on dark paper, and a picture of it in white on black *)
Example C109_case : modules_of SCode93 (lit "A") <> [] /\ read_modules SCode93 (modules_of SCode93 (lit "A")) = Some (Text (lit "A")) /\
  map (fun ij => read_modules SCode93 (on_dark (fst ij) (snd ij) (modules_of SCode93 (lit "A")))) [(0, 0); (1, 0); (0, 1); (5, 5)]%nat = [None; None; None; None] /\
  (exists buf, image_generate_buffer Debug (mkImage VPng 1 1 RZero rgba_white rgba_black) [1; 0; 1; 1] = Ret (Ok buf) /\ image_modules RZero rgba_black rgba_white 1 0 buf = Some [0; 1; 0; 0]).
Proof.
  split; [vm_compute; discriminate|]. split; [vm_compute; reflexivity|]. split; [vm_compute; reflexivity|].
  exists (match image_generate_buffer Debug (mkImage VPng 1 1 RZero rgba_white rgba_black) [1; 0; 1; 1] with Ret (Ok t) => t | _ => mkBuffer 0 0 [] end). vm_compute. split; reflexivity.
Qed.
