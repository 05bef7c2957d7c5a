(** * Property C76: the error a caller is shown names the fault of the data *)
From Verif Require Import Rust M_Error M_Ascii M_Json M_Svg M_Image M_Code128 Symbology M_Use S_Barcode S_Text S_Ean S_Code128 S_Errors
  P_Rust P_Code128 P_Errors.

(** The text of the error of a refused string (Display for Error) *)
Definition shown (y : symbology) (p : profile) (s : str) (text : str) : Prop :=
  exists e, barcode y p s = Ret (Err e) /\ error_display e = text.

Lemma shown_kind y p s e : shown y p s (error_display e) <-> barcode y p s = Ret (Err e).
Proof.
  split; [|intros H; now exists e]. intros [e' [H E]]. rewrite H. f_equal. f_equal.
  destruct e, e'; reflexivity || discriminate.
Qed.

(** ** C76.  Data of the documented characters is never called invalid; its length is objected to exactly
    when it is not a documented length, its check digit exactly when it is there and wrong.  Data with a
    foreign character is refused with the other text or, if the number of bytes does not fit, as
    of wrong length; with the other text if it is ASCII and of the right length.
    Strings of 4 GiB and more: C07. *)
Theorem C76_error_text : forall y p s, y <> SCode128 -> str_len s < 2 ^ 32 ->
  let known := Forall (fun c => In c (alphabet y)) s in
  (known -> ~ shown y p s says_characters
     /\ (shown y p s says_length <-> ~ fits y (length s))
     /\ (shown y p s says_checksum <-> with_check_digit y (length s) /\ ~ gs1_valid (digits_of s))) /\
  (~ known -> (shown y p s says_characters \/ shown y p s says_length)
     /\ (Forall (fun c => c < 128) s -> fits y (length s) -> shown y p s says_characters)) /\
  (forall text, shown y p s text -> In text [says_characters; says_length; says_checksum]).
Proof.
  intros y p s HY Hs known. destruct (verdict y p s HY Hs) as [VL VC VK VF VO VG].
  change says_characters with (error_display ECharacter). change says_length with (error_display ELength).
  change says_checksum with (error_display EChecksum). rewrite !shown_kind. split; [|split].
  - intros K. split; [now apply VK | split; [now apply VL | now apply VC]].
  - intros K. split; [now apply VO | now apply VF].
  - intros text [e [H <-]]. pose proof (VG e H) as G. destruct e; cbn; try tauto; try contradiction.
Qed.
Print Assumptions C76_error_text.
(** Code 128: only strings without any character, or with a single ASCII character, are of wrong length. *)
Theorem C76_code128_error_text : forall p s,
  let short := s = [] \/ exists c, s = [c] /\ c < 128 in
  (shown SCode128 p s says_length <-> short) /\
  (shown SCode128 p s says_characters <-> ~ short /\ ~ exists segs, message_ok segs /\ s = spell segs) /\
  (forall text, shown SCode128 p s text -> In text [says_characters; says_length]).
Proof.
  intros p s short. destruct (code128_new_spec s) as (TL & TO & TC & TK).
  assert (HR : forall e, barcode SCode128 p s = Ret (Err e) <-> code128_new s = Err e) by (intros e; now apply err_run).
  assert (HS : short <-> str_len s < 2).
  { unfold short. split.
    - intros [->|[c [-> H]]]; [reflexivity|]. rewrite str_len_ascii by (constructor; [assumption | constructor]). reflexivity.
    - destruct s as [|c [|d s]]; [now left | |]; intros H.
      + right. exists c. split; [reflexivity|]. cbn [str_len fold_right] in H. unfold utf8_len in H. revert H.
        destruct (c <? 128) eqn:E; [now apply N.ltb_lt in E|]. repeat destruct (_ <? _); lia.
      + pose proof (str_len_ge (c :: d :: s)) as G. unfold len in G. cbn [length] in G. lia. }
  change says_characters with (error_display ECharacter). change says_length with (error_display ELength).
  rewrite !shown_kind, !HR, TL, TC, HS. split; [reflexivity|]. split; [split; intros [A B]; (split; [lia | assumption])|].
  intros text [e [H <-]]. apply HR in H. destruct e; cbn; try tauto; try contradiction. exfalso.
  assert (D : str_len s < 2 \/ 2 <= str_len s) by lia. destruct D as [D|D]; [apply TL in D; congruence|].
  assert (N1 : ~ exists segs, message_ok segs /\ s = spell segs).
  { intros X. assert (Y : exists b, code128_new s = Ok b) by (apply TO; auto). destruct Y as [b Y]. congruence. }
  assert (code128_new s = Err ECharacter) by (apply TC; auto). congruence.
Qed.
Print Assumptions C76_code128_error_text.
(** Generators: the one error of the image generator has its own text and means that the variant has no file format
    or that the codec failed; the other generators have no errors. *)
Theorem C76_generator_text : forall p (write_to : codec) g b e, image_generate p write_to g b = Ret (Err e) ->
  error_display e = says_generate /\
  (img_variant g = VBuffer \/ exists f buf, image_generate_buffer p g b = Ret (Ok buf) /\ write_to f buf = Ret None).
Proof.
  intros p wt g b e. unfold image_generate, image_generate_buffer. destruct (img_variant g); cbn [bind];
    [| | |intros H; injection H as <-; split; [reflexivity | now left]];
    (destruct (place_pixels p g b) as [buf|r]; cbn [bind]; [|discriminate]);
    match goal with |- context [wt ?f buf] => destruct (wt f buf) as [[bs|]|r] eqn:E; cbn [bind]; try discriminate;
      intros H; injection H as <-; split; [reflexivity | right; exists f, buf; now split] end.
Qed.
Print Assumptions C76_generator_text.
Theorem C76_generators_never_fail : forall p b e,
  (forall g, ascii_generate p g b <> Ret (Err e)) /\ (forall g, json_generate g b <> Err e) /\ (forall g, svg_generate p g b <> Ret (Err e)).
Proof.
  intros p b e. split; [|split; [discriminate|]]; intros g.
  - unfold ascii_generate. repeat (match goal with |- context [bind ?x _] => destruct x; cbn [bind] end; try discriminate).
  - unfold svg_generate. repeat (match goal with |- context [bind ?x _] => destruct x; cbn [bind] end; try discriminate).
Qed.
Print Assumptions C76_generators_never_fail.
(** The four texts differ, so the text tells the kind. *)
Theorem C76_texts_differ : forall e1 e2, error_display e1 = error_display e2 -> e1 = e2.
Proof. intros [] []; reflexivity || discriminate. Qed.
Print Assumptions C76_texts_differ.
Example C76_case : shown SEan13 Debug (lit "7501031311") says_length /\ shown SEan13 Debug (lit "7501031311308") says_checksum
  /\ shown SEan13 Debug (lit "75010313113O") says_characters
  /\ shown SEan13 Debug (lit "7501031311" ++ [233; 233]) says_length
  /\ shown SSupp Debug (lit "123") says_length /\ shown SSupp Debug (lit "12x") says_characters
  /\ shown SCode39 Release (lit "hello") says_characters /\ shown SCodabar Release [] says_length
  /\ shown SCode128 Debug (lit "A") says_length /\ shown SCode128 Debug (lit "AB") says_characters.
Proof.
  repeat (split; [eexists; split; vm_compute; reflexivity|]). eexists; split; vm_compute; reflexivity.
Qed.
Example C76_generator_case : let failing : codec := fun _ _ => Ret None in
  (exists e, image_generate Debug failing (image_png 2) [1; 0; 1] = Ret (Err e) /\ error_display e = says_generate) /\
  (exists e, image_generate Debug failing (image_image_buffer 2) [1; 0; 1] = Ret (Err e) /\ error_display e = says_generate).
Proof. split; eexists; split; vm_compute; reflexivity. Qed.
