(** * C90: full-ASCII mode of Code 39 and Code 93 *)
From Verif Require Import Rust M_Error M_Helpers M_Code39 M_Code93 Symbology M_Use S_Barcode S_Ean S_Text S_Linear S_Codabar S_Tf S_Code128
  S_All S_Errors S_FullAscii P_Errors P_FullAscii.

(** Every ASCII text can be printed, once written with the shift characters: it is accepted as long as the
    spelling has at most 256 characters, and a reader in full-ASCII mode gives the text back. *)
Theorem C90_every_ascii_text : forall y p t,
  full_mode y -> Forall (fun c => c < 128) t -> t <> [] -> (length (full_spelling y t) <= 256)%nat ->
  exists m, barcode y p (full_spelling y t) = Ret (Ok m) /\ obind (scan m) (read_full y) = Some t.
Proof. exact full_ascii. Qed.

(** The spelling needs at most two characters for each character of the text, so 128 characters always fit. *)
Theorem C90_128_characters : forall y p t,
  full_mode y -> Forall (fun c => c < 128) t -> (1 <= length t <= 128)%nat ->
  exists m, barcode y p (full_spelling y t) = Ret (Ok m) /\ obind (scan m) (read_full y) = Some t.
Proof.
  intros y p t HY H HL. pose proof (spelling_length y t HY H). apply full_ascii; try assumption; [|lia].
  intros ->. cbn in HL. lia.
Qed.

(** What the reader gives for any accepted string, and so when it gives the string itself: exactly when
    the string has no shift character. *)
Theorem C90_exactly : forall y p s m,
  full_mode y -> str_len s < 2 ^ 48 -> barcode y p s = Ret (Ok m) -> obind (scan m) (read_full y) = full_text y s.
Proof. exact read_full_exact. Qed.
Theorem C90_as_written : forall y p s m,
  full_mode y -> str_len s < 2 ^ 48 -> barcode y p s = Ret (Ok m) ->
  (obind (scan m) (read_full y) = Some s <-> Forall (fun c => shift_of y c = None) s).
Proof. intros y p s m HY Hs H. rewrite (read_full_exact y p s m HY Hs H). apply full_text_itself. Qed.

(** Code 93: parentheses and brackets in the data are the shift characters, so whatever a reader in full-ASCII mode
    makes of such data is shorter than the data: never the data itself. *)
Theorem C90_brackets_are_shifts : forall p s m t,
  str_len s < 2 ^ 48 -> barcode SCode93 p s = Ret (Ok m) -> obind (scan m) (read_full SCode93) = Some t ->
  (exists c, In c s /\ In c (lit "()[]")) -> (length t < length s)%nat.
Proof.
  intros p s m t Hs H R (c & Hc & Hb). rewrite (read_full_exact SCode93 p s m I Hs H) in R.
  destruct (full_text_shorter SCode93 (length s) s t (le_n _) R) as [_ G]. apply G. exists c. split; [assumption|].
  repeat destruct Hb as [<-|Hb]; try discriminate. contradiction.
Qed.

(** Concrete cases: a text with lower case, punctuation and a control character; accepted data read as another text
    or refused by a reader in full-ASCII mode. *)
Example C90_case :
  full_spelling SCode93 (lit "Hi (5%)") = lit "H]I [H5%[I" /\
  full_spelling SCode39 (lit "Hi (5%)") = lit "H+I /H5/E/I" /\
  full_spelling SCode93 [0; 9; 10; 127] = lit ")U(I(J)T" /\
  exists m, barcode SCode93 Debug (lit "H]I [H5%[I") = Ret (Ok m) /\ obind (scan m) (read_full SCode93) = Some (lit "Hi (5%)").
Proof. repeat split. eexists. split; vm_compute; reflexivity. Qed.
Example C90_case_misread :
  (exists m, barcode SCode93 Debug (lit "(A)") = Ret (Ok m) /\ obind (scan m) (read_full SCode93) = None) /\
  (exists m, barcode SCode93 Debug (lit "[A]B") = Ret (Ok m) /\ obind (scan m) (read_full SCode93) = Some (lit "!b")) /\
  (exists m, barcode SCode39 Debug (lit "A/B") = Ret (Ok m) /\ obind (scan m) (read_full SCode39) = Some [65; 34]) /\
  (exists m, barcode SCode39Checked Debug (lit "1+1") = Ret (Ok m) /\ obind (scan m) (read_full SCode39Checked) = None) /\
  (exists m, barcode SCode39Checked Debug (lit "A B-C.9") = Ret (Ok m) /\ obind (scan m) (read_full SCode39Checked) = Some (lit "A B-C.9")).
Proof. repeat split; eexists; split; vm_compute; reflexivity. Qed.

Print Assumptions C90_every_ascii_text.
Print Assumptions C90_128_characters.
Print Assumptions C90_exactly.
Print Assumptions C90_as_written.
Print Assumptions C90_brackets_are_shifts.
