(** * C94: texts and GS1 element strings in Code 128 *)
From Verif Require Import Rust M_Error M_Code128 Symbology M_Use S_Barcode S_Ean S_Text S_Linear S_Codabar S_Tf S_Code128 S_All S_Latin
  P_Rust P_Latin.

(** Every text of Latin-1 characters (all 256) can be written so that it is accepted and that a reader transmits exactly the
    text, as long as the spelling has at most 6489 characters (the largest size that always encodes: C41). *)
Theorem C94_every_latin1_text : forall p t, Forall (fun c => c < 256) t -> t <> [] -> len (text_message t) <= 6489 ->
  exists m, barcode SCode128 p (text_message t) = Ret (Ok m) /\ read_text m = Some t.
Proof. exact every_text. Qed.
Print Assumptions C94_every_latin1_text.
(** Texts of up to 2163 characters always fit. *)
Theorem C94_2163_characters : forall p t, Forall (fun c => c < 256) t -> 1 <= len t <= 2163 ->
  exists m, barcode SCode128 p (text_message t) = Ret (Ok m) /\ read_text m = Some t.
Proof.
  intros p t H [H1 H2]. apply every_text; [exact H | intros ->; cbn in H1; lia |]. pose proof (text_length t). unfold len, str, char in *. lia.
Qed.
Print Assumptions C94_2163_characters.
(** Nothing else can be carried: whatever is read as a text has Latin-1 characters only. *)
Theorem C94_nothing_but_latin1 : forall m t, read_text m = Some t -> Forall (fun c => c < 256) t.
Proof. exact read_text_latin. Qed.
Print Assumptions C94_nothing_but_latin1.

(** GS1-128: fields of characters of the code set, written after FNC1 and parted by FNC1, are transmitted as the GS1 element
    string: the identifier of GS1-128 and the fields, parted by GS. *)
Theorem C94_gs1_128 : forall p k fields, Forall (gs1_field k) fields -> len (gs1_message k fields) <= 6489 ->
  exists m, barcode SCode128 p (gs1_message k fields) = Ret (Ok m) /\
    read_gs1 m = Some (lit "]C1" ++ joined_by [29] fields).
Proof. exact gs1_read. Qed.
Print Assumptions C94_gs1_128.

(** A text with a control character, letters of both cases, DEL and accented letters *)
Example C94_case :
  let t := lit "Caf" ++ [233; 10] ++ lit "x" ++ [127; 133; 255] in
  text_message t = [385; 67; 97; 102; 380; 105; 192; 10; 385; 120; 247; 192; 380; 5; 385; 380; 247] /\
  exists m, barcode SCode128 Debug (text_message t) = Ret (Ok m) /\ read_text m = Some t.
Proof. split; [vm_compute; reflexivity|]. eexists. split; vm_compute; reflexivity. Qed.
(** An item number with a batch, in code set B, and an item number with a date in code set C *)
Example C94_case_gs1 :
  (exists m, barcode SCode128 Debug (gs1_message CB [lit "0109501101530003" ++ lit "10AB-123"; lit "2142"]) = Ret (Ok m) /\
     read_gs1 m = Some (lit "]C1010950110153000310AB-123" ++ [29] ++ lit "2142")) /\
  (exists m, barcode SCode128 Debug (gs1_message CC [lit "010950110153000317140704"]) = Ret (Ok m) /\
     read_gs1 m = Some (lit "]C1010950110153000317140704")).
Proof. split; eexists; split; vm_compute; reflexivity. Qed.
(** In extended mode two FNC4 latch, and FNC4 in front of the message is no data. *)
Example C94_case_latch : transmit false false [TFnc 4; TFnc 4; TChar 105; TFnc 4; TChar 105; TChar 105; TFnc 4; TFnc 4; TChar 105] = [233; 105; 233; 105].
Proof. reflexivity. Qed.
