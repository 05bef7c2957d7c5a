(** * Property C89: the library can print every symbol a standard reader accepts *)
From Verif Require Import Rust M_Error Symbology M_Use S_Barcode S_Text S_Ean S_Linear S_Codabar S_Tf S_Code128 S_All S_Errors S_Reprint
  P_Rust P_Errors P_Reprint.

(** ** C89.  Whatever a reader reads within the library's limits is printed again, as the same symbol, from the
    text of the reading.  Nothing outside these limits is printed from any string below 4 GiB. *)
Theorem C89_printed_again : forall y p ws r, y <> SCode128 -> standard y ws -> read_as y ws = Some r -> printable y r ->
  exists m ws', barcode y p (source y r) = Ret (Ok m) /\ scan m = Some ws' /\ m = render ws' ++ tail y /\ alike y ws ws'.
Proof. exact reprint. Qed.
Print Assumptions C89_printed_again.
Theorem C89_exactly_these : forall y p ws r, y <> SCode128 -> read_as y ws = Some r ->
  (standard y ws /\ printable y r <->
   exists s m ws', str_len s < 2 ^ 32 /\ barcode y p s = Ret (Ok m) /\ scan m = Some ws' /\ alike y ws ws').
Proof.
  intros y p ws r HY H. split.
  - intros [HS HP]. destruct (reprint y p ws r HY HS H HP) as (m & ws' & HB & HW & _ & HA).
    destruct (source_fine y ws r HY HS H HP) as (K & F & _). exists (source y r), m, ws'.
    split; [now apply (fits_small y)|]. now repeat split.
  - intros (s & m & ws' & Hs & HB & HW & HA). now apply (printed_printable y p s m ws ws' r).
Qed.
Print Assumptions C89_exactly_these.
(** There is one symbol for every reading, save in Code 128. *)
Theorem C89_one_symbol : forall y ws ws' r, y <> SCode128 -> standard y ws -> standard y ws' ->
  read_as y ws = Some r -> read_as y ws' = Some r -> alike y ws ws'.
Proof. exact reading_alike. Qed.
Print Assumptions C89_one_symbol.
(** Code 128: every symbol of up to 6489 characters between start and stop is printed from some string. *)
Theorem C89_code128 : forall p ws r, read_as SCode128 ws = Some r -> len ws <= 38947 ->
  exists s, barcode SCode128 p s = Ret (Ok (render ws)).
Proof.
  intros p ws r H HL. cbn [read_as] in H. destruct (read_c128 ws) as [t|] eqn:E; [|discriminate]. now apply (reprint_128 p ws t).
Qed.
Print Assumptions C89_code128.
Theorem C89_code128_two_symbols : exists ws ws' r, ws <> ws' /\
  read_as SCode128 ws = Some r /\ read_as SCode128 ws' = Some r.
Proof.
  exists (c128_symbol [104; 17; 18]), (c128_symbol [105; 12]), (Tokens [TChar 49; TChar 50]).
  split; [vm_compute; discriminate|]. split; vm_compute; reflexivity.
Qed.
Print Assumptions C89_code128_two_symbols.
(** The limits bite: Codabar symbols with a plus sign. *)
Theorem C89_plus_unprintable : exists ws r, read_as SCodabar ws = Some r /\
  forall p s m, str_len s < 2 ^ 32 -> barcode SCodabar p s = Ret (Ok m) -> scan m <> Some ws.
Proof.
  exists (cod_symbol (lit "A+B")), (Text (lit "A+B")). assert (H : read_as SCodabar (cod_symbol (lit "A+B")) = Some (Text (lit "A+B"))) by (vm_compute; reflexivity).
  split; [exact H|]. intros p s m Hs HB HW.
  assert (G : standard SCodabar (cod_symbol (lit "A+B")) /\ printable SCodabar (Text (lit "A+B"))).
  { apply (C89_exactly_these SCodabar p); [discriminate | exact H|]. exists s, m, (cod_symbol (lit "A+B")). now repeat split. }
  destruct G as (_ & _ & G). apply G. vm_compute. tauto.
Qed.
Print Assumptions C89_plus_unprintable.

(** A 2-of-5 symbol with wide elements of two modules, printed with wide elements of three *)
Example C89_case : let ws := itf_symbol 2 2 [1;2;3;4] in
  read_as SItf ws = Some (Digits [1;2;3;4]) /\ standard SItf ws /\ printable SItf (Digits [1;2;3;4]) /\
  exists m ws', barcode SItf Debug (lit "1234") = Ret (Ok m) /\ scan m = Some ws' /\ ws' <> ws /\ alike SItf ws ws'.
Proof.
  cbv zeta. split; [vm_compute; reflexivity|]. split; [exact I|]. split; [cbn; lia|].
  exists (render (itf_symbol 3 2 [1;2;3;4])), (itf_symbol 3 2 [1;2;3;4]).
  split; [vm_compute; reflexivity|]. split; [vm_compute; reflexivity|]. split; [vm_compute; discriminate | vm_compute; reflexivity].
Qed.
(** The Codabar text read as A12B is printed from A12C. *)
Example C89_case_codabar : read_as SCodabar (cod_symbol (lit "A12B")) = Some (Text (lit "A12B")) /\
  source SCodabar (Text (lit "A12B")) = lit "A12C" /\ barcode SCodabar Debug (lit "A12C") = Ret (Ok (render (cod_symbol (lit "A12B")))).
Proof. split; [vm_compute; reflexivity|]. split; vm_compute; reflexivity. Qed.
Example C89_case_128 : read_as SCode128 (c128_symbol [104; 33; 98; 64; 99; 12; 102]) = Some (Tokens [TChar 65; TChar 0; TChar 49; TChar 50; TFnc 1]) /\
  barcode SCode128 Debug (385 :: lit "A" ++ 381 :: lit "`" ++ 262 :: lit "12" ++ [377]) =
    Ret (Ok (render (c128_symbol [104; 33; 98; 64; 99; 12; 102]))).
Proof. split; vm_compute; reflexivity. Qed.
