(** * Properties C33-C37: Interleaved and Standard 2 of 5 *)
From Verif Require Import Rust M_Error M_Tf S_Barcode S_Text S_Ean S_Tf P_Gs1 P_Tf.

(** ** C33.  False of the code: the check digit is computed in byte arithmetic.
    Fifteen nines panic with overflow checks and get a wrong check digit without. *)
Theorem C33_itf_check_digit_refuted :
  exists s, Forall digit_char s /\ str_len s = 15 /\
    tf_interleaved Debug s = Panic PanicOverflow /\
    tf_interleaved Release s = Ret (Ok (Interleaved (digits_of s ++ [7]))) /\
    ~ gs1_valid (digits_of s ++ [7]) /\ gs1_valid (digits_of s ++ [1]).
Proof.
  exists (lit "999999999999999"). split; [repeat constructor; discriminate|].
  split; [reflexivity|]. split; [vm_compute; reflexivity|].
  split; [vm_compute; reflexivity|].
  split; [intros E; vm_compute in E; discriminate | vm_compute; reflexivity].
Qed.
Print Assumptions C33_itf_check_digit_refuted.
(** The exact behaviour for every string and both profiles: acceptance is as claimed, and
    [w] (the weighted sum of the GS1 check digit computation) decides the rest.
    Missing for C33: the case [w >= 256] must append [gs1_check]. *)
Theorem C33_itf_new_partial : forall p s,
  let n := str_len s mod 2 ^ 32 in
  (~ (1 <= n <= 256) -> tf_interleaved p s = Ret (Err ELength)) /\
  (1 <= n <= 256 -> ~ Forall digit_char s -> tf_interleaved p s = Ret (Err ECharacter)) /\
  (1 <= n <= 256 -> Forall digit_char s ->
    let ds := digits_of s in
    let w := alt_sum 3 1 (rev ds) in
    tf_interleaved p s =
      if Nat.even (length s) then Ret (Ok (Interleaved ds))
      else if w <? 256 then Ret (Ok (Interleaved (ds ++ [gs1_check ds])))
      else match p with
           | Debug => Panic PanicOverflow
           | Release => Ret (Ok (Interleaved (ds ++ [(10 - (w mod 256) mod 10) mod 10])))
           end).
Proof. exact tf_interleaved_spec. Qed.
Print Assumptions C33_itf_new_partial.
(** Up to 13 digits the claim holds as stated. *)
Theorem C33_itf_short_partial : forall p s, Forall digit_char s -> (1 <= length s <= 13)%nat ->
  exists ds, tf_interleaved p s = Ret (Ok (Interleaved ds)) /\
    if Nat.even (length s) then ds = digits_of s
    else ds = digits_of s ++ [gs1_check (digits_of s)] /\ gs1_valid ds.
Proof. exact itf_check_short. Qed.
Print Assumptions C33_itf_short_partial.
(** Without overflow checks the wrapped check digit is right exactly when the number of
    wraps is a multiple of five. *)
Theorem C33_itf_release_partial : forall s ds,
  1 <= str_len s mod 2 ^ 32 <= 256 -> Forall digit_char s ->
  Nat.even (length s) = false -> tf_interleaved Release s = Ret (Ok (Interleaved ds)) ->
  let w := alt_sum 3 1 (rev (digits_of s)) in
  (gs1_valid ds <-> (w / 256) mod 5 = 0).
Proof. exact itf_release_valid. Qed.
Print Assumptions C33_itf_release_partial.
Example C33_case : tf_interleaved Debug (lit "1234567") = Ret (Ok (Interleaved [1;2;3;4;5;6;7;0]))
  /\ tf_interleaved Debug (lit "12345678") = Ret (Ok (Interleaved [1;2;3;4;5;6;7;8]))
  /\ gs1_valid [1;2;3;4;5;6;7;0]
  /\ tf_interleaved Debug (lit "1234A") = Ret (Err ECharacter)
  /\ tf_interleaved Debug [] = Ret (Err ELength)
  /\ alt_sum 3 1 (rev (digits_of (repeat (ch "9") 71))) = 1287
  /\ exists ds, tf_interleaved Release (repeat (ch "9") 71) = Ret (Ok (Interleaved ds)) /\ gs1_valid ds.
Proof. repeat split. eexists. split; vm_compute; reflexivity. Qed.

(** ** C34: conformance and round trip (wide bars of the data are three modules, the wide
    bar of the stop pattern two; see C36) *)
Theorem C34_itf_encode : forall p s b, tf_interleaved p s = Ret (Ok b) ->
  exists ds, Forall is_digit ds /\ (ds = digits_of s \/ exists c, ds = digits_of s ++ [c]) /\
    tf_raw_data b = ds /\ tf_encode b = Ret (render (itf_symbol 3 2 ds)) /\
    length (render (itf_symbol 3 2 ds)) = (9 * length ds + 8)%nat /\
    obind (scan (render (itf_symbol 3 2 ds))) read_itf = Some ds.
Proof. exact itf_accepted. Qed.
Print Assumptions C34_itf_encode.
(** Also for every value built by hand from an even number of digits, of any length *)
Theorem C34_itf_encode_value : forall ds, Forall is_digit ds -> Nat.even (length ds) = true ->
  exists m, tf_encode (Interleaved ds) = Ret m /\ m = render (itf_symbol 3 2 ds) /\
    obind (scan m) read_itf = Some ds.
Proof.
  intros ds H He. eexists. split; [now apply tf_encode_interleaved|]. split; [reflexivity|].
  rewrite itf_scan by assumption. cbn [obind]. now apply read_itf_symbol.
Qed.
Print Assumptions C34_itf_encode_value.
Example C34_case : tf_encode (Interleaved [1;2;3;4;5;6;7;0]) = Ret (modules
    "10101110100010101110001110111010001010001110100011100010101010100011100011101101")
  /\ obind (scan (modules "10101110100010101110001110111010001010001110100011100010101010100011100011101101"))
       read_itf = Some [1;2;3;4;5;6;7;0].
Proof. split; vm_compute; reflexivity. Qed.

(** ** C35: Standard 2 of 5 *)
Theorem C35_stf_new : forall s,
  let n := str_len s mod 2 ^ 32 in
  exists r, tf_standard s = Ret r /\
    (r = Err ELength <-> ~ (1 <= n <= 256)) /\
    (r = Err ECharacter <-> 1 <= n <= 256 /\ ~ Forall digit_char s) /\
    r <> Err EChecksum /\
    (forall b, r = Ok b <-> 1 <= n <= 256 /\ Forall digit_char s /\ b = Standard (digits_of s)).
Proof. exact tf_standard_spec. Qed.
Print Assumptions C35_stf_new.
(** The code appends one light module after the last bar. *)
Theorem C35_stf_encode : forall s b, tf_standard s = Ret (Ok b) ->
  exists m, tf_encode b = Ret m /\ m = render (stf_symbol 3 2 (digits_of s)) ++ [0] /\
    length m = (14 * length s + 16)%nat /\
    obind (scan m) read_stf = Some (digits_of s).
Proof. exact stf_accepted. Qed.
Print Assumptions C35_stf_encode.
Example C35_case : tf_standard (lit "1234567") = Ret (Ok (Standard [1;2;3;4;5;6;7]))
  /\ tf_encode (Standard [1]) = Ret (modules "110110101110101010111011010110")
  /\ obind (scan (modules "110110101110101010111011010110")) read_stf = Some [1]
  /\ tf_standard (lit "12A") = Ret (Err ECharacter) /\ tf_standard [] = Ret (Err ELength).
Proof. repeat split; vm_compute; reflexivity. Qed.

(** ** C36.  False of the code, for every accepted input of both symbologies: the data has
    wide elements of three modules, the guards of two. *)
Theorem C36_one_ratio_refuted :
  (forall p s b, tf_interleaved p s = Ret (Ok b) ->
     exists m ws, tf_encode b = Ret m /\ scan m = Some ws /\ ~ one_ratio ws) /\
  (forall s b, tf_standard s = Ret (Ok b) ->
     exists m ws, tf_encode b = Ret m /\ scan m = Some ws /\ ~ one_ratio ws) /\
  (exists b, tf_interleaved Debug (lit "12") = Ret (Ok b)) /\
  (exists b, tf_standard (lit "12") = Ret (Ok b)).
Proof.
  split; [exact itf_ratio_refuted|]. split; [exact stf_ratio_refuted|].
  split; eexists; vm_compute; reflexivity.
Qed.
Print Assumptions C36_one_ratio_refuted.
(** The data alone does use one ratio.  Missing for C36: the guards. *)
Theorem C36_data_ratio_partial :
  (forall p s b, tf_interleaved p s = Ret (Ok b) ->
     exists m data, tf_encode b = Ret m /\ scan m = Some ([1; 1; 1; 1] ++ data ++ [2; 1; 1])%nat /\
       Forall (fun x => x = 1 \/ x = 3)%nat data) /\
  (forall s b, tf_standard s = Ret (Ok b) ->
     exists m data, tf_encode b = Ret m /\ scan m = Some ([2; 1; 2; 1; 1; 1] ++ data ++ [2; 1; 1; 1; 2])%nat /\
       Forall (fun x => x = 1 \/ x = 3)%nat data).
Proof. split; [exact itf_printed_ratio | exact stf_printed_ratio]. Qed.
Print Assumptions C36_data_ratio_partial.
Example C36_case : itf_pair 3 (1, 2) = [3;1;1;3;1;1;1;1;3;3]%nat
  /\ stf_symbol 3 2 [1] = [2;1;2;1;1;1; 3;1;1;1;1;1;1;1;3;1; 2;1;1;1;2]%nat.
Proof. split; reflexivity. Qed.

(** ** C37: hand-built values *)
Theorem C37_standard : forall ds,
  (Forall is_digit ds -> tf_encode (Standard ds) = Ret (render (stf_symbol 3 2 ds) ++ [0])) /\
  (~ Forall is_digit ds -> tf_encode (Standard ds) = Panic PanicIndex).
Proof. intros ds. split; [apply tf_encode_standard | apply tf_encode_standard_panics]. Qed.
Print Assumptions C37_standard.
Theorem C37_interleaved : forall ds,
  (Forall is_digit ds /\ Nat.even (length ds) = true ->
     tf_encode (Interleaved ds) = Ret (render (itf_symbol 3 2 ds))) /\
  (~ (Forall is_digit ds /\ Nat.even (length ds) = true) ->
     tf_encode (Interleaved ds) = Panic PanicIndex).
Proof. intros ds. split; [intros [? ?]; now apply tf_encode_interleaved | apply tf_encode_interleaved_panics]. Qed.
Print Assumptions C37_interleaved.
Theorem C37_same_as_constructor : forall p ds, Forall is_digit ds -> 1 <= len ds <= 256 ->
  tf_standard (text_of ds) = Ret (Ok (Standard ds)) /\
  (Nat.even (length ds) = true -> tf_interleaved p (text_of ds) = Ret (Ok (Interleaved ds))).
Proof. exact tf_hand_built. Qed.
Print Assumptions C37_same_as_constructor.
Example C37_case : tf_encode (Interleaved [1;2;3]) = Panic PanicIndex
  /\ tf_encode (Interleaved [1;10]) = Panic PanicIndex /\ tf_encode (Standard [255]) = Panic PanicIndex
  /\ tf_encode (Standard []) = Ret (modules "1101101011010110")
  /\ tf_encode (Interleaved []) = Ret (modules "10101101").
Proof. repeat split. Qed.
