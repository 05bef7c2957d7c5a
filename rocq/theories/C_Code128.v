(** * Properties C38-C42: Code 128 *)
From Coq Require Import ZArith.
From Verif Require Import Rust M_Error M_Code128 S_Barcode S_Text S_Linear S_Tf S_Code128
  P_Rust P_Code128 P_Code128b.

(** ** C38: the accepted language, for every string *)
Theorem C38_code128_new : forall s,
  (code128_new s = Err ELength <-> str_len s < 2) /\
  ((exists b, code128_new s = Ok b) <-> 2 <= str_len s /\ exists segs, message_ok segs /\ s = spell segs) /\
  (code128_new s = Err ECharacter <-> 2 <= str_len s /\ ~ exists segs, message_ok segs /\ s = spell segs) /\
  code128_new s <> Err EChecksum.
Proof. exact code128_new_spec. Qed.
Print Assumptions C38_code128_new.
(** The way to split a string into segments is unique. *)
Theorem C38_code128_segments_unique : forall segs1 segs2, message_ok segs1 -> message_ok segs2 ->
  spell segs1 = spell segs2 -> segs1 = segs2.
Proof. intros segs1 segs2 [_ [H1 _]] [_ [H2 _]]. now apply spell_inj. Qed.
Print Assumptions C38_code128_segments_unique.
Definition hello : list segment := [(CA, lit "HELLO"); (CC, [FNC1; 49; 50; 51; 52])].
Example C38_case : message_ok hello
  /\ (exists b, code128_new (spell hello) = Ok b)
  /\ code128_new (lit "AB") = Err ECharacter
  /\ code128_new (192 :: lit "HELLO" ++ 262 :: lit "123") = Err ECharacter
  /\ code128_new (192 :: lit "A" ++ 192 :: lit "B") = Err ECharacter
  /\ code128_new (lit "A") = Err ELength /\ (exists b, code128_new [192] = Ok b).
Proof.
  split.
  - split; [discriminate|]. split; [|split; [discriminate|exact I]].
    constructor; [|constructor; [|constructor]].
    + split; [|discriminate]. cbn. repeat (constructor; [left; reflexivity|]). constructor.
    + split; [|reflexivity]. cbn. constructor; [now right|].
      repeat (constructor; [now left|]). constructor.
  - split; [eexists; vm_compute; reflexivity|]. repeat (split; [vm_compute; reflexivity|]).
    eexists. vm_compute. reflexivity.
Qed.

(** ** C39: conformance, up to 6489 symbol characters (start included) *)
Theorem C39_code128_conformance : forall s b, code128_new s = Ok b -> exists segs,
  message_ok segs /\ s = spell segs /\
  (len (message_values segs) <= 6489 -> forall p,
     code128_encode p b = Ret (render (c128_symbol (message_values segs)))) /\
  length (render (c128_symbol (message_values segs))) = (11 * (length (message_values segs) + 2) + 2)%nat.
Proof. exact code128_accepted. Qed.
Print Assumptions C39_code128_conformance.
Example C39_case : message_values hello = [103; 40; 37; 44; 44; 47; 99; 102; 12; 34]
  /\ c128_check (message_values hello) = 101
  /\ (exists b, code128_new (spell hello) = Ok b /\
       code128_encode Debug b = Ret (render (c128_symbol (message_values hello)))).
Proof.
  split; [reflexivity|]. split; [vm_compute; reflexivity|]. eexists. split; [vm_compute; reflexivity|]. vm_compute. reflexivity.
Qed.

(** ** C40.  False of the code: the character after SHIFT is looked up in the wrong code
    set, and FNC1 between the two digits of a pair is printed before the pair. *)
Theorem C40_code128_round_trip_refuted :
  (exists segs b m, message_ok segs /\ aligned segs /\ code128_new (spell segs) = Ok b /\
     code128_encode Debug b = Ret m /\ meaning segs = [TChar 1] /\
     obind (scan m) read_c128 = Some [TChar 97]) /\
  (exists segs b m, message_ok segs /\ no_shift segs /\ code128_new (spell segs) = Ok b /\
     code128_encode Debug b = Ret m /\ meaning segs = [TChar 48; TFnc 1; TChar 49] /\
     obind (scan m) read_c128 = Some [TFnc 1; TChar 48; TChar 49]).
Proof.
  split.
  - exists [(CA, [SHIFT; 1])]. eexists. eexists. split.
    { split; [discriminate|]. split; [|exact I]. constructor; [|constructor]. split; [|discriminate].
      constructor; [right; cbn; auto 9|]. constructor; [left; reflexivity | constructor]. }
    split; [constructor; [discriminate | constructor]|]. split; [vm_compute; reflexivity|].
    split; [vm_compute; reflexivity|]. split; [vm_compute; reflexivity|]. vm_compute. reflexivity.
  - exists [(CC, [48; FNC1; 49])]. eexists. eexists. split.
    { split; [discriminate|]. split; [|exact I]. constructor; [|constructor]. split; [|reflexivity].
      constructor; [now left|]. constructor; [now right|]. constructor; [now left | constructor]. }
    split; [constructor; [|constructor]; intros [E|[E|[E|[]]]]; discriminate|].
    split; [vm_compute; reflexivity|]. split; [vm_compute; reflexivity|]. split; [vm_compute; reflexivity|]. vm_compute. reflexivity.
Qed.
Print Assumptions C40_code128_round_trip_refuted.
(** Messages whose SHIFTs only precede characters common to code sets A and B: the reader
    returns what was written, with FNC1 moved in front of the digit pair it interrupts.
    Missing for C40: the remaining uses of SHIFT, and FNC1 inside digit pairs. *)
Theorem C40_code128_round_trip_partial : forall segs, message_ok segs -> shifts_ok segs ->
  len (message_values segs) <= 6489 ->
  exists b, code128_new (spell segs) = Ok b /\
    forall p, exists m, code128_encode p b = Ret m /\
      obind (scan m) read_c128 = Some (meaning (settle segs)) /\
      (aligned segs -> obind (scan m) read_c128 = Some (meaning segs)).
Proof.
  intros segs HM HS HL. eexists. split; [now apply code128_new_spell|]. intros p. eexists.
  split; [now apply code128_encode_ok|]. split; [now apply code128_reads|].
  intros HA. rewrite code128_reads by assumption. rewrite settle_aligned; [reflexivity | apply HM | assumption].
Qed.
Print Assumptions C40_code128_round_trip_partial.
(** In particular without SHIFT. *)
Theorem C40_code128_round_trip_no_shift_partial : forall segs, message_ok segs -> no_shift segs ->
  aligned segs -> len (message_values segs) <= 6489 ->
  exists b, code128_new (spell segs) = Ok b /\
    forall p, exists m, code128_encode p b = Ret m /\ obind (scan m) read_c128 = Some (meaning segs).
Proof.
  intros segs HM HS HA HL.
  destruct (C40_code128_round_trip_partial segs HM (no_shift_ok segs HS) HL) as [b [E H]].
  exists b. split; [assumption|]. intros p. destruct (H p) as [m [E1 [_ E2]]]. exists m. auto.
Qed.
Print Assumptions C40_code128_round_trip_no_shift_partial.
Example C40_case : no_shift hello /\ aligned hello /\ (exists b m, code128_new (spell hello) = Ok b /\
  code128_encode Release b = Ret m /\
  obind (scan m) read_c128 =
    Some (map TChar (lit "HELLO") ++ [TFnc 1] ++ map TChar (lit "1234"))) /\
  shifts_ok [(CA, [SHIFT; 65; 1])].
Proof.
  split. { repeat (constructor; [cbn; intuition discriminate|]). constructor. }
  split. { constructor; [discriminate|]. constructor; [|constructor]. intros _. cbn. auto. }
  split. { eexists. eexists. split; [vm_compute; reflexivity|]. split; [vm_compute; reflexivity|]. vm_compute. reflexivity. }
  constructor; [|constructor]. cbn. split; [intros _; left; split; discriminate || reflexivity|].
  split; [discriminate | reflexivity].
Qed.

(** ** C41.  False of the code: the checksum is computed in i32.  Code set C followed by
    6489 FNC1 characters is accepted and then panics in both profiles. *)
Definition overlong : list segment := [(CC, repeat FNC1 6489)].
Lemma overlong_ok : message_ok overlong.
Proof.
  split; [discriminate|]. split; [|exact I]. constructor; [|constructor]. split.
  - cbn [fst snd]. apply Forall_forall. intros c H. apply repeat_spec in H. subst c. now right.
  - intros _. cbn [fst snd]. now rewrite digits_in_FNC1.
Qed.
Lemma overlong_sum : counted_sum (message_values overlong) = 2147794215.
Proof.
  unfold overlong. rewrite FNC1_values. rewrite counted_sum_small by (rewrite len_cons, len_repeat; reflexivity).
  cbn [c128_sum]. pose proof (position_sum_repeat 102 6489 1) as H.
  change (N.of_nat 6489) with 6489 in H. set (q := position_sum 1 (repeat 102 6489)) in *. clearbody q. lia.
Qed.
Theorem C41_code128_encode_refuted : exists s b, code128_new s = Ok b /\
  len s = 6490 /\ code128_encode Debug b = Panic PanicOverflow /\ code128_encode Release b = Panic PanicIndex.
Proof.
  exists (spell overlong). eexists. split; [apply code128_new_spell, overlong_ok|].
  split; [unfold spell, overlong; cbn [map concat fst snd]; now rewrite len_app, len_cons, len_repeat|].
  split; rewrite code128_encode_exact by exact overlong_ok; cbv zeta; rewrite overlong_sum; reflexivity.
Qed.
Print Assumptions C41_code128_encode_refuted.
(** The exact outcome of encode for every accepted message of any size.
    Missing for C41: the panics; and from 2^31 check sums on, the right check symbol. *)
Theorem C41_code128_encode_exact_partial : forall p segs b, message_ok segs -> code128_new (spell segs) = Ok b ->
  let vs := message_values segs in
  let w := match p with
           | Debug => Z.of_N (counted_sum vs)
           | Release => wrap_i32 (Z.of_N (counted_sum vs))
           end in
  code128_encode p b =
  if (2 ^ 31 <=? w)%Z then Panic PanicOverflow
  else if (0 <=? w)%Z then Ret (render (symbol_with vs (Z.to_N (w mod 103))))
  else if (Z.rem w 103 =? 0)%Z then Ret (render (symbol_with vs 0))
  else Panic PanicIndex.
Proof.
  intros p segs b HM HB. rewrite code128_new_spell in HB by assumption. injection HB as <-.
  now apply code128_encode_exact.
Qed.
Print Assumptions C41_code128_encode_exact_partial.
(** 6489 symbol characters are the largest size that is always safe. *)
Theorem C41_code128_encode_safe_partial : forall p segs b, message_ok segs -> code128_new (spell segs) = Ok b ->
  len (message_values segs) <= 6489 -> returns (code128_encode p b).
Proof.
  intros p segs b HM HB HL. rewrite code128_new_spell in HB by assumption. injection HB as <-.
  eexists. now apply code128_encode_ok.
Qed.
Print Assumptions C41_code128_encode_safe_partial.
Example C41_case : len (message_values overlong) = 6490
  /\ counted_sum (message_values overlong) = 2147794215
  /\ len (message_values [(CC, repeat FNC1 6488)]) = 6489
  /\ (exists b, code128_new (spell [(CC, repeat FNC1 20)]) = Ok b /\
        match code128_encode Release b with Ret m => len m = 11 * 23 + 2 | Panic _ => False end).
Proof.
  split; [unfold overlong; now rewrite FNC1_values, len_cons, len_repeat|]. split; [exact overlong_sum|].
  split; [now rewrite FNC1_values, len_cons, len_repeat|].
  eexists. split; [vm_compute; reflexivity|]. vm_compute. reflexivity.
Qed.

(** ** C42.  False of the code: the place of FNC1 among the digits of a pair is lost. *)
Theorem C42_code128_injective_refuted : exists s1 s2 b1 b2 m, s1 <> s2 /\
  code128_new s1 = Ok b1 /\ code128_new s2 = Ok b2 /\
  forall p, code128_encode p b1 = Ret m /\ code128_encode p b2 = Ret m.
Proof.
  exists [262; 49; FNC1; 50], [262; FNC1; 49; 50]. eexists. eexists. eexists. split; [discriminate|].
  split; [vm_compute; reflexivity|]. split; [vm_compute; reflexivity|].
  intros p. split; destruct p; vm_compute; reflexivity.
Qed.
Print Assumptions C42_code128_injective_refuted.
(** Two messages print the same symbol exactly when they are the same once every FNC1 of
    code set C is moved in front of the digit pair it interrupts; any size, both profiles.
    Missing for C42: FNC1 inside digit pairs. *)
Theorem C42_code128_injective_partial : forall p segs1 segs2 b1 b2,
  message_ok segs1 -> message_ok segs2 ->
  code128_new (spell segs1) = Ok b1 -> code128_new (spell segs2) = Ok b2 ->
  returns (code128_encode p b1) ->
  (code128_encode p b1 = code128_encode p b2 <-> spell (settle segs1) = spell (settle segs2)).
Proof.
  intros p segs1 segs2 b1 b2 M1 M2 E1 E2. rewrite code128_new_spell in E1, E2 by assumption.
  injection E1 as <-. injection E2 as <-. now apply code128_same_iff.
Qed.
Print Assumptions C42_code128_injective_partial.
(** Hence strings without such an FNC1 are determined by their symbols. *)
Theorem C42_code128_injective_aligned_partial : forall p p' s1 s2 b1 b2 m,
  code128_new s1 = Ok b1 -> code128_new s2 = Ok b2 ->
  (forall segs, message_ok segs -> s1 = spell segs -> aligned segs) ->
  (forall segs, message_ok segs -> s2 = spell segs -> aligned segs) ->
  code128_encode p b1 = Ret m -> code128_encode p' b2 = Ret m -> s1 = s2.
Proof. exact code128_injective. Qed.
Print Assumptions C42_code128_injective_aligned_partial.
Example C42_case : spell (settle [(CC, [49; FNC1; 50])]) = [262; FNC1; 49; 50]
  /\ spell (settle hello) = spell hello
  /\ (exists b1 b2, code128_new (spell hello) = Ok b1 /\ code128_new (385 :: lit "HELLO") = Ok b2
       /\ code128_encode Debug b1 <> code128_encode Debug b2).
Proof.
  split; [reflexivity|]. split; [reflexivity|].
  eexists. eexists. split; [vm_compute; reflexivity|]. split; [vm_compute; reflexivity|].
  intros E. vm_compute in E. discriminate.
Qed.
