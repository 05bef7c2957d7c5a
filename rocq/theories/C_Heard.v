(** * Property C40, continued: the exact reading of every accepted Code 128 message *)
From Verif Require Import Rust M_Error M_Code128 S_Barcode S_Linear S_Tf S_Code128 S_Heard
  P_Rust P_Code128 P_Code128b P_Heard.

(** What a standard reader makes of every accepted message, whatever its SHIFTs and FNC1s.
    Missing for C40: the result must be [meaning segs]. *)
Theorem C40_code128_heard_partial : forall segs, message_ok segs -> len (message_values segs) <= 6489 ->
  exists b, code128_new (spell segs) = Ok b /\
    forall p, exists m, code128_encode p b = Ret m /\ obind (scan m) read_c128 = Some (hear segs).
Proof.
  intros segs HM HL. eexists. split; [now apply code128_new_spell|]. intros p. eexists.
  split; [now apply code128_encode_ok | now apply code128_hears].
Qed.
Print Assumptions C40_code128_heard_partial.
(** When every SHIFT is followed by its character (not FNC4) in the same segment, the shifted
    characters are read as their partners; what was written is read exactly when they are their own
    partners and FNC1 stays out of digit pairs. *)
Theorem C40_code128_shift_partial : forall segs, message_ok segs -> shifts_closed segs ->
  len (message_values segs) <= 6489 ->
  exists b, code128_new (spell segs) = Ok b /\
    forall p, exists m, code128_encode p b = Ret m /\
      obind (scan m) read_c128 = Some (exchanged (settle segs)) /\
      (obind (scan m) read_c128 = Some (meaning segs) <-> shifts_ok segs /\ aligned segs).
Proof.
  intros segs HM HC HL. destruct (C40_code128_heard_partial segs HM HL) as [b [E H]].
  exists b. split; [assumption|]. intros p. destruct (H p) as [m [E1 E2]]. exists m.
  split; [assumption|]. rewrite E2, hear_closed by assumption. split; [reflexivity|].
  rewrite <- (closed_read_iff segs HM HC). split; congruence.
Qed.
Print Assumptions C40_code128_shift_partial.
(** Without that, two faults can hide each other: both SHIFTs are misused, yet the reading is right. *)
Theorem C40_code128_two_faults : exists segs b m, message_ok segs /\ ~ shifts_ok segs /\
  code128_new (spell segs) = Ok b /\ (forall p, code128_encode p b = Ret m) /\
  obind (scan m) read_c128 = Some (meaning segs).
Proof.
  exists [(CA, [SHIFT; FNC4; SHIFT]); (CB, [88])]. eexists. eexists. split.
  { split; [discriminate|]. split; [|split; [discriminate|exact I]]. constructor; [|constructor; [|constructor]].
    - split; [|discriminate]. repeat (constructor; [right; cbn; tauto|]). constructor.
    - split; [|discriminate]. constructor; [left; cbv; split; discriminate | constructor]. }
  split. { intros H. inversion H as [|? ? H1 H2]; subst. cbn in H1. destruct H1 as [H1 _].
    destruct (H1 eq_refl) as [G|G]; [cbv in G; destruct G; discriminate | cbn in G; intuition discriminate]. }
  split; [vm_compute; reflexivity|]. split; [intros []; vm_compute; reflexivity|]. vm_compute. reflexivity.
Qed.
Print Assumptions C40_code128_two_faults.
Example C40_heard_case :
  hear [(CA, [65; SHIFT; 1; 66])] = map TChar (lit "AaB")
  /\ hear [(CB, [97; SHIFT; 97; 98]); (CC, [49; FNC1; 50])] = [TChar 97; TChar 1; TChar 98; TFnc 1; TChar 49; TChar 50]
  /\ hear [(CA, [65; SHIFT]); (CB, lit "ab"); (CA, [1])] = [TChar 65; TFnc 4; TChar 1; TChar 2; TFnc 4; TChar 1]
  /\ shifts_closed [(CA, [65; SHIFT; 1; 66])]
  /\ exchanged [(CA, [65; SHIFT; 1; 66])] = map TChar (lit "AaB")
  /\ meaning [(CA, [65; SHIFT; 1; 66])] = [TChar 65; TChar 1; TChar 66].
Proof.
  repeat (split; [reflexivity|]). split; [|split; reflexivity].
  constructor; [|constructor]. cbn. repeat split; discriminate.
Qed.
