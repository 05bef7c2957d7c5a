(** * Properties C29-C32: Codabar *)
From Verif Require Import Rust M_Error M_Codabar S_Barcode S_Text S_Linear S_Codabar P_Rust P_Codabar.

(** ** C29: decision table of Codabar::new, for strings of any size.
    The length compared is the byte length modulo 2^32 (below 4 GiB: the byte length). *)
Theorem C29_codabar_new : forall s,
  let n := str_len s mod 2 ^ 32 in
  exists r, codabar_new s = Ret r /\
    (r = Err ELength <-> ~ (1 <= n <= 256)) /\
    (r = Err ECharacter <-> 1 <= n <= 256 /\ ~ Forall (fun c => In c (lit "0123456789-$:/.+ABCD")) s) /\
    r <> Err EChecksum /\
    ((exists b, r = Ok b) <-> 1 <= n <= 256 /\ Forall (fun c => In c (lit "0123456789-$:/.+ABCD")) s).
Proof. exact codabar_new_spec. Qed.
Print Assumptions C29_codabar_new.
Example C29_case : codabar_new (lit "A0:B") = Ret (Ok (mkCodabar [UA; UZero; UColon; UB]))
  /\ codabar_new (lit "A12E") = Ret (Err ECharacter) /\ codabar_new [] = Ret (Err ELength)
  /\ (exists b, codabar_new (repeat (ch "1") 256) = Ret (Ok b))
  /\ codabar_new (repeat (ch "1") 257) = Ret (Err ELength).
Proof. repeat split; try (vm_compute; reflexivity). eexists. vm_compute. reflexivity. Qed.

(** ** C30.  False of the code: the plus sign and the characters B and C are printed
    with other patterns than the standard's. *)
Theorem C30_codabar_conformance_refuted :
  (exists s b m, codabar_new s = Ret (Ok b) /\ (forall p, codabar_encode p b = Ret m) /\
     m <> render (cod_symbol s) /\ obind (scan m) read_cod = Some (lit "A1C") /\ s = lit "A1B") /\
  (exists s b m, codabar_new s = Ret (Ok b) /\ (forall p, codabar_encode p b = Ret m) /\
     m <> render (cod_symbol s) /\ obind (scan m) read_cod = None /\ s = lit "A+A").
Proof.
  split.
  - exists (lit "A1B"), (mkCodabar [UA; UOne; UB]), (modules "1011001001010101100101010010011").
    split; [reflexivity|]. split; [intros []; reflexivity|].
    split; [intros E; apply str_eqb_eq in E; vm_compute in E; discriminate|].
    split; vm_compute; reflexivity.
  - exists (lit "A+A"), (mkCodabar [UA; UPlus; UA]), (modules "1011001001010110011001101011001001").
    split; [reflexivity|]. split; [intros []; reflexivity|].
    split; [intros E; apply str_eqb_eq in E; vm_compute in E; discriminate|].
    split; vm_compute; reflexivity.
Qed.
Print Assumptions C30_codabar_conformance_refuted.
(** Exactly what a standard reader makes of every accepted value.
    Missing for C30: the result must be [Some s]. *)
Theorem C30_codabar_read_partial : forall p s b, codabar_new s = Ret (Ok b) ->
  exists m, codabar_encode p b = Ret m /\
    obind (scan m) read_cod =
    if existsb (fun c => c =? ch "+") s then None else Some (map exchange s).
Proof. exact codabar_reads. Qed.
Print Assumptions C30_codabar_read_partial.
(** Conformance and round trip for messages without plus sign, B and C. *)
Theorem C30_codabar_conformance_partial : forall p s b, codabar_new s = Ret (Ok b) ->
  Forall (fun c => c <> ch "+" /\ c <> ch "B" /\ c <> ch "C") s ->
  exists m, codabar_encode p b = Ret m /\ m = render (cod_symbol s) /\
    obind (scan m) read_cod = Some s.
Proof. exact codabar_conform. Qed.
Print Assumptions C30_codabar_conformance_partial.
Example C30_case : codabar_new (lit "A1D") = Ret (Ok (mkCodabar [UA; UOne; UD]))
  /\ codabar_encode Debug (mkCodabar [UA; UOne; UD]) = Ret (modules "1011001001010101100101010011001")
  /\ render (cod_symbol (lit "A1D")) = modules "1011001001010101100101010011001".
Proof. repeat split; vm_compute; reflexivity. Qed.

(** ** C31: symbols determine their data, and encode returns *)
Theorem C31_codabar_injective : forall p s1 s2 b1 b2 m,
  codabar_new s1 = Ret (Ok b1) -> codabar_new s2 = Ret (Ok b2) ->
  codabar_encode p b1 = Ret m -> codabar_encode p b2 = Ret m -> s1 = s2.
Proof. exact codabar_injective. Qed.
Print Assumptions C31_codabar_injective.
Theorem C31_codabar_returns : forall p s b, codabar_new s = Ret (Ok b) ->
  exists m, codabar_encode p b = Ret m /\ (10 * length s <= length m + 1 <= 13 * length s)%nat.
Proof. exact codabar_accepted_length. Qed.
Print Assumptions C31_codabar_returns.
(** Also for values built by hand: the field is public, and no value panics. *)
Theorem C31_codabar_any_value : forall p us, exists m, codabar_encode p (mkCodabar us) = Ret m.
Proof. intros p us. eexists. exact (codabar_encode_gapped p us). Qed.
Print Assumptions C31_codabar_any_value.
Example C31_case :
  codabar_encode Debug (mkCodabar [UA; UB]) = Ret (modules "101100100101010010011")
  /\ codabar_encode Debug (mkCodabar [UB; UA]) = Ret (modules "101001001101011001001").
Proof. split; vm_compute; reflexivity. Qed.

(** ** C32.  False of the code: nothing enforces the start and stop characters. *)
Theorem C32_codabar_framing_refuted :
  (exists s b, codabar_new s = Ret (Ok b) /\ ~ cod_framed s) /\
  (forall s, Forall (fun c => ~ cod_stop c /\ In c cod_chars) s -> 1 <= str_len s <= 256 ->
     (exists b, codabar_new s = Ret (Ok b)) /\ ~ cod_framed s) /\
  (exists b b' m, codabar_new (lit "0") = Ret (Ok b) /\ codabar_new (lit "3") = Ret (Ok b') /\
     codabar_encode Debug b = Ret m /\ codabar_encode Debug b' = Ret (rev m)).
Proof.
  assert (H : forall s, Forall (fun c => ~ cod_stop c /\ In c cod_chars) s -> 1 <= str_len s <= 256 ->
     (exists b, codabar_new s = Ret (Ok b)) /\ ~ cod_framed s).
  { intros s HF HL. split.
    - destruct (codabar_new_spec s) as [r [Er [_ [_ [_ Hr]]]]]. rewrite Er.
      rewrite N.mod_small in Hr by (change (2 ^ 32) with 4294967296; lia).
      destruct Hr as [_ Hr]. destruct Hr as [b Hb]; [|exists b; congruence].
      split; [assumption|]. revert HF. apply Forall_impl. tauto.
    - intros [a [mid [z [E [Ha _]]]]]. subst s. inversion HF; subst. tauto. }
  split; [|split; [exact H|]].
  - destruct (H (lit "1234")) as [[b Hb] Hf].
    + assert (E : forallb (fun c => negb (existsb (fun v => v =? c) (lit "ABCD"))
                   && existsb (fun v => v =? c) cod_chars) (lit "1234") = true) by reflexivity.
      rewrite forallb_forall in E. apply Forall_forall. intros c Hc. specialize (E c Hc).
      apply andb_prop in E. destruct E as [E1 E2]. split.
      * unfold cod_stop. rewrite <- P_Parse.existsb_eqb_In. intros G. rewrite G in E1. discriminate.
      * now apply P_Parse.existsb_eqb_In.
    + split; discriminate.
    + eauto.
  - do 3 eexists. repeat split; vm_compute; reflexivity.
Qed.
Print Assumptions C32_codabar_framing_refuted.
(** The library neither adds nor loses frames: what a standard reader makes of the printed symbol
    is framed exactly when the caller's string is.
    Missing for C32: that accepted strings are framed. *)
Theorem C32_codabar_framing_partial : forall p s b m t, codabar_new s = Ret (Ok b) ->
  codabar_encode p b = Ret m -> obind (scan m) read_cod = Some t -> (cod_framed t <-> cod_framed s).
Proof.
  intros p s b m t HB HE HR. destruct (codabar_reads p s b HB) as [m' [E1 E2]].
  assert (m' = m) by congruence. subst m'. rewrite HR in E2.
  destruct (existsb (fun c => c =? ch "+") s); [discriminate|]. injection E2 as ->. apply exchange_framed.
Qed.
Print Assumptions C32_codabar_framing_partial.
Example C32_case : (exists b m, codabar_new (lit "B12C") = Ret (Ok b) /\ codabar_encode Debug b = Ret m /\
    obind (scan m) read_cod = Some (lit "C12B")) /\ cod_framed (lit "B12C") /\ ~ cod_framed (lit "0").
Proof.
  split; [do 2 eexists; repeat split; vm_compute; reflexivity|]. split.
  - exists (ch "B"), (lit "12"), (ch "C"). split; [reflexivity|]. split; [cbn; auto|]. split; [cbn; auto|].
    repeat constructor; cbn; intuition discriminate.
  - intros [a [mid [z [E _]]]]. apply (f_equal (@length _)) in E. rewrite app_comm_cons, app_length in E.
    cbn in E. lia.
Qed.
