(** * C110: symbols printed one behind the other, touching *)
From Verif Require Import Rust M_Error M_Codabar Symbology M_Use S_Barcode S_Ean S_Text S_Linear S_Codabar S_Tf S_Code128 S_All S_Stream P_All P_Codabar P_Readable P_Stream P_Stream2.

(** No symbol begins with another one of its symbology, five-digit add-ons excepted, *)
Theorem C110_no_prefix : forall y s s' m b, y <> SSupp -> symbol_of y s m -> symbol_of y s' (m ++ b) -> b = [].
Proof. intros y s s' m b HY H H'. exact (no_prefix y s s' m b HY H H'). Qed.
Print Assumptions C110_no_prefix.
(** and none ends with another one, interleaved 2 of 5 excepted. *)
Theorem C110_no_suffix : forall y s s' m b, y <> SItf -> symbol_of y s m -> symbol_of y s' (b ++ m) -> b = [].
Proof. intros y s s' m b HY H H'. exact (no_suffix y s s' m b HY H H'). Qed.
Print Assumptions C110_no_suffix.
(** So a line of touching symbols can be taken apart in one way only: all symbologies, all accepted texts, also Codabar texts without start
    and stop characters or with the misprinted plus, and Code 128 texts whose check character is wrong (C41), *)
Theorem C110_one_way : forall y ms ms',
  Forall (fun m => exists p s, str_len s < 2 ^ 48 /\ barcode y p s = Ret (Ok m)) ms ->
  Forall (fun m => exists p s, str_len s < 2 ^ 48 /\ barcode y p s = Ret (Ok m)) ms' -> concat ms = concat ms' -> ms = ms'.
Proof. intros y ms ms' H H' E. exact (streams_any y ms ms' H H' E). Qed.
Print Assumptions C110_one_way.
(** and two lists of data that are printed as the same line mean the same, one by one. *)
Theorem C110_data : forall y ss ss' ms ms', Forall2 (symbol_of y) ss ms -> Forall2 (symbol_of y) ss' ms' -> concat ms = concat ms' ->
  Forall2 (fun s s' => exists r, meant y s (Some r) /\ meant y s' (Some r)) ss ss'.
Proof.
  intros y ss ss' ms ms' H H' E.
  assert (F : forall a b, Forall2 (symbol_of y) a b -> Forall (fun m => exists p s, str_len s < 2 ^ 48 /\ barcode y p s = Ret (Ok m)) b) by (intros a b HF; induction HF as [|x z a b (HL & [p HB] & _) _ IH]; [apply Forall_nil | apply Forall_cons; [now exists p, x | exact IH]]).
  assert (EQ : ms = ms') by (apply (C110_one_way y); [apply (F ss) | apply (F ss') |]; assumption). subst ms'. clear E F. revert ss' H'.
  induction H as [|s m ss ms Hs _ IH]; intros ss' H'; inversion H' as [|s' ? ss2 ? Hs' H2]; subst; [apply Forall2_nil | apply Forall2_cons; [|now apply IH]].
  destruct Hs as (HL & [p HB] & HC & H8). destruct Hs' as (HL' & [p' HB'] & HC' & H8').
  destruct (readable_meant y p s m HL HB (fun E => proj2 (HC E)) H8) as (r & R & HM). destruct (readable_meant y p' s' m HL' HB' (fun E => proj2 (HC' E)) H8') as (r' & R' & HM').
  rewrite R in R'. injection R' as <-. now exists r.
Qed.
Print Assumptions C110_data.

(** Codabar: whatever the texts, the line determines them. *)
Theorem C110_codabar_texts : forall ss ss' ms ms', Forall2 (fun s m => exists p, barcode SCodabar p s = Ret (Ok m)) ss ms ->
  Forall2 (fun s m => exists p, barcode SCodabar p s = Ret (Ok m)) ss' ms' -> concat ms = concat ms' -> ss = ss'.
Proof.
  intros ss ss' ms ms' H H' E.
  assert (F : forall a b, Forall2 (fun s m => exists p, barcode SCodabar p s = Ret (Ok m)) a b -> Forall (fun m => exists p s, barcode SCodabar p s = Ret (Ok m)) b)
    by (intros a b HF; induction HF as [|x z a b [p HB] _ IH]; [apply Forall_nil | apply Forall_cons; [now exists p, x | exact IH]]).
  assert (EQ : ms = ms') by (apply codabar_streams; [apply (F ss) | apply (F ss') |]; assumption). subst ms'. clear E F. revert ss' H'.
  induction H as [|s m ss ms [p HB] _ IH]; intros ss' H'; inversion H' as [|s' ? ss2 ? [p' HB'] H2]; subst; [reflexivity | f_equal; [|now apply IH]].
  cbn [barcode] in HB, HB'. apply run_Ok in HB. destruct HB as (b & HN & HE). apply run_Ok in HB'. destruct HB' as (b' & HN' & HE').
  apply (codabar_injective p s s' b b' m HN HN' HE). apply codabar_new_Ok in HN'. destruct HN' as (_ & _ & us & _ & ->). rewrite codabar_encode_gapped in *. exact HE'.
Qed.
Print Assumptions C110_codabar_texts.

(** The exceptions exist: a five-digit add-on begins with a two-digit one, and an interleaved 2 of 5 symbol ends with another one. *)
Theorem C110_supp_prefix_misread : exists m b, b <> [] /\ symbol_of SSupp (lit "01") m /\ exists s, symbol_of SSupp s (m ++ b).
Proof.
  destruct (barcode SSupp Debug (lit "01")) as [[m|]|] eqn:E; [|vm_compute in E; discriminate E|vm_compute in E; discriminate E]. destruct (barcode SSupp Debug (lit "01010")) as [[m'|]|] eqn:E'; [|vm_compute in E'; discriminate E'|vm_compute in E'; discriminate E'].
  exists m, (skipn (length m) m'). vm_compute in E, E'. injection E as <-. injection E' as <-. split; [discriminate|]. split; [|exists (lit "01010")]; (split; [reflexivity|]; split; [exists Debug; reflexivity|]; split; discriminate).
Qed.
Print Assumptions C110_supp_prefix_misread.
Theorem C110_itf_suffix_misread : exists m b, b <> [] /\ symbol_of SItf (lit "12") m /\ exists s, symbol_of SItf s (b ++ m).
Proof.
  destruct (barcode SItf Debug (lit "12")) as [[m|]|] eqn:E; [|vm_compute in E; discriminate E|vm_compute in E; discriminate E]. destruct (barcode SItf Debug (lit "3312")) as [[m'|]|] eqn:E'; [|vm_compute in E'; discriminate E'|vm_compute in E'; discriminate E'].
  exists m, (firstn (length m' - length m) m'). vm_compute in E, E'. injection E as <-. injection E' as <-. split; [discriminate|]. split; [|exists (lit "3312")]; (split; [reflexivity|]; split; [exists Debug; reflexivity|]; split; discriminate).
Qed.
Print Assumptions C110_itf_suffix_misread.

(** Two add-ons behind each other, the second with five digits *)
Example C110_case : exists m m', symbol_of SSupp (lit "01") m /\ symbol_of SSupp (lit "01010") m' /\ m <> m' /\
  forall ms, Forall (fun m => exists p s, str_len s < 2 ^ 48 /\ barcode SSupp p s = Ret (Ok m)) ms -> concat ms = m ++ m' -> ms = [m; m'].
Proof.
  destruct (barcode SSupp Debug (lit "01")) as [[m|]|] eqn:E; [|vm_compute in E; discriminate E|vm_compute in E; discriminate E]. destruct (barcode SSupp Debug (lit "01010")) as [[m'|]|] eqn:E'; [|vm_compute in E'; discriminate E'|vm_compute in E'; discriminate E'].
  assert (H : symbol_of SSupp (lit "01") m) by (split; [reflexivity|]; split; [now exists Debug|]; split; discriminate).
  assert (H' : symbol_of SSupp (lit "01010") m') by (split; [reflexivity|]; split; [now exists Debug|]; split; discriminate).
  exists m, m'. split; [exact H|]. split; [exact H'|]. split; [vm_compute in E, E'; injection E as <-; injection E' as <-; discriminate|].
  intros ms HM EC. apply (C110_one_way SSupp); [exact HM | apply Forall_cons; [now exists Debug, (lit "01")|]; apply Forall_cons; [now exists Debug, (lit "01010") | apply Forall_nil] |]. cbn [concat]. now rewrite app_nil_r.
Qed.

(** Codabar symbols without start and stop characters begin with one another, but the lines are still different. *)
Example C110_codabar_case : exists m m' b, barcode SCodabar Debug (lit "1") = Ret (Ok m) /\ barcode SCodabar Debug (lit "1+") = Ret (Ok m') /\ b <> [] /\ m' = m ++ b /\
  forall p s, barcode SCodabar p s <> Ret (Ok (m ++ m')).
Proof.
  destruct (barcode SCodabar Debug (lit "1")) as [[m|]|] eqn:E; [|vm_compute in E; discriminate E|vm_compute in E; discriminate E]. destruct (barcode SCodabar Debug (lit "1+")) as [[m'|]|] eqn:E'; [|vm_compute in E'; discriminate E'|vm_compute in E'; discriminate E'].
  exists m, m', (skipn (length m) m'). split; [reflexivity|]. split; [reflexivity|].
  assert (C : forall p s, barcode SCodabar p s = Ret (Ok (m ++ m')) -> False).
  { intros p s H. assert (EQ : [m ++ m'] = [m; m']); [|discriminate EQ]. apply codabar_streams.
    - apply Forall_cons; [now exists p, s | apply Forall_nil].
    - apply Forall_cons; [now exists Debug, (lit "1") | apply Forall_cons; [now exists Debug, (lit "1+") | apply Forall_nil]].
    - cbn [concat]. now rewrite !app_nil_r. }
  vm_compute in E, E'. injection E as <-. injection E' as <-. split; [discriminate|]. split; [reflexivity|]. exact C.
Qed.
