(** * Property C82: printed characters have the structure of their standards *)
From Verif Require Import Rust M_Error Symbology M_Use S_Barcode S_Text S_Linear S_All S_Pattern P_Pattern.

(** ** C82, but for the plus sign of Codabar.  [built] uses no table: two wide of five elements weighted 1 2 4 7, three wide of nine, constant sums, parities. *)
Theorem C82_structure_partial : forall y p s m, str_len s < 2 ^ 48 -> (y = SCodabar -> ~ In (ch "+") s) -> barcode y p s = Ret (Ok m) ->
  exists ws, scan m = Some ws /\ m = render ws ++ tail y /\ built y s ws.
Proof. exact barcode_built. Qed.
Print Assumptions C82_structure_partial.
(** The plus sign of Codabar should have narrow spaces only and has two wide ones (C30). *)
Theorem C82_plus_refuted : exists s m ws, (forall p, barcode SCodabar p s = Ret (Ok m)) /\ scan m = Some ws /\ ~ built SCodabar s ws.
Proof.
  exists (lit "+"). exists (match barcode SCodabar Debug (lit "+") with Ret (Ok m) => m | _ => [] end).
  eexists. split; [intros []; vm_compute; reflexivity|]. split; [vm_compute; reflexivity|].
  intros (bs & HF & HS). inversion HF as [|c b s' bs' HK HF']. subst. inversion HF'. subst. unfold spaced in HS. cbn [map concat] in HS.
  rewrite app_nil_r in HS. apply app_inj_tail in HS. destruct HS as [HS _]. subst b.
  destruct HK as [_ [[H _]|[[_ [_ H]]|[H _]]]]; [cbn in H; intuition discriminate | discriminate | cbn in H; intuition discriminate].
Qed.
Print Assumptions C82_plus_refuted.
(** Exactly the strings with a plus sign: every other accepted Codabar string is printed by the rules. *)
Theorem C82_plus_exact_partial : forall p s m ws, str_len s < 2 ^ 48 -> barcode SCodabar p s = Ret (Ok m) -> scan m = Some ws ->
  (built SCodabar s ws <-> ~ In (ch "+") s).
Proof. exact codabar_built. Qed.
Print Assumptions C82_plus_exact_partial.
(** The rule for two of five singles out ten patterns: *)
Theorem C82_two_of_five_unique : forall d ws ws', Forall (fun w => w = 1%nat \/ w = 2%nat) ws -> Forall (fun w => w = 1%nat \/ w = 2%nat) ws' ->
  two_of_five d ws -> two_of_five d ws' -> ws = ws'.
Proof.
  intros d ws ws' H H' (L & W & V) (L' & W' & V'). rewrite <- V' in V. clear V'.
  destruct ws as [|a [|b [|c [|e [|f [|? ?]]]]]]; try discriminate. destruct ws' as [|a' [|b' [|c' [|e' [|f' [|? ?]]]]]]; try discriminate.
  repeat match goal with H : Forall _ (_ :: _) |- _ => inversion H; clear H; subst end.
  repeat match goal with H : _ = 1%nat \/ _ = 2%nat |- _ => destruct H; subst end; try discriminate; try reflexivity.
Qed.
Print Assumptions C82_two_of_five_unique.
Example C82_case : two_of_five 7 [1; 1; 1; 2; 2]%nat /\ two_of_five 0 [1; 1; 2; 2; 1]%nat /\
  three_of_nine (ch "A") [2; 1; 1; 1; 1; 2; 1; 1; 2]%nat /\ codabar_kind (ch "/") [2; 1; 2; 1; 1; 1; 2]%nat /\
  left_digit true [1; 1; 2; 3]%nat /\ ~ left_digit false [1; 1; 2; 3]%nat.
Proof.
  repeat (split; [repeat split; vm_compute; try reflexivity; auto 20|]); [..|intros (_ & _ & H); discriminate].
  all: try (right; left; exists 0%nat; repeat split; reflexivity).
Qed.
Example C82_plus_exact_case : exists m ws, barcode SCodabar Debug (lit "A1+2B") = Ret (Ok m) /\ scan m = Some ws /\ ~ built SCodabar (lit "A1+2B") ws.
Proof.
  destruct (barcode SCodabar Debug (lit "A1+2B")) as [[m|e]|r] eqn:E; vm_compute in E; try discriminate E.
  destruct (scan m) as [ws|] eqn:Es; [|injection E as <-; vm_compute in Es; discriminate Es]. exists m, ws.
  assert (E' : barcode SCodabar Debug (lit "A1+2B") = Ret (Ok m)) by exact E.
  split; [reflexivity|]. split; [exact Es|]. intros HB. refine (proj1 (C82_plus_exact_partial Debug _ m ws _ E' Es) HB _); [reflexivity | vm_compute; auto].
Qed.
