(** * Proofs: the exact reading of every Code 128 message *)
From Verif Require Import Rust M_Error M_Code128 S_Barcode S_Linear S_Tf S_Code128 S_Heard
  P_Rust P_Barcode P_Code128 P_Code128b.

Definition heard_action (h : heard) : action :=
  match h with HToken t => Out [t] | HShift => Shift | HSet k => Switch k end.
Definition step_eqb (a b : option action) : bool :=
  match a, b with
  | Some (Switch x), Some (Switch y) => same_set x y
  | _, _ => act_eqb a b
  end.
Lemma step_eqb_eq a b : step_eqb a b = true -> a = b.
Proof.
  unfold step_eqb. destruct a as [[l| |x]|]; try apply act_eqb_eq. destruct b as [[l| |y]|]; try apply act_eqb_eq.
  destruct x, y; discriminate || reflexivity.
Qed.
Lemma interpret_heard k e c : k <> CC -> e <> CC -> legal k c ->
  interpret e (char_value k c) = Some (heard_action (hear_char k e c)).
Proof.
  intros Hk He H. apply step_eqb_eq. revert c H. apply legal_all.
  destruct k, e; try congruence; vm_compute; reflexivity.
Qed.
Lemma shifted_not_C r : r <> CC -> shifted r <> CC.
Proof. destruct r; congruence || discriminate. Qed.
Lemma hear_char_set k e c r : hear_char k e c = HSet r -> r = k.
Proof.
  unfold hear_char. repeat match goal with |- context [if ?b then _ else _] => destruct b end; congruence.
Qed.
Lemma hear_body_set k body : k <> CC -> forall r sh, r <> CC -> fst (snd (hear_body k r sh body)) <> CC.
Proof.
  intros Hk. induction body as [|c body IH]; intros r sh Hr; cbn [hear_body]; [exact Hr|].
  destruct (hear_char k (if sh then shifted r else r) c) eqn:E.
  - specialize (IH r false Hr). destruct (hear_body k r false body) as [ts st]. exact IH.
  - now apply IH.
  - apply hear_char_set in E. subst. now apply IH.
Qed.
Lemma decode_heard k body rest : k <> CC -> Forall (legal k) body -> forall r sh, r <> CC ->
  decode r sh (map (char_value k) body ++ rest) =
  let '(ts, (r', sh')) := hear_body k r sh body in
  let? u := decode r' sh' rest in Some (ts ++ u).
Proof.
  intros Hk H. induction H as [|c body Hc H IH]; intros r sh Hr.
  - cbn [map app hear_body]. now destruct (decode r sh rest).
  - cbn [map app hear_body decode].
    rewrite interpret_heard; [|assumption|destruct sh; [now apply shifted_not_C|assumption]|assumption].
    destruct (hear_char k (if sh then shifted r else r) c) eqn:E; cbn [heard_action].
    + rewrite IH by assumption. destruct (hear_body k r false body) as [ts [r' sh']].
      destruct (decode r' sh' rest); reflexivity.
    + now apply IH.
    + apply hear_char_set in E. subst. now apply IH.
Qed.
Lemma decode_heard_segment k body rest r : Forall (legal k) body ->
  (k = CC -> r = CC) -> (k <> CC -> r <> CC) ->
  decode r false (body_values k body ++ rest) =
  (let '(ts, (r', sh')) := hear_segment k r false body in
  let? u := decode r' sh' rest in Some (ts ++ u)).
Proof.
  intros H HC HN. destruct k; cbn [body_values hear_segment].
  - apply decode_heard; [discriminate|assumption|apply HN; discriminate].
  - apply decode_heard; [discriminate|assumption|apply HN; discriminate].
  - rewrite HC by reflexivity. clear HC HN.
    assert (G : forall first, (match first with Some x => digit x = true | None => True end) ->
      decode CC false (pair_values first body ++ rest) =
      (let? u := decode CC false rest in Some (map char_token (settle_body first body) ++ u))).
    { induction H as [|c body Hc H IH]; intros first Hf.
      - cbn [pair_values settle_body app map]. now destruct (decode CC false rest).
      - cbn [pair_values settle_body]. destruct (digit c) eqn:Ed.
        + destruct first as [x|].
          * cbn [app decode map]. rewrite interpret_pair by assumption. rewrite IH by exact I.
            now destruct (decode CC false rest).
          * apply IH. exact Ed.
        + destruct Hc as [Hc| ->]; [congruence|]. cbn [app decode map].
          change (interpret CC (fn_value CC FNC1)) with (Some (Out [TFnc 1])).
          rewrite IH by assumption. now destruct (decode CC false rest). }
    now apply G.
Qed.
(** The reader is in set C exactly when the writer is. *)
Definition in_step (k r : cset) : Prop := (k = CC <-> r = CC).
Lemma hear_segment_step k r sh body : in_step k r -> in_step k (fst (snd (hear_segment k r sh body))).
Proof.
  intros [H1 H2]. destruct k; cbn [hear_segment].
  - split; [discriminate|]. intros E. exfalso. revert E. apply hear_body_set; [discriminate|].
    intros E. discriminate (H2 E).
  - split; [discriminate|]. intros E. exfalso. revert E. apply hear_body_set; [discriminate|].
    intros E. discriminate (H2 E).
  - split; reflexivity.
Qed.
Lemma hear_segment_C_sh body r sh : snd (snd (hear_segment CC r sh body)) = false.
Proof. reflexivity. Qed.
Lemma interpret_to k k' e : k <> k' -> (in_step k e) ->
  interpret e (switch_value k') = Some (if same_set k' e then Out [TFnc 4] else Switch k').
Proof. intros H [H1 H2]. destruct k, k', e; try congruence; try reflexivity; exfalso; (now discriminate H1) || (now discriminate H2) || idtac.
  all: try (specialize (H1 eq_refl); discriminate). all: try (specialize (H2 eq_refl); discriminate).
Qed.
Lemma in_step_shifted k r : in_step k r -> in_step k (shifted r).
Proof. destruct k, r; unfold in_step; cbn; tauto || (intros [H1 H2]; split; intros; discriminate || (now discriminate H1) || now discriminate H2). Qed.
Lemma decode_heard_rest segs : forall k r sh, Forall segment_ok segs -> all_change (k :: map fst segs) ->
  in_step k r ->
  decode r sh (concat (map (fun x => switch_value (fst x) :: body_values (fst x) (snd x)) segs)) =
  Some (hear_rest r sh segs).
Proof.
  induction segs as [|[k' body] segs IH]; intros k r sh HF HA HS; [reflexivity|].
  inversion HF as [|? ? [Hb _] HF']; subst. cbn [map fst snd] in *. destruct HA as [Hk HA].
  cbn [map concat fst snd app decode hear_rest].
  rewrite (interpret_to k k'); [|assumption|destruct sh; [now apply in_step_shifted|assumption]].
  destruct (same_set k' (if sh then shifted r else r)) eqn:E.
  - assert (HS' : in_step k' r).
    { destruct HS as [H1 H2]. split; intros G.
      - subst k'. destruct sh, r; discriminate || reflexivity.
      - subst r. rewrite (H2 eq_refl) in Hk. destruct sh, k'; discriminate || congruence. }
    rewrite decode_heard_segment; [|assumption|apply HS'|intros G1 G2; apply G1; now apply HS'].
    pose proof (hear_segment_step k' r false body HS') as HS2.
    destruct (hear_segment k' r false body) as [ts [r' sh']]. cbn [fst snd] in HS2.
    rewrite (IH k') by assumption. reflexivity.
  - assert (HS' : in_step k' k') by (split; auto).
    rewrite decode_heard_segment; [|assumption|auto|auto].
    pose proof (hear_segment_step k' k' false body HS') as HS2.
    destruct (hear_segment k' k' false body) as [ts [r' sh']]. cbn [fst snd] in HS2.
    rewrite (IH k') by assumption. reflexivity.
Qed.
Lemma decode_heard_message segs : message_ok segs ->
  decode_checked (message_values segs ++ [c128_check (message_values segs)]) = Some (hear segs).
Proof.
  intros [Hn [HF HA]]. destruct segs as [|[k body] segs]; [congruence|].
  inversion HF as [|? ? [Hb _] HF']; subst. cbn [fst snd] in *.
  cbn [message_values]. rewrite decode_checked_ok. cbn [hear].
  rewrite decode_heard_segment by auto.
  assert (HS' : in_step k k) by (split; auto). pose proof (hear_segment_step k k false body HS') as HS2.
  destruct (hear_segment k k false body) as [ts [r' sh']]. cbn [fst snd] in HS2.
  now rewrite (decode_heard_rest segs k) by assumption.
Qed.
Lemma code128_hears segs : message_ok segs ->
  obind (scan (render (c128_symbol (message_values segs)))) read_c128 = Some (hear segs).
Proof.
  intros HM. pose proof (message_check_lt segs HM) as HL.
  rewrite c128_symbol_with, symbol_with_scan by assumption. cbn [obind]. unfold read_c128.
  rewrite read_values_symbol by assumption. cbn [obind]. now apply decode_heard_message.
Qed.

(** ** When every SHIFT has its character *)
Lemma hear_body_closed k body : k <> CC -> forall sh, shift_closed sh body ->
  hear_body k k sh body = (partnered sh body, (k, false)).
Proof.
  intros Hk. induction body as [|c body IH]; intros sh HS; cbn [shift_closed] in HS; cbn [hear_body partnered].
  - now subst sh.
  - unfold hear_char. destruct (c =? SHIFT); [now apply IH|]. destruct HS as [H4 HS].
    destruct sh.
    + replace (same_set k (shifted k)) with false by (destruct k; reflexivity || congruence).
      rewrite (proj2 (N.eqb_neq c FNC4) (H4 eq_refl)). unfold partner.
      destruct (c =? 247); [now rewrite IH|]. destruct (c <? 32); [now rewrite IH|].
      destruct ((96 <=? c) && (c <? 127)); now rewrite IH.
    + replace (same_set k k) with true by now destruct k. now rewrite IH.
Qed.
Lemma partnered_plain body : Forall (fun c => c <> SHIFT) body -> partnered false body = map char_token body.
Proof.
  induction 1 as [|c body Hc H IH]; [reflexivity|]. cbn [partnered map].
  rewrite (proj2 (N.eqb_neq c SHIFT) Hc). now rewrite IH.
Qed.
Lemma legal_C_no_shift body : Forall (legal CC) body -> Forall (fun c => c <> SHIFT) body.
Proof. apply Forall_impl. intros c [H| ->]; [intros ->|]; discriminate. Qed.
Lemma hear_segment_closed k body : Forall (legal k) body -> shift_closed false body ->
  hear_segment k k false body = (partnered false (settled_body (k, body)), (k, false)).
Proof.
  intros HL HS. unfold settled_body. cbn [fst snd]. destruct k; cbn [hear_segment].
  - apply hear_body_closed; [discriminate|assumption].
  - apply hear_body_closed; [discriminate|assumption].
  - now rewrite partnered_plain by (apply legal_C_no_shift; now apply settle_body_legal).
Qed.
Lemma hear_rest_closed segs : forall k, Forall segment_ok segs -> shifts_closed segs -> all_change (k :: map fst segs) ->
  hear_rest k false segs = exchanged (settle segs).
Proof.
  induction segs as [|[k' body] segs IH]; intros k HF HS HA; [reflexivity|].
  inversion HF as [|? ? [Hb _] HF']; inversion HS as [|? ? Hs HS']; subst. cbn [map fst snd] in *.
  destruct HA as [Hk HA]. cbn [hear_rest].
  replace (same_set k' k) with false by (destruct k, k'; reflexivity || congruence).
  rewrite hear_segment_closed by assumption. rewrite (IH k') by assumption. reflexivity.
Qed.
Lemma hear_closed segs : message_ok segs -> shifts_closed segs -> hear segs = exchanged (settle segs).
Proof.
  intros [Hn [HF HA]] HS. destruct segs as [|[k body] segs]; [congruence|].
  inversion HF as [|? ? [Hb _] HF']; inversion HS as [|? ? Hs HS']; subst. cbn [map fst snd] in *.
  cbn [hear]. rewrite hear_segment_closed by assumption. rewrite hear_rest_closed by assumption. reflexivity.
Qed.

(** ** Exactly which of these messages are read as written *)
Lemma partnered_length body : forall sh, length (partnered sh body) = length (unshifted body).
Proof.
  induction body as [|c body IH]; intros sh; [reflexivity|]. unfold unshifted in *. cbn [partnered filter].
  destruct (c =? SHIFT); cbn [negb length]; [apply IH|]. now rewrite IH.
Qed.
Lemma settle_body_length body : forall first,
  Nat.even (digits_in body) = match first with None => true | Some _ => false end ->
  length (settle_body first body) = (length body + match first with None => 0 | Some _ => 1 end)%nat.
Proof.
  induction body as [|c body IH]; intros first HE.
  - destruct first; [discriminate | reflexivity].
  - cbn [settle_body]. unfold digits_in in HE. cbn [filter] in HE. destruct (digit c).
    + cbn [length] in HE. rewrite Nat.even_succ, <- Nat.negb_even in HE. fold (digits_in body) in HE.
      destruct first as [x|]; cbn [length].
      * rewrite (IH None); [lia|]. destruct (Nat.even (digits_in body)); [reflexivity|discriminate].
      * rewrite (IH (Some c)); [lia|]. destruct (Nat.even (digits_in body)); [discriminate|reflexivity].
    + cbn [length]. rewrite IH by assumption. lia.
Qed.
Lemma char_token_C_inj c d : legal CC c -> legal CC d -> char_token c = char_token d -> c = d.
Proof.
  intros Hc Hd. unfold legal, digit in *.
  assert (G : forall x, digit x = true \/ x = FNC1 -> char_token x = if digit x then TChar x else TFnc 1).
  { intros x [H| ->]; [|reflexivity]. rewrite H. unfold digit in H. apply andb_prop in H.
    destruct H as [H1 H2]. apply N.leb_le in H1, H2. unfold char_token.
    rewrite (proj2 (N.eqb_neq x 247)) by lia. now rewrite (proj2 (N.ltb_lt x 128)) by lia. }
  rewrite !G by assumption. intros E.
  destruct (digit c) eqn:Ec, (digit d) eqn:Ed; try discriminate; [congruence|].
  destruct Hc as [Hc|Hc]; [|destruct Hd as [Hd|Hd]]; unfold digit in *; congruence.
Qed.
Lemma map_inj_Forall {A B} (P : A -> Prop) (f : A -> B) l1 : Forall P l1 -> forall l2, Forall P l2 ->
  (forall x y, P x -> P y -> f x = f y -> x = y) -> map f l1 = map f l2 -> l1 = l2.
Proof.
  induction 1 as [|x l1 Hx H IH]; intros l2 H2 Hf E; destruct l2 as [|y l2]; try discriminate; [reflexivity|].
  cbn [map] in E. injection E as E1 E2. inversion H2; subst. f_equal; [now apply Hf | now apply IH].
Qed.
(** A body left in place by [settle_body] has FNC1 between pairs only. *)
Lemma settle_same_aligned body : forall first, Forall (legal CC) body ->
  settle_body first body = match first with None => body | Some x => x :: body end ->
  (match first with Some x => digit x = true | None => True end) ->
  aligned_body (match first with None => true | Some _ => false end) body.
Proof.
  induction body as [|c body IH]; intros first HL E Hf; [exact I|].
  inversion HL as [|? ? Hc HL']; subst. cbn [settle_body aligned_body] in *. destruct (digit c) eqn:Ed.
  - destruct first as [x|]; cbn [negb].
    + injection E as E. now apply (IH None).
    + now apply (IH (Some c)).
  - destruct first as [x|].
    + injection E as E1 _. subst x. congruence.
    + injection E as E. split; [reflexivity|]. now apply (IH None).
Qed.
Lemma partner_common k c : k <> CC -> legal k c -> c <> SHIFT -> c <> FNC4 -> partner c = char_token c -> common c.
Proof.
  intros Hk HL HS H4 E. unfold partner, char_token in E. unfold common.
  assert (HI : c < 127 \/ c = 247 \/ In c [FNC1; FNC2; FNC3]).
  { destruct k; [| |congruence]; cbn [legal In] in *; intuition (try lia; subst; try congruence; auto). }
  destruct HI as [HI|[HI|HI]]; [|subst c; discriminate|now right].
  left. rewrite (proj2 (N.eqb_neq c 247)) in E by lia. rewrite (proj2 (N.ltb_lt c 128)) in E by lia.
  destruct (N.ltb_spec c 32) as [G|G]; [injection E as E; lia|]. split; [assumption|].
  destruct (N.leb_spec 96 c) as [G1|G1]; [|assumption]. cbn [andb] in E.
  rewrite (proj2 (N.ltb_lt c 127)) in E by lia. injection E as E. lia.
Qed.
Lemma partnered_same k body : k <> CC -> Forall (legal k) body -> forall sh, shift_closed sh body ->
  partnered sh body = map char_token (unshifted body) -> shift_ok sh body.
Proof.
  intros Hk. induction 1 as [|c body Hc H IH]; intros sh HC E; [exact HC|].
  unfold unshifted in *. cbn [shift_closed shift_ok partnered filter] in *.
  destruct (c =? SHIFT) eqn:Es; cbn [negb map] in E; [now apply IH|].
  destruct HC as [H4 HC]. apply N.eqb_neq in Es. injection E as E1 E2. split; [|now apply IH].
  intros ->. now apply (partner_common k c); auto.
Qed.
Lemma shift_ok_closed body : forall sh, shift_ok sh body -> shift_closed sh body.
Proof.
  induction body as [|c body IH]; intros sh H; [exact H|]. cbn [shift_ok shift_closed] in *.
  destruct (c =? SHIFT); [now apply IH|]. destruct H as [H1 H2]. split; [|now apply IH].
  intros G E. specialize (H1 G). subst c. destruct H1 as [H1|H1]; [cbv in H1; destruct H1; discriminate|].
  cbn [In] in H1. intuition discriminate.
Qed.
Lemma concat_map_inj {A B} (f g : A -> list B) l : (forall x, In x l -> length (f x) = length (g x)) ->
  concat (map f l) = concat (map g l) -> Forall (fun x => f x = g x) l.
Proof.
  induction l as [|x l IH]; intros HL E; [constructor|]. cbn [map concat] in E.
  assert (Hx : length (f x) = length (g x)) by (apply HL; now left).
  assert (E1 : f x = g x).
  { apply (f_equal (firstn (length (f x)))) in E. rewrite firstn_app, firstn_all, Nat.sub_diag, firstn_O, app_nil_r in E.
    rewrite Hx, firstn_app, firstn_all, Nat.sub_diag, firstn_O, app_nil_r in E. exact E. }
  constructor; [assumption|]. apply IH; [intros y Hy; apply HL; now right|].
  rewrite E1 in E. now apply app_inv_head in E.
Qed.
Lemma closed_read_iff segs : message_ok segs -> shifts_closed segs ->
  (exchanged (settle segs) = meaning segs <-> shifts_ok segs /\ aligned segs).
Proof.
  intros [_ [HF _]] HC. split.
  - intros E. unfold exchanged, meaning, settle in E. rewrite map_map in E. cbn [snd] in E.
    apply concat_map_inj in E.
    + unfold shifts_ok, aligned, shifts_closed in *. rewrite Forall_forall in E, HF, HC.
      split; apply Forall_forall; intros [k body] Hx; specialize (E _ Hx); specialize (HF _ Hx); specialize (HC _ Hx); cbn [fst snd] in *;
        destruct HF as [HL HE]; cbn [fst snd] in *.
      * destruct k.
        -- now apply (partnered_same CA); [discriminate| | |].
        -- now apply (partnered_same CB); [discriminate| | |].
        -- clear E HC. assert (G : forall sh, sh = false -> shift_ok sh body); [|now apply G].
           induction HL as [|c body Hc HL IH]; intros sh ->; [reflexivity|]. cbn [shift_ok].
           assert (G : Forall (fun c => c <> SHIFT) (c :: body)) by (apply legal_C_no_shift; now constructor).
           inversion G; subst. rewrite (proj2 (N.eqb_neq c SHIFT)) by assumption.
           split; [discriminate|]. clear - HL. induction HL as [|d body Hd HL IH]; [reflexivity|].
           cbn [shift_ok]. assert (G : Forall (fun c => c <> SHIFT) [d]) by (apply legal_C_no_shift; now constructor).
           inversion G; subst. rewrite (proj2 (N.eqb_neq d SHIFT)) by assumption. now split.
      * intros ->. cbn [fst] in E. fold (unshifted body) in E. rewrite unshifted_C in E by assumption.
        rewrite partnered_plain in E by (apply legal_C_no_shift; now apply settle_body_legal).
        apply (map_inj_Forall (legal CC)) in E;
          [|now apply settle_body_legal|assumption|exact char_token_C_inj].
        now apply (settle_same_aligned body None).
    + intros [k body] Hx. cbn [fst snd]. rewrite Forall_forall in HF. destruct (HF _ Hx) as [HL HE]. cbn [fst snd] in *.
      rewrite partnered_length, map_length. destruct k; try reflexivity.
      fold (unshifted body). rewrite !unshifted_C by (try apply settle_body_legal; auto).
      rewrite (settle_body_length body None) by now apply HE. lia.
  - intros [HS HA]. rewrite settle_aligned by assumption. unfold exchanged, meaning. f_equal.
    apply map_ext_in. intros [k body] Hx. unfold shifts_ok in HS. rewrite Forall_forall in HS. specialize (HS _ Hx).
    cbn [snd] in *. clear - HS. assert (G : forall sh, shift_ok sh body ->
      partnered sh body = map char_token (unshifted body)); [|now apply G].
    clear HS. induction body as [|c body IH]; intros sh HS; [reflexivity|]. unfold unshifted in *.
    cbn [shift_ok partnered filter] in *. destruct (c =? SHIFT); cbn [negb map]; [now apply IH|].
    destruct HS as [H1 H2]. rewrite IH by assumption. f_equal. destruct sh; [|reflexivity].
    specialize (H1 eq_refl). unfold partner. destruct H1 as [H1|H1].
    + rewrite (proj2 (N.eqb_neq c 247)) by lia. rewrite (proj2 (N.ltb_ge c 32)) by lia.
      now rewrite (proj2 (N.leb_gt 96 c)) by lia.
    + cbn [In] in H1. destruct H1 as [<-|[<-|[<-|[]]]]; reflexivity.
Qed.
