(** * Proofs: texts and GS1 element strings in Code 128 *)
From Verif Require Import Rust M_Error M_Code128 Symbology M_Use S_Barcode S_Ean S_Text S_Linear S_Codabar S_Tf S_Code128 S_All S_Latin
  P_Rust P_Code128 P_Code128b P_All.

(** ** A message without SHIFT, with FNC1 between pairs, is read as written *)
Lemma plain_read p segs : message_ok segs -> no_shift segs -> aligned segs -> len (message_values segs) <= 6489 ->
  exists m, barcode SCode128 p (spell segs) = Ret (Ok m) /\ read_modules SCode128 m = Some (Tokens (meaning segs)).
Proof.
  intros HM HS HA HL. eexists. split.
  - cbn [barcode]. rewrite code128_new_spell by assumption. unfold run. cbn [bind]. rewrite code128_encode_ok by assumption. cbn [bind]. reflexivity.
  - unfold read_modules. cbn [read_as]. pose proof (code128_reads segs HM (no_shift_ok segs HS)) as R.
    rewrite settle_aligned in R by (apply HM || assumption).
    destruct (scan (render (c128_symbol (message_values segs)))) as [ws|]; [|discriminate]. cbn [obind] in *. cbn [read_as]. rewrite R. reflexivity.
Qed.

(** ** Texts *)
Definition ab (k : cset) : Prop := k = CA \/ k = CB.
Lemma home_ab c : ab (home c). Proof. unfold home, ab. destruct (c mod 128 <? 32); tauto. Qed.
Lemma spelled_legal c : c < 256 -> Forall (fun x => legal (home c) x /\ x <> SHIFT) (spelled c).
Proof.
  intros H. unfold spelled. apply Forall_app. split.
  - destruct (128 <=? c); constructor; [|constructor]. split; [|discriminate]. destruct (home_ab c) as [-> | ->]; cbn [legal]; right.
    + cbn. auto 9.
    + right. cbn. auto 9.
  - constructor; [|constructor]. pose proof (N.mod_lt c 128 ltac:(discriminate)) as L. unfold home. destruct (N.ltb_spec (c mod 128) 32) as [G|G].
    + destruct (N.eqb_spec (c mod 128) 127) as [E|E]; [lia|]. split; [left; lia | unfold SHIFT; lia].
    + destruct (N.eqb_spec (c mod 128) 127) as [E|E]; [split; [right; left; reflexivity | discriminate]|]. split; [left; lia | unfold SHIFT; lia].
Qed.
Lemma is_A_inj k k' : ab k -> ab k' -> Bool.eqb (is_A k) (is_A k') = true <-> k = k'.
Proof. intros [-> | ->] [-> | ->]; cbn; split; congruence. Qed.
Lemma text_ok t : Forall (fun c => c < 256) t ->
  let segs := text_segments t in
  (t <> [] -> segs <> []) /\ Forall segment_ok segs /\ all_change (map fst segs) /\ Forall (fun x => ab (fst x)) segs /\ no_shift segs /\
  match t with [] => segs = [] | c :: _ => exists b r, segs = (home c, b) :: r end.
Proof.
  intros H. induction H as [|c t Hc H IH]; cbn zeta in *; [repeat split; try constructor; congruence|].
  destruct IH as (_ & I1 & I2 & I3 & I4 & _). cbn [text_segments].
  pose proof (spelled_legal c Hc) as L.
  assert (L1 : Forall (legal (home c)) (spelled c)) by (revert L; apply Forall_impl; tauto).
  assert (L2 : ~ In SHIFT (spelled c)). { intros E. rewrite Forall_forall in L. apply L in E. tauto. }
  assert (NC : home c <> CC) by (destruct (home_ab c) as [-> | ->]; discriminate).
  destruct (text_segments t) as [|[k b] r].
  - split; [discriminate|]. split; [constructor; [split; cbn [fst snd]; [assumption | congruence] | constructor]|]. split; [exact I|].
    split; [constructor; [apply home_ab | constructor]|]. split; [constructor; [assumption | constructor]|]. now exists (spelled c), [].
  - inversion I1 as [|? ? S1 S2]; subst. inversion I3 as [|? ? A1 A2]; subst. inversion I4 as [|? ? N1 N2]; subst. cbn [fst snd] in *.
    destruct (Bool.eqb (is_A k) (is_A (home c))) eqn:E.
    + apply is_A_inj in E; [|assumption|apply home_ab]. subst k. split; [discriminate|]. split; [|split; [exact I2|split; [constructor; assumption|split]]].
      * constructor; [|assumption]. destruct S1 as [S1 _]. split; cbn [fst snd] in *; [apply Forall_app; now split | congruence].
      * constructor; [|assumption]. cbn [snd]. rewrite in_app_iff. tauto.
      * now exists (spelled c ++ b), r.
    + assert (NE : home c <> k). { intros <-. rewrite Bool.eqb_reflx in E. discriminate. } split; [discriminate|]. split; [|split; [|split; [|split]]].
      * constructor; [|assumption]. split; cbn [fst snd]; [assumption | congruence].
      * cbn [map fst] in *. split; assumption.
      * constructor; [apply home_ab | assumption].
      * constructor; [assumption | exact I4].
      * now exists (spelled c), ((k, b) :: r).
Qed.
Definition told (c : char) : list token := (if 128 <=? c then [TFnc 4] else []) ++ [TChar (c mod 128)].
Lemma spelled_told c : c < 256 -> map char_token (filter (fun c => negb (c =? SHIFT)) (spelled c)) = told c.
Proof.
  intros H. unfold spelled, told. pose proof (N.mod_lt c 128 ltac:(discriminate)) as L. rewrite filter_app, map_app. f_equal; [now destruct (128 <=? c)|].
  destruct (N.eqb_spec (c mod 128) 127) as [E|E]; [now rewrite E|]. cbn [filter map].
  destruct (N.eqb_spec (c mod 128) SHIFT) as [E1|E1]; [unfold SHIFT in E1; lia|]. cbn [negb map]. unfold char_token.
  destruct (N.eqb_spec (c mod 128) 247); [lia|]. destruct (N.ltb_spec (c mod 128) 128); [reflexivity | lia].
Qed.
Lemma text_meaning t : Forall (fun c => c < 256) t -> meaning (text_segments t) = flat_map told t.
Proof.
  intros H. induction H as [|c t Hc H IH]; [reflexivity|]. cbn [text_segments flat_map]. rewrite <- IH, <- spelled_told by assumption.
  destruct (text_segments t) as [|[k b] r]; [unfold meaning; cbn [map concat snd]; now rewrite app_nil_r|].
  unfold meaning. destruct (Bool.eqb _ _); cbn [map concat snd]; [now rewrite filter_app, map_app, <- app_assoc | reflexivity].
Qed.
Lemma text_transmit t : Forall (fun c => c < 256) t -> transmit false false (flat_map told t) = t.
Proof.
  intros H. induction H as [|c t Hc H IH]; [reflexivity|]. cbn [flat_map]. unfold told at 1. destruct (N.leb_spec 128 c) as [G|G]; cbn [app transmit xorb]; rewrite IH; f_equal.
  - replace c with (c - 128 + 1 * 128) at 1 by lia. rewrite N.mod_add, N.mod_small by lia. lia.
  - now apply N.mod_small.
Qed.
Lemma ab_values segs : Forall (fun x => ab (fst x)) segs -> len (message_values segs) = len (spell segs).
Proof.
  assert (B : forall x, ab (fst x) -> length (body_values (fst x) (snd x)) = length (snd x)) by (intros [k b] [E|E]; cbn [fst snd] in *; subst k; apply map_length).
  intros H. destruct H as [|x segs Hx H]; [reflexivity|]. unfold len. f_equal. destruct x as [k b]. cbn [message_values]. unfold spell. cbn [map concat fst snd].
  cbn [length]. rewrite app_length. pose proof (B (k, b) Hx) as E. cbn [fst snd] in E. rewrite E. clear E Hx. cbn [app length]. f_equal. rewrite app_length. f_equal.
  induction H as [|x segs Hx H IH]; [reflexivity|]. cbn [map concat]. rewrite !app_length. cbn [length]. now rewrite IH, B.
Qed.
Lemma spelled_length c : (length (spelled c) <= 2)%nat.
Proof. unfold spelled. rewrite app_length. destruct (128 <=? c); cbn [length]; lia. Qed.
Lemma text_length t : (length (text_message t) <= 3 * length t)%nat.
Proof.
  unfold text_message. induction t as [|c t IH]; [cbn; lia|]. cbn [text_segments]. pose proof (spelled_length c) as L.
  destruct (text_segments t) as [|[k b] r]; [|destruct (Bool.eqb _ _)]; unfold spell in *; cbn [map concat fst snd] in *; rewrite ?app_length in *; cbn [length] in *;
    rewrite ?app_length in *; cbn [length] in *; lia.
Qed.
Lemma every_text p t : Forall (fun c => c < 256) t -> t <> [] -> len (text_message t) <= 6489 ->
  exists m, barcode SCode128 p (text_message t) = Ret (Ok m) /\ read_text m = Some t.
Proof.
  intros H HN HL. destruct (text_ok t H) as (T0 & T1 & T2 & T3 & T4 & _).
  destruct (plain_read p (text_segments t)) as (m & E & R).
  - split; [now apply T0 | now split].
  - exact T4.
  - unfold aligned. revert T3. apply Forall_impl. intros [k b] [E|E] C; cbn [fst] in *; congruence.
  - rewrite ab_values by assumption. exact HL.
  - exists m. split; [exact E|]. unfold read_text. rewrite R, text_meaning, text_transmit by assumption. reflexivity.
Qed.

(** Whatever is transmitted is made of characters below 256. *)
Lemma transmit_256 ts : Forall (fun t => match t with TChar c => c < 128 | _ => True end) ts -> forall a b, Forall (fun c => c < 256) (transmit a b ts).
Proof.
  intros H. induction H as [|[c|n] ts Ht H IH]; intros a b; cbn [transmit]; [constructor | |].
  - constructor; [destruct (xorb a b); lia | apply IH].
  - assert (G : Forall (fun c => c < 256) (if b then transmit (negb a) false ts else transmit a true ts)) by (destruct b; apply IH).
    destruct n as [|[[[q|q|]|[q|q|]|]|[[q|q|]|[q|q|]|]|]]; solve [exact G | apply IH].
Qed.

(** ** GS1-128 *)
Lemma joined_Forall (P : N -> Prop) sep fields : Forall P sep -> Forall (Forall P) fields -> Forall P (joined_by sep fields).
Proof.
  intros HS H. induction H as [|f fields Hf H IH]; [constructor|]. destruct fields as [|f' fields]; [exact Hf|].
  cbn [joined_by] in *. apply Forall_app. split; [exact Hf|]. apply Forall_app. now split.
Qed.
Lemma field_plain k f : gs1_field k f -> Forall (fun c => legal k c /\ c < 128) f.
Proof.
  destruct k; cbn [gs1_field legal].
  - apply Forall_impl. intros c H. split; [left|]; lia.
  - apply Forall_impl. intros c H. split; [left|]; lia.
  - intros [H _]. revert H. apply Forall_impl. intros c H. split; [left; unfold digit; apply andb_true_intro; split; apply N.leb_le; lia | lia].
Qed.
Lemma aligned_even body tl : Forall (fun c => digit c = true) body -> Nat.even (length body) = true ->
  aligned_body true (body ++ tl) <-> aligned_body true tl.
Proof.
  intros H. remember (length body) as n eqn:E. revert body E H. induction n as [n IH] using lt_wf_ind. intros body E H HE.
  destruct body as [|a [|b body]]; [reflexivity | subst n; discriminate |]. inversion H as [|? ? Ha H1]; subst. inversion H1 as [|? ? Hb H2]; subst.
  cbn [app aligned_body]. rewrite Ha, Hb. cbn [negb]. apply (IH (length body)); [cbn [length]; lia | reflexivity | assumption | exact HE].
Qed.
Lemma joined_aligned fields : Forall (gs1_field CC) fields -> aligned_body true (joined_by [FNC1] fields) /\ Nat.even (digits_in (joined_by [FNC1] fields)) = true.
Proof.
  intros H. induction H as [|f fields [Hf HE] H IH]; [split; [exact I | reflexivity]|].
  assert (D : Forall (fun c => digit c = true) f). { revert Hf. apply Forall_impl. intros c Hc. unfold digit. apply andb_true_intro. split; apply N.leb_le; lia. }
  assert (F : filter digit f = f). { clear - D. induction D as [|c f Hc D IH]; [reflexivity|]. cbn [filter]. now rewrite Hc, IH. }
  destruct fields as [|f' fields].
  - cbn [joined_by]. split; [rewrite <- (app_nil_r f); apply (proj2 (aligned_even f [] D HE)); exact I | unfold digits_in; now rewrite F].
  - change (joined_by [FNC1] (f :: f' :: fields)) with (f ++ [FNC1] ++ joined_by [FNC1] (f' :: fields)). destruct IH as [IA IE]. split.
    + apply (proj2 (aligned_even f _ D HE)). cbn [app aligned_body]. change (digit FNC1) with false. cbv iota. now split.
    + unfold digits_in in *. rewrite !filter_app, F, !app_length, !Nat.even_add, HE, IE. reflexivity.
Qed.
Lemma gs1_spell k fields : gs1_message k fields = spell [(k, FNC1 :: joined_by [FNC1] fields)].
Proof. unfold gs1_message, spell. cbn [map concat fst snd]. now rewrite app_nil_r. Qed.
Definition heard (t : token) : N := match t with TChar c => c | TFnc _ => 29 end.
Lemma char_token_plain c : c < 128 -> char_token c = TChar c.
Proof. intros H. unfold char_token. destruct (N.eqb_spec c 247); [lia|]. destruct (N.ltb_spec c 128); [reflexivity | lia]. Qed.
Lemma heard_joined fields : Forall (Forall (fun c => c < 128)) fields ->
  map heard (map char_token (filter (fun c => negb (c =? SHIFT)) (joined_by [FNC1] fields))) = joined_by [29] fields.
Proof.
  assert (G : forall f, Forall (fun c => c < 128) f -> map heard (map char_token (filter (fun c => negb (c =? SHIFT)) f)) = f).
  { intros f H. induction H as [|c f Hc H IH]; [reflexivity|]. cbn [filter]. destruct (N.eqb_spec c SHIFT) as [E|E]; [unfold SHIFT in E; lia|].
    cbn [negb map]. rewrite IH, char_token_plain by assumption. reflexivity. }
  intros H. induction H as [|f fields Hf H IH]; [reflexivity|]. destruct fields as [|f' fields]; [now apply G|].
  change (joined_by [FNC1] (f :: f' :: fields)) with (f ++ [FNC1] ++ joined_by [FNC1] (f' :: fields)).
  change (joined_by [29] (f :: f' :: fields)) with (f ++ [29] ++ joined_by [29] (f' :: fields)).
  set (j := joined_by [FNC1] (f' :: fields)) in *. set (j29 := joined_by [29] (f' :: fields)) in *.
  rewrite !filter_app, !map_app, G by assumption. f_equal. cbn [filter]. change (FNC1 =? SHIFT) with false. cbn [negb map app]. f_equal. exact IH.
Qed.
Lemma gs1_read p k fields : Forall (gs1_field k) fields -> len (gs1_message k fields) <= 6489 ->
  exists m, barcode SCode128 p (gs1_message k fields) = Ret (Ok m) /\ read_gs1 m = Some (lit "]C1" ++ joined_by [29] fields).
Proof.
  intros H HL. rewrite gs1_spell in *. set (body := FNC1 :: joined_by [FNC1] fields) in *.
  assert (HF : Forall (fun c => legal k c /\ (c < 128 \/ c = FNC1)) body).
  { assert (H1 : legal k FNC1) by (destruct k; cbn; auto 9). constructor; [split; [exact H1 | now right]|]. apply joined_Forall.
    - constructor; [split; [exact H1 | now right] | constructor].
    - revert H. apply Forall_impl. intros f Hf. apply field_plain in Hf. revert Hf. apply Forall_impl. tauto. }
  assert (HA : k = CC -> aligned_body true body /\ Nat.even (digits_in body) = true).
  { intros ->. destruct (joined_aligned fields H) as [A E]. unfold body. split; [|exact E]. cbn [aligned_body]. change (digit FNC1) with false. cbv iota. now split. }
  destruct (plain_read p [(k, body)]) as (m & E & R).
  - split; [discriminate|]. split; [|exact I]. constructor; [|constructor]. split; cbn [fst snd]; [revert HF; apply Forall_impl; tauto | intros C; now apply HA].
  - constructor; [|constructor]. cbn [snd]. intros C. rewrite Forall_forall in HF. apply HF in C. destruct C as [_ [C|C]]; unfold SHIFT, FNC1 in C; [lia | discriminate].
  - constructor; [|constructor]. cbn [fst snd]. intros C. now apply HA.
  - assert (V : (length (body_values k body) <= length body)%nat).
    { destruct k; cbn [body_values]; [rewrite map_length; lia | rewrite map_length; lia |]. clear. generalize (None : option char).
      induction body as [|c body IH]; intros o; [cbn; lia|]. cbn [pair_values]. destruct (digit c); [destruct o|]; cbn [length].
      - specialize (IH None). lia.
      - specialize (IH (Some c)). lia.
      - specialize (IH o). lia. }
    unfold spell in HL. unfold len in *. cbn [map concat fst snd message_values] in *. rewrite app_nil_r in *. cbn [length] in *. lia.
  - exists m. split; [exact E|]. unfold read_gs1. rewrite R. unfold meaning. cbn [map concat snd]. rewrite app_nil_r. unfold body. cbn [filter].
    change (FNC1 =? SHIFT) with false. cbn [negb map]. change (char_token FNC1) with (TFnc 1). cbn [gs1_transmit].
    change (map _ (map char_token _)) with (map heard (map char_token (filter (fun c => negb (c =? SHIFT)) (joined_by [FNC1] fields)))).
    rewrite heard_joined; [reflexivity|]. revert H. apply Forall_impl. intros f Hf. apply field_plain in Hf. revert Hf. apply Forall_impl. tauto.
Qed.

(** ** Nothing but Latin-1 is transmitted *)
Definition plain_token (t : token) : Prop := match t with TChar c => c < 128 | _ => True end.
Lemma interpret_plain k v l : interpret k v = Some (Out l) -> Forall plain_token l.
Proof.
  unfold interpret. intros H. destruct k.
  1, 2: destruct (N.ltb_spec v 96) as [G|G]; [injection H as <-; constructor; [|constructor]; cbn [plain_token]; try destruct (N.ltb_spec v 64); lia|];
    repeat (match type of H with (if ?b then _ else _) = _ => destruct b end; try discriminate H; try (injection H as <-; constructor; [exact I | constructor])).
  destruct (N.ltb_spec v 100) as [G|G].
  - assert (E : l = [TChar (48 + v / 10); TChar (48 + v mod 10)]) by congruence. rewrite E. clear H E. assert (v / 10 < 10) by (apply N.div_lt_upper_bound; lia). pose proof (N.mod_lt v 10 ltac:(discriminate)).
    constructor; [cbn [plain_token]; lia|]. constructor; [cbn [plain_token]; lia | constructor].
  - repeat (match type of H with (if ?b then _ else _) = _ => destruct b end; try discriminate H; try (injection H as <-; constructor; [exact I | constructor])).
Qed.
Lemma decode_plain vs : forall k sh ts, decode k sh vs = Some ts -> Forall plain_token ts.
Proof.
  induction vs as [|v vs IH]; intros k sh ts H; cbn [decode] in H; [injection H as <-; constructor|].
  destruct (interpret (if sh then shifted k else k) v) as [[l| |k']|] eqn:E; try discriminate; [|now apply IH in H|now apply IH in H].
  destruct (decode k false vs) as [r|] eqn:D; [|discriminate]. cbn [obind] in H. injection H as <-. apply Forall_app. split; [now apply interpret_plain in E | now apply IH in D].
Qed.
Lemma read_text_latin m t : read_text m = Some t -> Forall (fun c => c < 256) t.
Proof.
  unfold read_text, read_modules. destruct (scan m) as [ws|]; [|discriminate]. cbn [obind read_as]. destruct (read_c128 ws) as [ts|] eqn:E; [|discriminate].
  cbn [option_map]. intros H. injection H as <-. apply transmit_256. unfold read_c128 in E. destruct (read_values ws) as [vs|]; [|discriminate]. cbn [obind] in E.
  unfold decode_checked in E. destruct (rev vs) as [|chk front]; [discriminate|]. destruct (rev front) as [|st data]; [discriminate|].
  unfold guard in E. destruct (chk =? _); [|discriminate].
  repeat (match type of E with (if ?b then _ else _) = _ => destruct b end); try discriminate; apply decode_plain in E; exact E.
Qed.
