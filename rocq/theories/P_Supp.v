(** * EAN-2 and EAN-5 add-ons *)
From Verif Require Import Rust M_Error M_Parse M_Helpers M_Tables M_Ean13 M_EanSupp
  S_Barcode S_Ean S_Text P_Rust P_Parse P_Barcode P_Gs1 P_Ean P_Retail.
Local Arguments N.add : simpl never.
Local Arguments N.mul : simpl never.
Local Arguments N.modulo : simpl never.

(** ** Constructor, for strings of any size *)
Lemma str_len_pow s : Forall digit_char s -> str_len s mod 2 ^ 32 <= len s.
Proof. intros H. rewrite str_len_digits by assumption. apply N.mod_le. discriminate. Qed.

Theorem eansupp_new_spec s :
  let n := str_len s mod 2 ^ 32 in
  exists r, eansupp_new s = Ret r /\
    (r = Err ELength <-> ~ (2 <= n <= 5) \/
       (Forall digit_char s /\ length s <> 2%nat /\ length s <> 5%nat)) /\
    (r = Err ECharacter <-> 2 <= n <= 5 /\ ~ Forall digit_char s) /\
    r <> Err EChecksum /\
    (forall b, r = Ok b <-> Forall digit_char s /\
       ((length s = 2%nat /\ b = EAN2 (digits_of s)) \/
        (length s = 5%nat /\ b = EAN5 (digits_of s)))).
Proof.
  intros n. unfold eansupp_new.
  assert (SM : Forall digit_char s -> (length s = 2%nat \/ length s = 5%nat) -> n = len s).
  { intros F L. subst n. rewrite str_len_digits by assumption. apply N.mod_small.
    unfold len. change (2 ^ 32) with 4294967296. lia. }
  destruct (parse_cases digit_chars 2 5 s) as [[H E]|[[H [HC E]]|[H [HC E]]]];
    fold n in H; rewrite E; rewrite ?Forall_In_digit_chars in *.
  - eexists. split; [reflexivity|]. repeat split; try tauto; try discriminate.
    intros [F [[L _]|[L _]]]; exfalso; rewrite SM in H by auto; unfold len in H; lia.
  - eexists. split; [reflexivity|]. repeat split; try tauto; try discriminate.
  - rewrite to_digits_ok by assumption. cbn [bind]. rewrite len_digits_of. unfold len.
    destruct (N.of_nat (length s) =? 2) eqn:E2; [|destruct (N.of_nat (length s) =? 5) eqn:E5];
      rewrite ?N.eqb_eq, ?N.eqb_neq in *; (eexists; split; [reflexivity|]).
    + repeat split; try discriminate.
      * intros [?|(_ & ? & _)]; [tauto|lia].
      * intros [_ ?]. tauto.
      * assumption.
      * injection H0 as <-. left. split; [lia|reflexivity].
      * intros [_ [[_ ->]|[L _]]]; [reflexivity|lia].
    + repeat split; try discriminate.
      * intros [?|(_ & _ & ?)]; [tauto|lia].
      * intros [_ ?]. tauto.
      * assumption.
      * injection H0 as <-. right. split; [lia|reflexivity].
      * intros [_ [[L _]|[_ ->]]]; [lia|reflexivity].
    + repeat split; try discriminate.
      * intros _. right. repeat split; [assumption|lia|lia].
      * intros [_ ?]. tauto.
      * intros [_ [[L _]|[L _]]]; lia.
Qed.

Lemma eansupp_new_Ok s b :
  eansupp_new s = Ret (Ok b) ->
  exists ds, Forall is_digit ds /\ s = text_of ds /\
    ((length ds = 2%nat /\ b = EAN2 ds) \/ (length ds = 5%nat /\ b = EAN5 ds)).
Proof.
  intros H. destruct (eansupp_new_spec s) as (r & E & _ & _ & _ & S).
  rewrite H in E. injection E as <-. destruct (S b) as [S1 _]. specialize (S1 eq_refl).
  destruct S1 as [F L]. exists (digits_of s). split; [now apply digits_of_digits|].
  split; [symmetry; now apply text_of_digits_of|].
  unfold digits_of in *. rewrite map_length. exact L.
Qed.

Lemma eansupp_new_2 a b : is_digit a -> is_digit b -> eansupp_new (text_of [a; b]) = Ret (Ok (EAN2 [a; b])).
Proof.
  intros Ha Hb. destruct (eansupp_new_spec (text_of [a; b])) as (r & E & _ & _ & _ & S).
  rewrite E. f_equal. apply S. split; [apply text_of_digit_char; auto|].
  left. rewrite digits_of_text_of. auto.
Qed.
Lemma eansupp_new_5 ds : length ds = 5%nat -> Forall is_digit ds -> eansupp_new (text_of ds) = Ret (Ok (EAN5 ds)).
Proof.
  intros L D. destruct (eansupp_new_spec (text_of ds)) as (r & E & _ & _ & _ & S).
  rewrite E. f_equal. apply S. split; [apply text_of_digit_char; auto|].
  right. rewrite digits_of_text_of. unfold text_of. rewrite map_length. auto.
Qed.

(** ** Drawing *)
Definition R (p : parity) (d : N) : list N := render_from 0 (widths (set_table p) d).

Lemma render_addon_tail ps ds : Forall is_digit ds ->
  render_from 0 (draw_addon false ps ds) =
  concat (map (fun x => [0;1] ++ R (fst x) (snd x)) (combine ps ds)).
Proof.
  intros H. revert ps. induction H as [|d ds Hd _ IH]; intros [|p ps]; try reflexivity.
  cbn [draw_addon combine map concat fst snd].
  rewrite render_from_app_even by auto.
  rewrite render_from_app_even by (auto; now rewrite left_length).
  rewrite IH, <- app_assoc. reflexivity.
Qed.

Lemma render_addon p ps d ds : Forall is_digit (d :: ds) ->
  render (addon_guard ++ draw_addon true (p :: ps) (d :: ds)) =
  [1;0;1;1] ++ R p d ++ concat (map (fun x => [0;1] ++ R (fst x) (snd x)) (combine ps ds)).
Proof.
  intros H. inversion H; subst. unfold render.
  rewrite render_from_app_odd by auto. change (1 - 1) with 0.
  cbn [draw_addon app]. rewrite render_from_app_even by (auto; now rewrite left_length).
  rewrite render_addon_tail by assumption. reflexivity.
Qed.

Lemma payload_tail slices : forall i acc, 0 < i ->
  fold_left eansupp_payload_step (enumerate_from i slices) acc =
  acc ++ concat (map (fun s => [0;1] ++ s) slices).
Proof.
  induction slices as [|s l IH]; intros i acc Hi; cbn [enumerate_from fold_left map concat].
  { now rewrite app_nil_r. }
  rewrite IH by lia. unfold eansupp_payload_step.
  apply N.ltb_lt in Hi. rewrite Hi. rewrite <- !app_assoc. reflexivity.
Qed.

Lemma payload_join s slices :
  fold_left eansupp_payload_step (enumerate (s :: slices)) [] =
  s ++ concat (map (fun s => [0;1] ++ s) slices).
Proof.
  unfold enumerate. cbn [enumerate_from fold_left]. now rewrite payload_tail by reflexivity.
Qed.

Lemma eansupp_encode_gen p b ps ps' d ds par :
  eansupp_raw_data b = d :: ds -> Forall is_digit (d :: ds) ->
  eansupp_parity p b = Ret par ->
  combine (d :: ds) par = combine (d :: ds) (map side (ps :: ps')) ->
  eansupp_encode p b = Ret (render (addon_guard ++ draw_addon true (ps :: ps') (d :: ds))).
Proof.
  intros Hr Hd Hp Hc. unfold eansupp_encode, eansupp_payload.
  rewrite Hp. cbn [bind]. rewrite Hr, Hc.
  rewrite left_payload_gen by assumption. cbn [bind combine map].
  rewrite payload_join, render_addon by assumption.
  f_equal. unfold join_slices. cbn [concat].
  rewrite app_nil_r, map_map. reflexivity.
Qed.

Lemma mod_cases4 n : n mod 4 = 0 \/ n mod 4 = 1 \/ n mod 4 = 2 \/ n mod 4 = 3.
Proof. assert (H : n mod 4 < 4) by (apply N.mod_lt; lia). set (r := n mod 4) in *. clearbody r. lia. Qed.

Theorem ean2_encode_spec p a b :
  is_digit a -> is_digit b ->
  eansupp_encode p (EAN2 [a; b]) = Ret (render (ean2_symbol [a; b])).
Proof.
  intros Ha Hb. unfold ean2_symbol, ean2_variant.
  assert (Hp : forall v, (10 * a + b) mod 4 = v -> v < 4 ->
            eansupp_parity p (EAN2 [a; b]) = index supp_EAN2_PARITY v).
  { intros v Hv _. unfold eansupp_parity.
    change (index [a; b] 0) with (Ret a). change (index [a; b] 1) with (Ret b). cbn [bind].
    unfold is_digit in *.
    unfold mul_u, add_u. rewrite fit_u_ok by (change (2 ^ 8) with 256; lia). cbn [bind].
    rewrite fit_u_ok by (change (2 ^ 8) with 256; lia). cbn [bind].
    rewrite rem_u_ok by discriminate. cbn [bind]. rewrite (N.mul_comm a 10), Hv. reflexivity. }
  destruct (mod_cases4 (10 * a + b)) as [E|[E|[E|E]]]; rewrite E; specialize (Hp _ E);
    (eapply eansupp_encode_gen; [reflexivity | auto | rewrite Hp; reflexivity | reflexivity]).
Qed.

Lemma ean5_check p a b c d e :
  3 * (a + c + e) + 9 * (b + d) < 256 ->
  eansupp_checksum_digit p (EAN5 [a; b; c; d; e]) = Ret ((3 * (a + c + e) + 9 * (b + d)) mod 10).
Proof.
  intros H. unfold eansupp_checksum_digit. cbn [eansupp_raw_data].
  unfold enumerate. cbn [enumerate_from].
  change (0 + 1) with 1. change (1 + 1) with 2. change (2 + 1) with 3. change (3 + 1) with 4.
  cbn [foldM]. unfold eansupp_checksum_step.
  change (0 mod 2 =? 1) with false. change (1 mod 2 =? 1) with true.
  change (2 mod 2 =? 1) with false. change (3 mod 2 =? 1) with true. change (4 mod 2 =? 1) with false.
  unfold add_u, mul_u. rewrite !N.add_0_l.
  repeat (rewrite fit_u_ok by (change (2 ^ 8) with 256; lia); cbn [bind]).
  rewrite rem_u_ok by discriminate. cbn [bind].
  rewrite !N.add_0_l, (N.mul_comm (a + c + e) 3), (N.mul_comm (b + d) 9).
  set (v := _ mod 10). assert (Hv : v < 10) by (apply N.mod_lt; discriminate).
  replace (v =? 10) with false; [reflexivity|]. symmetry. apply N.eqb_neq. lia.
Qed.

Lemma digit5_bound a b c d e :
  is_digit a -> is_digit b -> is_digit c -> is_digit d -> is_digit e ->
  3 * (a + c + e) + 9 * (b + d) < 256.
Proof. unfold is_digit. lia. Qed.

Theorem ean5_encode_spec p ds :
  length ds = 5%nat -> Forall is_digit ds ->
  eansupp_encode p (EAN5 ds) = Ret (render (ean5_symbol ds)).
Proof.
  intros L D. do 5 (destruct ds as [|? ds]; [discriminate L|]). destruct ds; [|discriminate L].
  split_digits D. rename n into a, n0 into b, n1 into c, n2 into d, n3 into e.
  unfold ean5_symbol, ean5_variant.
  assert (Hp : eansupp_parity p (EAN5 [a;b;c;d;e]) =
               index supp_EAN5_PARITY ((3 * (a + c + e) + 9 * (b + d)) mod 10)).
  { unfold eansupp_parity. rewrite ean5_check by now apply digit5_bound. reflexivity. }
  assert (Hv : is_digit ((3 * (a + c + e) + 9 * (b + d)) mod 10)) by (apply N.mod_lt; discriminate).
  set (v := (3 * (a + c + e) + 9 * (b + d)) mod 10) in *. clearbody v.
  by_digit Hv; (eapply eansupp_encode_gen; [reflexivity | repeat constructor; assumption | rewrite Hp; reflexivity | reflexivity]).
Qed.

(** ** Reading *)
Lemma draw_addon_blocks ps ds :
  draw_addon false ps ds =
  concat (map (fun x => addon_separator ++ widths (set_table (fst x)) (snd x)) (combine ps ds)).
Proof.
  revert ps. induction ds as [|d ds IH]; intros [|p ps]; try reflexivity.
  cbn [draw_addon combine map concat fst snd]. now rewrite IH, <- app_assoc.
Qed.

Lemma read_addon_ok p ps d ds :
  Forall is_digit (d :: ds) ->
  read_addon_blocks (addon_guard ++ draw_addon true (p :: ps) (d :: ds)) =
  Some (combine (p :: ps) (d :: ds)).
Proof.
  intros H. unfold read_addon_blocks.
  change (firstn 3 (addon_guard ++ draw_addon true (p :: ps) (d :: ds))) with addon_guard.
  rewrite widths_eqb_refl.
  change (skipn 3 (addon_guard ++ draw_addon true (p :: ps) (d :: ds)))
    with (draw_addon true (p :: ps) (d :: ds)).
  change (addon_separator ++ draw_addon true (p :: ps) (d :: ds))
    with (draw_addon false (p :: ps) (d :: ds)).
  rewrite draw_addon_blocks. pose proof (Forall_combine_r is_digit (p :: ps) (d :: ds) H) as HF.
  set (l := combine (p :: ps) (d :: ds)) in *. clearbody l.
  rewrite chop_concat.
  2: lia.
  2:{ apply Forall_map. revert HF. apply Forall_impl. intros x Hx.
      rewrite app_length, left_length by assumption. reflexivity. }
  unfold guard at 1. cbn [obind].
  apply read_all_map_id. intros [q x] Hin. rewrite Forall_forall in HF. specialize (HF _ Hin).
  cbn [fst snd] in *. change (firstn 2 (addon_separator ++ widths (set_table q) x)) with addon_separator.
  rewrite widths_eqb_refl. change (skipn 2 (addon_separator ++ widths (set_table q) x)) with (widths (set_table q) x).
  now apply read_left.
Qed.

Theorem read_ean2_ok a b : is_digit a -> is_digit b ->
  read_ean2 (ean2_symbol [a; b]) = Some [a; b].
Proof.
  intros Ha Hb. unfold read_ean2, ean2_symbol.
  assert (HE : forall v, v = ean2_variant [a; b] -> v < 4 ->
     (let? l := read_addon_blocks (addon_guard ++ draw_addon true (nth (N.to_nat v) ean2_parities []) [a; b]) in
      let ds := map snd l in
      let? v := which_parity ean2_parities (map fst l) in
      guard (Nat.eqb (length ds) 2 && (N.of_nat v =? ean2_variant ds)%N) (Some ds)) = Some [a; b]).
  { intros v Ev Dv.
    assert (C : v = 0 \/ v = 1 \/ v = 2 \/ v = 3) by lia.
    repeat (destruct C as [C|C]; [|]); rewrite C in *; clear C;
    (match goal with |- context [nth (N.to_nat ?k) ean2_parities []] =>
         let r := eval compute in (nth (N.to_nat k) ean2_parities []) in
         change (nth (N.to_nat k) ean2_parities []) with r end;
       rewrite read_addon_ok by auto;
       cbn [combine obind map fst snd which_parity ean2_parities
         parities_eqb parity_eqb andb option_map length Nat.eqb];
       cbn [N.of_nat Pos.of_succ_nat Pos.succ];
       rewrite <- Ev, N.eqb_refl; reflexivity). }
  apply HE; [reflexivity|]. unfold ean2_variant. apply N.mod_lt. discriminate.
Qed.

Theorem read_ean5_ok ds : length ds = 5%nat -> Forall is_digit ds ->
  read_ean5 (ean5_symbol ds) = Some ds.
Proof.
  intros L D. unfold read_ean5, ean5_symbol.
  do 5 (destruct ds as [|? ds]; [discriminate L|]). destruct ds; [|discriminate L].
  rename n into a, n0 into b, n1 into c, n2 into d, n3 into e.
  assert (Hv : is_digit (ean5_variant [a;b;c;d;e])) by (apply N.mod_lt; discriminate).
  assert (HE : forall v, v = ean5_variant [a;b;c;d;e] -> is_digit v ->
     (let? l := read_addon_blocks (addon_guard ++ draw_addon true (nth (N.to_nat v) ean5_parities []) [a;b;c;d;e]) in
      let ds := map snd l in
      let? v := which_parity ean5_parities (map fst l) in
      guard (Nat.eqb (length ds) 5 && (N.of_nat v =? ean5_variant ds)%N) (Some ds)) = Some [a;b;c;d;e]).
  { intros v Ev Dv. pose proof (digit_cases v Dv) as C.
    repeat (destruct C as [C|C]; [|]); rewrite C in *; clear C;
    (match goal with |- context [nth (N.to_nat ?k) ean5_parities []] =>
         let r := eval compute in (nth (N.to_nat k) ean5_parities []) in
         change (nth (N.to_nat k) ean5_parities []) with r end;
       rewrite read_addon_ok by assumption;
       cbn [combine obind map fst snd which_parity ean5_parities
         parities_eqb parity_eqb andb option_map length Nat.eqb];
       cbn [N.of_nat Pos.of_succ_nat Pos.succ];
       rewrite <- Ev, N.eqb_refl; reflexivity). }
  now apply HE.
Qed.

(** ** Hand-built values *)
Lemma mapM_returns {A B} (f : A -> M B) l :
  returns (mapM f l) <-> Forall (fun x => returns (f x)) l.
Proof.
  induction l as [|x l IH]; cbn [mapM].
  { split; [constructor | exists []; reflexivity]. }
  split.
  - intros [r H]. destruct (f x) as [y|] eqn:E; [|discriminate]. cbn [bind] in H.
    destruct (mapM f l) as [ys|] eqn:El; [|discriminate].
    constructor; [eexists; eassumption|]. apply IH. eexists; reflexivity.
  - intros H. inversion H as [|? ? [y Ey] Hl]; subst. apply IH in Hl. destruct Hl as [ys Eys].
    exists (y :: ys). rewrite Ey. cbn [bind]. rewrite Eys. reflexivity.
Qed.

Lemma char_returns s d : s = 0 \/ s = 1 -> (returns (ean_char_encoding s d) <-> is_digit d).
Proof.
  intros Hs. split.
  - intros [r H]. destruct (N.lt_ge_cases d 10) as [|G]; [assumption|].
    unfold ean_char_encoding in H.
    assert (E : forall t, index ean_ENCODINGS s = Ret t -> index t d = Panic PanicIndex).
    { intros t Ht. apply index_out. destruct Hs; subst s; injection Ht as <-; exact G. }
    destruct (index ean_ENCODINGS s) as [t|]; [|discriminate]. cbn [bind] in H.
    rewrite E in H by reflexivity. discriminate.
  - intros Hd. destruct Hs; subst s.
    + eexists. now apply (enc_left PA).
    + eexists. now apply (enc_left PB).
Qed.

Lemma zip_returns d par :
  length par = 5%nat -> Forall (fun s => s = 0 \/ s = 1) par ->
  (returns (mapM (fun x => let '(d, s) := x in ean_char_encoding s d) (combine d par))
   <-> Forall is_digit (firstn 5 d)).
Proof.
  intros L H. rewrite mapM_returns.
  assert (E : firstn 5 d = map fst (combine d par)).
  { rewrite <- L. clear. revert par. induction d as [|x d IH]; intros [|y par]; try reflexivity.
    simpl. now rewrite IH. }
  rewrite E. rewrite Forall_map.
  assert (C : Forall (fun x => snd x = 0 \/ snd x = 1) (combine d par))
    by exact (Forall_combine_r (fun s => s = 0 \/ s = 1) d par H).
  revert C. set (l := combine d par). clearbody l. clear. intros C.
  induction C as [|[x s] l Hx _ IH]; [split; constructor|]. cbn [fst snd] in *.
  rewrite !Forall_cons_iff. cbn [fst]. rewrite char_returns by assumption. now rewrite IH.
Qed.

Lemma eansupp_returns_parity p b par :
  eansupp_parity p b = Ret par -> length par = 5%nat -> Forall (fun s => s = 0 \/ s = 1) par ->
  (returns (eansupp_encode p b) <-> Forall is_digit (firstn 5 (eansupp_raw_data b))).
Proof.
  intros Hp L H. unfold eansupp_encode, eansupp_payload. rewrite Hp. cbn [bind].
  rewrite <- (zip_returns _ par L H).
  destruct (mapM _ _) eqn:E; cbn [bind].
  - split; intros _; eexists; reflexivity.
  - split; intros [? ?]; discriminate.
Qed.

Lemma ean2_rows v : v < 4 -> exists par, index supp_EAN2_PARITY v = Ret par /\
  length par = 5%nat /\ Forall (fun s => s = 0 \/ s = 1) par.
Proof.
  intros H. assert (E : v = 0 \/ v = 1 \/ v = 2 \/ v = 3) by lia.
  destruct E as [E|[E|[E|E]]]; subst v; (eexists; split; [reflexivity|]; split; [reflexivity|]; repeat apply Forall_cons; auto).
Qed.
Lemma ean5_rows v : v < 10 -> exists par, index supp_EAN5_PARITY v = Ret par /\
  length par = 5%nat /\ Forall (fun s => s = 0 \/ s = 1) par.
Proof.
  intros H. change (is_digit v) in H.
  by_digit H; (eexists; split; [reflexivity|]; split; [reflexivity|]; repeat apply Forall_cons; auto).
Qed.

Theorem ean2_returns p d :
  returns (eansupp_encode p (EAN2 d)) <-> (2 <= length d)%nat /\ Forall is_digit (firstn 5 d).
Proof.
  destruct d as [|a [|b d]].
  - split; [intros [r H]; discriminate | simpl; lia].
  - split; [|simpl; lia]. intros [r H]. unfold eansupp_encode, eansupp_payload, eansupp_parity in H.
    change (index [a] 0) with (Ret a) in H. cbn [bind] in H.
    change (index [a] 1) with (@Panic N PanicIndex) in H.
    destruct (mul_u 8 p a 10); discriminate.
  - assert (HA : forall v, returns (eansupp_encode p (EAN2 (a :: b :: d))) ->
      eansupp_parity p (EAN2 (a :: b :: d)) = Panic v -> False).
    { intros v [r H] E. unfold eansupp_encode, eansupp_payload in H. rewrite E in H. discriminate. }
    unfold eansupp_parity in HA.
    assert (I0 : index (a :: b :: d) 0 = Ret a) by reflexivity.
    assert (I1 : index (a :: b :: d) 1 = Ret b) by reflexivity.
    rewrite I0, I1 in HA. cbn [bind] in HA.
    destruct (mul_u 8 p a 10) as [t|w] eqn:Et.
    + cbn [bind] in HA. destruct (add_u 8 p t b) as [s|w] eqn:Es.
      * cbn [bind] in HA. clear HA.
        destruct (ean2_rows (s mod 4)) as (par & Ep & L & F); [apply N.mod_lt; discriminate|].
        rewrite (eansupp_returns_parity p (EAN2 (a :: b :: d)) par); auto.
        { cbn [eansupp_raw_data length]. split; [intros; split; [lia|assumption] | tauto]. }
        unfold eansupp_parity. rewrite I0. cbn [bind]. rewrite Et. cbn [bind]. rewrite I1. cbn [bind].
        rewrite Es. cbn [bind]. rewrite rem_u_ok by discriminate. cbn [bind]. exact Ep.
      * split; [intros H; exfalso; now apply (HA w)|].
        intros [_ F]. cbn [firstn] in F. rewrite !Forall_cons_iff in F. unfold is_digit in F.
        unfold mul_u in Et. rewrite fit_u_ok in Et by (change (2 ^ 8) with 256; lia). injection Et as <-.
        unfold add_u in Es. rewrite fit_u_ok in Es by (change (2 ^ 8) with 256; lia). discriminate.
    + split; [intros H; exfalso; now apply (HA w)|].
      intros [_ F]. cbn [firstn] in F. rewrite !Forall_cons_iff in F. unfold is_digit in F.
      unfold mul_u in Et. rewrite fit_u_ok in Et by (change (2 ^ 8) with 256; lia). discriminate.
Qed.

(** The summing loop: in Release it always ends; in Debug exactly when the sums fit. *)
Lemma supp_loop_release l : forall i o e,
  exists o' e', foldM (eansupp_checksum_step Release) (enumerate_from i l) (o, e) = Ret (o', e').
Proof.
  induction l as [|d l IH]; intros i o e; cbn [enumerate_from foldM]; [eauto|].
  unfold eansupp_checksum_step at 1, add_u. rewrite !fit_u_release.
  destruct (i mod 2 =? 1); cbn [bind]; apply IH.
Qed.

Lemma mod2_succ i : ((i + 1) mod 2 =? 1) = negb (i mod 2 =? 1).
Proof.
  assert (H : i mod 2 < 2) by (apply N.mod_lt; discriminate).
  rewrite <- N.add_mod_idemp_l by discriminate. set (r := i mod 2) in *. clearbody r.
  assert (E : r = 0 \/ r = 1) by lia. destruct E as [->| ->]; reflexivity.
Qed.

Lemma supp_loop_debug l : forall i o e,
  o < 256 -> e < 256 ->
  let O := o + (if i mod 2 =? 1 then alt_sum 0 1 l else alt_sum 1 0 l) in
  let E := e + (if i mod 2 =? 1 then alt_sum 1 0 l else alt_sum 0 1 l) in
  foldM (eansupp_checksum_step Debug) (enumerate_from i l) (o, e) =
  if (O <? 256) && (E <? 256) then Ret (O, E) else Panic PanicOverflow.
Proof.
  induction l as [|d l IH]; intros i o e Ho He; cbn [enumerate_from foldM alt_sum].
  { destruct (i mod 2 =? 1); rewrite !N.add_0_r; apply N.ltb_lt in Ho, He; now rewrite Ho, He. }
  unfold eansupp_checksum_step at 1, add_u.
  destruct (i mod 2 =? 1) eqn:Ei.
  - destruct (N.lt_ge_cases (e + d) 256) as [L|G].
    + rewrite fit_u_ok by exact L. cbn [bind].
      rewrite (IH (i + 1) o (e + d) Ho L), mod2_succ, Ei. cbn [negb].
      replace (o + alt_sum 1 0 l) with (o + (0 * d + alt_sum 1 0 l)) by lia.
      replace (e + d + alt_sum 0 1 l) with (e + (1 * d + alt_sum 0 1 l)) by lia. reflexivity.
    + rewrite fit_u_debug by exact G. cbn [bind].
      replace (e + (1 * d + alt_sum 0 1 l) <? 256) with false; [now rewrite andb_false_r|].
      symmetry. apply N.ltb_ge. lia.
  - destruct (N.lt_ge_cases (o + d) 256) as [L|G].
    + rewrite fit_u_ok by exact L. cbn [bind].
      rewrite (IH (i + 1) (o + d) e L He), mod2_succ, Ei. cbn [negb].
      replace (e + alt_sum 1 0 l) with (e + (0 * d + alt_sum 1 0 l)) by lia.
      replace (o + d + alt_sum 0 1 l) with (o + (1 * d + alt_sum 0 1 l)) by lia. reflexivity.
    + rewrite fit_u_debug by exact G. cbn [bind].
      replace (o + (1 * d + alt_sum 0 1 l) <? 256) with false; [reflexivity|].
      symmetry. apply N.ltb_ge. lia.
Qed.

Lemma ean5_digit_lt n : (if n mod 10 =? 10 then 0 else n mod 10) < 10.
Proof. assert (n mod 10 < 10) by (apply N.mod_lt; discriminate). destruct (n mod 10 =? 10); [reflexivity | assumption]. Qed.

Theorem ean5_returns_release d :
  returns (eansupp_encode Release (EAN5 d)) <-> Forall is_digit (firstn 5 d).
Proof.
  destruct (supp_loop_release d 0 0 0) as (o & e & El).
  set (n := ((o * 3) mod 256 + (e * 9) mod 256) mod 256).
  destruct (ean5_rows (if n mod 10 =? 10 then 0 else n mod 10) (ean5_digit_lt n)) as (par & Ep & L & F).
  apply (eansupp_returns_parity Release (EAN5 d) par); auto.
  unfold eansupp_parity, eansupp_checksum_digit, enumerate. cbn [eansupp_raw_data]. rewrite El. cbn [bind].
  unfold mul_u, add_u. rewrite !fit_u_release. cbn [bind]. rewrite fit_u_release. cbn [bind].
  rewrite rem_u_ok by discriminate. cbn [bind]. exact Ep.
Qed.

Theorem ean5_returns_debug d :
  returns (eansupp_encode Debug (EAN5 d)) <->
  Forall is_digit (firstn 5 d) /\ alt_sum 3 9 d < 256.
Proof.
  pose proof (supp_loop_debug d 0 0 0 eq_refl eq_refl) as El. cbn zeta in El.
  change (0 mod 2 =? 1) with false in El. cbv iota in El. rewrite !N.add_0_l in El.
  rewrite (alt_sum_split 3 9 d).
  set (o := alt_sum 1 0 d) in *. set (e := alt_sum 0 1 d) in *. clearbody o e.
  assert (HP : forall v, eansupp_parity Debug (EAN5 d) = Panic v -> ~ returns (eansupp_encode Debug (EAN5 d))).
  { intros v E [r H]. unfold eansupp_encode, eansupp_payload in H. rewrite E in H. discriminate. }
  unfold eansupp_parity, eansupp_checksum_digit, enumerate in HP. cbn [eansupp_raw_data] in HP.
  rewrite El in HP. unfold mul_u, add_u in HP.
  destruct (N.lt_ge_cases (3 * o + 9 * e) 256) as [L|G].
  - set (n := o * 3 + e * 9).
    destruct (ean5_rows (if n mod 10 =? 10 then 0 else n mod 10) (ean5_digit_lt n)) as (par & Ep & Lp & F).
    rewrite (eansupp_returns_parity Debug (EAN5 d) par); auto; [cbn [eansupp_raw_data]; tauto|].
    unfold eansupp_parity, eansupp_checksum_digit, enumerate. cbn [eansupp_raw_data].
    rewrite El. replace (o <? 256) with true by (symmetry; apply N.ltb_lt; lia).
    replace (e <? 256) with true by (symmetry; apply N.ltb_lt; lia). cbn [andb bind].
    unfold mul_u, add_u.
    do 3 (rewrite fit_u_ok by (change (2 ^ 8) with 256; lia); cbn [bind]).
    rewrite rem_u_ok by discriminate. cbn [bind]. exact Ep.
  - split; [|intros [_ ?]; lia]. intros H. exfalso. revert H.
    destruct (o <? 256) eqn:Eo; cbn [andb] in HP; [|eapply HP; reflexivity].
    destruct (e <? 256) eqn:Ee; [|eapply HP; reflexivity].
    cbn [bind] in HP.
    destruct (N.lt_ge_cases (o * 3) 256) as [Lo|Go]; [|rewrite fit_u_debug in HP by exact Go; eapply HP; reflexivity].
    rewrite (fit_u_ok 8 Debug (o * 3)) in HP by exact Lo. cbn [bind] in HP.
    destruct (N.lt_ge_cases (e * 9) 256) as [Le|Ge]; [|rewrite fit_u_debug in HP by exact Ge; eapply HP; reflexivity].
    rewrite (fit_u_ok 8 Debug (e * 9)) in HP by exact Le. cbn [bind] in HP.
    rewrite fit_u_debug in HP by (change (2 ^ 8) with 256; lia). eapply HP; reflexivity.
Qed.

(** ** Accepted strings *)
Lemma addon_width first ps ds : Forall is_digit ds -> Forall width14 (draw_addon first ps ds).
Proof.
  intros H. revert first ps. induction H as [|d ds Hd _ IH]; intros f [|p ps]; try constructor.
  cbn [draw_addon]. apply Forall_app. split; [destruct f; repeat constructor|].
  apply Forall_app. split; [now apply left_positive | apply IH].
Qed.
Lemma addon_even first ps ds : Forall is_digit ds -> Nat.even (length (draw_addon first ps ds)) = true.
Proof.
  intros H. revert first ps. induction H as [|d ds Hd _ IH]; intros f [|p ps]; try reflexivity.
  cbn [draw_addon]. rewrite !app_length, left_length, !Nat.even_add, IH by assumption. now destruct f.
Qed.
Lemma addon_scan ps ds : Forall is_digit ds ->
  scan (render (addon_guard ++ draw_addon true ps ds)) = Some (addon_guard ++ draw_addon true ps ds).
Proof.
  intros H. apply scan_render.
  - apply width14_pos. apply Forall_app. split; [repeat constructor | now apply addon_width].
  - rewrite app_length, Nat.even_add, addon_even by assumption. reflexivity.
Qed.

Lemma left_sum' p d : is_digit d -> list_sum (widths (set_table p) d) = 7%nat.
Proof. intros H. destruct p; by_digit H; reflexivity. Qed.
Lemma addon_sum ps ds : Forall is_digit ds -> length ps = length ds ->
  list_sum (draw_addon false ps ds) = (9 * length ds)%nat.
Proof.
  intros H. revert ps. induction H as [|d ds Hd _ IH]; intros [|p ps] L; try discriminate; [reflexivity|].
  cbn [draw_addon length]. rewrite !list_sum_app, left_sum', IH by (assumption || (simpl in L; lia)).
  simpl (list_sum addon_separator). lia.
Qed.
Lemma addon_length p ps d ds : Forall is_digit (d :: ds) -> length ps = length ds ->
  length (render (addon_guard ++ draw_addon true (p :: ps) (d :: ds))) = (11 + 9 * length ds)%nat.
Proof.
  intros H L. inversion H; subst. unfold render. rewrite render_from_length. cbn [draw_addon app].
  rewrite !list_sum_app, left_sum', addon_sum by assumption. simpl (list_sum addon_guard). lia.
Qed.

Lemma ean2_parity_shape v : v < 4 -> exists p t, nth (N.to_nat v) ean2_parities [] = p :: t /\ length t = 1%nat.
Proof.
  intros H. assert (E : v = 0 \/ v = 1 \/ v = 2 \/ v = 3) by lia.
  destruct E as [E|[E|[E|E]]]; subst v; (do 2 eexists; split; reflexivity).
Qed.
Lemma ean5_parity_shape v : is_digit v -> exists p t, nth (N.to_nat v) ean5_parities [] = p :: t /\ length t = 4%nat.
Proof. intros H. by_digit H; (do 2 eexists; split; reflexivity). Qed.

Lemma ean2_length a b : is_digit a -> is_digit b -> length (render (ean2_symbol [a; b])) = 20%nat.
Proof.
  intros Ha Hb. unfold ean2_symbol.
  destruct (ean2_parity_shape (ean2_variant [a; b])) as (p & t & -> & L); [apply N.mod_lt; discriminate|].
  rewrite addon_length by auto. reflexivity.
Qed.
Lemma ean5_length ds : length ds = 5%nat -> Forall is_digit ds -> length (render (ean5_symbol ds)) = 47%nat.
Proof.
  intros L D. unfold ean5_symbol.
  assert (V : is_digit (ean5_variant ds)).
  { do 6 (destruct ds as [|? ds]; try discriminate L). apply N.mod_lt. discriminate. }
  destruct (ean5_parity_shape _ V) as (p & t & -> & Lt).
  destruct ds as [|d ds]; [discriminate|]. rewrite addon_length; [simpl in *; lia|assumption|].
  simpl in L. lia.
Qed.

(** What every accepted string encodes to, and what is read back. *)
Theorem eansupp_accepted p s b : eansupp_new s = Ret (Ok b) ->
  exists m, eansupp_encode p b = Ret m /\
    ((length s = 2%nat /\ b = EAN2 (digits_of s) /\ m = render (ean2_symbol (digits_of s)) /\ length m = 20%nat /\
      obind (scan m) read_ean2 = Some (digits_of s)) \/
     (length s = 5%nat /\ b = EAN5 (digits_of s) /\ m = render (ean5_symbol (digits_of s)) /\ length m = 47%nat /\
      obind (scan m) read_ean5 = Some (digits_of s))).
Proof.
  intros H. destruct (eansupp_new_Ok s b H) as (ds & D & -> & [[L ->]|[L ->]]);
    rewrite digits_of_text_of; unfold text_of; rewrite map_length, L.
  - destruct ds as [|x [|y [|z ds]]]; try discriminate L.
    apply Forall_cons_iff in D as [Dx D]. apply Forall_cons_iff in D as [Dy _].
    exists (render (ean2_symbol [x; y])). split; [now apply ean2_encode_spec|]. left.
    repeat split; [now apply ean2_length|].
    unfold ean2_symbol at 1. rewrite addon_scan by auto. cbn [obind]. now apply read_ean2_ok.
  - exists (render (ean5_symbol ds)). split; [now apply ean5_encode_spec|]. right.
    repeat split; [now apply ean5_length|].
    unfold ean5_symbol at 1. rewrite addon_scan by auto. cbn [obind]. now apply read_ean5_ok.
Qed.

Theorem ean2_hand_built p a b : is_digit a -> is_digit b ->
  eansupp_new (text_of [a; b]) = Ret (Ok (EAN2 [a; b])) /\
  eansupp_encode p (EAN2 [a; b]) = Ret (render (ean2_symbol [a; b])).
Proof. intros Ha Hb. split; [now apply eansupp_new_2 | now apply ean2_encode_spec]. Qed.
Theorem ean5_hand_built p ds : length ds = 5%nat -> Forall is_digit ds ->
  eansupp_new (text_of ds) = Ret (Ok (EAN5 ds)) /\
  eansupp_encode p (EAN5 ds) = Ret (render (ean5_symbol ds)).
Proof. intros L D. split; [now apply eansupp_new_5 | now apply ean5_encode_spec]. Qed.

(** ** Read from the other end *)
Lemma left_shape p d : is_digit d -> exists a b c e, widths (set_table p) d = [a; b; c; e]%nat.
Proof. intros H. destruct p; by_digit H; repeat eexists. Qed.
Lemma mirror_first p d a b c e : is_digit d -> widths (set_table p) d = [a; b; c; e]%nat -> widths_eqb [e; c; b] addon_guard = true ->
  p = PA /\ d = 0 /\ a = 3%nat.
Proof. intros H. destruct p; by_digit H; intros E; injection E as <- <- <- <-; intros G; try discriminate G; auto. Qed.
Lemma mirror_next p d a b c e x : is_digit d -> widths (set_table p) d = [a; b; c; e]%nat -> widths_eqb [c; b] addon_separator = true ->
  read_AB [3; 1; 1; e]%nat = Some x -> p = PA /\ d = 9 /\ a = 3%nat.
Proof. intros H. destruct p; by_digit H; intros E; injection E as <- <- <- <-; intros G R; try discriminate G; try discriminate R; auto. Qed.
(** One block after the other: a separator and a digit *)
Definition mirror_block (b : list nat) : option (parity * N) := guard (widths_eqb (firstn 2 b) addon_separator) (read_AB (skipn 2 b)).
Lemma read_all_step {A B} (f : A -> option B) x l r : read_all f (x :: l) = Some r -> exists y r', f x = Some y /\ read_all f l = Some r'.
Proof. cbn [read_all]. destruct (f x); [|discriminate]. cbn [obind]. destruct (read_all f l); [|discriminate]. intros _. eauto. Qed.
Lemma guard_step {A} c (o : option A) y : guard c o = Some y -> c = true /\ o = Some y.
Proof. unfold guard. destruct c; [auto | discriminate]. Qed.

Ltac cut_up H := match type of H with context [chop 6 ?l] => let v := eval cbv in (chop 6 l) in change (chop 6 l) with v in H end; cbn [obind] in H.
Ltac next_block H H0 := apply read_all_step in H; destruct H as (? & ? & H0 & H); apply guard_step in H0; cbn [firstn skipn] in H0; destruct H0 as [? H0].

Lemma ean2_unread p q a b l : is_digit a -> is_digit b ->
  read_addon_blocks (rev (addon_guard ++ draw_addon true [p; q] [a; b])) = Some l -> [p; q] = [PA; PA] /\ [a; b] = [9; 0].
Proof.
  intros Ha Hb. destruct (left_shape p a Ha) as (a1 & a2 & a3 & a4 & Ea). destruct (left_shape q b Hb) as (b1 & b2 & b3 & b4 & Eb).
  cbn [draw_addon]. rewrite Ea, Eb. cbn [addon_guard addon_separator app rev]. unfold read_addon_blocks. intros H.
  apply guard_step in H. destruct H as [G H]. cbn [firstn] in G.
  destruct (mirror_first q b b1 b2 b3 b4 Hb Eb G) as (-> & -> & ->). cut_up H. next_block H K0. next_block H K1.
  destruct (mirror_next p a a1 a2 a3 a4 _ Ha Ea ltac:(eassumption) K0) as (-> & -> & _). auto.
Qed.
Lemma ean5_unread p q r s t a b c d e l : Forall is_digit [a; b; c; d; e] ->
  read_addon_blocks (rev (addon_guard ++ draw_addon true [p; q; r; s; t] [a; b; c; d; e])) = Some l ->
  [p; q; r; s; t] = [PA; PA; PA; PA; PA].
Proof.
  intros HD. split_digits HD. destruct (left_shape p a) as (a1 & a2 & a3 & a4 & Ea); [assumption|].
  destruct (left_shape q b) as (b1 & b2 & b3 & b4 & Eb); [assumption|]. destruct (left_shape r c) as (c1 & c2 & c3 & c4 & Ec); [assumption|].
  destruct (left_shape s d) as (d1 & d2 & d3 & d4 & Ed); [assumption|]. destruct (left_shape t e) as (e1 & e2 & e3 & e4 & Ee); [assumption|].
  cbn [draw_addon]. rewrite Ea, Eb, Ec, Ed, Ee. cbn [addon_guard addon_separator app rev]. unfold read_addon_blocks. intros H.
  apply guard_step in H. destruct H as [G H]. cbn [firstn] in G.
  destruct (mirror_first t e e1 e2 e3 e4) as (-> & -> & ->); [assumption..|]. cut_up H.
  next_block H K0. next_block H K1. next_block H K2. next_block H K3. next_block H K4.
  destruct (mirror_next s d d1 d2 d3 d4 _ ltac:(assumption) Ed ltac:(eassumption) K0) as (-> & -> & ->).
  destruct (mirror_next r c c1 c2 c3 c4 _ ltac:(assumption) Ec ltac:(eassumption) K1) as (-> & -> & ->).
  destruct (mirror_next q b b1 b2 b3 b4 _ ltac:(assumption) Eb ltac:(eassumption) K2) as (-> & -> & ->).
  destruct (mirror_next p a a1 a2 a3 a4 _ ltac:(assumption) Ea ltac:(eassumption) K3) as (-> & -> & ->). reflexivity.
Qed.
Lemma ean2_mirror a b : is_digit a -> is_digit b -> read_addon_blocks (rev (ean2_symbol [a; b])) = None.
Proof.
  intros Ha Hb. destruct (read_addon_blocks _) as [l|] eqn:E; [|reflexivity]. exfalso. unfold ean2_symbol, ean2_variant in E.
  assert (HP : forall v p q, v = (10 * a + b) mod 4 -> nth (N.to_nat v) ean2_parities [] = [p; q] -> v = 2).
  { intros v p q Ev Ep. rewrite <- Ev, Ep in E. destruct (ean2_unread p q a b l Ha Hb E) as [_ Eab]. injection Eab as -> ->. exact Ev. }
  destruct (mod_cases4 (10 * a + b)) as [Ev|[Ev|[Ev|Ev]]].
  - discriminate (HP 0 PA PA (eq_sym Ev) eq_refl).
  - discriminate (HP 1 PA PB (eq_sym Ev) eq_refl).
  - rewrite Ev in E. change (nth (N.to_nat 2) ean2_parities []) with [PB; PA] in E. destruct (ean2_unread PB PA a b l Ha Hb E) as [Ep _]. discriminate Ep.
  - discriminate (HP 3 PB PB (eq_sym Ev) eq_refl).
Qed.
Lemma ean5_mirror ds : length ds = 5%nat -> Forall is_digit ds -> read_addon_blocks (rev (ean5_symbol ds)) = None.
Proof.
  intros L D. destruct (read_addon_blocks _) as [l|] eqn:E; [|reflexivity]. exfalso.
  do 5 (destruct ds as [|? ds]; [discriminate L|]). destruct ds; [|discriminate L]. unfold ean5_symbol in E.
  assert (Hv : is_digit (ean5_variant [n; n0; n1; n2; n3])) by (apply N.mod_lt; discriminate).
  set (v := ean5_variant [n; n0; n1; n2; n3]) in *. clearbody v.
  by_digit Hv; apply ean5_unread in E; try assumption; discriminate E.
Qed.
Lemma addon_mirror ws : read_addon_blocks ws = None -> read_ean2 ws = None /\ read_ean5 ws = None.
Proof. intros H. unfold read_ean2, read_ean5. now rewrite H. Qed.
