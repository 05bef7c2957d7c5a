(** * Proofs about the 2-of-5 symbologies *)
From Verif Require Import Rust M_Error M_Parse M_Helpers M_Tables M_Tf
  S_Barcode S_Text S_Ean S_Linear S_Tf P_Rust P_Barcode P_Parse P_Gs1 P_Supp.

(** ** The check digit with byte arithmetic, for data of any length *)
Lemma add_mod_256 a b : (a mod 256 + b) mod 256 = (a + b) mod 256.
Proof. apply N.add_mod_idemp_l. discriminate. Qed.

Lemma mod10_loop_release l : forall i o e,
  foldM (mod10_step Release) (enumerate_from i l) (o mod 256, e mod 256) =
  Ret ((o + (if i mod 2 =? 1 then alt_sum 1 0 l else alt_sum 0 1 l)) mod 256,
       (e + (if i mod 2 =? 1 then alt_sum 0 1 l else alt_sum 1 0 l)) mod 256).
Proof.
  induction l as [|d l IH]; intros i o e; cbn [enumerate_from foldM alt_sum].
  { destruct (i mod 2 =? 1); now rewrite !N.add_0_r. }
  unfold mod10_step at 1, add_u. change (2 ^ 8) with 256 in *.
  destruct (i mod 2 =? 1) eqn:Ei.
  - rewrite fit_u_release. cbn [bind]. change (2 ^ 8) with 256. rewrite add_mod_256.
    rewrite (IH (i + 1) (o + d) e), mod2_succ, Ei. cbn [negb].
    f_equal. f_equal; f_equal; lia.
  - rewrite fit_u_release. cbn [bind]. change (2 ^ 8) with 256. rewrite add_mod_256.
    rewrite (IH (i + 1) o (e + d)), mod2_succ, Ei. cbn [negb].
    f_equal. f_equal; f_equal; lia.
Qed.

Lemma mod10_release l :
  modulo_10_checksum Release l false = Ret ((10 - (alt_sum 3 1 l mod 256) mod 10) mod 10).
Proof.
  unfold modulo_10_checksum, enumerate.
  pose proof (mod10_loop_release l 0 0 0) as E. change (0 mod 256) with 0 in E.
  rewrite E. change (0 mod 2 =? 1) with false. cbv iota. rewrite !N.add_0_l. cbn [bind].
  unfold mul_u, add_u. rewrite !fit_u_release. cbn [bind]. rewrite fit_u_release. cbn [bind].
  change (2 ^ 8) with 256. rewrite rem_u_ok by discriminate. cbn [bind].
  assert (ES : ((alt_sum 0 1 l) mod 256 + ((alt_sum 1 0 l) mod 256 * 3) mod 256) mod 256
               = alt_sum 3 1 l mod 256).
  { rewrite (alt_sum_split 3 1 l). rewrite N.add_mod_idemp_l by discriminate.
    rewrite N.add_mod_idemp_r by discriminate.
    rewrite <- (N.add_mod_idemp_r _ (_ * 3)) by discriminate.
    rewrite N.mul_mod_idemp_l by discriminate. rewrite N.add_mod_idemp_r by discriminate.
    f_equal. lia. }
  rewrite ES. set (q := alt_sum 3 1 l mod 256) in *. clearbody q.
  assert (Hq : q mod 10 < 10) by (apply N.mod_lt; discriminate).
  rewrite sub_u_ok by lia. cbn [bind]. now rewrite mod10_finish.
Qed.

Lemma mod10_loop_debug l : forall i o e,
  o < 256 -> e < 256 ->
  let O := o + (if i mod 2 =? 1 then alt_sum 1 0 l else alt_sum 0 1 l) in
  let E := e + (if i mod 2 =? 1 then alt_sum 0 1 l else alt_sum 1 0 l) in
  foldM (mod10_step Debug) (enumerate_from i l) (o, e) =
  if (O <? 256) && (E <? 256) then Ret (O, E) else Panic PanicOverflow.
Proof.
  induction l as [|d l IH]; intros i o e Ho He; cbn [enumerate_from foldM alt_sum].
  { destruct (i mod 2 =? 1); rewrite !N.add_0_r; apply N.ltb_lt in Ho, He; now rewrite Ho, He. }
  unfold mod10_step at 1, add_u.
  destruct (i mod 2 =? 1) eqn:Ei.
  - destruct (N.lt_ge_cases (o + d) 256) as [L|G].
    + rewrite fit_u_ok by exact L. cbn [bind].
      rewrite (IH (i + 1) (o + d) e L He), mod2_succ, Ei. cbn [negb].
      replace (e + alt_sum 1 0 l) with (e + (0 * d + alt_sum 1 0 l)) by lia.
      replace (o + d + alt_sum 0 1 l) with (o + (1 * d + alt_sum 0 1 l)) by lia. reflexivity.
    + rewrite fit_u_debug by exact G. cbn [bind].
      replace (o + (1 * d + alt_sum 0 1 l) <? 256) with false; [reflexivity|].
      symmetry. apply N.ltb_ge. lia.
  - destruct (N.lt_ge_cases (e + d) 256) as [L|G].
    + rewrite fit_u_ok by exact L. cbn [bind].
      rewrite (IH (i + 1) o (e + d) Ho L), mod2_succ, Ei. cbn [negb].
      replace (o + alt_sum 1 0 l) with (o + (0 * d + alt_sum 1 0 l)) by lia.
      replace (e + d + alt_sum 0 1 l) with (e + (1 * d + alt_sum 0 1 l)) by lia. reflexivity.
    + rewrite fit_u_debug by exact G. cbn [bind].
      replace (e + (1 * d + alt_sum 0 1 l) <? 256) with false; [now rewrite andb_false_r|].
      symmetry. apply N.ltb_ge. lia.
Qed.

Lemma mod10_debug_panics l : 256 <= alt_sum 3 1 l ->
  modulo_10_checksum Debug l false = Panic PanicOverflow.
Proof.
  intros G. rewrite (alt_sum_split 3 1 l) in G. unfold modulo_10_checksum, enumerate.
  rewrite (mod10_loop_debug l 0 0 0) by reflexivity. change (0 mod 2 =? 1) with false. cbv iota zeta.
  rewrite !N.add_0_l. set (o := alt_sum 0 1 l) in *. set (e := alt_sum 1 0 l) in *. clearbody o e.
  destruct (o <? 256) eqn:Eo; [|reflexivity]. destruct (e <? 256) eqn:Ee; [|reflexivity].
  cbn [andb bind]. unfold mul_u, add_u.
  destruct (N.lt_ge_cases (e * 3) 256) as [L|G2].
  - rewrite fit_u_ok by exact L. cbn [bind].
    rewrite fit_u_debug by (change (2 ^ 8) with 256; lia). reflexivity.
  - rewrite fit_u_debug by exact G2. reflexivity.
Qed.

(** When the wrapped check digit is nevertheless right *)
Lemma wrapped_check w :
  (10 - (w mod 256) mod 10) mod 10 = (10 - w mod 10) mod 10 <-> (w / 256) mod 5 = 0.
Proof.
  assert (E : w = 256 * (w / 256) + w mod 256) by (apply N.div_mod; discriminate).
  set (q := w / 256) in *. set (r := w mod 256) in *. clearbody q r. subst w.
  rewrite <- (N.add_mod_idemp_l (256 * q) r 10), <- (N.mul_mod_idemp_l 256 q 10) by discriminate.
  change (256 mod 10) with 6.
  assert (Hq : q = 5 * (q / 5) + q mod 5) by (apply N.div_mod; discriminate).
  assert (Hr : r = 10 * (r / 10) + r mod 10) by (apply N.div_mod; discriminate).
  set (q' := q / 5) in *. set (m := q mod 5) in *. set (r' := r / 10) in *. set (k := r mod 10) in *.
  assert (Hm : m < 5) by (apply N.mod_lt; discriminate).
  assert (Hk : k < 10) by (apply N.mod_lt; discriminate).
  clearbody q' m r' k. subst q r.
  replace (6 * (5 * q' + m)) with (6 * m + 3 * q' * 10) by lia. rewrite N.mod_add by discriminate.
  rewrite N.add_mod_idemp_l by discriminate.
  replace (6 * m + (10 * r' + k)) with (6 * m + k + r' * 10) by lia. rewrite N.mod_add by discriminate.
  assert (F : forallb (fun m => forallb (fun k =>
             Bool.eqb ((10 - k) mod 10 =? (10 - (6 * m + k) mod 10) mod 10) (m =? 0)) (range 10)) (range 5) = true)
    by (vm_compute; reflexivity).
  rewrite forallb_forall in F. specialize (F m (proj2 (In_range 5 m) Hm)).
  rewrite forallb_forall in F. specialize (F k (proj2 (In_range 10 k) Hk)). cbv beta in F.
  apply Bool.eqb_prop in F. rewrite <- N.eqb_eq, F. apply N.eqb_eq.
Qed.

(** ** Constructors *)
Lemma odd_len {A} (l : list A) : (len l mod 2 =? 1) = Nat.odd (length l).
Proof.
  induction l as [|x l IH]; [reflexivity|]. rewrite len_cons, N.add_comm, mod2_succ, IH.
  cbn [length]. now rewrite Nat.odd_succ, Nat.negb_odd.
Qed.

Definition itf_check (p : profile) (ds : list N) : M N := modulo_10_checksum p ds false.

Lemma tf_interleaved_spec p s :
  let n := str_len s mod 2 ^ 32 in
  (~ (1 <= n <= 256) -> tf_interleaved p s = Ret (Err ELength)) /\
  (1 <= n <= 256 -> ~ Forall digit_char s -> tf_interleaved p s = Ret (Err ECharacter)) /\
  (1 <= n <= 256 -> Forall digit_char s ->
    let ds := digits_of s in
    let w := alt_sum 3 1 (rev ds) in
    tf_interleaved p s =
      if Nat.even (length s) then Ret (Ok (Interleaved ds))
      else if w <? 256 then Ret (Ok (Interleaved (ds ++ [gs1_check ds])))
      else match p with
           | Debug => Panic PanicOverflow
           | Release => Ret (Ok (Interleaved (ds ++ [(10 - (w mod 256) mod 10) mod 10])))
           end).
Proof.
  intros n. unfold tf_interleaved.
  destruct (parse_cases digit_chars 1 256 s) as [[H E]|[[H [H' E]]|[H [H' E]]]];
    rewrite E; fold n in H; try rewrite Forall_In_digit_chars in H'.
  - split; [reflexivity|]. split; tauto.
  - split; [tauto|]. split; [reflexivity | tauto].
  - split; [tauto|]. split; [tauto|]. intros _ _. set (ds := digits_of s) in *. set (w := alt_sum 3 1 (rev ds)) in *. cbv zeta.
    rewrite to_digits_ok by assumption. cbn [bind]. fold ds. rewrite odd_len.
    assert (EL : length ds = length s) by (unfold ds, digits_of; apply map_length).
    rewrite <- EL, <- Nat.negb_even. destruct (Nat.even (length ds)) eqn:Ev; [reflexivity|]. cbn [negb].
    assert (Ew : w = alt_sum 3 1 ds) by (unfold w; now rewrite alt_sum_rev, Ev).
    destruct (N.lt_ge_cases w 256) as [L|G].
    + rewrite modulo_10_checksum_gs1 by assumption. apply N.ltb_lt in L. now rewrite L.
    + pose proof G as G'. apply N.ltb_ge in G'. rewrite G'. destruct p.
      * rewrite mod10_debug_panics by (now rewrite <- Ew). reflexivity.
      * rewrite mod10_release. rewrite <- Ew. reflexivity.
Qed.

Lemma tf_standard_spec s :
  let n := str_len s mod 2 ^ 32 in
  exists r, tf_standard s = Ret r /\
    (r = Err ELength <-> ~ (1 <= n <= 256)) /\
    (r = Err ECharacter <-> 1 <= n <= 256 /\ ~ Forall digit_char s) /\
    r <> Err EChecksum /\
    (forall b, r = Ok b <-> 1 <= n <= 256 /\ Forall digit_char s /\ b = Standard (digits_of s)).
Proof.
  intros n. unfold tf_standard.
  destruct (parse_cases digit_chars 1 256 s) as [[H E]|[[H [H' E]]|[H [H' E]]]];
    rewrite E; fold n in H; try rewrite Forall_In_digit_chars in H'.
  3: rewrite to_digits_ok by assumption; cbn [bind].
  all: eexists; split; [reflexivity|]; (split; [|split; [|split; [discriminate|intros b]]]);
    split; intros G; try discriminate; try tauto; try (inversion G; tauto).
  destruct G as [_ [_ ->]]. reflexivity.
Qed.

(** ** Digits as modules *)
Lemma digit_In d : is_digit d -> In d (range 10).
Proof. intros H. now apply In_range. Qed.

Definition m_eqb (a : M (list N)) (b : list N) : bool :=
  match a with Ret x => str_eqb x b | Panic _ => false end.
Lemma m_eqb_eq a b : m_eqb a b = true -> a = Ret b.
Proof. destruct a; simpl; [|discriminate]. intros H. apply str_eqb_eq in H. now subst. Qed.

Lemma tf_char_encoding_ok d : is_digit d ->
  tf_char_encoding d = Ret (render (stf_bars (stretch 3 (tf_digit d)))).
Proof.
  intros H. apply m_eqb_eq. apply digit_In in H. revert d H. apply forallb_forall.
  vm_compute. reflexivity.
Qed.
Lemma tf_interleave_ok a b : is_digit a -> is_digit b ->
  tf_interleave a b = Ret (render (itf_pair 3 (a, b))).
Proof.
  intros Ha Hb. apply m_eqb_eq.
  assert (F : forallb (fun a => forallb (fun b => m_eqb (tf_interleave a b) (render (itf_pair 3 (a, b))))
                (range 10)) (range 10) = true) by (vm_compute; reflexivity).
  rewrite forallb_forall in F. specialize (F a (digit_In a Ha)). rewrite forallb_forall in F.
  exact (F b (digit_In b Hb)).
Qed.
Lemma tf_WIDTHS_out d : ~ is_digit d -> index tf_WIDTHS d = Panic PanicIndex.
Proof. intros H. apply index_out. unfold is_digit in H. change (len tf_WIDTHS) with 10. lia. Qed.

Definition digit_row_ok (d : N) : bool :=
  let ws := tf_digit d in
  Nat.eqb (length ws) 5 && forallb (fun x => Nat.eqb x 1 || Nat.eqb x 2) ws && Nat.eqb (list_sum ws) 7
  && match which tf_table ws with Some i => Nat.eqb i (N.to_nat d) | None => false end.
Lemma digit_row d : is_digit d -> digit_row_ok d = true.
Proof. intros H. apply digit_In in H. revert d H. apply forallb_forall. vm_compute. reflexivity. Qed.
Lemma digit_stretch_sum d : is_digit d -> list_sum (stretch 3 (tf_digit d)) = 9%nat.
Proof.
  intros H. apply Nat.eqb_eq. apply digit_In in H. revert d H. apply forallb_forall.
  vm_compute. reflexivity.
Qed.

Local Opaque tf_digit tf_table.
Lemma tf_digit_facts d : is_digit d ->
  length (tf_digit d) = 5%nat /\ Forall (fun x => x = 1 \/ x = 2)%nat (tf_digit d) /\
  list_sum (tf_digit d) = 7%nat /\ which tf_table (tf_digit d) = Some (N.to_nat d).
Proof.
  intros H. pose proof (digit_row d H) as E. unfold digit_row_ok in E. cbv zeta in E.
  destruct (which tf_table (tf_digit d)) as [i|]; [|now rewrite andb_false_r in E].
  apply andb_prop in E. destruct E as [E E4]. apply andb_prop in E. destruct E as [E E3].
  apply andb_prop in E. destruct E as [E1 E2].
  apply Nat.eqb_eq in E1, E3, E4. subst i. repeat split; try assumption.
  apply Forall_forall. intros x Hx. rewrite forallb_forall in E2. specialize (E2 x Hx).
  apply orb_prop in E2. destruct E2 as [E2|E2]; apply Nat.eqb_eq in E2; auto.
Qed.
Lemma squash_stretch ws w : Forall (fun x => x = 1 \/ x = 2)%nat ws -> (2 <= w <= 3)%nat ->
  squash (stretch w ws) = ws.
Proof.
  intros H Hw. unfold squash, stretch. rewrite map_map.
  induction H as [|x ws Hx H IH]; [reflexivity|]. cbn [map]. rewrite IH. f_equal.
  assert (E : w = 2%nat \/ w = 3%nat) by lia. destruct Hx; subst x; [reflexivity|]. now destruct E; subst w.
Qed.
Lemma read_tf_digit_ok d w : is_digit d -> (2 <= w <= 3)%nat ->
  read_tf_digit (stretch w (tf_digit d)) = Some d.
Proof.
  intros H Hw. destruct (tf_digit_facts d H) as [_ [F [_ E]]]. unfold read_tf_digit.
  rewrite squash_stretch by assumption. rewrite E. cbn [option_map]. now rewrite N2Nat.id.
Qed.
Lemma stretch_length w ws : length (stretch w ws) = length ws.
Proof. apply map_length. Qed.

Lemma weave_length a : forall b, length a = length b -> length (weave a b) = (2 * length a)%nat.
Proof.
  induction a as [|x a IH]; intros [|y b] H; try discriminate; [reflexivity|].
  cbn [weave length]. injection H as H. rewrite IH by assumption. lia.
Qed.
Lemma unweave_weave a : forall b, length a = length b -> unweave (weave a b) = (a, b).
Proof.
  induction a as [|x a IH]; intros [|y b] H; try discriminate; [reflexivity|].
  cbn [weave unweave]. injection H as H. now rewrite IH.
Qed.
Lemma weave_Forall (P : nat -> Prop) a : forall b, Forall P a -> Forall P b -> Forall P (weave a b).
Proof.
  induction a as [|x a IH]; intros [|y b] Ha Hb; cbn [weave]; try constructor.
  - now inversion Ha.
  - inversion Ha; inversion Hb; subst. constructor; auto.
Qed.
Lemma weave_sum a : forall b, length a = length b ->
  list_sum (weave a b) = (list_sum a + list_sum b)%nat.
Proof.
  induction a as [|x a IH]; intros [|y b] H; try discriminate; [reflexivity|].
  injection H as H. cbn [weave]. change (list_sum (x :: y :: weave a b)) with (x + (y + list_sum (weave a b)))%nat.
  change (list_sum (x :: a)) with (x + list_sum a)%nat. change (list_sum (y :: b)) with (y + list_sum b)%nat.
  rewrite IH by assumption. lia.
Qed.
Lemma stf_bars_weave ws : stf_bars ws = weave ws (map (fun _ => 1%nat) ws).
Proof. induction ws as [|x ws IH]; [reflexivity|]. cbn [map weave]. rewrite <- IH. reflexivity. Qed.

Lemma digit_stretch_facts d w : is_digit d ->
  length (stretch w (tf_digit d)) = 5%nat /\ Forall (fun x => x = 1 \/ x = w)%nat (stretch w (tf_digit d)).
Proof.
  intros H. destruct (tf_digit_facts d H) as [L [F _]]. split; [now rewrite stretch_length|].
  unfold stretch. apply Forall_map. revert F. apply Forall_impl. intros x [->| ->]; cbn; auto.
Qed.
Lemma itf_pair_facts w a b : is_digit a -> is_digit b ->
  length (itf_pair w (a, b)) = 10%nat /\ Forall (fun x => x = 1 \/ x = w)%nat (itf_pair w (a, b)).
Proof.
  intros Ha Hb. destruct (digit_stretch_facts a w Ha) as [L1 F1], (digit_stretch_facts b w Hb) as [L2 F2].
  unfold itf_pair. cbn [fst snd]. split; [|now apply weave_Forall].
  rewrite weave_length by congruence. now rewrite L1.
Qed.
Lemma stf_digit_facts w d : is_digit d ->
  length (stf_bars (stretch w (tf_digit d))) = 10%nat /\
  Forall (fun x => x = 1 \/ x = w)%nat (stf_bars (stretch w (tf_digit d))).
Proof.
  intros H. destruct (digit_stretch_facts d w H) as [L F]. rewrite stf_bars_weave. split.
  - rewrite weave_length by (now rewrite map_length). now rewrite L.
  - apply weave_Forall; [assumption|]. apply Forall_forall. intros x Hx. apply in_map_iff in Hx.
    destruct Hx as [? [<- _]]. now left.
Qed.

(** ** Pairs *)
Lemma list_ind2 {A} (P : list A -> Prop) :
  P [] -> (forall x, P [x]) -> (forall x y l, P l -> P (x :: y :: l)) -> forall l, P l.
Proof.
  intros H0 H1 H2. fix IH 1. intros [|x [|y l]]; [exact H0 | apply H1 | apply H2, IH].
Qed.
Lemma pairs_Forall {A} (P : A -> Prop) l : Forall P l -> Forall (fun x => P (fst x) /\ P (snd x)) (pairs l).
Proof.
  induction l as [|x|x y l IH] using list_ind2; intros H; cbn [pairs]; try constructor.
  - inversion H as [|? ? Hx H']; inversion H' as [|? ? Hy H'']; subst. now split.
  - inversion H as [|? ? Hx H']; inversion H' as [|? ? Hy H'']; subst. now apply IH.
Qed.
Lemma pairs_concat {A} (l : list A) : Nat.even (length l) = true ->
  concat (map (fun x => [fst x; snd x]) (pairs l)) = l.
Proof.
  induction l as [|x|x y l IH] using list_ind2; intros H; [reflexivity|discriminate|].
  cbn [pairs map concat fst snd app]. now rewrite IH.
Qed.
Lemma pairs_length {A} (l : list A) : Nat.even (length l) = true -> (2 * length (pairs l) = length l)%nat.
Proof.
  induction l as [|x|x y l IH] using list_ind2; intros H; [reflexivity|discriminate|].
  cbn [pairs length]. specialize (IH H). lia.
Qed.

(** ** Encoders: exactly what is returned, for every vector *)
Lemma stf_payload_ok ds : Forall is_digit ds -> forall acc,
  foldM (fun enc d => e <- tf_char_encoding d ;; Ret (enc ++ e)) ds acc =
  Ret (acc ++ concat (map (fun d => render (stf_bars (stretch 3 (tf_digit d)))) ds)).
Proof.
  induction 1 as [|d ds Hd H IH]; intros acc; cbn [foldM map concat]; [now rewrite app_nil_r|].
  rewrite tf_char_encoding_ok by assumption. cbn [bind]. rewrite IH. now rewrite app_assoc.
Qed.

Lemma stf_render ds : Forall is_digit ds ->
  render (stf_symbol 3 2 ds) ++ [0] =
  tf_STF_START ++ concat (map (fun d => render (stf_bars (stretch 3 (tf_digit d)))) ds) ++ tf_STF_STOP.
Proof.
  intros H. unfold stf_symbol. unfold render at 1.
  rewrite render_from_app_even by (reflexivity || auto).
  rewrite render_from_app_even; [|auto|].
  - rewrite render_from_concat_even; [|auto|].
    + rewrite map_map, <- !app_assoc. reflexivity.
    + apply Forall_map. revert H. apply Forall_impl. intros d Hd.
      destruct (stf_digit_facts 3 d Hd) as [-> _]. reflexivity.
  - clear - H. induction H as [|d ds Hd H IH]; [reflexivity|]. cbn [map concat].
    rewrite app_length, Nat.even_add, IH. destruct (stf_digit_facts 3 d Hd) as [-> _]. reflexivity.
Qed.

Lemma tf_encode_standard ds : Forall is_digit ds ->
  tf_encode (Standard ds) = Ret (render (stf_symbol 3 2 ds) ++ [0]).
Proof.
  intros H. unfold tf_encode, tf_stf_payload. cbn [tf_raw_data].
  rewrite stf_payload_ok by assumption. cbn [bind]. unfold join_slices. cbn [concat].
  rewrite app_nil_r. f_equal. symmetry. now apply stf_render.
Qed.

Lemma is_digit_dec d : {is_digit d} + {~ is_digit d}.
Proof. unfold is_digit. destruct (d <? 10) eqn:E; [left; now apply N.ltb_lt | right; apply N.ltb_ge in E; lia]. Qed.

Lemma tf_encode_standard_panics ds : ~ Forall is_digit ds ->
  tf_encode (Standard ds) = Panic PanicIndex.
Proof.
  intros H. unfold tf_encode, tf_stf_payload. cbn [tf_raw_data].
  assert (E : forall acc, foldM (fun enc d => e <- tf_char_encoding d ;; Ret (enc ++ e)) ds acc = Panic PanicIndex).
  { induction ds as [|d ds IH]; [exfalso; apply H; constructor|]. intros acc. cbn [foldM].
    destruct (is_digit_dec d) as [Hd|Hd].
    - rewrite tf_char_encoding_ok by assumption. cbn [bind]. apply IH. intros G. apply H. now constructor.
    - unfold tf_char_encoding, tf_char_widths. rewrite tf_WIDTHS_out by assumption. reflexivity. }
  now rewrite E.
Qed.

Definition itf_step (c : list N) : M (list N) :=
  c0 <- index c 0 ;; c1 <- index c 1 ;; tf_interleave c0 c1.
Lemma itf_step_pair x y : itf_step [x; y] = tf_interleave x y.
Proof. reflexivity. Qed.
Lemma itf_step_one x : itf_step [x] = Panic PanicIndex.
Proof. reflexivity. Qed.

Lemma itf_payload_ok ds : Forall is_digit ds -> Nat.even (length ds) = true ->
  mapM itf_step (chunks2 ds) = Ret (map (fun x => render (itf_pair 3 x)) (pairs ds)).
Proof.
  induction ds as [|x|x y l IH] using list_ind2; intros H He; [reflexivity|discriminate|].
  inversion H as [|? ? Hx H']; inversion H' as [|? ? Hy H'']; subst.
  cbn [chunks2 mapM pairs map]. rewrite itf_step_pair, tf_interleave_ok by assumption. cbn [bind].
  rewrite IH by assumption. reflexivity.
Qed.
Lemma itf_payload_panics ds : ~ (Forall is_digit ds /\ Nat.even (length ds) = true) ->
  mapM itf_step (chunks2 ds) = Panic PanicIndex.
Proof.
  induction ds as [|x|x y l IH] using list_ind2; intros H.
  - exfalso. apply H. split; [constructor|reflexivity].
  - reflexivity.
  - cbn [chunks2 mapM]. rewrite itf_step_pair.
    destruct (is_digit_dec x) as [Hx|Hx]; [destruct (is_digit_dec y) as [Hy|Hy]|].
    + rewrite tf_interleave_ok by assumption. cbn [bind]. rewrite IH; [reflexivity|].
      intros [G1 G2]. apply H. split; [repeat constructor; assumption | exact G2].
    + unfold tf_interleave. rewrite (tf_WIDTHS_out y) by assumption.
      rewrite (index_nth tf_WIDTHS x []) by (unfold is_digit in Hx; change (len tf_WIDTHS) with 10; lia).
      reflexivity.
    + unfold tf_interleave. rewrite (tf_WIDTHS_out x) by assumption. reflexivity.
Qed.

Lemma itf_render ds : Forall is_digit ds ->
  render (itf_symbol 3 2 ds) =
  tf_ITF_START ++ concat (map (fun x => render (itf_pair 3 x)) (pairs ds)) ++ tf_ITF_STOP.
Proof.
  intros H. apply pairs_Forall in H. unfold itf_symbol. unfold render at 1.
  rewrite render_from_app_even by (reflexivity || auto). change (render_from 1 [1; 1; 1; 1]%nat) with tf_ITF_START.
  f_equal. rewrite render_from_app_even; [|auto|].
  - f_equal. rewrite render_from_concat_even; [|auto|].
    + now rewrite map_map.
    + apply Forall_map. revert H. apply Forall_impl. intros [a b] [Ha Hb].
      destruct (itf_pair_facts 3 a b Ha Hb) as [-> _]. reflexivity.
  - clear - H. induction H as [|[a b] ps [Ha Hb] H IH]; [reflexivity|]. cbn [map concat].
    rewrite app_length, Nat.even_add, IH. destruct (itf_pair_facts 3 a b Ha Hb) as [-> _]. reflexivity.
Qed.

Lemma tf_encode_interleaved ds : Forall is_digit ds -> Nat.even (length ds) = true ->
  tf_encode (Interleaved ds) = Ret (render (itf_symbol 3 2 ds)).
Proof.
  intros H He. unfold tf_encode, tf_itf_payload. cbn [tf_raw_data].
  change (fun c => c0 <- index c 0;; c1 <- index c 1;; tf_interleave c0 c1) with itf_step.
  rewrite itf_payload_ok by assumption. cbn [bind]. unfold join_slices, join_iters. cbn [concat].
  rewrite app_nil_r. f_equal. symmetry. now apply itf_render.
Qed.
Lemma tf_encode_interleaved_panics ds : ~ (Forall is_digit ds /\ Nat.even (length ds) = true) ->
  tf_encode (Interleaved ds) = Panic PanicIndex.
Proof.
  intros H. unfold tf_encode, tf_itf_payload. cbn [tf_raw_data].
  change (fun c => c0 <- index c 0;; c1 <- index c 1;; tf_interleave c0 c1) with itf_step.
  now rewrite itf_payload_panics.
Qed.

(** ** Widths, lengths, readers *)
Lemma trim_ends_ok a body z n k : length a = n -> length z = k ->
  trim_ends n k (a ++ body ++ z) = (a, body, z).
Proof.
  intros <- <-. unfold trim_ends.
  rewrite firstn_app, Nat.sub_diag, firstn_all, skipn_app, Nat.sub_diag, skipn_all.
  cbn [firstn skipn app]. rewrite app_nil_r, rev_app_distr, <- (rev_length z).
  rewrite firstn_app, Nat.sub_diag, firstn_all, skipn_app, Nat.sub_diag, skipn_all.
  cbn [firstn skipn app]. now rewrite app_nil_r, !rev_involutive.
Qed.

Lemma itf_symbol_widths ds : Forall is_digit ds ->
  Forall (fun w => 1 <= w <= 3)%nat (itf_symbol 3 2 ds).
Proof.
  intros H. apply pairs_Forall in H. unfold itf_symbol. rewrite !Forall_app.
  split; [repeat constructor; lia|]. split; [|repeat constructor; lia].
  apply Forall_concat. apply Forall_map. revert H. apply Forall_impl. intros [a b] [Ha Hb].
  destruct (itf_pair_facts 3 a b Ha Hb) as [_ F]. revert F. apply Forall_impl. intros x. lia.
Qed.
Lemma stf_symbol_widths ds : Forall is_digit ds ->
  Forall (fun w => 1 <= w <= 3)%nat (stf_symbol 3 2 ds).
Proof.
  intros H. unfold stf_symbol. rewrite !Forall_app.
  split; [repeat constructor; lia|]. split; [|repeat constructor; lia].
  apply Forall_concat. apply Forall_map. revert H. apply Forall_impl. intros d Hd.
  destruct (stf_digit_facts 3 d Hd) as [_ F]. revert F. apply Forall_impl. intros x. lia.
Qed.
Lemma widths3_pos ws : Forall (fun w => 1 <= w <= 3)%nat ws -> Forall (fun w => (0 < w)%nat) ws.
Proof. apply Forall_impl. intros w. lia. Qed.
Lemma concat_length_10 {A} (f : A -> list nat) l : Forall (fun x => length (f x) = 10%nat) l ->
  length (concat (map f l)) = (10 * length l)%nat.
Proof.
  induction 1 as [|x l Hx H IH]; [reflexivity|]. cbn [map concat length].
  rewrite app_length, Hx, IH. lia.
Qed.
Lemma itf_symbol_odd ds : Forall is_digit ds -> Nat.even (length (itf_symbol 3 2 ds)) = false.
Proof.
  intros H. apply pairs_Forall in H. unfold itf_symbol. rewrite !app_length, concat_length_10.
  - cbn [length]. rewrite !Nat.even_add, Nat.even_mul. reflexivity.
  - revert H. apply Forall_impl. intros [a b] [Ha Hb]. apply itf_pair_facts; assumption.
Qed.
Lemma stf_symbol_odd ds : Forall is_digit ds -> Nat.even (length (stf_symbol 3 2 ds)) = false.
Proof.
  intros H. unfold stf_symbol. rewrite !app_length, concat_length_10.
  - cbn [length stf_bars map concat app]. rewrite !Nat.even_add, Nat.even_mul. reflexivity.
  - revert H. apply Forall_impl. intros d Hd. now apply stf_digit_facts.
Qed.

Lemma itf_modules ds : Forall is_digit ds -> Nat.even (length ds) = true ->
  length (render (itf_symbol 3 2 ds)) = (9 * length ds + 8)%nat.
Proof.
  intros H He. unfold render. rewrite render_from_length. unfold itf_symbol.
  rewrite !list_sum_app. change (list_sum [1; 1; 1; 1]%nat) with 4%nat.
  change (list_sum [2; 1; 1]%nat) with 4%nat.
  rewrite <- (pairs_length ds He). apply pairs_Forall in H.
  assert (E : list_sum (concat (map (itf_pair 3) (pairs ds))) = (18 * length (pairs ds))%nat).
  { induction H as [|[a b] ps [Ha Hb] H IH]; [reflexivity|]. cbn [map concat length fst snd] in *.
    rewrite list_sum_app, IH. unfold itf_pair. cbn [fst snd].
    rewrite weave_sum.
    - rewrite !digit_stretch_sum by assumption. lia.
    - rewrite (proj1 (digit_stretch_facts a 3 Ha)), (proj1 (digit_stretch_facts b 3 Hb)). reflexivity. }
  rewrite E. lia.
Qed.
Lemma stf_modules ds : Forall is_digit ds ->
  length (render (stf_symbol 3 2 ds) ++ [0]) = (14 * length ds + 16)%nat.
Proof.
  intros H. rewrite app_length. unfold render. rewrite render_from_length. unfold stf_symbol.
  rewrite !list_sum_app. change (list_sum (stf_bars [2; 2; 1]%nat)) with 8%nat.
  change (list_sum [2; 1; 1; 1; 2]%nat) with 7%nat. cbn [length].
  assert (E : list_sum (concat (map (fun d => stf_bars (stretch 3 (tf_digit d))) ds)) = (14 * length ds)%nat).
  { induction H as [|d ds Hd H IH]; [reflexivity|]. cbn [map concat length].
    rewrite list_sum_app, IH, stf_bars_weave. rewrite weave_sum by (now rewrite map_length).
    rewrite digit_stretch_sum by assumption.
    assert (E1 : forall l : list nat, list_sum (map (fun _ => 1%nat) l) = length l).
    { induction l as [|x l IHl]; [reflexivity|]. cbn [map length]. 
      change (list_sum (1%nat :: map (fun _ => 1%nat) l)) with (1 + list_sum (map (fun _ => 1%nat) l))%nat.
      now rewrite IHl. }
    rewrite E1, (proj1 (digit_stretch_facts d 3 Hd)). lia. }
  rewrite E. lia.
Qed.

Lemma read_itf_symbol ds : Forall is_digit ds -> Nat.even (length ds) = true ->
  read_itf (itf_symbol 3 2 ds) = Some ds.
Proof.
  intros H He. unfold read_itf, itf_symbol. rewrite trim_ends_ok by reflexivity.
  change (widths_eqb [1; 1; 1; 1]%nat [1; 1; 1; 1]%nat && widths_eqb (squash [2; 1; 1]%nat) [2; 1; 1]%nat) with true.
  cbn [guard]. pose proof (pairs_Forall _ _ H) as HP.
  rewrite chop_concat; [|lia|].
  - cbn [obind]. rewrite (read_all_map _ _ (fun x => [fst x; snd x])).
    + cbn [obind]. now rewrite pairs_concat.
    + intros [a b] Hab. rewrite Forall_forall in HP. destruct (HP _ Hab) as [Ha Hb]. cbn [fst snd] in *.
      unfold itf_pair. cbn [fst snd]. rewrite unweave_weave.
      * rewrite !read_tf_digit_ok by (assumption || lia). reflexivity.
      * now rewrite (proj1 (digit_stretch_facts a 3 Ha)), (proj1 (digit_stretch_facts b 3 Hb)).
  - apply Forall_map. revert HP. apply Forall_impl. intros [a b] [Ha Hb]. now apply itf_pair_facts.
Qed.
Lemma read_stf_symbol ds : Forall is_digit ds -> read_stf (stf_symbol 3 2 ds) = Some ds.
Proof.
  intros H. unfold read_stf, stf_symbol. rewrite trim_ends_ok by reflexivity.
  change (widths_eqb (squash (stf_bars [2; 2; 1]%nat)) [2; 1; 2; 1; 1; 1]%nat
          && widths_eqb (squash [2; 1; 1; 1; 2]%nat) [2; 1; 1; 1; 2]%nat) with true.
  cbn [guard]. rewrite chop_concat; [|lia|].
  - cbn [obind]. apply read_all_map_id. intros d Hd. rewrite Forall_forall in H. specialize (H d Hd).
    rewrite stf_bars_weave. pose proof (proj1 (digit_stretch_facts d 3 H)) as L.
    rewrite unweave_weave by (now rewrite map_length).
    rewrite read_tf_digit_ok by (assumption || lia).
    destruct (stretch 3 (tf_digit d)) as [|? [|? [|? [|? [|? [|? ?]]]]]]; try discriminate. reflexivity.
  - apply Forall_map. revert H. apply Forall_impl. intros d Hd. now apply stf_digit_facts.
Qed.

Lemma itf_scan ds : Forall is_digit ds -> scan (render (itf_symbol 3 2 ds)) = Some (itf_symbol 3 2 ds).
Proof.
  intros H. apply scan_render; [|now apply itf_symbol_odd]. apply widths3_pos. now apply itf_symbol_widths.
Qed.
Lemma stf_scan ds : Forall is_digit ds ->
  scan (render (stf_symbol 3 2 ds) ++ [0]) = Some (stf_symbol 3 2 ds).
Proof.
  intros H. apply (scan_render_tail _ 1); [|now apply stf_symbol_odd]. apply widths3_pos.
  now apply stf_symbol_widths.
Qed.

(** ** Accepted inputs *)
Lemma tf_standard_Ok s b : tf_standard s = Ret (Ok b) -> Forall digit_char s /\ b = Standard (digits_of s)
  /\ 1 <= str_len s mod 2 ^ 32 <= 256.
Proof.
  intros H. destruct (tf_standard_spec s) as [r [Er [_ [_ [_ HO]]]]]. rewrite Er in H.
  injection H as ->. specialize (HO b). destruct HO as [HO _]. specialize (HO eq_refl). tauto.
Qed.

Lemma tf_interleaved_Ok p s b : tf_interleaved p s = Ret (Ok b) ->
  Forall digit_char s /\ s <> [] /\ exists ds, b = Interleaved ds /\ Forall is_digit ds /\
    Nat.even (length ds) = true /\ ds <> [] /\
    (ds = digits_of s \/ exists c, ds = digits_of s ++ [c]).
Proof.
  intros H. destruct (tf_interleaved_spec p s) as [H1 [H2 H3]].
  set (n := str_len s mod 2 ^ 32) in *.
  assert (Hn : 1 <= n <= 256).
  { destruct (N.le_gt_cases 1 n); [destruct (N.le_gt_cases n 256)|]; try lia;
      rewrite H1 in H by lia; discriminate. }
  assert (HF : Forall digit_char s).
  { destruct (Forall_dec digit_char (fun c => match is_digit_dec 0 with
      | _ => ltac:(destruct (48 <=? c) eqn:E1; [destruct (c <=? 57) eqn:E2|];
        [left; apply N.leb_le in E1, E2; now split
        |right; apply N.leb_gt in E2; intros [? ?]; lia
        |right; apply N.leb_gt in E1; intros [? ?]; lia]) end) s) as [G|G]; [exact G|].
    rewrite H2 in H by assumption. discriminate. }
  specialize (H3 Hn HF). cbv zeta in H3. split; [assumption|].
  assert (Hs : s <> []) by (intros ->; subst n; cbn in Hn; lia). split; [assumption|].
  pose proof (digits_of_digits s HF) as HD.
  assert (EL : length (digits_of s) = length s) by (unfold digits_of; apply map_length).
  assert (HN : digits_of s <> []) by (destruct s; [congruence | discriminate]).
  assert (HA : forall c, is_digit c -> Nat.even (length s) = false ->
    Forall is_digit (digits_of s ++ [c]) /\ Nat.even (length (digits_of s ++ [c])) = true
    /\ digits_of s ++ [c] <> []).
  { intros c Hc Hv. split; [apply Forall_app; split; [assumption | now constructor]|]. split.
    - rewrite app_length, EL, Nat.even_add, Hv. reflexivity.
    - destruct (digits_of s); discriminate. }
  rewrite H3 in H. destruct (Nat.even (length s)) eqn:Ev.
  - injection H as <-. exists (digits_of s). rewrite EL. tauto.
  - destruct (alt_sum 3 1 (rev (digits_of s)) <? 256).
    + injection H as <-. eexists. split; [reflexivity|].
      destruct (HA (gs1_check (digits_of s)) (gs1_check_digit _) eq_refl) as [A1 [A2 A3]].
      repeat split; try assumption. right. eauto.
    + destruct p; [discriminate|]. injection H as <-. eexists. split; [reflexivity|].
      edestruct (HA ((10 - (alt_sum 3 1 (rev (digits_of s)) mod 256) mod 10) mod 10)) as [A1 [A2 A3]];
        [unfold is_digit; apply N.mod_lt; discriminate | reflexivity |].
      repeat split; try assumption. right. eauto.
Qed.

Lemma itf_accepted p s b : tf_interleaved p s = Ret (Ok b) ->
  exists ds, Forall is_digit ds /\ (ds = digits_of s \/ exists c, ds = digits_of s ++ [c]) /\
    tf_raw_data b = ds /\ tf_encode b = Ret (render (itf_symbol 3 2 ds)) /\
    length (render (itf_symbol 3 2 ds)) = (9 * length ds + 8)%nat /\
    obind (scan (render (itf_symbol 3 2 ds))) read_itf = Some ds.
Proof.
  intros H. apply tf_interleaved_Ok in H. destruct H as [_ [_ [ds [-> [HD [HE [_ HO]]]]]]].
  exists ds. split; [assumption|]. split; [assumption|]. split; [reflexivity|].
  split; [now apply tf_encode_interleaved|]. split; [now apply itf_modules|].
  rewrite itf_scan by assumption. cbn [obind]. now apply read_itf_symbol.
Qed.

Lemma stf_accepted s b : tf_standard s = Ret (Ok b) ->
  exists m, tf_encode b = Ret m /\ m = render (stf_symbol 3 2 (digits_of s)) ++ [0] /\
    length m = (14 * length s + 16)%nat /\
    obind (scan m) read_stf = Some (digits_of s).
Proof.
  intros H. apply tf_standard_Ok in H. destruct H as [HF [-> _]].
  pose proof (digits_of_digits s HF) as HD.
  eexists. split; [now apply tf_encode_standard|]. split; [reflexivity|].
  split.
  - rewrite stf_modules by assumption. unfold digits_of. now rewrite map_length.
  - rewrite stf_scan by assumption. cbn [obind]. now apply read_stf_symbol.
Qed.

Lemma itf_check_short p s : Forall digit_char s -> (1 <= length s <= 13)%nat ->
  exists ds, tf_interleaved p s = Ret (Ok (Interleaved ds)) /\
    if Nat.even (length s) then ds = digits_of s
    else ds = digits_of s ++ [gs1_check (digits_of s)] /\ gs1_valid ds.
Proof.
  intros HF HL. destruct (tf_interleaved_spec p s) as [_ [_ H3]].
  rewrite str_len_digits in H3 by assumption.
  assert (Hn : len s mod 2 ^ 32 = len s).
  { apply N.mod_small. unfold len. change (2 ^ 32) with 4294967296. lia. }
  rewrite Hn in H3. specialize (H3 ltac:(unfold len; lia) HF). cbv zeta in H3. rewrite H3.
  destruct (Nat.even (length s)) eqn:Ev; [eauto|].
  assert (L : alt_sum 3 1 (rev (digits_of s)) < 256).
  { rewrite alt_sum_rev. replace (length (digits_of s)) with (length s) by (symmetry; apply map_length).
    rewrite Ev. pose proof (alt_sum_bound 3 1 _ (digits_of_digits s HF)) as B.
    replace (length (digits_of s)) with (length s) in B by (symmetry; apply map_length).
    assert (D1 : (Nat.div2 (S (length s)) <= 7)%nat).
    { change 7%nat with (Nat.div2 14).
      rewrite !Nat.div2_div. apply Nat.div_le_mono; lia. }
    assert (D2 : (Nat.div2 (length s) <= 6)%nat).
    { change 6%nat with (Nat.div2 13). rewrite !Nat.div2_div. apply Nat.div_le_mono; lia. }
    lia. }
  apply N.ltb_lt in L. rewrite L. eexists. split; [reflexivity|]. split; [reflexivity|].
  apply gs1_check_valid.
Qed.

(** ** Wide elements *)
Lemma digit_has_wide d w : is_digit d -> In w (stretch w (tf_digit d)).
Proof.
  intros H. destruct (tf_digit_facts d H) as [L [F [S _]]].
  destruct (tf_digit d) as [|a [|b [|c [|e [|f [|? ?]]]]]]; try discriminate.
  rewrite !Forall_cons_iff in F. cbn in S. cbn [stretch map In].
  destruct F as [A [B [C [E [G _]]]]].
  destruct A; [|subst a; cbn; tauto]. destruct B; [|subst b; cbn; tauto].
  destruct C; [|subst c; cbn; tauto]. destruct E; [|subst e; cbn; tauto]. subst. lia.
Qed.
Lemma weave_In_l a : forall b x, length a = length b -> In x a -> In x (weave a b).
Proof.
  induction a as [|y a IH]; intros [|z b] x L H; try discriminate; [easy|].
  cbn [weave In] in *. injection L as L. destruct H; [tauto|]. right. right. now apply IH.
Qed.
Lemma itf_two_wides ds : Forall is_digit ds -> ds <> [] -> Nat.even (length ds) = true ->
  ~ one_ratio (itf_symbol 3 2 ds).
Proof.
  intros H Hn He [w Hw]. destruct ds as [|a [|b ds]]; [congruence|discriminate|].
  inversion H as [|? ? Ha H']; inversion H' as [|? ? Hb _]; subst.
  rewrite Forall_forall in Hw.
  assert (G : In 3%nat (itf_symbol 3 2 (a :: b :: ds))).
  { unfold itf_symbol. apply in_or_app. right. apply in_or_app. left.
    cbn [pairs map concat]. apply in_or_app. left. unfold itf_pair. cbn [fst snd].
    apply weave_In_l; [|now apply digit_has_wide].
    now rewrite (proj1 (digit_stretch_facts a 3 Ha)), (proj1 (digit_stretch_facts b 3 Hb)). }
  assert (G2 : In 2%nat (itf_symbol 3 2 (a :: b :: ds))).
  { unfold itf_symbol. apply in_or_app. right. apply in_or_app. right. cbn [In]. tauto. }
  destruct (Hw _ G), (Hw _ G2); lia.
Qed.
Lemma stf_two_wides ds : Forall is_digit ds -> ds <> [] -> ~ one_ratio (stf_symbol 3 2 ds).
Proof.
  intros H Hn [w Hw]. destruct ds as [|a ds]; [congruence|].
  inversion H as [|? ? Ha _]; subst. rewrite Forall_forall in Hw.
  assert (G : In 3%nat (stf_symbol 3 2 (a :: ds))).
  { unfold stf_symbol. apply in_or_app. right. apply in_or_app. left.
    cbn [map concat]. apply in_or_app. left. rewrite stf_bars_weave.
    apply weave_In_l; [now rewrite map_length|]. now apply digit_has_wide. }
  assert (G2 : In 2%nat (stf_symbol 3 2 (a :: ds))) by (unfold stf_symbol; cbn [stf_bars map concat app In]; tauto).
  destruct (Hw _ G), (Hw _ G2); lia.
Qed.

(** With guards and data apart there is one ratio each: 3 in the data, 2 in the guards. *)
Lemma itf_data_ratio ds : Forall is_digit ds ->
  Forall (fun x => x = 1 \/ x = 3)%nat (concat (map (itf_pair 3) (pairs ds))).
Proof.
  intros H. apply pairs_Forall in H. apply Forall_concat, Forall_map. revert H. apply Forall_impl.
  intros [a b] [Ha Hb]. now apply itf_pair_facts.
Qed.
Lemma stf_data_ratio ds : Forall is_digit ds ->
  Forall (fun x => x = 1 \/ x = 3)%nat (concat (map (fun d => stf_bars (stretch 3 (tf_digit d))) ds)).
Proof.
  intros H. apply Forall_concat, Forall_map. revert H. apply Forall_impl.
  intros d Hd. now apply stf_digit_facts.
Qed.

Lemma itf_ratio_refuted p s b : tf_interleaved p s = Ret (Ok b) ->
  exists m ws, tf_encode b = Ret m /\ scan m = Some ws /\ ~ one_ratio ws.
Proof.
  intros H. apply tf_interleaved_Ok in H. destruct H as [_ [_ [ds [-> [HD [HE [HN _]]]]]]].
  do 2 eexists. split; [now apply tf_encode_interleaved|]. split; [now apply itf_scan|].
  now apply itf_two_wides.
Qed.
Lemma stf_ratio_refuted s b : tf_standard s = Ret (Ok b) ->
  exists m ws, tf_encode b = Ret m /\ scan m = Some ws /\ ~ one_ratio ws.
Proof.
  intros H. apply tf_standard_Ok in H. destruct H as [HF [-> Hn]].
  pose proof (digits_of_digits s HF) as HD.
  do 2 eexists. split; [now apply tf_encode_standard|]. split; [now apply stf_scan|].
  apply stf_two_wides; [assumption|]. destruct s; [cbn in Hn; lia | discriminate].
Qed.

(** ** Hand-built values *)
Lemma tf_standard_returns ds : returns (tf_encode (Standard ds)) <-> Forall is_digit ds.
Proof.
  split; [|intros H; eexists; now apply tf_encode_standard].
  intros [m H]. destruct (Forall_dec is_digit is_digit_dec ds) as [G|G]; [assumption|].
  rewrite tf_encode_standard_panics in H by assumption. discriminate.
Qed.
Lemma tf_interleaved_returns ds :
  returns (tf_encode (Interleaved ds)) <-> Forall is_digit ds /\ Nat.even (length ds) = true.
Proof.
  split; [|intros [H H']; eexists; now apply tf_encode_interleaved].
  intros [m H]. destruct (Forall_dec is_digit is_digit_dec ds) as [G|G].
  - destruct (Nat.even (length ds)) eqn:E; [now split|].
    rewrite tf_encode_interleaved_panics in H by (rewrite E; intros [_ ?]; discriminate). discriminate.
  - rewrite tf_encode_interleaved_panics in H by tauto. discriminate.
Qed.
Lemma tf_hand_built p ds : Forall is_digit ds -> 1 <= len ds <= 256 ->
  tf_standard (text_of ds) = Ret (Ok (Standard ds)) /\
  (Nat.even (length ds) = true -> tf_interleaved p (text_of ds) = Ret (Ok (Interleaved ds))).
Proof.
  intros H HL. pose proof (text_of_digit_char ds H) as HT.
  assert (Hn : str_len (text_of ds) mod 2 ^ 32 = len ds).
  { rewrite str_len_text_of by assumption. apply N.mod_small. change (2 ^ 32) with 4294967296. lia. }
  split.
  - destruct (tf_standard_spec (text_of ds)) as [r [Er [_ [_ [_ HO]]]]]. rewrite Hn in HO. rewrite Er. f_equal.
    apply HO. rewrite digits_of_text_of. auto.
  - intros He. destruct (tf_interleaved_spec p (text_of ds)) as [_ [_ H3]]. rewrite Hn in H3.
    specialize (H3 HL HT). cbv zeta in H3. rewrite H3. rewrite digits_of_text_of.
    unfold text_of. rewrite map_length, He. reflexivity.
Qed.

(** ** Injectivity and mirror reading *)
Lemma itf_mirror ds : Forall is_digit ds ->
  obind (scan (rev (render (itf_symbol 3 2 ds)))) read_itf = None.
Proof.
  intros H. rewrite scan_rev_render; [|apply widths3_pos; now apply itf_symbol_widths | now apply itf_symbol_odd].
  cbn [obind]. unfold itf_symbol. rewrite !rev_app_distr. cbn [rev app].
  unfold read_itf, trim_ends. cbn [firstn app].
  match goal with |- context [widths_eqb (1%nat :: 1%nat :: 2%nat :: ?x) _] =>
    replace (widths_eqb (1%nat :: 1%nat :: 2%nat :: x) [1; 1; 1; 1]%nat) with false; [reflexivity|] end.
  symmetry. match goal with |- ?b = false => destruct b eqn:E; [|reflexivity] end.
  apply widths_eqb_eq in E. discriminate.
Qed.
Lemma stf_mirror ds : Forall is_digit ds ->
  obind (scan (rev (render (stf_symbol 3 2 ds) ++ [0]))) read_stf = None.
Proof.
  intros H. rewrite rev_app_distr. cbn [rev app].
  assert (HW : Forall (fun w => (0 < w)%nat) (stf_symbol 3 2 ds)) by (apply widths3_pos; now apply stf_symbol_widths).
  pose proof (stf_symbol_odd ds H) as HO.
  rewrite (render_rev (stf_symbol 3 2 ds)) by assumption.
  pose proof (scan_render_quiet (rev (stf_symbol 3 2 ds)) 1 0) as ES. cbn [repeat app] in ES.
  rewrite app_nil_r in ES. rewrite ES; [|now apply Forall_rev | now rewrite rev_length].
  cbn [obind]. unfold stf_symbol. rewrite !rev_app_distr. cbn [rev app].
  unfold read_stf, trim_ends. cbn [firstn app squash map Nat.eqb].
  match goal with |- context [guard (?b && _) _] => replace b with false; [reflexivity|] end.
  symmetry. match goal with |- ?b = false => destruct b eqn:E; [|reflexivity] end.
  apply widths_eqb_eq in E. discriminate.
Qed.

Lemma itf_release_valid s ds : 1 <= str_len s mod 2 ^ 32 <= 256 -> Forall digit_char s ->
  Nat.even (length s) = false -> tf_interleaved Release s = Ret (Ok (Interleaved ds)) ->
  let w := alt_sum 3 1 (rev (digits_of s)) in
  (gs1_valid ds <-> (w / 256) mod 5 = 0).
Proof.
  intros Hn HF Hv H w. destruct (tf_interleaved_spec Release s) as [_ [_ H3]].
  specialize (H3 Hn HF). cbv zeta in H3. fold w in H3. rewrite Hv, H in H3.
  destruct (w <? 256) eqn:E.
  - injection H3 as ->. apply N.ltb_lt in E. rewrite N.div_small by assumption.
    split; [reflexivity|]. intros _. apply gs1_check_valid.
  - injection H3 as ->. rewrite gs1_check_unique by (apply N.mod_lt; discriminate).
    unfold gs1_check. fold w. apply wrapped_check.
Qed.

(** The data part of every printed symbol has one ratio *)
Lemma itf_printed_ratio p s b : tf_interleaved p s = Ret (Ok b) ->
  exists m data, tf_encode b = Ret m /\ scan m = Some ([1; 1; 1; 1] ++ data ++ [2; 1; 1])%nat /\
    Forall (fun x => x = 1 \/ x = 3)%nat data.
Proof.
  intros H. destruct (itf_accepted p s b H) as (ds & HD & _ & _ & E & _). exists (render (itf_symbol 3 2 ds)). eexists.
  split; [exact E|]. split; [now apply itf_scan|]. now apply itf_data_ratio.
Qed.
Lemma stf_printed_ratio s b : tf_standard s = Ret (Ok b) ->
  exists m data, tf_encode b = Ret m /\ scan m = Some ([2; 1; 2; 1; 1; 1] ++ data ++ [2; 1; 1; 1; 2])%nat /\
    Forall (fun x => x = 1 \/ x = 3)%nat data.
Proof.
  intros H. apply tf_standard_Ok in H. destruct H as [HF [-> _]].
  pose proof (digits_of_digits s HF) as HD. do 2 eexists.
  split; [now apply tf_encode_standard|]. split; [now apply stf_scan|]. now apply stf_data_ratio.
Qed.
