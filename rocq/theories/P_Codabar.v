(** * Proofs about Codabar *)
From Verif Require Import Rust M_Error M_Parse M_Codabar
  S_Barcode S_Linear S_Codabar P_Rust P_Barcode P_Parse P_Alphabet P_Gap P_Code39.

(** ** The code's own patterns: the plus sign has wide spaces, B and C are exchanged. *)
Definition lib_table : list (list nat) := Eval vm_compute in table
    "1111122 1111221 1112112 2211111 1121121 2111121 1211112 1211211 1221111 2112111 1112211 1122111 2111212 2121112 2121211 1122222 1122121 1112122 1212112 1112221".
Definition lib_pattern : char -> list nat := pattern cod_chars lib_table.

Lemma cod_len : length cod_chars = length cod_table. Proof. reflexivity. Qed.
Lemma lib_len : length cod_chars = length lib_table. Proof. reflexivity. Qed.
Lemma cod_nodup_t : NoDup cod_table. Proof. apply nodupb_NoDup. reflexivity. Qed.
Lemma lib_nodup_t : NoDup lib_table. Proof. apply nodupb_NoDup. reflexivity. Qed.
Lemma cod_nodup_c : NoDup cod_chars. Proof. apply nodup_chars_NoDup. reflexivity. Qed.

Definition lib_unit_check (c : char) : bool :=
  match codabar_from_char c with
  | Some u => str_eqb (codabar_lookup u) (render (lib_pattern c))
  | None => false
  end.
Lemma lib_unit_check_all : forallb lib_unit_check cod_chars = true.
Proof. vm_compute. reflexivity. Qed.

(** The same alphabet in another order *)
Lemma codabar_valid_chars_same : forall c, In c codabar_valid_chars <-> In c cod_chars.
Proof.
  assert (E : forallb (fun c => existsb (fun v => v =? c) cod_chars) codabar_valid_chars = true /\
              forallb (fun c => existsb (fun v => v =? c) codabar_valid_chars) cod_chars = true).
  { split; vm_compute; reflexivity. }
  destruct E as [E1 E2]. rewrite forallb_forall in E1, E2. intros c. split; intros H.
  - apply existsb_eqb_In. now apply E1.
  - apply existsb_eqb_In. now apply E2.
Qed.

Definition opt_eqb (a b : option char) : bool :=
  match a, b with
  | Some x, Some y => x =? y
  | None, None => true
  | _, _ => false
  end.
Lemma opt_eqb_eq a b : opt_eqb a b = true -> a = b.
Proof. destruct a, b; simpl; intros H; try discriminate; [|reflexivity]. apply N.eqb_eq in H. congruence. Qed.

Lemma read_lib_char c : In c cod_chars ->
  read_char cod_chars cod_table (lib_pattern c) = if c =? ch "+" then None else Some (exchange c).
Proof.
  intros H. apply opt_eqb_eq. revert c H. apply forallb_forall. vm_compute. reflexivity.
Qed.
Lemma lib_pattern_std c : In c cod_chars -> c <> ch "+" -> lib_pattern c = cod_pattern (exchange c).
Proof.
  intros H Hp. pose proof (read_lib_char c H) as E.
  apply N.eqb_neq in Hp. rewrite Hp in E.
  apply read_char_sound in E; [|exact cod_nodup_c | exact cod_len]. symmetry. apply E.
Qed.
Lemma lib_pattern_rev_stop c : cod_stop c -> read_char cod_chars cod_table (rev (lib_pattern c)) = None.
Proof.
  unfold cod_stop. intros H. apply opt_eqb_eq. revert c H. apply forallb_forall. vm_compute. reflexivity.
Qed.
Lemma cod_stop_In c : cod_stop c -> In c cod_chars.
Proof.
  unfold cod_stop. intros H. apply existsb_eqb_In. revert c H. apply forallb_forall. vm_compute. reflexivity.
Qed.

Notation cod_in := (fun c => In c cod_chars).
Lemma lib_pattern_length c : In c cod_chars -> length (lib_pattern c) = 7%nat.
Proof.
  intros H. apply Nat.eqb_eq.
  exact (forallb_pattern (fun ws => Nat.eqb (length ws) 7) cod_chars lib_table c lib_len eq_refl H).
Qed.
Lemma lib_pattern_widths c : In c cod_chars -> Forall (fun w => 1 <= w <= 2)%nat (lib_pattern c).
Proof.
  intros H. apply widths_in_Forall.
  exact (forallb_pattern (widths_in 2) cod_chars lib_table c lib_len eq_refl H).
Qed.
Lemma lib_pattern_sum c : In c cod_chars -> (9 <= list_sum (lib_pattern c) <= 12)%nat.
Proof.
  intros H.
  pose proof (forallb_pattern (fun ws => Nat.leb 9 (list_sum ws) && Nat.leb (list_sum ws) 12)
    cod_chars lib_table c lib_len eq_refl H) as E. cbv beta in E.
  apply andb_prop in E. destruct E as [E1 E2]. apply Nat.leb_le in E1, E2. split; assumption.
Qed.
Lemma lib_from_char c : In c cod_chars ->
  exists u, codabar_from_char c = Some u /\ codabar_lookup u = render (lib_pattern c).
Proof.
  intros H. pose proof lib_unit_check_all as E. rewrite forallb_forall in E. specialize (E c H).
  unfold lib_unit_check in E. destruct (codabar_from_char c) as [u|]; [|discriminate].
  exists u. split; [reflexivity|]. now apply str_eqb_eq.
Qed.
Local Opaque pattern value char_of.

(** ** Separated symbols over any pattern function *)
Section Sep.
  Variable pt : char -> list nat.
  Definition sep_symbol (cs : list char) : list nat :=
    match cs with
    | [] => []
    | c :: tl => pt c ++ concat (map (fun d => 1%nat :: pt d) tl)
    end.
  Hypothesis Hpt : forall c, In c cod_chars -> length (pt c) = 7%nat.

  Lemma sep_symbol_blocks cs : cs <> [] ->
    sep_symbol cs ++ [1%nat] = concat (map (fun ws => ws ++ [1%nat]) (map pt cs)).
  Proof.
    destruct cs as [|c cs]; [congruence|]. intros _. cbn [sep_symbol map concat].
    rewrite <- !app_assoc. f_equal.
    induction cs as [|d cs IH]; [reflexivity|]. cbn [map concat app].
    rewrite <- !app_assoc. cbn [app] in *. f_equal. f_equal. exact IH.
  Qed.
  Lemma sep_lengths cs : Forall cod_in cs -> Forall (fun ws => length ws = 7%nat) (map pt cs).
  Proof. intros H. apply Forall_map. revert H. apply Forall_impl. exact Hpt. Qed.
  Lemma sep_chop cs : Forall cod_in cs -> cs <> [] ->
    chop 8 (sep_symbol cs ++ [1%nat]) = Some (map (fun ws => ws ++ [1%nat]) (map pt cs)).
  Proof.
    intros H Hn. rewrite sep_symbol_blocks by assumption. apply chop_concat; [lia|].
    apply Forall_map. apply sep_lengths in H. revert H. apply Forall_impl. intros ws Hw.
    rewrite app_length, Hw. reflexivity.
  Qed.
  Lemma sep_blocks_read cs : Forall cod_in cs ->
    read_all (gap_block 7) (map (fun ws => ws ++ [1%nat]) (map pt cs)) = Some (map pt cs).
  Proof.
    intros H. apply read_all_map_id. intros ws Hin. apply gap_block_ok.
    apply sep_lengths in H. rewrite Forall_forall in H. auto.
  Qed.
  Lemma sep_length cs : Forall cod_in cs -> cs <> [] -> (length (sep_symbol cs) + 1 = 8 * length cs)%nat.
  Proof.
    intros H Hn. pose proof (f_equal (@length nat) (sep_symbol_blocks cs Hn)) as E.
    rewrite app_length in E. cbn [length] in E. rewrite E.
    apply sep_lengths in H. rewrite <- (map_length pt cs).
    induction H as [|ws l Hw Hl IH]; cbn [map concat length]; [lia|].
    rewrite !app_length, Hw. cbn [length]. clear E. 
    assert (E2 : length (concat (map (fun ws => ws ++ [1%nat]) l)) = (8 * length l)%nat).
    { clear IH Hn. induction Hl as [|ws2 l2 Hw2 Hl2 IH2]; cbn [map concat length]; [lia|].
      rewrite !app_length, Hw2, IH2. cbn [length]. lia. }
    rewrite E2. lia.
  Qed.
  Lemma sep_odd cs : Forall cod_in cs -> cs <> [] -> Nat.even (length (sep_symbol cs)) = false.
  Proof.
    intros H Hn. pose proof (sep_length cs H Hn) as E.
    assert (E2 : Nat.even (length (sep_symbol cs) + 1) = true).
    { rewrite E, Nat.even_mul. reflexivity. }
    rewrite Nat.add_1_r, Nat.even_succ, <- Nat.negb_even in E2. now apply negb_true_iff in E2.
  Qed.
  Lemma sep_Forall (P : nat -> Prop) cs : P 1%nat -> Forall (fun c => Forall P (pt c)) cs ->
    Forall P (sep_symbol cs).
  Proof.
    intros H1 H. destruct H as [|c cs Hc H]; cbn [sep_symbol]; [constructor|].
    apply Forall_app. split; [assumption|].
    induction H; cbn [map concat]; [constructor|]. apply Forall_app. split; [|assumption].
    constructor; assumption.
  Qed.
  Lemma sep_sum lo hi cs : Forall (fun c => lo <= list_sum (pt c) <= hi)%nat cs -> cs <> [] ->
    ((lo + 1) * length cs <= list_sum (sep_symbol cs) + 1 <= (hi + 1) * length cs)%nat.
  Proof.
    intros H Hn. destruct H as [|c cs Hc H]; [congruence|]. cbn [sep_symbol length].
    rewrite list_sum_app. clear Hn.
    assert (E : ((lo + 1) * length cs <= list_sum (concat (map (fun d => 1%nat :: pt d) cs))
                 <= (hi + 1) * length cs)%nat).
    { induction H as [|d cs Hd H IH]; cbn [map concat length]; [rewrite !Nat.mul_0_r; split; apply le_n|].
      rewrite list_sum_app. change (list_sum (1%nat :: pt d)) with (1 + list_sum (pt d))%nat. lia. }
    lia.
  Qed.
  Lemma render_sep c cs : Forall cod_in (c :: cs) ->
    render (sep_symbol (c :: cs)) =
    render (pt c) ++ concat (map (fun d => 0 :: render (pt d)) cs).
  Proof.
    intros H. inversion H as [|? ? Hc Hcs]; subst. cbn [sep_symbol].
    unfold render at 1. rewrite render_from_app_odd; [|auto | now rewrite Hpt].
    change (1 - 1) with 0. rewrite render_from_concat_even; [|auto|].
    - rewrite map_map. reflexivity.
    - apply Forall_map. revert Hcs. apply Forall_impl. intros d Hd. cbn [length].
      rewrite Hpt by assumption. reflexivity.
  Qed.
End Sep.

Lemma cod_symbol_sep cs : cod_symbol cs = sep_symbol cod_pattern cs.
Proof. reflexivity. Qed.

(** ** The model's encoder *)
Definition units_of (s : str) (us : list cunit) : Prop :=
  Forall2 (fun c u => codabar_from_char c = Some u) s us.

Definition gapped (us : list cunit) : list N :=
  match us with
  | [] => []
  | u :: tl => codabar_lookup u ++ concat (map (fun v => 0 :: codabar_lookup v) tl)
  end.
Definition cod_step p n (enc : list N) (x : N * cunit) : M (list N) :=
  let '(i, u) := x in
  let enc := enc ++ codabar_lookup u in
  last <- sub_u usize_bits p n 1 ;;
  Ret (if i <? last then enc ++ [0] else enc).
Lemma codabar_loop p n us : forall i acc, n = i + len us ->
  foldM (cod_step p n) (enumerate_from i us) acc = Ret (acc ++ gapped us).
Proof.
  induction us as [|u us IH]; intros i acc E.
  - cbn. now rewrite app_nil_r.
  - rewrite len_cons in E. cbn [enumerate_from foldM]. unfold cod_step at 1.
    rewrite sub_u_ok by lia. cbn [bind].
    etransitivity; [apply IH; lia|]. f_equal.
    destruct us as [|v us].
    + rewrite len_nil in E. destruct (i <? n - 1) eqn:Ei; [apply N.ltb_lt in Ei; lia|].
      cbn [gapped map concat]. now rewrite !app_nil_r.
    + rewrite len_cons in E. destruct (i <? n - 1) eqn:Ei; [|apply N.ltb_ge in Ei; lia].
      cbn [gapped map concat]. rewrite <- !app_assoc. reflexivity.
Qed.

Lemma codabar_encode_gapped p us : codabar_encode p (mkCodabar us) = Ret (gapped us).
Proof.
  unfold codabar_encode, enumerate. cbn [codabar_0].
  exact (codabar_loop p (len us) us 0 [] (eq_sym (N.add_0_l _))).
Qed.

Lemma gapped_render s us : units_of s us -> Forall cod_in s -> gapped us = render (sep_symbol lib_pattern s).
Proof.
  intros HU HF.
  assert (HE : Forall2 (fun c u => codabar_lookup u = render (lib_pattern c)) s us).
  { induction HU as [|c u s us Hc HU IH]; [constructor|]. inversion HF; subst.
    constructor; [|now apply IH]. destruct (lib_from_char c) as [u' [E1 E2]]; [assumption|]. congruence. }
  destruct HE as [|c u s us Hc HE]; [reflexivity|].
  rewrite render_sep; [|exact lib_pattern_length | assumption].
  cbn [gapped]. rewrite Hc. f_equal. f_equal. clear HU HF Hc.
  induction HE; cbn [map]; [reflexivity|]. now rewrite H, IHHE.
Qed.

Lemma units_exist s : Forall cod_in s ->
  exists us, units_of s us /\ mapM (fun c => unwrap (codabar_from_char c)) s = Ret us.
Proof.
  induction 1 as [|c s Hc H [us [HU HM]]].
  - exists []. split; [constructor | reflexivity].
  - destruct (lib_from_char c Hc) as [u [Eu _]]. exists (u :: us).
    split; [now constructor|]. cbn [mapM]. rewrite Eu. cbn [unwrap bind]. rewrite HM. reflexivity.
Qed.

(** ** Constructor *)
Lemma cod_in_valid s : Forall (fun c => In c codabar_valid_chars) s <-> Forall cod_in s.
Proof. split; apply Forall_impl; intros c; apply codabar_valid_chars_same. Qed.

Local Ltac acc_auto :=
  split; [split; intros G; try discriminate; try reflexivity; tauto|];
  split; [split; intros G; try discriminate; try reflexivity; tauto|];
  split; [discriminate|];
  split; [intros [b G]; try discriminate; tauto | intros G; try tauto; eauto].
Lemma codabar_new_spec s :
  let n := str_len s mod 2 ^ 32 in
  exists r, codabar_new s = Ret r /\
    (r = Err ELength <-> ~ (1 <= n <= 256)) /\
    (r = Err ECharacter <-> 1 <= n <= 256 /\ ~ Forall cod_in s) /\
    r <> Err EChecksum /\
    ((exists b, r = Ok b) <-> 1 <= n <= 256 /\ Forall cod_in s).
Proof.
  intros n. unfold codabar_new.
  destruct (parse_cases codabar_valid_chars 1 256 s) as [[H E]|[[H [H' E]]|[H [H' E]]]];
    rewrite E; fold n in H; try rewrite cod_in_valid in H'.
  - exists (Err ELength). split; [reflexivity|]. acc_auto.
  - exists (Err ECharacter). split; [reflexivity|]. acc_auto.
  - destruct (units_exist s H') as [us [HU HM]]. rewrite HM. cbn [bind].
    exists (Ok (mkCodabar us)). split; [reflexivity|]. acc_auto.
Qed.

Lemma codabar_new_Ok s b : codabar_new s = Ret (Ok b) ->
  Forall cod_in s /\ s <> [] /\ exists us, units_of s us /\ b = mkCodabar us.
Proof.
  unfold codabar_new. intros H.
  destruct (parse_cases codabar_valid_chars 1 256 s) as [[Hn E]|[[Hn [H' E]]|[Hn [H' E]]]];
    rewrite E in H; try discriminate.
  apply cod_in_valid in H'. split; [assumption|].
  split; [intros ->; cbn in Hn; lia|].
  destruct (units_exist s H') as [us [HU HM]]. rewrite HM in H. cbn [bind] in H.
  exists us. split; [assumption|]. congruence.
Qed.

Lemma codabar_encode_lib p s b : codabar_new s = Ret (Ok b) ->
  codabar_encode p b = Ret (render (sep_symbol lib_pattern s)).
Proof.
  intros H. apply codabar_new_Ok in H. destruct H as [HF [_ [us [HU ->]]]].
  rewrite codabar_encode_gapped. now rewrite (gapped_render s us).
Qed.

Lemma lib_symbol_widths s : Forall cod_in s -> Forall (fun w => 1 <= w <= 2)%nat (sep_symbol lib_pattern s).
Proof.
  intros H. apply sep_Forall; [lia|]. revert H. apply Forall_impl. exact lib_pattern_widths.
Qed.
Lemma lib_symbol_scan s : Forall cod_in s -> s <> [] ->
  scan (render (sep_symbol lib_pattern s)) = Some (sep_symbol lib_pattern s).
Proof.
  intros H Hn. apply scan_render; [|apply sep_odd; [exact lib_pattern_length | assumption | assumption]].
  apply (widths_pos 2). now apply lib_symbol_widths.
Qed.

Lemma codabar_accepted_length p s b : codabar_new s = Ret (Ok b) ->
  exists m, codabar_encode p b = Ret m /\
    (10 * length s <= length m + 1 <= 13 * length s)%nat.
Proof.
  intros H. rewrite (codabar_encode_lib p s b H). apply codabar_new_Ok in H.
  destruct H as [HF [Hn _]]. eexists. split; [reflexivity|].
  unfold render. rewrite render_from_length.
  apply (sep_sum lib_pattern 9 12 s); [|assumption].
  revert HF. apply Forall_impl. exact lib_pattern_sum.
Qed.

(** What a standard reader makes of any accepted value *)
Lemma read_all_lib s : Forall cod_in s ->
  read_all (read_char cod_chars cod_table) (map lib_pattern s) =
  if existsb (fun c => c =? ch "+") s then None else Some (map exchange s).
Proof.
  induction 1 as [|c s Hc H IH]; cbn [map read_all existsb]; [reflexivity|].
  rewrite read_lib_char by assumption. rewrite IH.
  destruct (c =? ch "+"); [reflexivity|]. cbn [orb].
  match goal with |- context [existsb ?f s] => destruct (existsb f s) end; reflexivity.
Qed.
Lemma codabar_reads p s b : codabar_new s = Ret (Ok b) ->
  exists m, codabar_encode p b = Ret m /\
    obind (scan m) read_cod =
    if existsb (fun c => c =? ch "+") s then None else Some (map exchange s).
Proof.
  intros H. rewrite (codabar_encode_lib p s b H). apply codabar_new_Ok in H.
  destruct H as [HF [Hn _]]. eexists. split; [reflexivity|].
  rewrite lib_symbol_scan by assumption. cbn [obind]. unfold read_cod.
  rewrite sep_chop by (exact lib_pattern_length || assumption). cbn [obind].
  rewrite sep_blocks_read by (exact lib_pattern_length || assumption). cbn [obind].
  now apply read_all_lib.
Qed.

(** Messages without plus sign, B and C conform. *)
Definition sound_char (c : char) : Prop := c <> ch "+" /\ c <> ch "B" /\ c <> ch "C".
Lemma exchange_id c : sound_char c -> exchange c = c.
Proof.
  intros [_ [H1 H2]]. unfold exchange. apply N.eqb_neq in H1, H2. now rewrite H1, H2.
Qed.
Lemma codabar_conform p s b : codabar_new s = Ret (Ok b) -> Forall sound_char s ->
  exists m, codabar_encode p b = Ret m /\ m = render (cod_symbol s) /\
    obind (scan m) read_cod = Some s.
Proof.
  intros H HS. destruct (codabar_reads p s b H) as [m [Em Er]]. exists m. split; [exact Em|].
  split.
  - rewrite (codabar_encode_lib p s b H) in Em. inversion Em. f_equal.
    apply codabar_new_Ok in H. destruct H as [HF _]. rewrite cod_symbol_sep.
    assert (E : Forall (fun c => lib_pattern c = cod_pattern c) s).
    { rewrite Forall_forall in *. intros c Hc. rewrite lib_pattern_std by (auto; apply HS; auto).
      now rewrite exchange_id by auto. }
    destruct E as [|c s Hc E]; [reflexivity|]. cbn [sep_symbol]. rewrite Hc. f_equal. f_equal.
    apply map_ext_Forall. revert E. apply Forall_impl. intros d ->. reflexivity.
  - rewrite Er. clear - HS. induction HS as [|c s Hc HS IH]; [reflexivity|].
    cbn [existsb map]. rewrite exchange_id by assumption.
    destruct Hc as [Hp _]. apply N.eqb_neq in Hp. rewrite Hp. cbn [orb].
    match goal with |- context [existsb ?f s] => destruct (existsb f s) end; [discriminate|].
    injection IH as IH. now rewrite IH.
Qed.

(** ** Injectivity *)
Lemma lib_read s : Forall cod_in s -> s <> [] ->
  obind (chop 8 (sep_symbol lib_pattern s ++ [1%nat])) (fun bs =>
  obind (read_all (gap_block 7) bs) (read_all (read_char cod_chars lib_table))) = Some s.
Proof.
  intros HF Hn. rewrite sep_chop by (exact lib_pattern_length || assumption). cbn [obind].
  rewrite sep_blocks_read by (exact lib_pattern_length || assumption). cbn [obind].
  apply read_all_map_id. intros c Hc. rewrite Forall_forall in HF.
  apply read_char_pattern; [exact lib_len | exact lib_nodup_t | now apply HF].
Qed.
Lemma codabar_injective p s1 s2 b1 b2 m :
  codabar_new s1 = Ret (Ok b1) -> codabar_new s2 = Ret (Ok b2) ->
  codabar_encode p b1 = Ret m -> codabar_encode p b2 = Ret m -> s1 = s2.
Proof.
  intros H1 H2 E1 E2. rewrite (codabar_encode_lib p s1 b1 H1) in E1.
  rewrite (codabar_encode_lib p s2 b2 H2) in E2.
  apply codabar_new_Ok in H1, H2. destruct H1 as [F1 [N1 _]], H2 as [F2 [N2 _]].
  assert (E : sep_symbol lib_pattern s1 = sep_symbol lib_pattern s2).
  { pose proof (lib_symbol_scan s1 F1 N1) as S1. pose proof (lib_symbol_scan s2 F2 N2) as S2.
    assert (Em : render (sep_symbol lib_pattern s1) = render (sep_symbol lib_pattern s2)) by congruence.
    rewrite Em in S1. congruence. }
  pose proof (lib_read s1 F1 N1) as R1. pose proof (lib_read s2 F2 N2) as R2.
  rewrite E in R1. congruence.
Qed.

(** ** Right to left *)
Lemma codabar_rev p s b : codabar_new s = Ret (Ok b) -> (exists s' z, s = s' ++ [z] /\ cod_stop z) ->
  exists m, codabar_encode p b = Ret m /\ obind (scan (rev m)) read_cod = None.
Proof.
  intros H [s' [z [E Hz]]]. rewrite (codabar_encode_lib p s b H). apply codabar_new_Ok in H.
  destruct H as [HF [Hn _]]. eexists. split; [reflexivity|].
  rewrite scan_rev_render.
  2:{ apply (widths_pos 2). now apply lib_symbol_widths. }
  2:{ apply sep_odd; [exact lib_pattern_length | assumption | assumption]. }
  cbn [obind]. unfold read_cod.
  destruct (chop 8 (rev (sep_symbol lib_pattern s) ++ [1%nat])) as [bs|] eqn:Ec; [|reflexivity].
  cbn [obind]. apply chop_sound in Ec. destruct Ec as [Ec HB].
  assert (Hz7 : length (lib_pattern z) = 7%nat) by (apply lib_pattern_length; now apply cod_stop_In).
  assert (Ef : firstn 7 (rev (sep_symbol lib_pattern s) ++ [1%nat]) = rev (lib_pattern z)).
  { assert (El : exists front, sep_symbol lib_pattern s = front ++ lib_pattern z).
    { subst s. destruct s' as [|c s'].
      - exists []. cbn. now rewrite app_nil_r.
      - exists (lib_pattern c ++ concat (map (fun d => 1%nat :: lib_pattern d) s') ++ [1%nat]).
        cbn [app sep_symbol]. rewrite map_app, concat_app. cbn [map concat].
        rewrite app_nil_r, <- !app_assoc. reflexivity. }
    destruct El as [front ->]. rewrite rev_app_distr, <- app_assoc.
    rewrite <- Hz7 at 1. rewrite <- rev_length, firstn_app, Nat.sub_diag, firstn_all.
    now rewrite app_nil_r. }
  destruct bs as [|b0 bs]; [destruct (rev (sep_symbol lib_pattern s)); discriminate|].
  inversion HB as [|? ? Hb0 _]; subst.
  assert (Eb : firstn 7 b0 = rev (lib_pattern z)).
  { rewrite <- Ef, <- Ec. cbn [concat]. rewrite firstn_app, Hb0. cbn [Nat.sub]. now rewrite app_nil_r. }
  cbn [read_all]. unfold gap_block at 1. rewrite Eb. unfold guard at 1.
  destruct (widths_eqb (skipn 7 b0) [1%nat]); [|reflexivity].
  destruct (read_all (gap_block 7) bs) as [l|]; [|reflexivity]. cbn [obind read_all].
  now rewrite lib_pattern_rev_stop.
Qed.

Lemma exchange_stop c : cod_stop (exchange c) <-> cod_stop c.
Proof.
  unfold exchange. destruct (N.eqb_spec c (ch "B")) as [->|HB]; [cbn; tauto|].
  destruct (N.eqb_spec c (ch "C")) as [->|HC]; [cbn; tauto|]. tauto.
Qed.
Lemma exchange_twice c : exchange (exchange c) = c.
Proof.
  unfold exchange. destruct (N.eqb_spec c (ch "B")) as [->|HB]; [reflexivity|].
  destruct (N.eqb_spec c (ch "C")) as [->|HC]; [reflexivity|].
  rewrite (proj2 (N.eqb_neq _ _) HB). now rewrite (proj2 (N.eqb_neq _ _) HC).
Qed.
Lemma exchange_framed s : cod_framed (map exchange s) <-> cod_framed s.
Proof.
  assert (G : forall s, cod_framed s -> cod_framed (map exchange s)).
  { clear s. intros s [a [mid [z [-> [Ha [Hz HM]]]]]]. exists (exchange a), (map exchange mid), (exchange z).
    cbn [map]. rewrite map_app. split; [reflexivity|]. rewrite !exchange_stop. split; [assumption|].
    split; [assumption|]. apply Forall_map. revert HM. apply Forall_impl. intros c. now rewrite exchange_stop. }
  split; [|apply G]. intros H. apply G in H. rewrite map_map in H.
  rewrite (map_ext _ (fun x => x)) in H by exact exchange_twice. now rewrite map_id in H.
Qed.
