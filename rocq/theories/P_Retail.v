(** * The constructors of EAN-13, EAN-8 and UPC-A, treated together *)
From Verif Require Import Rust M_Error M_Parse M_Helpers M_Tables M_Ean13 M_Ean8 M_Upca
  S_Barcode S_Ean S_Text P_Rust P_Parse P_Barcode P_Gs1 P_Ean.

(** The common shape of the three constructors. *)
Definition retail_new {B} (mk : list N -> B) (n : nat) (p : profile) (data : str) : M (result B) :=
  match parse digit_chars (N.of_nat n) (N.of_nat (S n)) data with
  | Err e => Ret (Err e)
  | Ok d =>
      digits <- to_digits d ;;
      first <- slice digits 0 (N.of_nat n) ;;
      if len digits =? N.of_nat (S n) then
        cs <- modulo_10_checksum p first (Nat.even n) ;;
        last <- index digits (N.of_nat n) ;;
        if cs =? last then Ret (Ok (mk first)) else Ret (Err EChecksum)
      else Ret (Ok (mk first))
  end.

Lemma ean13_new_retail p s : ean13_new p s = retail_new mkEAN13 12 p s.
Proof. reflexivity. Qed.
Lemma ean8_new_retail p s : ean8_new p s = retail_new mkEAN8 7 p s.
Proof. reflexivity. Qed.
Lemma upca_new_retail p s : upca_new p s = retail_new mkUPCA 11 p s.
Proof. reflexivity. Qed.

Section Retail.
Context {B : Type} (mk : list N -> B) (n : nat).
Hypothesis Hn : (1 <= n <= 13)%nat.
Local Notation new := (retail_new mk n).

Lemma retail_parts (ds : list N) m : (m <= length ds)%nat ->
  slice ds 0 (N.of_nat m) = Ret (firstn m ds).
Proof.
  intros H. rewrite slice_ok; [|lia|unfold len; lia].
  rewrite N.sub_0_r, Nat2N.id. reflexivity.
Qed.

Lemma retail_new_bare p ds :
  length ds = n -> Forall is_digit ds -> new p (text_of ds) = Ret (Ok (mk ds)).
Proof.
  intros Hl Hd. unfold retail_new.
  assert (L : len ds = N.of_nat n) by (unfold len; now rewrite Hl).
  rewrite parse_ok.
  2-3: rewrite str_len_text_of, L by assumption.
  2:{ change (2 ^ 32) with 4294967296. lia. }
  2:{ lia. }
  2:{ apply Forall_In_digit_chars. now apply text_of_digit_char. }
  rewrite to_digits_ok by now apply text_of_digit_char.
  rewrite digits_of_text_of. cbn [bind].
  rewrite retail_parts by lia. cbn [bind].
  rewrite L. replace (N.of_nat n =? N.of_nat (S n)) with false.
  2:{ symmetry. apply N.eqb_neq. lia. }
  rewrite <- Hl, firstn_all. reflexivity.
Qed.

Lemma retail_new_checked p ds c :
  length ds = n -> Forall is_digit ds -> is_digit c ->
  new p (text_of (ds ++ [c])) =
  Ret (if c =? gs1_check ds then Ok (mk ds) else Err EChecksum).
Proof.
  intros Hl Hd Hc. unfold retail_new.
  assert (Hd' : Forall is_digit (ds ++ [c])) by (apply Forall_app; auto).
  assert (L : len (ds ++ [c]) = N.of_nat (S n)) by (unfold len; rewrite app_length, Hl; simpl; lia).
  rewrite parse_ok.
  2-3: rewrite str_len_text_of, L by assumption.
  2:{ change (2 ^ 32) with 4294967296. lia. }
  2:{ lia. }
  2:{ apply Forall_In_digit_chars. now apply text_of_digit_char. }
  rewrite to_digits_ok by now apply text_of_digit_char.
  rewrite digits_of_text_of. cbn [bind].
  rewrite retail_parts by (rewrite app_length; lia). cbn [bind].
  rewrite L, N.eqb_refl.
  rewrite firstn_app, <- Hl, Nat.sub_diag, firstn_all. cbn [firstn]. rewrite app_nil_r.
  rewrite modulo_10_checksum_short; [|reflexivity|lia|assumption]. cbn [bind].
  rewrite (index_nth _ _ 0) by (unfold len in *; lia). cbn [bind].
  rewrite Nat2N.id, app_nth2, Nat.sub_diag by lia. cbn [nth].
  rewrite N.eqb_sym. now destruct (c =? gs1_check ds).
Qed.

Lemma retail_new_length p s :
  str_len s < 2 ^ 32 -> ~ (N.of_nat n <= str_len s <= N.of_nat (S n)) ->
  new p s = Ret (Err ELength).
Proof. intros H1 H2. unfold retail_new. now rewrite parse_length. Qed.

Lemma retail_new_character p s :
  str_len s < 2 ^ 32 -> N.of_nat n <= str_len s <= N.of_nat (S n) -> ~ Forall digit_char s ->
  new p s = Ret (Err ECharacter).
Proof.
  intros H1 H2 H3. unfold retail_new. rewrite parse_character; auto.
  now rewrite Forall_In_digit_chars.
Qed.

(** The complete decision table, for any string below 4 GiB. *)
Lemma retail_new_cases p s :
  str_len s < 2 ^ 32 ->
  (~ (N.of_nat n <= str_len s <= N.of_nat (S n)) /\ new p s = Ret (Err ELength)) \/
  (N.of_nat n <= str_len s <= N.of_nat (S n) /\ ~ Forall digit_char s
     /\ new p s = Ret (Err ECharacter)) \/
  (exists ds, length ds = n /\ Forall is_digit ds /\ s = text_of ds
     /\ new p s = Ret (Ok (mk ds))) \/
  (exists ds c, length ds = n /\ Forall is_digit ds /\ is_digit c /\ s = text_of (ds ++ [c]) /\
     ((gs1_valid (ds ++ [c]) /\ new p s = Ret (Ok (mk ds))) \/
      (~ gs1_valid (ds ++ [c]) /\ new p s = Ret (Err EChecksum)))).
Proof.
  intros Hs.
  assert (DL : N.of_nat n <= str_len s <= N.of_nat (S n) \/ ~ (N.of_nat n <= str_len s <= N.of_nat (S n))) by lia.
  destruct DL as [DL|DL]; [right|left; split; [exact DL | now apply retail_new_length]].
  destruct (Forall_dec digit_char) with (l := s) as [DC|DC].
  { intros c. unfold digit_char.
    destruct (48 <=? c) eqn:E1; destruct (c <=? 57) eqn:E2;
      rewrite ?N.leb_le, ?N.leb_gt in *; (left; lia) || (right; lia). }
  2:{ left. split; [exact DL|]. split; [exact DC | now apply retail_new_character]. }
  right. destruct (digit_text s DC) as [ds [Hd ->]].
  rewrite str_len_text_of in DL by assumption. unfold len in DL.
  assert (E : length ds = n \/ length ds = S n) by lia. destruct E as [E|E].
  { left. exists ds. repeat split; auto. now apply retail_new_bare. }
  right. destruct (exists_last (l := ds)) as [ds' [c ->]].
  { intros ->. discriminate. }
  rewrite app_length in E. simpl in E.
  apply Forall_app in Hd. destruct Hd as [Hd Hc]. inversion Hc as [|? ? Hc' _]; subst.
  exists ds', c. repeat split; auto; [lia|].
  rewrite retail_new_checked by (auto; lia).
  pose proof (gs1_check_unique ds' c Hc') as U.
  destruct (c =? gs1_check ds') eqn:Ec.
  - left. apply N.eqb_eq in Ec. split; [now apply U | reflexivity].
  - right. apply N.eqb_neq in Ec. split; [now rewrite U | reflexivity].
Qed.

Lemma str_len_digit_eq s : Forall digit_char s -> str_len s = N.of_nat (length s).
Proof. apply str_len_digits. Qed.

Theorem retail_new_spec p s :
  str_len s < 2 ^ 32 ->
  exists r, new p s = Ret r /\
    (r = Err ELength <-> str_len s <> N.of_nat n /\ str_len s <> N.of_nat (S n)) /\
    (r = Err ECharacter <->
       (str_len s = N.of_nat n \/ str_len s = N.of_nat (S n)) /\ ~ Forall digit_char s) /\
    (r = Err EChecksum <->
       length s = S n /\ Forall digit_char s /\ ~ gs1_valid (digits_of s)) /\
    (forall b, r = Ok b <->
       Forall digit_char s /\ b = mk (firstn n (digits_of s)) /\
       (length s = n \/ (length s = S n /\ gs1_valid (digits_of s)))).
Proof.
  intros Hs.
  destruct (retail_new_cases p s Hs) as [[H E]|[[H [HC E]]|[(ds&L&D&->&E)|(ds&c&L&D&Dc&->&HV)]]].
  - eexists. split; [exact E|]. split; [|split; [|split]].
    + split; [intros _; lia | reflexivity].
    + split; [discriminate|]. intros [? _]. lia.
    + split; [discriminate|]. intros (A & Fd & _). rewrite str_len_digit_eq in H by assumption. lia.
    + intros b. split; [discriminate|]. intros (Fd & _ & A). rewrite str_len_digit_eq in H by assumption. lia.
  - eexists. split; [exact E|]. split; [|split; [|split]].
    + split; [discriminate|]. lia.
    + split; [intros _; split; [lia | assumption] | reflexivity].
    + split; [discriminate|]. tauto.
    + intros b. split; [discriminate|]. tauto.
  - assert (Ls : length (text_of ds) = n) by (unfold text_of; now rewrite map_length).
    assert (Fd : Forall digit_char (text_of ds)) by now apply text_of_digit_char.
    assert (Lb : str_len (text_of ds) = N.of_nat n) by (rewrite str_len_digit_eq, Ls; auto).
    eexists. split; [exact E|]. split; [|split; [|split]].
    + split; [discriminate|]. lia.
    + split; [discriminate|]. tauto.
    + split; [discriminate|]. lia.
    + intros b. rewrite digits_of_text_of.
      rewrite <- L at 1. rewrite firstn_all. split.
      * intros [= <-]. auto.
      * intros (_ & -> & _). reflexivity.
  - assert (Ls : length (text_of (ds ++ [c])) = S n)
      by (unfold text_of; rewrite map_length, app_length; simpl; lia).
    assert (Fd : Forall digit_char (text_of (ds ++ [c])))
      by (apply text_of_digit_char, Forall_app; auto).
    assert (Lb : str_len (text_of (ds ++ [c])) = N.of_nat (S n)) by (rewrite str_len_digit_eq, Ls; auto).
    destruct HV as [[V E]|[V E]]; (eexists; split; [exact E|]; split; [|split; [|split]]).
    + split; [discriminate|]. lia.
    + split; [discriminate|]. tauto.
    + split; [discriminate|]. rewrite digits_of_text_of. tauto.
    + intros b. rewrite digits_of_text_of. rewrite firstn_app, <- L, Nat.sub_diag, firstn_all.
      cbn [firstn]. rewrite app_nil_r. split.
      * intros [= <-]. rewrite L. auto.
      * intros (_ & -> & _). reflexivity.
    + split; [discriminate|]. lia.
    + split; [discriminate|]. tauto.
    + rewrite digits_of_text_of. tauto.
    + intros b. rewrite digits_of_text_of. split; [discriminate|]. intros (_ & _ & [A|[_ A]]); [lia|tauto].
Qed.

(** What an accepted string is. *)
Lemma retail_new_Ok p s b :
  str_len s < 2 ^ 32 -> new p s = Ret (Ok b) ->
  exists ds, length ds = n /\ Forall is_digit ds /\ b = mk ds /\
    (s = text_of ds \/ s = text_of (ds ++ [gs1_check ds])).
Proof.
  intros Hs H.
  destruct (retail_new_cases p s Hs) as [[_ E]|[[_ [_ E]]|[(ds&L&D&->&E)|(ds&c&L&D&Dc&->&HV)]]];
    try congruence.
  - exists ds. rewrite E in H. injection H as <-. auto.
  - destruct HV as [[V E]|[_ E]]; [|congruence].
    exists ds. rewrite E in H. injection H as <-. repeat split; auto.
    right. apply gs1_check_unique in V; [|assumption]. now rewrite <- V.
Qed.

Lemma text_of_app a b : text_of (a ++ b) = text_of a ++ text_of b.
Proof. apply map_app. Qed.

(** Exactly one check digit is accepted. *)
Theorem retail_check_digit p ds :
  length ds = n -> Forall is_digit ds ->
  new p (text_of ds) = Ret (Ok (mk ds)) /\
  exists c, is_digit c /\ new p (text_of (ds ++ [c])) = Ret (Ok (mk ds)) /\
    forall c', is_digit c' -> c' <> c -> new p (text_of (ds ++ [c'])) = Ret (Err EChecksum).
Proof.
  intros L D. split; [now apply retail_new_bare|].
  exists (gs1_check ds). split; [apply gs1_check_digit|]. split.
  - rewrite retail_new_checked by (auto; apply gs1_check_digit). now rewrite N.eqb_refl.
  - intros c' Hc' Hne. rewrite retail_new_checked by auto.
    apply N.eqb_neq in Hne. now rewrite Hne.
Qed.

(** Full-length digit strings: accepted exactly when GS1-valid. *)
Lemma retail_full p ds :
  length ds = S n -> Forall is_digit ds ->
  ((exists b, new p (text_of ds) = Ret (Ok b)) <-> gs1_valid ds) /\
  (new p (text_of ds) = Ret (Err EChecksum) <-> ~ gs1_valid ds).
Proof.
  intros L D.
  destruct (exists_last (l := ds)) as [ds' [c ->]]; [intros ->; discriminate|].
  rewrite app_length in L. simpl in L.
  apply Forall_app in D. destruct D as [D Dc]. inversion Dc as [|? ? Dc' _]; subst.
  rewrite retail_new_checked by (auto; lia).
  pose proof (gs1_check_unique ds' c Dc') as U.
  destruct (c =? gs1_check ds') eqn:E.
  - apply N.eqb_eq in E. apply U in E. split; split; intros H; eauto; try tauto; discriminate.
  - apply N.eqb_neq in E. rewrite <- U in E. split; split; intros H; eauto.
    + now destruct H as [? H].
    + tauto.
Qed.

Theorem retail_substitution p a x b :
  length (a ++ x :: b) = S n -> Forall is_digit (a ++ x :: b) ->
  (exists k, new p (text_of (a ++ x :: b)) = Ret (Ok k)) ->
  forall y, is_digit y -> y <> x -> new p (text_of (a ++ y :: b)) = Ret (Err EChecksum).
Proof.
  intros L D H y Hy Hne.
  apply (retail_full p _ L D) in H.
  assert (Hx : is_digit x).
  { apply Forall_app in D. destruct D as [_ D]. now inversion D. }
  apply (retail_full p).
  - rewrite app_length in *. exact L.
  - apply Forall_app in D. destruct D as [Da Db]. apply Forall_app. split; [assumption|].
    inversion Db; subst. now constructor.
  - apply (gs1_substitution a x y b); auto.
Qed.

Theorem retail_transposition p a x y b :
  length (a ++ x :: y :: b) = S n -> Forall is_digit (a ++ x :: y :: b) -> x <> y ->
  (exists k, new p (text_of (a ++ x :: y :: b)) = Ret (Ok k)) ->
  (differ_by_5 x y -> exists k, new p (text_of (a ++ y :: x :: b)) = Ret (Ok k)) /\
  (~ differ_by_5 x y -> new p (text_of (a ++ y :: x :: b)) = Ret (Err EChecksum)).
Proof.
  intros L D Hne H.
  apply (retail_full p _ L D) in H.
  apply Forall_app in D as D'. destruct D' as [Da Db].
  inversion Db as [|? ? Hx Db']; subst. inversion Db' as [|? ? Hy Dbb]; subst.
  assert (L' : length (a ++ y :: x :: b) = S n) by (rewrite app_length in *; exact L).
  assert (D'' : Forall is_digit (a ++ y :: x :: b)) by (apply Forall_app; auto).
  pose proof (gs1_transposition a x y b Hx Hy Hne H) as T.
  split; intros HD.
  - apply (retail_full p _ L' D''). tauto.
  - apply (retail_full p _ L' D''). tauto.
Qed.
End Retail.
