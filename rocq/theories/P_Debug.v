(** * Proofs: what the Debug texts say *)
From Verif Require Import Rust M_Error M_Helpers M_Parse M_Ean13 M_Ean8 M_Upca M_EanSupp M_Code39 M_Code93 M_Code11
  M_Codabar M_Code128 M_Tf M_Ascii M_Json M_Svg M_Image Symbology M_Use M_Debug
  S_Barcode S_Ean S_Text S_Num S_Linear S_Codabar S_Tf S_Code128 S_All S_Exact S_Debug
  P_Rust P_Num P_Barcode P_Parse P_Gs1 P_Ean P_Retail P_Retail2 P_Retail3 P_Supp P_Code39 P_Code93 P_Code11
  P_Codabar P_Tf P_Code128 P_Code128b P_All P_Errors P_Exact.
Section Tables.
Context {tables : unicode}.

(** ** Reading what was written *)
Fixpoint show (t : tree) : str :=
  match t with
  | TNum n => fmt_dec n
  | TQuote c => debug_char c
  | TText s => debug_str s
  | TName n => n
  | TCall n l => debug_tuple n (map show l)
  | TList l => debug_list show l
  | TRecord n l => debug_struct n (map (fun x => (fst x, show (snd x))) l)
  end.
Definition name (s : str) : bool := match s with c :: _ => letterb c && forallb nameb s | [] => false end.
Fixpoint good (t : tree) : bool :=
  match t with
  | TNum _ | TQuote _ | TText _ => true
  | TName n => name n
  | TCall n l => name n && forallb good l
  | TList l => forallb good l
  | TRecord n l => name n && match l with [] => false | _ => true end && forallb (fun x => name (fst x) && good (snd x)) l
  end.
Definition stop (rest : str) : Prop :=
  match rest with
  | [] => True
  | c :: tl => c = ch "," \/ c = ch ")" \/ c = ch "]" \/ exists r, rest = lit " }" ++ r
  end.

Lemma hex_read d : d < 16 -> read_hex1 (hex_digit d) = Some d /\ (hex_digit d =? ch "}") = false.
Proof.
  intros H. assert (d = 0 \/ d = 1 \/ d = 2 \/ d = 3 \/ d = 4 \/ d = 5 \/ d = 6 \/ d = 7 \/ d = 8 \/ d = 9 \/ d = 10 \/ d = 11
    \/ d = 12 \/ d = 13 \/ d = 14 \/ d = 15) as D by lia.
  repeat (destruct D as [->|D]; [split; reflexivity|]). subst d. split; reflexivity.
Qed.
Lemma escape_u r : read_escaped (backslash :: ch "u" :: ch "{" :: r) = hex_value 0 r.
Proof. reflexivity. Qed.
Lemma hex_digits_read n : forall c acc rest, (N.size_nat c <= n)%nat -> c <> 0 ->
  hex_value 0 (hex_digits n c acc ++ rest) = hex_value c (acc ++ rest).
Proof.
  induction n as [|n IH]; intros c acc rest H HC; [exfalso; destruct c as [|[p|p|]]; [now apply HC | inversion H ..]|].
  cbn [hex_digits]. destruct (N.ltb_spec c 16) as [L|L].
  - destruct (hex_read c L) as [A B]. cbn [app hex_value]. rewrite B, A. cbn [obind]. f_equal; lia.
  - assert (L2 : c mod 16 < 16) by (apply N.mod_lt; discriminate). destruct (hex_read _ L2) as [A B].
    pose proof (N.div_mod c 16 ltac:(discriminate)) as DM. rewrite IH.
    + cbn [app hex_value]. rewrite B, A. cbn [obind]. f_equal; lia.
    + assert (D : N.size (c / 16) < N.size c).
      { rewrite !N.size_log2 by lia. replace 16 with (2 ^ 4) by reflexivity. rewrite <- N.shiftr_div_pow2, N.log2_shiftr.
        assert (4 <= N.log2 c) by (change 4 with (N.log2 16); now apply N.log2_le_mono). lia. }
      assert (E : forall x, N.size x = N.of_nat (N.size_nat x)).
      { intros [|p]; [reflexivity|]. cbn [N.size N.size_nat]. induction p as [p IHp|p IHp|]; cbn [Pos.size Pos.size_nat]; lia. }
      rewrite !E in D. lia.
    + lia.
Qed.
Lemma escape_read q c rest : q = 34 \/ q = 39 -> read_escaped (debug_escape q c ++ rest) = Some (c, rest).
Proof.
  intros HQ. unfold debug_escape.
  destruct (N.eqb_spec c 0) as [->|H0]; [reflexivity|]. destruct (N.eqb_spec c 9) as [->|H9]; [reflexivity|].
  destruct (N.eqb_spec c 10) as [->|H10]; [reflexivity|]. destruct (N.eqb_spec c 13) as [->|H13]; [reflexivity|].
  destruct ((c =? q) || (c =? backslash)) eqn:EQ.
  { assert (D : c = 34 \/ c = 39 \/ c = 92).
    { apply orb_true_iff in EQ. destruct EQ as [E|E]; apply N.eqb_eq in E; [|right; right; exact E]. destruct HQ; subst; auto. }
    destruct D as [->|[->| ->]]; reflexivity. }
  apply orb_false_iff in EQ. destruct EQ as [EQ EB].
  destruct (_ || _) eqn:EC.
  - rewrite <- !app_assoc. change ([backslash; ch "u"; ch "{"] ++ ?x) with (backslash :: ch "u" :: ch "{" :: x).
    cbn [app]. rewrite escape_u, hex_digits_read by (trivial; lia). cbn [app hex_value]. now rewrite N.eqb_refl.
  - cbn [app read_escaped]. unfold backslash in EB. now rewrite EB.
Qed.
Lemma escape_head c : exists x r, debug_escape 34 c = x :: r /\ (x =? 34) = false.
Proof.
  unfold debug_escape.
  destruct (c =? 0); [now eexists; eexists|]. destruct (c =? 9); [now eexists; eexists|].
  destruct (c =? 10); [now eexists; eexists|]. destruct (c =? 13); [now eexists; eexists|].
  destruct ((c =? 34) || (c =? backslash)) eqn:E; [now eexists; eexists|].
  destruct (_ || (negb _ && _)); [now eexists; eexists|].
  apply orb_false_iff in E. eexists. eexists. split; [reflexivity | apply E].
Qed.
Lemma text_read s : forall n rest, (length (flat_map (debug_escape 34%N) s) < n)%nat ->
  read_text_to n (flat_map (debug_escape 34) s ++ 34 :: rest) = Some (s, rest).
Proof.
  induction s as [|c s IH]; intros n rest H; destruct n as [|n]; try (cbn in H; lia).
  - reflexivity.
  - cbn [flat_map] in *. rewrite <- app_assoc. pose proof (escape_read 34 c (flat_map (debug_escape 34) s ++ 34 :: rest) (or_introl eq_refl)) as R.
    destruct (escape_head c) as (x & r & EX & HX). rewrite app_length in H.
    assert (HL : (1 <= length (debug_escape 34%N c))%nat) by (rewrite EX; cbn; lia).
    rewrite EX in R |- *. cbn [app] in R |- *. cbn [read_text_to]. rewrite HX, R, IH; [reflexivity|]. lia.
Qed.

Lemma name_form s : name s = true -> exists c tl, s = c :: tl /\ letterb c = true /\ forallb nameb s = true.
Proof. destruct s as [|c tl]; [discriminate|]. cbn [name]. rewrite andb_true_iff. intros [A B]. eauto. Qed.
Lemma letter_facts c : letterb c = true ->
  (c =? ch "[") = false /\ (c =? 39) = false /\ (c =? 34) = false /\ digitb c = false /\
  (c =? ch ")") = false /\ (c =? ch "]") = false.
Proof.
  unfold letterb, digitb. intros H. apply orb_true_iff in H.
  assert (D : 65 <= c <= 90 \/ 97 <= c <= 122).
  { destruct H as [H|H]; apply andb_true_iff in H; destruct H as [A B]; apply N.leb_le in A, B; lia. }
  change (ch "[") with 91. change (ch ")") with 41. change (ch "]") with 93.
  repeat split; try (apply N.eqb_neq; lia). apply andb_false_iff. right. apply N.leb_gt. lia.
Qed.
Lemma digit_facts c : digit_char c ->
  (c =? ch "[") = false /\ (c =? 39) = false /\ (c =? 34) = false /\ digitb c = true /\
  (c =? ch ")") = false /\ (c =? ch "]") = false.
Proof.
  unfold digit_char, digitb. intros D.
  change (ch "[") with 91. change (ch ")") with 41. change (ch "]") with 93.
  repeat split; try (apply N.eqb_neq; lia). apply andb_true_iff. split; apply N.leb_le; lia.
Qed.
Lemma stop_name rest : stop rest -> match rest with c :: _ => nameb c = false | [] => True end.
Proof.
  destruct rest as [|c tl]; [trivial|]. cbn [stop]. intros [->|[->|[->|[r E]]]]; try reflexivity.
  cbn in E. injection E as -> _. reflexivity.
Qed.
Lemma stop_digit rest : stop rest -> match rest with c :: _ => digitb c = false | [] => True end.
Proof.
  intros H. apply stop_name in H. destruct rest as [|c tl]; [trivial|]. unfold nameb in H.
  apply orb_false_iff in H. destruct H as [H _]. now apply orb_false_iff in H.
Qed.
Definition heads (t : tree) : Prop := exists c tl, show t = c :: tl /\ (c =? ch ")") = false /\ (c =? ch "]") = false.
Lemma show_head t : good t = true -> heads t.
Proof.
  unfold heads. destruct t as [n|c|s|n|n l|l|n l]; cbn [good show]; intros H.
  - destruct (fmt_dec_cons n) as (c & tl & -> & D). apply digit_facts in D. exists c, tl. tauto.
  - now exists 39, (debug_escape 39 c ++ [39]).
  - now exists 34, (flat_map (debug_escape 34) s ++ [34]).
  - destruct (name_form n H) as (c & tl & -> & L & _). apply letter_facts in L. exists c, tl. tauto.
  - apply andb_true_iff in H. destruct H as [H _]. destruct (name_form n H) as (c & tl & -> & L & _).
    apply letter_facts in L. unfold debug_tuple. cbn [app]. eexists c, _. split; [reflexivity|]. tauto.
  - unfold debug_list. now eexists _, _.
  - rewrite !andb_true_iff in H. destruct H as [[H _] _]. destruct (name_form n H) as (c & tl & -> & L & _).
    apply letter_facts in L. unfold debug_struct. cbn [app]. eexists c, _. split; [reflexivity|]. tauto.
Qed.
Lemma commas_cons x y l : commas (x :: y :: l) = x ++ lit ", " ++ commas (y :: l).
Proof. cbn [commas flat_map]. now rewrite <- !app_assoc. Qed.

Definition Reads (n : nat) : Prop :=
  (forall t rest, good t = true -> stop rest -> (length (show t) <= n)%nat -> read_value n (show t ++ rest) = Some (t, rest)) /\
  (forall l close rest, forallb good l = true -> close = ch ")" \/ close = ch "]" -> (length (commas (map show l)) < n)%nat ->
     read_items n close (commas (map show l) ++ close :: rest) = Some (l, rest)) /\
  (forall l rest, l <> [] -> forallb (fun x => name (fst x) && good (snd x)) l = true ->
     let t := commas (map (fun x => fst x ++ lit ": " ++ show (snd x)) l) in (length t <= n)%nat ->
     read_fields n (t ++ lit " }" ++ rest) = Some (l, rest)).
Lemma reads n : Reads n.
Proof.
  induction n as [|n (IV & II & IF)].
  { split; [|split].
    - intros t rest G _ L. destruct (show_head t G) as (c & tl & E & _). rewrite E in L. cbn in L. lia.
    - intros. lia.
    - intros l rest Hn G t L. exfalso. destruct l as [|x l]; [congruence|]. unfold t in L. cbn [map commas] in L.
      rewrite !app_length in L. cbn in L. lia. }
  split; [|split].
  - intros t rest G ST L. destruct t as [k|c|s|m|m l|l|m l]; cbn [good show] in *.
    + destruct (fmt_dec_cons k) as (c & tl & E & D). pose proof (digit_facts c D) as (F1 & F2 & F3 & F4 & _).
      pose proof (fmt_dec_digits k) as FD. pose proof (read_fmt_dec k) as RD. unfold read_dec in RD.
      pose proof (span_app digitb (fmt_dec k) rest (forallb_digitb _ FD) (stop_digit rest ST)) as SP.
      rewrite E in *. cbn [app] in *. cbn [read_value]. rewrite F1, F2, F3, F4, SP.
      destruct (_ && _) in RD; [|discriminate]. assert (RE : decimal (digits_of (c :: tl)) = k) by congruence. now rewrite RE.
    + unfold debug_char. cbn [app]. rewrite <- app_assoc. cbn [read_value].
      change (39 =? ch "[") with false. change (39 =? 39) with true. cbv iota.
      rewrite escape_read by (now right). cbn [app]. unfold guard. now rewrite N.eqb_refl.
    + unfold debug_str in *. cbn [app] in *. rewrite <- app_assoc. cbn [read_value].
      change (34 =? ch "[") with false. change (34 =? 39) with false. change (34 =? 34) with true. cbv iota. cbn [app].
      rewrite text_read; [reflexivity|]. cbn [length] in L. rewrite app_length in L. cbn [length] in L. lia.
    + destruct (name_form m G) as (c & tl & E & LT & FN). pose proof (letter_facts c LT) as (F1 & F2 & F3 & F4 & _).
      pose proof (span_app nameb m rest FN (stop_name rest ST)) as SP.
      rewrite E in *. cbn [app] in *. cbn [read_value]. rewrite F1, F2, F3, F4, LT, SP.
      destruct rest as [|a r]; [reflexivity|].
      cbn [stop] in ST. destruct ST as [->|[->|[->|[r' ER]]]]; try reflexivity.
      cbn in ER. injection ER as -> ->. reflexivity.
    + apply andb_true_iff in G. destruct G as [GM GL]. destruct (name_form m GM) as (c & tl & E & LT & FN).
      pose proof (letter_facts c LT) as (F1 & F2 & F3 & F4 & _). unfold debug_tuple in *. rewrite <- !app_assoc.
      assert (LM : (1 <= length m)%nat) by (rewrite E; cbn; lia).
      rewrite !app_length in L. change (length (lit "(")) with 1%nat in L. change (length (lit ")")) with 1%nat in L.
      pose proof (span_app nameb m (lit "(" ++ commas (map show l) ++ lit ")" ++ rest) FN eq_refl) as SP.
      rewrite E in *. cbn [app] in *. cbn [read_value]. rewrite F1, F2, F3, F4, LT, SP.
      change (lit "(") with [ch "("]. cbn [app]. rewrite N.eqb_refl. change (lit ")") with [ch ")"]. cbn [app].
      rewrite II; [reflexivity | assumption | now left | lia].
    + unfold debug_list in *. rewrite <- !app_assoc. rewrite !app_length in L. change (length (lit "[")) with 1%nat in L.
      change (length (lit "]")) with 1%nat in L.
      change (lit "[") with [ch "["]. change (lit "]") with [ch "]"]. cbn [app]. cbn [read_value]. rewrite N.eqb_refl.
      rewrite II; [reflexivity | assumption | now right | lia].
    + rewrite !andb_true_iff in G. destruct G as [[GM GN] GL]. destruct (name_form m GM) as (c & tl & E & LT & FN).
      pose proof (letter_facts c LT) as (F1 & F2 & F3 & F4 & _). unfold debug_struct in *. rewrite <- !app_assoc.
      rewrite map_map in *. cbn [fst snd] in *.
      assert (LM : (1 <= length m)%nat) by (rewrite E; cbn; lia).
      rewrite !app_length in L. change (length (lit " { ")) with 3%nat in L. change (length (lit " }")) with 2%nat in L.
      set (fs := commas (map (fun x => fst x ++ lit ": " ++ show (snd x)) l)) in *.
      pose proof (span_app nameb m (lit " { " ++ fs ++ lit " }" ++ rest) FN eq_refl) as SP.
      assert (RF : read_fields n (fs ++ lit " }" ++ rest) = Some (l, rest)).
      { apply IF; [now destruct l | assumption | unfold fs in L; unfold str, char in *; lia]. }
      assert (EG : m ++ lit " { " ++ commas (map (fun x => fst x ++ lit ": " ++ show (snd x)) l) ++ lit " }" ++ rest =
                   m ++ lit " { " ++ fs ++ lit " }" ++ rest) by reflexivity.
      match goal with |- read_value _ ?g = _ => replace g with (m ++ lit " { " ++ fs ++ lit " }" ++ rest) by (symmetry; exact EG) end.
      clear EG.
      rewrite E in *. cbn [app] in *. cbn [read_value]. rewrite F1, F2, F3, F4, LT, SP.
      transitivity (match read_fields n (fs ++ lit " }" ++ rest) with Some (l', r') => Some (TRecord (c :: tl) l', r') | None => None end);
        [reflexivity | now rewrite RF].
  - intros l close rest G HC L. destruct l as [|x l].
    { cbn [map commas app read_items]. now rewrite N.eqb_refl. }
    cbn [forallb] in G. apply andb_true_iff in G. destruct G as [GX GL].
    destruct (show_head x GX) as (c & tl & EX & H1 & H2).
    assert (HX : (c =? close) = false) by (destruct HC as [->| ->]; assumption).
    assert (HK : forall r, stop (close :: r)) by (intros r; cbn [stop]; tauto).
    destruct l as [|y l].
    + cbn [map commas flat_map] in *. rewrite app_nil_r in *.
      pose proof (IV x (close :: rest) GX (HK rest) ltac:(lia)) as RV. rewrite EX in *. cbn [app] in *. cbn [read_items].
      rewrite HX, RV. now rewrite N.eqb_refl.
    + cbn [map] in *. rewrite commas_cons in *. change (show y :: map show l) with (map show (y :: l)) in *.
      set (more := commas (map show (y :: l))) in *. rewrite <- !app_assoc. rewrite !app_length in L.
      change (length (lit ", ")) with 2%nat in L.
      pose proof (IV x (lit ", " ++ more ++ close :: rest) GX (or_introl eq_refl) ltac:(lia)) as RV.
      assert (RI : read_items n close (more ++ close :: rest) = Some (y :: l, rest)).
      { apply II; [assumption | assumption | unfold more in *; unfold str, char in *; lia]. }
      rewrite EX in *. cbn [app] in *. cbn [read_items]. rewrite HX, RV.
      transitivity (match read_items n close (more ++ close :: rest) with Some (l', r') => Some (x :: l', r') | None => None end);
        [destruct HC as [->| ->]; reflexivity | now rewrite RI].
  - intros l rest Hn G t L. destruct l as [|[m v] l]; [congruence|]. cbn [forallb fst snd] in G.
    rewrite !andb_true_iff in G. destruct G as [[GM GV] GL]. destruct (name_form m GM) as (c & tl & E & _ & FN).
    assert (LM : (1 <= length m)%nat) by (rewrite E; cbn; lia).
    destruct l as [|[m' v'] l].
    + unfold t in *. cbn [map fst snd commas flat_map] in *. rewrite app_nil_r in *. rewrite <- !app_assoc.
      rewrite !app_length in L. change (length (lit ": ")) with 2%nat in L. cbn [read_fields].
      rewrite (span_app nameb m (lit ": " ++ show v ++ lit " }" ++ rest) FN eq_refl). rewrite eat_app.
      rewrite IV; [| assumption | cbn; right; right; right; now exists rest | lia]. now rewrite eat_app.
    + unfold t in *. cbn [map fst snd] in *. rewrite commas_cons in *.
      set (more := commas (map (fun x => fst x ++ lit ": " ++ show (snd x)) ((m', v') :: l))).
      change (commas ((m' ++ lit ": " ++ show v') :: map (fun x => fst x ++ lit ": " ++ show (snd x)) l)) with more in *.
      rewrite <- !app_assoc. rewrite !app_length in L. change (length (lit ": ")) with 2%nat in L.
      change (length (lit ", ")) with 2%nat in L. cbn [read_fields].
      rewrite (span_app nameb m (lit ": " ++ show v ++ lit ", " ++ more ++ lit " }" ++ rest) FN eq_refl). rewrite eat_app.
      rewrite IV; [| assumption | now left | lia].
      replace (eat (lit " }") (lit ", " ++ more ++ lit " }" ++ rest)) with (@None str) by reflexivity. rewrite eat_app.
      unfold more. rewrite IF; [reflexivity | discriminate | assumption | unfold more in *; unfold str, char in *; lia].
Qed.
Theorem read_show t : good t = true -> read_debug (show t) = Some t.
Proof.
  intros G. unfold read_debug. destruct (reads (length (show t))) as (R & _). pose proof (R t [] G I (le_n _)) as E.
  rewrite app_nil_r in E. now rewrite E.
Qed.

(** ** The values of the library *)
Lemma show_numbers l : debug_list fmt_dec l = show (numbers l).
Proof. unfold numbers. cbn [show]. unfold debug_list. now rewrite map_map. Qed.
Lemma show_quotes s : debug_list debug_char s = show (quotes s).
Proof. unfold quotes. cbn [show]. unfold debug_list. now rewrite map_map. Qed.
Lemma good_map {A} (f : A -> tree) l : (forall x, In x l -> good (f x) = true) -> forallb good (map f l) = true.
Proof. intros H. apply forallb_forall. intros t Ht. apply in_map_iff in Ht. destruct Ht as (x & <- & Hx). auto. Qed.
Lemma good_numbers l : good (numbers l) = true.
Proof. cbn [good numbers]. now apply good_map. Qed.
Lemma good_quotes l : good (quotes l) = true.
Proof. cbn [good quotes]. now apply good_map. Qed.
Lemma show_one n t : debug_tuple n [show t] = show (TCall n [t]).
Proof. reflexivity. Qed.
Lemma good_one n t : name n = true -> good t = true -> good (TCall n [t]) = true.
Proof. intros A B. cbn [good forallb]. now rewrite A, B. Qed.

Definition holds {B} (y : symbology) (s : str) (f : B -> str) (b : B) : Prop :=
  exists v, new_value y s v /\ good v = true /\ f b = show v.
Definition Shown (y : symbology) (s : str) (d : M str) (u : M (result (list N))) : Prop :=
  match d with
  | Panic r => u = Panic r
  | Ret t => (exists e, u = Ret (Err e) /\ read_debug t = Some (TCall (lit "Err") [TName (error_name e)])) \/
             ((forall e, u <> Ret (Err e)) /\ exists v, new_value y s v /\ read_debug t = Some (TCall (lit "Ok") [v]))
  end.
Lemma result_shown {B} y s (f : B -> str) new enc : (forall b, new = Ret (Ok b) -> holds y s f b) ->
  Shown y s (r <- new ;; Ret (debug_result f r)) (run new enc).
Proof.
  intros H. destruct new as [[b|e]|r]; cbn [bind run Shown debug_result].
  - right. destruct (H b eq_refl) as (v & NV & G & E). split.
    + intros e. destruct (enc b); discriminate.
    + exists v. split; [assumption|]. rewrite E, show_one. apply read_show. now apply good_one.
  - left. exists e. split; [reflexivity|]. replace (debug_error e) with (show (TName (error_name e))) by (now destruct e).
    rewrite show_one. apply read_show. apply good_one; [reflexivity|]. now destruct e.
  - reflexivity.
Qed.
Lemma pure_shown {B} y s (f : B -> str) new enc : (forall b, new = Ok b -> holds y s f b) ->
  Shown y s (Ret (debug_result f new)) (run (Ret new) enc).
Proof. intros H. apply (result_shown y s f (Ret new) enc). intros b E. apply H. now injection E. Qed.
Lemma call_holds {B} y s (f : B -> str) b n t : new_value y s (TCall n [t]) -> name n = true -> good t = true ->
  f b = debug_tuple n [show t] -> holds y s f b.
Proof. intros NV A G E. exists (TCall n [t]). repeat split; [assumption | now apply good_one | now rewrite E]. Qed.

Lemma ean13_0_new p s b : ean13_new p s = Ret (Ok b) -> ean13_0 b = firstn 12 (digits_of s).
Proof. intros H. apply ean13_accepted in H. destruct H as [-> _]. reflexivity. Qed.
Lemma ean8_0_new p s b : ean8_new p s = Ret (Ok b) -> ean8_0 b = firstn 7 (digits_of s).
Proof. intros H. apply ean8_accepted in H. destruct H as [-> _]. reflexivity. Qed.
Lemma upca_0_new p s b : upca_new p s = Ret (Ok b) -> upca_0 b = firstn 11 (digits_of s).
Proof. intros H. apply upca_accepted in H. destruct H as [-> _]. reflexivity. Qed.
Lemma code39_holds y f s b : (y = SCode39 /\ f = false) \/ (y = SCode39Checked /\ f = true) -> code39_init s f = Ok b ->
  holds y s debug_code39 b.
Proof.
  intros HY H. apply code39_init_Ok in H. destruct H as (_ & -> & _).
  exists (TRecord (lit "Code39") [(lit "data", quotes s); (lit "checksum", truth f)]). split; [|split].
  - destruct HY as [[-> ->]|[-> ->]]; reflexivity.
  - cbn [good forallb fst snd]. change (forallb good (map TQuote s)) with (good (quotes s)). rewrite good_quotes. now destruct f.
  - cbn [show map fst snd]. unfold debug_code39. cbn [c39_data c39_checksum]. rewrite show_quotes. now destruct f.
Qed.
Lemma cod_name_ok c u : codabar_from_char c = Some u -> debug_cunit u = cod_name c /\ name (cod_name c) = true.
Proof.
  unfold codabar_from_char. intros H.
  repeat match type of H with
  | (if ?c =? ?x then _ else _) = _ => destruct (N.eqb_spec c x) as [->|_]; [injection H as <-; now split|]
  end. discriminate.
Qed.
Lemma codabar_holds s b : codabar_new s = Ret (Ok b) -> holds SCodabar s debug_codabar b.
Proof.
  intros H. apply codabar_new_Ok in H. destruct H as (_ & _ & us & HU & ->).
  apply call_holds with (n := lit "Codabar") (t := TList (map (fun c => TName (cod_name c)) s)).
  - reflexivity.
  - reflexivity.
  - cbn [good]. apply good_map. intros c Hc. cbn [good]. revert Hc. induction HU as [|c' u s us A _ IH]; [contradiction|].
    intros [->|Hc]; [now apply (cod_name_ok c u) | auto].
  - unfold debug_codabar. cbn [codabar_0 show]. unfold debug_list. rewrite map_map. cbn [show].
    replace (map debug_cunit us) with (map cod_name s); [reflexivity|].
    induction HU as [|c u s us A _ IH]; [reflexivity|]. cbn [map]. rewrite IH. now destruct (cod_name_ok c u A) as [-> _].
Qed.
Definition unit_tree (x : cset * N) : tree :=
  TRecord (lit "Unit") [(lit "kind", TName (set_name (fst x))); (lit "index", TNum (snd x))].
Lemma unit_shown k v : debug_unit (mkUnit (kunit k) v) = show (unit_tree (k, v)).
Proof. now destruct k. Qed.
Lemma combine_repeat {A B} (k : A) (l : list B) : combine (repeat k (length l)) l = map (pair k) l.
Proof. induction l as [|x l IH]; [reflexivity|]. cbn. now rewrite IH. Qed.
Lemma combine_app2 {A B} (a a' : list A) (b b' : list B) : length a = length b ->
  combine (a ++ a') (b ++ b') = combine a b ++ combine a' b'.
Proof. revert b. induction a as [|x a IH]; intros [|y b] H; try discriminate; [reflexivity|]. cbn. f_equal. apply IH. now injection H. Qed.
Lemma rest_shown segs : forall k, map debug_unit (rest_units k segs) =
  map show (map unit_tree (combine (later_sets k segs)
    (concat (map (fun x => switch_value (fst x) :: body_values (fst x) (snd x)) segs)))).
Proof.
  induction segs as [|[k' body] segs IH]; intros k; [reflexivity|].
  cbn [rest_units later_sets map concat fst snd app combine]. rewrite combine_app2 by apply repeat_length.
  rewrite combine_repeat, unit_shown, !map_app, IH. f_equal. f_equal. unfold body_units. rewrite !map_map.
  apply map_ext. intros v. apply unit_shown.
Qed.
Lemma units_shown segs : map debug_unit (message_units segs) =
  map show (map unit_tree (combine (message_sets segs) (message_values segs))).
Proof.
  destruct segs as [|[k body] segs]; [reflexivity|]. cbn [message_units message_sets message_values map combine].
  rewrite combine_app2 by apply repeat_length. rewrite combine_repeat, unit_shown, !map_app, rest_shown. f_equal. f_equal.
  unfold body_units. rewrite !map_map. apply map_ext. intros v. apply unit_shown.
Qed.
Lemma code128_holds s b : code128_new s = Ok b -> holds SCode128 s debug_code128 b.
Proof.
  intros H. destruct (code128_new_Ok s b H) as (segs & HM & -> & ->).
  apply call_holds with (n := lit "Code128") (t := message_tree segs).
  - exists segs. split; [assumption | now split].
  - reflexivity.
  - unfold message_tree. cbn [good]. apply good_map. intros [k v] _. now destruct k.
  - unfold debug_code128. cbn [c128_0]. unfold message_tree. cbn [show]. unfold debug_list. now rewrite units_shown.
Qed.
Lemma itf_holds p s b : tf_interleaved p s = Ret (Ok b) -> holds SItf s debug_tf b.
Proof.
  intros H. pose proof (itf_exact p s b H) as R. apply tf_interleaved_Ok in H. destruct H as (_ & _ & ds & -> & _).
  cbn [tf_raw_data] in R. eapply call_holds; [reflexivity | reflexivity | apply good_numbers |].
  cbn [debug_tf]. now rewrite R, show_numbers.
Qed.

Theorem new_shown y p s : Shown y s (debug_new y p s) (barcode y p s).
Proof.
  destruct y; cbn [debug_new barcode]; try (apply result_shown; intros b H); try (apply pure_shown; intros b H).
  - eapply call_holds; [reflexivity | reflexivity | apply good_numbers |]. unfold debug_ean13.
    now rewrite (ean13_0_new p s b H), show_numbers.
  - eapply call_holds; [reflexivity | reflexivity | apply good_numbers |]. unfold debug_ean8.
    now rewrite (ean8_0_new p s b H), show_numbers.
  - eapply call_holds; [reflexivity | reflexivity | apply good_numbers |]. unfold debug_upca.
    now rewrite (upca_0_new p s b H), show_numbers.
  - destruct (eansupp_new_Ok s b H) as (ds & HD & -> & HL).
    eapply call_holds; [reflexivity | now destruct (Nat.eqb _ _) | apply good_numbers |].
    rewrite digits_of_text_of. replace (length (text_of ds)) with (length ds) by (symmetry; apply map_length).
    destruct HL as [[-> ->]|[-> ->]]; cbn [debug_eansupp]; now rewrite show_numbers.
  - apply (code39_holds _ false); auto.
  - apply (code39_holds _ true); auto.
  - apply code93_new_Ok in H. destruct H as (_ & -> & _).
    eapply call_holds; [reflexivity | reflexivity | apply good_quotes |]. unfold debug_code93. now rewrite <- show_quotes.
  - apply code11_new_Ok in H. destruct H as (_ & -> & _).
    eapply call_holds; [reflexivity | reflexivity | apply good_quotes |]. unfold debug_code11. now rewrite <- show_quotes.
  - now apply codabar_holds.
  - now apply code128_holds.
  - now apply (itf_holds p).
  - apply tf_standard_Ok in H. destruct H as (_ & -> & _).
    eapply call_holds; [reflexivity | reflexivity | apply good_numbers |]. cbn [debug_tf]. now rewrite show_numbers.
Qed.

(** ** Generators *)
Lemma ascii_shown g : read_debug (debug_ascii g) = Some (TRecord (lit "ASCII")
  [(lit "height", TNum (ascii_height g)); (lit "xdim", TNum (ascii_xdim g))]).
Proof. exact (read_show (TRecord (lit "ASCII") [(lit "height", TNum (ascii_height g)); (lit "xdim", TNum (ascii_xdim g))]) eq_refl). Qed.
Lemma json_shown g : read_debug (debug_json g) = Some (TRecord (lit "JSON")
  [(lit "height", TNum (json_height g)); (lit "xdim", TNum (json_xdim g))]).
Proof. exact (read_show (TRecord (lit "JSON") [(lit "height", TNum (json_height g)); (lit "xdim", TNum (json_xdim g))]) eq_refl). Qed.
Definition svg_tree (g : SVG) : tree :=
  TRecord (lit "SVG") [(lit "height", TNum (svg_height g)); (lit "xdim", TNum (svg_xdim g));
    (lit "foreground", four (lit "Color") (red (svg_foreground g)) (green (svg_foreground g)) (blue (svg_foreground g)) (alpha (svg_foreground g)));
    (lit "background", four (lit "Color") (red (svg_background g)) (green (svg_background g)) (blue (svg_background g)) (alpha (svg_background g)));
    (lit "xmlns", match svg_xmlns g with None => TName (lit "None") | Some u => TCall (lit "Some") [TText u] end)].
Lemma svg_shown g : read_debug (debug_svg g) = Some (svg_tree g).
Proof.
  rewrite <- (read_show (svg_tree g)).
  - unfold svg_tree, debug_svg. now destruct (svg_xmlns g).
  - unfold svg_tree. now destruct (svg_xmlns g).
Qed.
Definition turn_name (r : rotation) : str :=
  match r with RZero => lit "Zero" | RNinety => lit "Ninety" | ROneEighty => lit "OneEighty" | RTwoSeventy => lit "TwoSeventy" end.
Definition kind_name (v : variant) : str :=
  match v with VGif => lit "GIF" | VPng => lit "PNG" | VWebp => lit "WEBP" | VBuffer => lit "ImageBuffer" end.
Definition image_tree (g : Image) : tree :=
  TRecord (kind_name (img_variant g)) [(lit "height", TNum (img_height g)); (lit "xdim", TNum (img_xdim g));
    (lit "rotation", TName (turn_name (img_rotation g)));
    (lit "foreground", four (lit "Color") (px_r (img_foreground g)) (px_g (img_foreground g)) (px_b (img_foreground g)) (px_a (img_foreground g)));
    (lit "background", four (lit "Color") (px_r (img_background g)) (px_g (img_background g)) (px_b (img_background g)) (px_a (img_background g)))].
Lemma image_shown g : read_debug (debug_image g) = Some (image_tree g).
Proof.
  rewrite <- (read_show (image_tree g)).
  - unfold image_tree, debug_image. destruct g as [v h x r f b]. now destruct v, r.
  - unfold image_tree. destruct g as [v h x r f b]. now destruct v, r.
Qed.
Lemma image_injective g g' : debug_image g = debug_image g' -> g = g'.
Proof.
  intros E. pose proof (image_shown g) as H. rewrite E, image_shown in H. destruct g as [v h x r f b], g' as [v' h' x' r' f' b'].
  destruct f, b, f', b'. unfold image_tree, four, numbers in H. cbn in H. injection H. clear H E. intros.
  assert (v = v') by (destruct v, v'; try reflexivity; discriminate).
  assert (r = r') by (destruct r, r'; try reflexivity; discriminate). congruence.
Qed.
Lemma svg_injective g g' : debug_svg g = debug_svg g' -> g = g'.
Proof.
  intros E. pose proof (svg_shown g) as H. rewrite E, svg_shown in H. destruct g as [h x f b u], g' as [h' x' f' b' u'].
  destruct f, b, f', b'. unfold svg_tree, four, numbers in H. cbn in H. injection H. clear H E. intros.
  assert (u = u') by (destruct u, u'; congruence). congruence.
Qed.

(** ** Equal texts, equal values *)
Definition Told {B} (f : B -> str) : Prop :=
  exists T : B -> tree, (forall b, good (T b) = true /\ f b = show (T b)) /\ (forall b b', T b = T b' -> b = b').
Lemma told_injective {B} (f : B -> str) : Told f -> forall b b', f b = f b' -> b = b'.
Proof.
  intros (T & H & I) b b' E. apply I. destruct (H b) as [G S]. destruct (H b') as [G' S'].
  apply read_show in G, G'. rewrite <- S in G. rewrite <- S' in G'. congruence.
Qed.
Lemma told_result {B} (f : B -> str) r r' : Told f -> debug_result f r = debug_result f r' -> r = r'.
Proof.
  intros TF. pose proof TF as (T & H & I).
  set (R := fun r : result B => match r with Ok b => TCall (lit "Ok") [T b] | Err e => TCall (lit "Err") [TName (error_name e)] end).
  assert (HR : forall r, read_debug (debug_result f r) = Some (R r)).
  { intros [b|e]; unfold R; rewrite <- read_show.
    - cbn [debug_result show map]. now destruct (H b) as [_ ->].
    - apply good_one; [reflexivity | now apply H].
    - now destruct e.
    - now destruct e. }
  intros E. pose proof (HR r) as A. rewrite E, HR in A. destruct r as [b|e], r' as [b'|e']; cbn in A; try discriminate.
  - f_equal. apply I. congruence.
  - f_equal. destruct e, e'; try reflexivity; discriminate.
Qed.
Lemma map_inj {A B} (f : A -> B) : (forall a b, f a = f b -> a = b) -> forall l l', map f l = map f l' -> l = l'.
Proof.
  intros I. induction l as [|x l IH]; intros [|y l'] H; try discriminate; [reflexivity|].
  cbn [map] in H. assert (f x = f y) by congruence. assert (map f l = map f l') by congruence. f_equal; auto.
Qed.
Lemma numbers_inj l l' : numbers l = numbers l' -> l = l'.
Proof. unfold numbers. intros H. apply (map_inj TNum); congruence. Qed.
Lemma quotes_inj l l' : quotes l = quotes l' -> l = l'.
Proof. unfold quotes. intros H. apply (map_inj TQuote); congruence. Qed.
Lemma told_ean13 : Told debug_ean13.
Proof.
  exists (fun b => TCall (lit "EAN13") [numbers (ean13_0 b)]). split.
  - intros b. split; [apply good_one; [reflexivity | apply good_numbers] | unfold debug_ean13; now rewrite show_numbers].
  - intros [l] [l'] H. f_equal. apply numbers_inj. cbn [ean13_0] in H. congruence.
Qed.
Lemma told_ean8 : Told debug_ean8.
Proof.
  exists (fun b => TCall (lit "EAN8") [numbers (ean8_0 b)]). split.
  - intros b. split; [apply good_one; [reflexivity | apply good_numbers] | unfold debug_ean8; now rewrite show_numbers].
  - intros [l] [l'] H. f_equal. apply numbers_inj. cbn [ean8_0] in H. congruence.
Qed.
Lemma told_upca : Told debug_upca.
Proof.
  exists (fun b => TCall (lit "UPCA") [numbers (upca_0 b)]). split.
  - intros b. split; [apply good_one; [reflexivity | apply good_numbers] | unfold debug_upca; now rewrite show_numbers].
  - intros [l] [l'] H. f_equal. apply numbers_inj. cbn [upca_0] in H. congruence.
Qed.
Lemma told_eansupp : Told debug_eansupp.
Proof.
  exists (fun b => match b with EAN2 d => TCall (lit "EAN2") [numbers d] | EAN5 d => TCall (lit "EAN5") [numbers d] end). split.
  - intros [d|d]; (split; [apply good_one; [reflexivity | apply good_numbers] | cbn [debug_eansupp]; now rewrite show_numbers]).
  - intros [d|d] [d'|d'] H; try discriminate; f_equal; apply numbers_inj; congruence.
Qed.
Lemma told_tf : Told debug_tf.
Proof.
  exists (fun b => match b with Standard d => TCall (lit "Standard") [numbers d] | Interleaved d => TCall (lit "Interleaved") [numbers d] end). split.
  - intros [d|d]; (split; [apply good_one; [reflexivity | apply good_numbers] | cbn [debug_tf]; now rewrite show_numbers]).
  - intros [d|d] [d'|d'] H; try discriminate; f_equal; apply numbers_inj; congruence.
Qed.
Lemma told_code39 : Told debug_code39.
Proof.
  exists (fun b => TRecord (lit "Code39") [(lit "data", quotes (c39_data b)); (lit "checksum", truth (c39_checksum b))]). split.
  - intros [s f]. cbn [c39_data c39_checksum]. split.
    + cbn [good forallb fst snd]. change (forallb good (map TQuote s)) with (good (quotes s)). rewrite good_quotes. now destruct f.
    + cbn [show map fst snd]. unfold debug_code39. cbn [c39_data c39_checksum]. rewrite show_quotes. now destruct f.
  - intros [s f] [s' f'] H. cbn [c39_data c39_checksum] in H. assert (E : quotes s = quotes s') by congruence.
    apply quotes_inj in E. subst s'. assert (F : truth f = truth f') by congruence. f_equal. destruct f, f'; try reflexivity; discriminate.
Qed.
Lemma told_code93 : Told debug_code93.
Proof.
  exists (fun b => TCall (lit "Code93") [quotes (c93_0 b)]). split.
  - intros b. split; [apply good_one; [reflexivity | apply good_quotes] | unfold debug_code93; now rewrite show_quotes].
  - intros [l] [l'] H. f_equal. apply quotes_inj. cbn [c93_0] in H. congruence.
Qed.
Lemma told_code11 : Told debug_code11.
Proof.
  exists (fun b => TCall (lit "Code11") [quotes (c11_0 b)]). split.
  - intros b. split; [apply good_one; [reflexivity | apply good_quotes] | unfold debug_code11; now rewrite show_quotes].
  - intros [l] [l'] H. f_equal. apply quotes_inj. cbn [c11_0] in H. congruence.
Qed.
Lemma told_codabar : Told debug_codabar.
Proof.
  exists (fun b => TCall (lit "Codabar") [TList (map (fun u => TName (debug_cunit u)) (codabar_0 b))]). split.
  - intros [l]. cbn [codabar_0]. split.
    + apply good_one; [reflexivity|]. cbn [good]. apply good_map. intros u _. now destruct u.
    + unfold debug_codabar. cbn [codabar_0 show map]. unfold debug_list. now rewrite map_map.
  - intros [l] [l'] H. cbn [codabar_0] in H. f_equal. apply (map_inj (fun u => TName (debug_cunit u))); [|congruence].
    intros a b E. assert (F : debug_cunit a = debug_cunit b) by congruence. destruct a, b; try reflexivity; discriminate.
Qed.
Definition unit_tree' (u : unit128) : tree :=
  TRecord (lit "Unit") [(lit "kind", TName (debug_kind (u_kind u))); (lit "index", TNum (u_index u))].
Lemma told_code128 : Told debug_code128.
Proof.
  exists (fun b => TCall (lit "Code128") [TList (map unit_tree' (c128_0 b))]). split.
  - intros [l]. cbn [c128_0]. split.
    + apply good_one; [reflexivity|]. cbn [good]. apply good_map. intros [k v] _. now destruct k.
    + unfold debug_code128. cbn [c128_0 show map]. unfold debug_list. now rewrite map_map.
  - intros [l] [l'] H. cbn [c128_0] in H. f_equal. apply (map_inj unit_tree'); [|congruence].
    intros [a v] [b w] E. unfold unit_tree' in E. cbn [u_kind u_index] in E.
    assert (F : debug_kind a = debug_kind b) by congruence. assert (v = w) by congruence. subst w.
    destruct a, b; try reflexivity; discriminate.
Qed.
Lemma same_run {B} (f : B -> str) new new' enc t : Told f ->
  (r <- new ;; Ret (debug_result f r)) = Ret t -> (r <- new' ;; Ret (debug_result f r)) = Ret t -> run new enc = run new' enc.
Proof.
  intros TF. destruct new as [r|]; [|discriminate]. destruct new' as [r'|]; [|discriminate]. cbn [bind]. intros E E'.
  assert (X : debug_result f r = debug_result f r') by congruence. apply (told_result f r r' TF) in X. now subst.
Qed.
Theorem same_text y p s s' t : debug_new y p s = Ret t -> debug_new y p s' = Ret t -> barcode y p s = barcode y p s'.
Proof.
  destruct y; cbn [debug_new barcode].
  - apply (same_run _ _ _ _ t told_ean13).
  - apply (same_run _ _ _ _ t told_ean8).
  - apply (same_run _ _ _ _ t told_upca).
  - apply (same_run _ _ _ _ t told_eansupp).
  - apply (same_run _ (Ret _) (Ret _) _ t told_code39).
  - apply (same_run _ (Ret _) (Ret _) _ t told_code39).
  - apply (same_run _ (Ret _) (Ret _) _ t told_code93).
  - apply (same_run _ (Ret _) (Ret _) _ t told_code11).
  - apply (same_run _ _ _ _ t told_codabar).
  - apply (same_run _ (Ret _) (Ret _) _ t told_code128).
  - apply (same_run _ _ _ _ t told_tf).
  - apply (same_run _ _ _ _ t told_tf).
Qed.
End Tables.
