(** * Proofs about Code 128: the tokenizer *)
From Verif Require Import Rust M_Error M_Tables M_Code128
  S_Barcode S_Linear S_Tf S_Code128 P_Rust P_Barcode P_Parse.

Definition kset (k : cset) : charset := match k with CA => SetA | CB => SetB | CC => SetC end.
Definition kunit (k : cset) : unit_kind := match k with CA => KA | CB => KB | CC => KC end.
Definition cset_eqb (a b : cset) : bool :=
  match a, b with CA, CA | CB, CB | CC, CC => true | _, _ => false end.
Lemma cset_eqb_eq a b : cset_eqb a b = true <-> a = b.
Proof. destruct a, b; cbn; split; intros; congruence. Qed.
Definition set_of (c : char) : option cset :=
  if c =? 192 then Some CA else if c =? 385 then Some CB else if c =? 262 then Some CC else None.
Lemma set_of_char k : set_of (set_char k) = Some k.
Proof. destruct k; reflexivity. Qed.
Lemma set_of_Some c k : set_of c = Some k -> c = set_char k.
Proof.
  unfold set_of. destruct (c =? 192) eqn:E1; [apply N.eqb_eq in E1; intros H; inversion H; now subst|].
  destruct (c =? 385) eqn:E2; [apply N.eqb_eq in E2; intros H; inversion H; now subst|].
  destruct (c =? 262) eqn:E3; [apply N.eqb_eq in E3; intros H; inversion H; now subst|]. discriminate.
Qed.
Lemma is_set_char_of c : is_set_char c = match set_of c with Some _ => true | None => false end.
Proof.
  unfold is_set_char, set_of, chA, chB, chC.
  destruct (c =? 192); [reflexivity|]. destruct (c =? 385); [reflexivity|].
  destruct (c =? 262); reflexivity.
Qed.
Lemma charset_from_set_char k : charset_from_char (set_char k) = Ok (kset k).
Proof. destruct k; reflexivity. Qed.

(** ** Legal characters as lists *)
Definition fn_list : list char := [FNC1; FNC2; FNC3; FNC4; SHIFT].
Definition legal_list (k : cset) : list char :=
  match k with
  | CA => range 96 ++ fn_list
  | CB => map (fun x => x + 32) (range 95) ++ 247 :: fn_list
  | CC => map (fun x => x + 48) (range 10) ++ [FNC1]
  end.
Definition legalb (k : cset) (c : char) : bool := existsb (fun v => v =? c) (legal_list k).
Lemma In_shifted_range n o c : In c (map (fun x => x + o) (range n)) <-> o <= c < n + o.
Proof.
  rewrite in_map_iff. split.
  - intros [x [<- Hx]]. apply In_range in Hx. lia.
  - intros H. exists (c - o). split; [lia|]. apply In_range. lia.
Qed.
Lemma legal_In k c : legal k c <-> In c (legal_list k).
Proof.
  destruct k; unfold legal, legal_list; rewrite in_app_iff.
  - rewrite In_range. reflexivity.
  - rewrite In_shifted_range. cbn [In]. fold (In c fn_list). split.
    + intros [H|[H|H]]; [left; lia | right; left; congruence | right; right; exact H].
    + intros [H|[H|H]]; [left; lia | right; left; congruence | right; right; exact H].
  - rewrite In_shifted_range. unfold digit. cbn [In]. rewrite andb_true_iff, !N.leb_le.
    split; intros [H|H]; try (left; lia); right; [now left | destruct H; [congruence | contradiction]].
Qed.
Lemma legalb_spec k c : legalb k c = true <-> legal k c.
Proof. unfold legalb. rewrite legal_In. apply existsb_eqb_In. Qed.
Lemma legalb_false k c : legalb k c = false <-> ~ legal k c.
Proof. rewrite <- legalb_spec. destruct (legalb k c); split; congruence. Qed.

(** ** Facts about single characters, checked on the lists *)
Lemma legal_all k (f : char -> bool) : forallb f (legal_list k) = true ->
  forall c, legal k c -> f c = true.
Proof. intros H c Hc. rewrite forallb_forall in H. apply H. now apply legal_In. Qed.
Lemma legal_not_set k c : legal k c -> set_of c = None.
Proof.
  intros H. assert (E : match set_of c with Some _ => false | None => true end = true).
  { revert c H. apply legal_all. destruct k; vm_compute; reflexivity. }
  destruct (set_of c); [discriminate | reflexivity].
Qed.

Definition lookup_is (r : result unit128) (u : unit128) : bool :=
  match r with
  | Ok v => (match u_kind v, u_kind u with KA, KA | KB, KB | KC, KC => true | _, _ => false end)
            && (u_index v =? u_index u)
  | Err _ => false
  end.
Lemma lookup_is_eq r u : lookup_is r u = true -> r = Ok u.
Proof.
  destruct r as [v|e]; [|discriminate]. destruct v as [kv nv], u as [ku nu]. cbn.
  intros H. apply andb_prop in H. destruct H as [H1 H2]. apply N.eqb_eq in H2. subst.
  destruct kv, ku; congruence.
Qed.

Lemma lookup_legal k c : legal k c -> (k = CC -> digit c = false) ->
  charset_lookup (kset k) [c] = Ok (mkUnit (kunit k) (char_value k c)).
Proof.
  intros H HC. apply lookup_is_eq.
  assert (E : (match k with CC => digit c | _ => false end)
              || lookup_is (charset_lookup (kset k) [c]) (mkUnit (kunit k) (char_value k c)) = true).
  { revert c H HC. intros c H _. revert c H. apply legal_all. destruct k; vm_compute; reflexivity. }
  destruct k; try exact E. rewrite HC in E by reflexivity. exact E.
Qed.
Lemma lookup_switch k k' : k <> k' ->
  charset_lookup (kset k) [set_char k'] = Ok (mkUnit (kunit k) (switch_value k')).
Proof. intros H. destruct k, k'; try congruence; vm_compute; reflexivity. Qed.
Lemma lookup_start k :
  charset_lookup (kset k) (lit "START-" ++ [set_char k]) = Ok (mkUnit (kunit k) (start_value k)).
Proof. destruct k; vm_compute; reflexivity. Qed.
Lemma digit_In_list c : digit c = true -> In c (map (fun x => x + 48) (range 10)).
Proof.
  unfold digit. rewrite andb_true_iff, !N.leb_le. intros H. apply In_shifted_range. lia.
Qed.
Lemma lookup_pair x y : digit x = true -> digit y = true ->
  charset_lookup SetC [x; y] = Ok (mkUnit KC (pair_value x y)).
Proof.
  intros Hx Hy. apply digit_In_list in Hx, Hy. apply lookup_is_eq.
  assert (F : forallb (fun x => forallb (fun y =>
     lookup_is (charset_lookup SetC [x; y]) (mkUnit KC (pair_value x y)))
       (map (fun x => x + 48) (range 10))) (map (fun x => x + 48) (range 10)) = true) by (vm_compute; reflexivity).
  rewrite forallb_forall in F. specialize (F x Hx). rewrite forallb_forall in F. exact (F y Hy).
Qed.

Lemma position_In {A} (f : A -> bool) l i : position f l = Some i -> exists x, In x l /\ f x = true.
Proof.
  revert i. induction l as [|x l IH]; intros i H; cbn [position] in H; [discriminate|].
  destruct (f x) eqn:E; [exists x; split; [now left | assumption]|].
  destruct (position f l) as [j|]; [|discriminate]. destruct (IH j eq_refl) as [y [Hy Ey]].
  exists y. split; [now right | assumption].
Qed.
Lemma lookup_none k c : ~ legal k c -> (forall k', c = set_char k' -> k' = k) ->
  charset_lookup (kset k) [c] = Err ECharacter.
Proof.
  intros H HS. unfold charset_lookup.
  destruct (charset_index (kset k)) as [p|e] eqn:Ep; [|destruct k; discriminate].
  destruct (position _ code128_CHARS) as [i|] eqn:Ei; [|reflexivity]. exfalso.
  apply position_In in Ei. destruct Ei as [row [Hrow E]]. apply str_eqb_eq in E.
  assert (F : forallb (fun row => match column p row with
      | [x] => legalb k x || existsb (fun k' => negb (cset_eqb k k') && (x =? set_char k')) [CA; CB; CC]
      | _ => true end) code128_CHARS = true).
  { destruct k; inversion Ep; subst p; vm_compute; reflexivity. }
  rewrite forallb_forall in F. specialize (F row Hrow). cbv beta in F. rewrite E in F.
  apply orb_prop in F. destruct F as [F|F].
  - apply H. now apply legalb_spec.
  - apply existsb_exists in F. destruct F as [k' [_ F]]. apply andb_prop in F. destruct F as [F1 F2].
    apply N.eqb_eq in F2. rewrite (HS k' F2) in F1.
    rewrite (proj2 (cset_eqb_eq k k) eq_refl) in F1. discriminate.
Qed.

(** ** The tokenizer as a function of code set and pending digit *)
Definition ocons (u : unit128) (o : option (list unit128)) : option (list unit128) := option_map (cons u) o.
Fixpoint tokenize (k : cset) (carry : option char) (s : str) : option (list unit128) :=
  match s with
  | [] => match carry with None => Some [] | Some _ => None end
  | c :: tl =>
      match set_of c with
      | Some k' =>
          if cset_eqb k k' then None
          else match carry with
               | Some _ => None
               | None => ocons (mkUnit (kunit k) (switch_value k')) (tokenize k' None tl)
               end
      | None =>
          if digit c && cset_eqb k CC then
            match carry with
            | None => tokenize k (Some c) tl
            | Some x => ocons (mkUnit KC (pair_value x c)) (tokenize k None tl)
            end
          else if legalb k c
          then ocons (mkUnit (kunit k) (char_value k c)) (tokenize k carry tl)
          else None
      end
  end.

Definition carry_ok (k : cset) (carry : option char) : Prop :=
  match carry with Some x => k = CC /\ digit x = true | None => True end.

Lemma kset_eqb_C k : charset_eqb (kset k) SetC = cset_eqb k CC.
Proof. destruct k; reflexivity. Qed.

Lemma tokenize_loop s : forall k carry u us, carry_ok k carry ->
  match tokenize k carry s with
  | Some vs => exists st, code128_loop (mkTok (u :: us) (kset k) carry) s = Ok st /\
                 t_carry st = None /\ t_units st = (u :: us) ++ vs
  | None => code128_loop (mkTok (u :: us) (kset k) carry) s = Err ECharacter \/
            exists st x, code128_loop (mkTok (u :: us) (kset k) carry) s = Ok st /\ t_carry st = Some x
  end.
Proof.
  induction s as [|c s IH]; intros k carry u us HC.
  - cbn [tokenize code128_loop]. destruct carry as [x|].
    + right. do 2 eexists. split; reflexivity.
    + eexists. split; [reflexivity|]. split; [reflexivity|]. cbn [t_units]. now rewrite app_nil_r.
  - cbn [tokenize code128_loop].
    assert (STEP : forall v k2 carry2, carry_ok k2 carry2 ->
      code128_step (mkTok (u :: us) (kset k) carry) c = Ok (mkTok ((u :: us) ++ [v]) (kset k2) carry2) ->
      match ocons v (tokenize k2 carry2 s) with
      | Some vs => exists st, match code128_step (mkTok (u :: us) (kset k) carry) c with
                              | Ok st' => code128_loop st' s | Err e => Err e end = Ok st /\
                   t_carry st = None /\ t_units st = (u :: us) ++ vs
      | None => match code128_step (mkTok (u :: us) (kset k) carry) c with
                              | Ok st' => code128_loop st' s | Err e => Err e end = Err ECharacter \/
              exists st x, match code128_step (mkTok (u :: us) (kset k) carry) c with
                              | Ok st' => code128_loop st' s | Err e => Err e end = Ok st /\ t_carry st = Some x
      end).
    { intros v k2 carry2 H2 E. rewrite E. specialize (IH k2 carry2 u (us ++ [v]) H2).
      cbn [app]. destruct (tokenize k2 carry2 s) as [vs|]; cbn [ocons option_map].
      - destruct IH as [st [E1 [E2 E3]]]. exists st. split; [exact E1|]. split; [exact E2|].
        rewrite E3. cbn [app]. now rewrite <- app_assoc.
      - exact IH. }
    assert (FAIL : code128_step (mkTok (u :: us) (kset k) carry) c = Err ECharacter ->
      match code128_step (mkTok (u :: us) (kset k) carry) c with
         | Ok st' => code128_loop st' s | Err e => Err e end = Err ECharacter \/
      exists st x, match code128_step (mkTok (u :: us) (kset k) carry) c with
                              | Ok st' => code128_loop st' s | Err e => Err e end = Ok st /\ t_carry st = Some x).
    { intros ->. now left. }
    destruct (set_of c) as [k'|] eqn:Es.
    + pose proof (set_of_Some c k' Es) as Ec.
      assert (ES : code128_step (mkTok (u :: us) (kset k) carry) c =
        if charset_eqb (kset k) SetC && (match carry with Some _ => true | None => false end)
        then Err ECharacter
        else match charset_lookup (kset k) [c] with
             | Err e => Err e
             | Ok v => Ok (mkTok ((u :: us) ++ [v]) (kset k') carry) end).
      { unfold code128_step. rewrite is_set_char_of, Es. cbn [is_nil t_units andb t_set t_carry].
        subst c. rewrite charset_from_set_char. reflexivity. }
      destruct (cset_eqb k k') eqn:Ek.
      * apply cset_eqb_eq in Ek. subst k'. apply FAIL. rewrite ES.
        rewrite lookup_none.
        -- destruct (_ && _); reflexivity.
        -- intros G. apply legal_not_set in G. congruence.
        -- intros k' G. subst c. destruct k, k'; cbn in G; congruence.
      * assert (Hk : k <> k') by (intros G; apply cset_eqb_eq in G; congruence).
        destruct carry as [x|].
        -- apply FAIL. rewrite ES. destruct HC as [-> _]. reflexivity.
        -- apply STEP; [exact I|]. rewrite ES, andb_false_r. subst c.
           now rewrite lookup_switch.
    + assert (ES : code128_step (mkTok (u :: us) (kset k) carry) c =
        if digit c && cset_eqb k CC then
          match carry with
          | None => Ok (mkTok (u :: us) (kset k) (Some c))
          | Some n => match charset_lookup (kset k) [n; c] with
                      | Err e => Err e
                      | Ok v => Ok (mkTok ((u :: us) ++ [v]) (kset k) None) end
          end
        else match charset_lookup (kset k) [c] with
             | Err e => Err e
             | Ok v => Ok (mkTok ((u :: us) ++ [v]) (kset k) carry) end).
      { unfold code128_step. rewrite is_set_char_of, Es. cbn [andb t_set t_carry t_units].
        rewrite kset_eqb_C. reflexivity. }
      destruct (digit c && cset_eqb k CC) eqn:Ed.
      * apply andb_prop in Ed. destruct Ed as [Ed Ek]. apply cset_eqb_eq in Ek. subst k.
        destruct carry as [x|].
        -- apply STEP; [exact I|]. rewrite ES. destruct HC as [_ Hx].
           change (kset CC) with SetC. now rewrite lookup_pair.
        -- rewrite ES. apply IH. split; [reflexivity | assumption].
      * destruct (legalb k c) eqn:El.
        -- apply STEP; [assumption|]. rewrite ES. rewrite lookup_legal.
           ++ reflexivity.
           ++ now apply legalb_spec.
           ++ intros ->. now rewrite andb_true_r in Ed.
        -- apply FAIL. rewrite ES. rewrite lookup_none; [reflexivity| now apply legalb_false|].
           intros k' ->. rewrite set_of_char in Es. discriminate.
Qed.

(** ** Code128::new *)
Definition parse128 (s : str) : option (list unit128) :=
  match s with
  | [] => None
  | c :: tl => match set_of c with
               | Some k => ocons (mkUnit (kunit k) (start_value k)) (tokenize k None tl)
               | None => None
               end
  end.
Lemma step_start k : code128_step tok0 (set_char k) =
  Ok (mkTok [mkUnit (kunit k) (start_value k)] (kset k) None).
Proof. destruct k; vm_compute; reflexivity. Qed.
Lemma step_no_set c : set_of c = None -> code128_step tok0 c = Err ECharacter.
Proof.
  intros E. unfold code128_step. rewrite is_set_char_of, E. cbn [andb tok0 t_set t_units t_carry].
  change (charset_eqb SetNone SetC) with false. rewrite andb_false_r. reflexivity.
Qed.
Lemma code128_new_parse s :
  code128_new s =
  if str_len s <? 2 then Err ELength
  else match parse128 s with Some us => Ok (mkCode128 us) | None => Err ECharacter end.
Proof.
  unfold code128_new. destruct (str_len s <? 2) eqn:El; [reflexivity|].
  unfold code128_parse. destruct s as [|c s]; [discriminate|].
  cbn [code128_loop parse128]. destruct (set_of c) as [k|] eqn:Es.
  - apply set_of_Some in Es. subst c. rewrite step_start.
    pose proof (tokenize_loop s k None (mkUnit (kunit k) (start_value k)) [] I) as H.
    destruct (tokenize k None s) as [vs|]; cbn [ocons option_map].
    + destruct H as [st [E1 [E2 E3]]]. rewrite E1, E2, E3. reflexivity.
    + destruct H as [E|[st [x [E1 E2]]]]; [now rewrite E|]. now rewrite E1, E2.
  - now rewrite step_no_set.
Qed.

(** ** Tokenizer and segments *)
Lemma tokenize_body_plain k body : k <> CC -> Forall (legal k) body -> forall rest,
  tokenize k None (body ++ rest) =
  option_map (app (map (fun c => mkUnit (kunit k) (char_value k c)) body)) (tokenize k None rest).
Proof.
  intros Hk. induction 1 as [|c body Hc H IH]; intros rest; cbn [app map].
  - destruct (tokenize k None rest); reflexivity.
  - cbn [tokenize]. rewrite (legal_not_set k c Hc).
    assert (E : cset_eqb k CC = false) by (destruct k; congruence || reflexivity).
    rewrite E, andb_false_r. rewrite (proj2 (legalb_spec k c) Hc). rewrite IH.
    destruct (tokenize k None rest); reflexivity.
Qed.
Definition pair_units (first : option char) (body : str) : list unit128 :=
  map (mkUnit KC) (pair_values first body).
Lemma tokenize_body_C body : Forall (legal CC) body -> forall carry rest,
  Nat.even (digits_in body) = match carry with None => true | Some _ => false end ->
  tokenize CC carry (body ++ rest) =
  option_map (app (pair_units carry body)) (tokenize CC None rest).
Proof.
  induction 1 as [|c body Hc H IH]; intros carry rest HE; cbn [app].
  - destruct carry; [discriminate|]. destruct (tokenize CC None rest); reflexivity.
  - cbn [tokenize]. rewrite (legal_not_set CC c Hc). cbn [cset_eqb]. rewrite andb_true_r.
    unfold digits_in in HE. cbn [filter] in HE. unfold pair_units. cbn [pair_values].
    destruct (digit c) eqn:Ed.
    + cbn [length] in HE. rewrite Nat.even_succ, <- Nat.negb_even in HE.
      fold (digits_in body) in HE. destruct carry as [x|].
      * rewrite IH by (destruct (Nat.even (digits_in body)); [reflexivity|discriminate]).
        destruct (tokenize CC None rest); reflexivity.
      * rewrite IH by (destruct (Nat.even (digits_in body)); [discriminate|reflexivity]).
        reflexivity.
    + rewrite (proj2 (legalb_spec CC c) Hc). rewrite IH by exact HE.
      assert (EV : char_value CC c = fn_value CC c).
      { destruct Hc as [Hc| ->]; [congruence | reflexivity]. }
      rewrite EV. destruct (tokenize CC None rest); reflexivity.
Qed.

Definition body_units (k : cset) (body : str) : list unit128 :=
  map (mkUnit (kunit k)) (body_values k body).
Lemma tokenize_segment k body rest : segment_ok (k, body) ->
  tokenize k None (body ++ rest) = option_map (app (body_units k body)) (tokenize k None rest).
Proof.
  intros [HL HE]. cbn [fst snd] in *. unfold body_units.
  destruct k; cbn [body_values].
  - rewrite tokenize_body_plain by (assumption || discriminate). now rewrite map_map.
  - rewrite tokenize_body_plain by (assumption || discriminate). now rewrite map_map.
  - apply tokenize_body_C; [assumption|]. now apply HE.
Qed.

Fixpoint rest_units (k : cset) (segs : list segment) : list unit128 :=
  match segs with
  | [] => []
  | (k', body) :: tl => mkUnit (kunit k) (switch_value k') :: body_units k' body ++ rest_units k' tl
  end.
Lemma tokenize_segments segs : forall k, Forall segment_ok segs -> all_change (k :: map fst segs) ->
  tokenize k None (spell segs) = Some (rest_units k segs).
Proof.
  induction segs as [|[k' body] segs IH]; intros k HF HA; [reflexivity|].
  inversion HF as [|? ? Hb HF']; subst. cbn [map fst] in HA. destruct HA as [Hk HA].
  unfold spell. cbn [map concat fst snd app]. cbn [tokenize]. rewrite set_of_char.
  assert (E : cset_eqb k k' = false).
  { destruct (cset_eqb k k') eqn:E; [|reflexivity]. apply cset_eqb_eq in E. contradiction. }
  rewrite E. rewrite tokenize_segment by assumption.
  fold (spell segs). rewrite IH by assumption. reflexivity.
Qed.

Definition message_units (segs : list segment) : list unit128 :=
  match segs with
  | [] => []
  | (k, body) :: tl => mkUnit (kunit k) (start_value k) :: body_units k body ++ rest_units k tl
  end.
Lemma parse128_spell segs : message_ok segs -> parse128 (spell segs) = Some (message_units segs).
Proof.
  intros [Hn [HF HA]]. destruct segs as [|[k body] segs]; [congruence|].
  inversion HF as [|? ? Hb HF']; subst.
  unfold spell. cbn [map concat fst snd app]. cbn [parse128]. rewrite set_of_char.
  rewrite tokenize_segment by assumption. fold (spell segs).
  rewrite tokenize_segments; [reflexivity | assumption|]. exact HA.
Qed.

Lemma u_index_units k vs : map u_index (map (mkUnit k) vs) = vs.
Proof. rewrite map_map. cbn. apply map_id. Qed.
Lemma rest_units_values segs : forall k,
  map u_index (rest_units k segs) =
  concat (map (fun x => switch_value (fst x) :: body_values (fst x) (snd x)) segs).
Proof.
  induction segs as [|[k' body] segs IH]; intros k; [reflexivity|].
  cbn [rest_units map concat fst snd u_index app]. rewrite map_app, IH. unfold body_units.
  now rewrite u_index_units.
Qed.
Lemma message_units_values segs : map u_index (message_units segs) = message_values segs.
Proof.
  destruct segs as [|[k body] segs]; [reflexivity|].
  cbn [message_units message_values map u_index]. rewrite map_app, rest_units_values.
  unfold body_units. now rewrite u_index_units.
Qed.

(** Soundness: whatever the tokenizer takes is a sequence of segments. *)
Lemma tokenize_sound s : forall k carry us, tokenize k carry s = Some us ->
  exists body segs, s = body ++ spell segs /\ Forall (legal k) body /\
    (k = CC -> Nat.even (digits_in body) = match carry with None => true | Some _ => false end) /\
    Forall segment_ok segs /\ all_change (k :: map fst segs).
Proof.
  induction s as [|c s IH]; intros k carry us H.
  - exists [], []. cbn [tokenize] in H. destruct carry; [discriminate|].
    repeat split; constructor.
  - cbn [tokenize] in H. destruct (set_of c) as [k'|] eqn:Es.
    + destruct (cset_eqb k k') eqn:Ek; [discriminate|]. destruct carry; [discriminate|].
      apply set_of_Some in Es. destruct (tokenize k' None s) as [vs|] eqn:Et; [|discriminate].
      destruct (IH k' None vs Et) as [body [segs [E [HL [HE [HF HA]]]]]].
      exists [], ((k', body) :: segs). split; [|split; [constructor|split; [reflexivity|split]]].
      * unfold spell. cbn [map concat fst snd app]. subst c. f_equal. exact E.
      * constructor; [|assumption]. split; cbn [fst snd]; assumption.
      * cbn [map fst]. split; [|exact HA]. intros G. apply cset_eqb_eq in G. congruence.
    + destruct (digit c && cset_eqb k CC) eqn:Ed.
      * apply andb_prop in Ed. destruct Ed as [Ed Ek]. apply cset_eqb_eq in Ek. subst k.
        assert (HD : exists carry2 vs, tokenize CC carry2 s = Some vs /\
                   (match carry2 with None => true | Some _ => false end)
                   = negb (match carry with None => true | Some _ => false end)).
        { destruct carry as [x|].
          - destruct (tokenize CC None s) as [vs|] eqn:Et; [|discriminate]. exists None, vs. now split.
          - exists (Some c), us. now split. }
        destruct HD as [carry2 [vs [Et Ec]]].
        destruct (IH CC carry2 vs Et) as [body [segs [E [HL [HE [HF HA]]]]]].
        exists (c :: body), segs. split; [cbn [app]; congruence|].
        split; [constructor; [now left | assumption]|]. split; [|split; assumption].
        intros _. unfold digits_in. cbn [filter]. rewrite Ed. cbn [length].
        rewrite Nat.even_succ, <- Nat.negb_even. fold (digits_in body). rewrite HE by reflexivity.
        rewrite Ec. apply negb_involutive.
      * destruct (legalb k c) eqn:El; [|discriminate]. apply legalb_spec in El.
        destruct (tokenize k carry s) as [vs|] eqn:Et; [|discriminate].
        destruct (IH k carry vs Et) as [body [segs [E [HL [HE [HF HA]]]]]].
        exists (c :: body), segs. split; [cbn [app]; congruence|].
        split; [now constructor|]. split; [|split; assumption].
        intros Hk. specialize (HE Hk). subst k. rewrite andb_true_r in Ed.
        unfold digits_in. cbn [filter]. rewrite Ed. exact HE.
Qed.
Lemma parse128_sound s us : parse128 s = Some us -> exists segs, message_ok segs /\ s = spell segs.
Proof.
  destruct s as [|c s]; [discriminate|]. cbn [parse128].
  destruct (set_of c) as [k|] eqn:Es; [|discriminate]. apply set_of_Some in Es. subst c.
  destruct (tokenize k None s) as [vs|] eqn:Et; [|discriminate]. intros _.
  destruct (tokenize_sound s k None vs Et) as [body [segs [E [HL [HE [HF HA]]]]]].
  exists ((k, body) :: segs). split.
  - split; [discriminate|]. split; [|exact HA]. constructor; [|assumption]. split; assumption.
  - unfold spell. cbn [map concat fst snd app]. now rewrite E.
Qed.

Lemma code128_new_spec s :
  (code128_new s = Err ELength <-> str_len s < 2) /\
  ((exists b, code128_new s = Ok b) <-> 2 <= str_len s /\ exists segs, message_ok segs /\ s = spell segs) /\
  (code128_new s = Err ECharacter <-> 2 <= str_len s /\ ~ exists segs, message_ok segs /\ s = spell segs) /\
  code128_new s <> Err EChecksum.
Proof.
  rewrite code128_new_parse. destruct (str_len s <? 2) eqn:El.
  - apply N.ltb_lt in El. split; [split; [intros _; assumption | reflexivity]|].
    split; [split; [intros [b H]; discriminate | intros [H _]; lia]|].
    split; [split; [discriminate | intros [H _]; lia] | discriminate].
  - apply N.ltb_ge in El. destruct (parse128 s) as [us|] eqn:Ep.
    + apply parse128_sound in Ep.
      split; [split; [discriminate | lia]|]. split; [split; [intros _; now split | eauto]|].
      split; [split; [discriminate | intros [_ H]; contradiction] | discriminate].
    + assert (G : ~ exists segs, message_ok segs /\ s = spell segs).
      { intros [segs [H ->]]. rewrite parse128_spell in Ep by assumption. discriminate. }
      split; [split; [discriminate | lia]|]. split; [split; [intros [b H]; discriminate | intros [_ H]; contradiction]|].
      split; [split; [intros _; now split | reflexivity] | discriminate].
Qed.

Lemma code128_new_Ok s b : code128_new s = Ok b ->
  exists segs, message_ok segs /\ s = spell segs /\ b = mkCode128 (message_units segs).
Proof.
  rewrite code128_new_parse. destruct (str_len s <? 2); [discriminate|].
  destruct (parse128 s) as [us|] eqn:Ep; [|discriminate]. intros H. injection H as <-.
  destruct (parse128_sound s us Ep) as [segs [HM ->]]. exists segs. split; [assumption|].
  split; [reflexivity|]. rewrite parse128_spell in Ep by assumption. congruence.
Qed.
Lemma spell_length segs : segs <> [] -> 2 <= str_len (spell segs).
Proof.
  destruct segs as [|[k body] segs]; [congruence|]. intros _. unfold spell. cbn [map concat fst snd app].
  change (2 <= str_len ([set_char k] ++ (body ++ concat (map (fun x => set_char (fst x) :: snd x) segs)))).
  rewrite str_len_app. assert (H : 2 <= str_len [set_char k]) by (destruct k; discriminate). lia.
Qed.
Lemma code128_new_spell segs : message_ok segs ->
  code128_new (spell segs) = Ok (mkCode128 (message_units segs)).
Proof.
  intros H. rewrite code128_new_parse. pose proof (spell_length segs (proj1 H)) as HL.
  apply N.ltb_ge in HL. rewrite HL. now rewrite parse128_spell.
Qed.
