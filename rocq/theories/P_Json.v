(** * Proofs about the JSON generator *)
From Verif Require Import Rust M_Error M_Json S_Barcode S_Text S_Num S_Json P_Rust P_Barcode P_Num.

Definition bit (b : N) : N := if b =? 0 then 0 else 1.
Fixpoint commas (l : list N) : str :=
  match l with
  | [] => []
  | [b] => [48 + bit b]
  | b :: tl => (48 + bit b) :: 44 :: commas tl
  end.
Lemma json_fold b : forall acc,
  fold_left (fun acc b => let n := if b =? 0 then lit "0" else lit "1" in (acc ++ n) ++ lit ",") b acc =
  acc ++ concat (map (fun b => [48 + bit b; 44]) b).
Proof.
  induction b as [|x b IH]; intros acc; [symmetry; apply app_nil_r|]. cbn [fold_left]. rewrite IH.
  cbn [map concat]. rewrite <- !app_assoc. f_equal. unfold bit. now destruct (x =? 0).
Qed.
Lemma json_bits_concat b : json_bits b = concat (map (fun b => [48 + bit b; 44]) b).
Proof. exact (json_fold b []). Qed.
Lemma json_pop b : pop (json_bits b) = commas b.
Proof.
  rewrite json_bits_concat. unfold pop. induction b as [|x [|y b] IH]; [reflexivity | reflexivity |].
  transitivity ((48 + bit x) :: 44 :: removelast (concat (map (fun b => [48 + bit b; 44]) (y :: b)))); [reflexivity|].
  exact (f_equal (fun t => (48 + bit x) :: 44 :: t) IH).
Qed.
Lemma bit_cases b : bit b = 0 \/ bit b = 1.
Proof. unfold bit. destruct (b =? 0); auto. Qed.
Lemma json_elements_S f s : json_elements (S f) s =
  let? v := json_value f s in
  match skip_space (snd v) with
  | 44 :: r => let? x := json_elements f r in Some (fst v :: fst x, snd x)
  | 93 :: r => Some ([fst v], r)
  | _ => None
  end.
Proof. reflexivity. Qed.
Lemma json_elements_commas b rest : forall fuel, b <> [] -> (length b < fuel)%nat ->
  json_elements fuel (commas b ++ 93 :: rest) = Some (map (fun x => JNum (bit x)) b, rest).
Proof.
  induction b as [|x [|y b] IH]; intros fuel Hb Hf; [congruence | |].
  - cbn [length] in Hf. destruct fuel as [|[|f]]; [lia | lia |]. cbn [commas app map].
    destruct (bit_cases x) as [->| ->]; reflexivity.
  - cbn [length] in Hf. destruct fuel as [|[|f]]; [lia | lia |].
    change (commas (x :: y :: b)) with ((48 + bit x) :: 44 :: commas (y :: b)).
    cbn [app]. rewrite json_elements_S.
    assert (E : json_value (S f) ((48 + bit x) :: 44 :: commas (y :: b) ++ 93 :: rest) =
                Some (JNum (bit x), 44 :: commas (y :: b) ++ 93 :: rest)) by (destruct (bit_cases x) as [->| ->]; reflexivity).
    unfold str, char in *. rewrite E. cbn [obind snd fst].
    change (skip_space (44 :: ?r)) with (44 :: r). cbv iota.
    rewrite IH by (discriminate || (cbn [length]; lia)). reflexivity.
Qed.
Lemma digit_cases c : digit_char c ->
  c = 48 \/ c = 49 \/ c = 50 \/ c = 51 \/ c = 52 \/ c = 53 \/ c = 54 \/ c = 55 \/ c = 56 \/ c = 57.
Proof. unfold digit_char. lia. Qed.
Lemma json_value_num f n rest : (match rest with c :: _ => digitb c = false | [] => True end) ->
  json_value (S f) (fmt_dec n ++ rest) = Some (JNum n, rest).
Proof.
  intros Hr. assert (E : json_number (fmt_dec n ++ rest) = Some (n, rest)).
  { unfold json_number. rewrite span_app; [|apply forallb_digitb, fmt_dec_digits | assumption].
    now rewrite read_fmt_dec. }
  destruct (fmt_dec_cons n) as [c [tl [EF Hc]]]. rewrite EF in *. cbn [app] in *. cbn [json_value].
  rewrite skip_space_id by now apply digit_not_space.
  destruct (digit_cases c Hc) as [->|[->|[->|[->|[->|[->|[->|[->|[->| ->]]]]]]]]]; rewrite E; reflexivity.
Qed.
Lemma json_array f b rest : (length b < f)%nat ->
  json_value (S f) (91 :: commas b ++ 93 :: rest) = Some (JArr (map (fun x => JNum (bit x)) b), rest).
Proof.
  intros Hf. destruct b as [|x b]; [reflexivity|].
  assert (E := json_elements_commas (x :: b) rest f ltac:(discriminate) Hf).
  assert (Ec : exists t, commas (x :: b) = (48 + bit x) :: t) by (destruct b; eexists; reflexivity).
  destruct Ec as [t Ec]. rewrite Ec in *. cbn [app] in *. cbn [json_value].
  change (skip_space (91 :: ?r)) with (91 :: r). cbv iota.
  destruct (bit_cases x) as [Ex|Ex]; rewrite Ex in *; change (48 + 0) with 48 in *; change (48 + 1) with 49 in *.
  - change (skip_space (48 :: ?r)) with (48 :: r). cbv iota. now rewrite E.
  - change (skip_space (49 :: ?r)) with (49 :: r). cbv iota. now rewrite E.
Qed.
Lemma commas_length b : (length b <= length (commas b))%nat.
Proof.
  induction b as [|x [|y b] IH]; [reflexivity | reflexivity |].
  change (commas (x :: y :: b)) with ((48 + bit x) :: 44 :: commas (y :: b)). cbn [length] in *. lia.
Qed.
Definition json_text (h x : N) (b : list N) : str :=
  lit "{" ++ dq ++ lit "height" ++ dq ++ lit ":" ++ fmt_dec h
        ++ lit "," ++ dq ++ lit "xdim" ++ dq ++ lit ":" ++ fmt_dec x
        ++ lit "," ++ dq ++ lit "encoding" ++ dq ++ lit ":[" ++ commas b ++ lit "]}".
Lemma json_generate_text h x b : json_generate (mkJSON h x) b = Ok (json_text h x b).
Proof. unfold json_generate, json_text. now rewrite json_pop. Qed.
Lemma json_members_step f k s j r : json_value f s = Some (j, r) ->
  forallb json_plain k = true ->
  json_members (S f) (34 :: k ++ 34 :: 58 :: s) =
    match skip_space r with
    | 44 :: r' => let? x := json_members f r' in Some ((k, j) :: fst x, snd x)
    | 125 :: r' => Some ([(k, j)], r')
    | _ => None
    end.
Proof.
  intros E Hk. cbn [json_members]. change (skip_space (34 :: ?t)) with (34 :: t). unfold json_string at 1.
  rewrite span_app by (assumption || reflexivity). cbn [obind fst snd].
  change (skip_space (58 :: ?t)) with (58 :: t). cbv iota. rewrite E. reflexivity.
Qed.
Lemma json_value_object f r : json_value (S f) (123 :: 34 :: r) =
  let? x := json_members f (34 :: r) in Some (JObj (fst x), snd x).
Proof. reflexivity. Qed.
Lemma json_text_value fuel h x b : (length b < S fuel)%nat ->
  json_value (S (S (S (S (S (S (S (S (S (S fuel)))))))))) (json_text h x b) = Some (JObj [(lit "height", JNum h); (lit "xdim", JNum x); (lit "encoding", JArr (map (fun v => JNum (bit v)) b))], []).
Proof.
  intros HL.
  set (t3 := 34 :: lit "encoding" ++ 34 :: 58 :: 91 :: commas b ++ 93 :: [125]).
    set (t2 := 34 :: lit "xdim" ++ 34 :: 58 :: fmt_dec x ++ 44 :: t3).
    assert (ET : json_text h x b = 123 :: 34 :: lit "height" ++ 34 :: 58 :: fmt_dec h ++ 44 :: t2) by reflexivity.
    rewrite ET. clear ET.
    assert (E3 : json_members (S (S (S (S (S (S (S fuel))))))) t3 =
      Some ([(lit "encoding", JArr (map (fun v => JNum (bit v)) b))], [])).
    { unfold t3. rewrite (json_members_step _ (lit "encoding") _ _ _ (json_array (S (S (S (S (S fuel))))) b [125] ltac:(lia))) by reflexivity.
      reflexivity. }
    assert (E2 : json_members (S (S (S (S (S (S (S (S fuel)))))))) t2 =
      Some ([(lit "xdim", JNum x); (lit "encoding", JArr (map (fun v => JNum (bit v)) b))], [])).
    { unfold t2. rewrite (json_members_step _ (lit "xdim") _ _ _ (json_value_num _ x (44 :: t3) eq_refl)) by reflexivity.
      change (skip_space (44 :: t3)) with (44 :: t3). cbv iota. now rewrite E3. }
    assert (E1 : json_members (S (S (S (S (S (S (S (S (S fuel))))))))) (34 :: lit "height" ++ 34 :: 58 :: fmt_dec h ++ 44 :: t2) =
      Some ([(lit "height", JNum h); (lit "xdim", JNum x); (lit "encoding", JArr (map (fun v => JNum (bit v)) b))], [])).
    { rewrite (json_members_step _ (lit "height") _ _ _ (json_value_num _ h (44 :: t2) eq_refl)) by reflexivity.
      change (skip_space (44 :: t2)) with (44 :: t2). cbv iota. now rewrite E2. }
    rewrite json_value_object. now rewrite E1.
Qed.
Lemma json_text_length h x b : (length b + 20 <= 2 * length (json_text h x b))%nat.
Proof.
  unfold json_text. rewrite !app_length. pose proof (commas_length b). cbn [length lit dq map String.list_ascii_of_string]. lia.
Qed.
Lemma json_text_read h x b : read_json (json_text h x b) = Some (JObj [(lit "height", JNum h); (lit "xdim", JNum x); (lit "encoding", JArr (map (fun v => JNum (bit v)) b))]).
Proof.
  unfold read_json. pose proof (json_text_length h x b) as HL.
  generalize dependent (2 * length (json_text h x b))%nat. intros fuel HL.
  do 10 (destruct fuel as [|fuel]; [lia|]).
  rewrite json_text_value by lia. reflexivity.
Qed.
