(** * Proofs about the XML reader *)
From Verif Require Import Rust S_Barcode S_Text S_Num S_Svg P_Rust P_Barcode P_Num.

Definition good_name (n : str) : Prop :=
  match n with c :: _ => letterb c = true | [] => False end /\ forallb name_charb n = true.
Definition attr_text (a : str * str) : str := 32 :: fst a ++ 61 :: 34 :: snd a ++ [34].
Definition attrs_text (l : list (str * str)) : str := flat_map attr_text l.

Lemma letter_cases c : letterb c = true -> is_space c = false /\ c =? 47 = false /\ c =? 62 = false.
Proof.
  unfold letterb, is_space. intros H. apply orb_true_iff in H. rewrite !andb_true_iff, !N.leb_le in H.
  destruct (N.eqb_spec c 32), (N.eqb_spec c 10), (N.eqb_spec c 13), (N.eqb_spec c 9),
    (N.eqb_spec c 47), (N.eqb_spec c 62); try lia; auto.
Qed.
Lemma xml_name_ok n rest : good_name n ->
  (match rest with c :: _ => name_charb c = false | [] => True end) -> xml_name (n ++ rest) = Some (n, rest).
Proof.
  intros [H1 H2] Hr. destruct n as [|c n]; [contradiction|]. unfold xml_name. cbn [app]. rewrite H1.
  f_equal. now apply (span_app name_charb (c :: n) rest).
Qed.
Lemma xml_attrs_S f s : xml_attrs (S f) s =
  match skip_space s with
  | [] => None
  | c :: r =>
      if (c =? 47) || (c =? 62) then Some ([], c :: r)
      else if is_space (hd 0 s) then
        let? n := xml_name (c :: r) in
        let? v := eat [61; 34] (snd n) in
        let (val, rest) := span xml_plain v in
        let? rest := eat [34] rest in
        let? x := xml_attrs f rest in
        Some ((fst n, val) :: fst x, snd x)
      else None
  end.
Proof. reflexivity. Qed.
Definition tag_end (s : str) : Prop := exists c r, skip_space s = c :: r /\ (c = 47 \/ c = 62).
Lemma xml_attrs_ok l : forall fuel s,
  Forall (fun a => good_name (fst a) /\ forallb xml_plain (snd a) = true) l -> tag_end s -> (length l < fuel)%nat ->
  xml_attrs fuel (attrs_text l ++ s) = Some (l, skip_space s).
Proof.
  induction l as [|[n v] l IH]; intros fuel s HF Hs Hf; (destruct fuel as [|f]; [lia|]).
  - cbn [attrs_text flat_map app]. rewrite xml_attrs_S. destruct Hs as [c [r [E [->| ->]]]]; rewrite E; reflexivity.
  - inversion HF as [|? ? [Hn Hv] HF']; subst. cbn [fst snd] in *.
    assert (E : attrs_text ((n, v) :: l) ++ s = 32 :: n ++ 61 :: 34 :: v ++ 34 :: (attrs_text l ++ s)).
    { unfold attrs_text. cbn [flat_map attr_text fst snd app]. f_equal. rewrite <- !app_assoc. cbn [app].
      do 3 f_equal. now rewrite <- !app_assoc. }
    rewrite E. clear E. rewrite xml_attrs_S. pose proof Hn as [H1 _]. destruct n as [|c n]; [contradiction|].
    destruct (letter_cases c H1) as [Hsp [H47 H62]].
    change (skip_space (32 :: ?t)) with (skip_space t). rewrite (skip_space_id ((c :: n) ++ _)) by exact Hsp.
    cbn [app]. rewrite H47, H62. cbn [orb hd]. change (is_space 32) with true. cbv iota.
    change (c :: n ++ ?t) with ((c :: n) ++ t). rewrite xml_name_ok by (assumption || reflexivity).
    cbn [obind fst snd]. change (eat [61; 34] (61 :: 34 :: ?t)) with (Some t). cbn [obind].
    rewrite span_app by (assumption || reflexivity). change (eat [34] (34 :: ?t)) with (Some t). cbn [obind].
    rewrite IH; [reflexivity | assumption | assumption |]. cbn [length] in Hf. lia.
Qed.
Lemma xml_element_S f s : xml_element (S f) s =
  let? r := eat [60] s in
  let? n := xml_name r in
  let? a := xml_attrs f (snd n) in
  if distinct (map fst (fst a)) then
    match snd a with
    | 47 :: 62 :: r => Some (Elem (fst n) (fst a) [], r)
    | 62 :: r =>
        let? x := xml_content f r in
        let? r := eat (fst n) (snd x) in
        let? r := eat [62] (skip_space r) in
        Some (Elem (fst n) (fst a) (fst x), r)
    | _ => None
    end
  else None.
Proof. reflexivity. Qed.
Lemma attrs_text_head l s : l <> [] -> match attrs_text l ++ s with c :: _ => name_charb c = false | [] => True end.
Proof. destruct l; [congruence|]. reflexivity. Qed.
(** An empty element, with or without a space before the slash *)
Lemma xml_leaf f n l s rest : good_name n ->
  Forall (fun a => good_name (fst a) /\ forallb xml_plain (snd a) = true) l -> l <> [] ->
  distinct (map fst l) = true -> skip_space s = 47 :: 62 :: rest -> (length l < f)%nat ->
  xml_element (S f) (60 :: n ++ attrs_text l ++ s) = Some (Elem n l [], rest).
Proof.
  intros Hn Hl Hne Hd Hs Hf. rewrite xml_element_S. change (eat [60] (60 :: ?t)) with (Some t). cbn [obind].
  rewrite xml_name_ok by (assumption || now apply attrs_text_head). cbn [obind fst snd].
  rewrite xml_attrs_ok; [|assumption | exists 47, (62 :: rest); auto | assumption].
  cbn [obind fst snd]. unfold str, char in *. rewrite Hd, Hs. reflexivity.
Qed.
(** Text of an element readable with fuel at least [k] *)
Definition readable (k : nat) (e : xml) (t : str) : Prop :=
  (exists c r, t = 60 :: c :: r /\ c <> 47) /\
  forall fuel rest, (k <= fuel)%nat -> xml_element fuel (t ++ rest) = Some (e, rest).
Lemma xml_content_S f s : xml_content (S f) s =
  match eat [60; 47] (skip_space s) with
  | Some r => Some ([], r)
  | None =>
      let? e := xml_element f (skip_space s) in
      let? x := xml_content f (snd e) in
      Some (fst e :: fst x, snd x)
  end.
Proof. reflexivity. Qed.
Lemma xml_content_ok k es ts rest : Forall2 (readable k) es ts -> forall fuel, (k + length es < fuel)%nat ->
  xml_content fuel (concat ts ++ 60 :: 47 :: rest) = Some (es, rest).
Proof.
  intros H. induction H as [|e t es ts [[c [r [Et Hc]]] HE] HF IH]; intros fuel Hf;
    (destruct fuel as [|f]; [lia|]); rewrite xml_content_S.
  - reflexivity.
  - cbn [concat length] in *. rewrite <- app_assoc. rewrite skip_space_id by (rewrite Et; reflexivity).
    assert (E : eat [60; 47] (t ++ concat ts ++ 60 :: 47 :: rest) = None).
    { rewrite Et. cbn [app eat]. change (60 =? 60) with true. cbv iota. destruct (N.eqb_spec 47 c); [congruence|reflexivity]. }
    rewrite E, HE by lia. cbn [obind fst snd]. rewrite IH by lia. reflexivity.
Qed.
Lemma good_name_skip n rest : good_name n -> skip_space (n ++ rest) = n ++ rest.
Proof. intros [H _]. destruct n as [|c n]; [contradiction|]. apply skip_space_id, letter_cases, H. Qed.
Lemma xml_node f n l k es ts rest : good_name n ->
  Forall (fun a => good_name (fst a) /\ forallb xml_plain (snd a) = true) l -> l <> [] ->
  distinct (map fst l) = true -> Forall2 (readable k) es ts ->
  (length l < f)%nat -> (k + length es < f)%nat ->
  xml_element (S f) (60 :: n ++ attrs_text l ++ 62 :: concat ts ++ 60 :: 47 :: n ++ 62 :: rest) =
  Some (Elem n l es, rest).
Proof.
  intros Hn Hl Hne Hd HF Hf Hf2. rewrite xml_element_S. change (eat [60] (60 :: ?t)) with (Some t). cbn [obind].
  rewrite xml_name_ok by (assumption || now apply attrs_text_head). cbn [obind fst snd].
  rewrite xml_attrs_ok; [|assumption | eexists 62, _; split; [reflexivity | auto] | assumption].
  cbn [obind fst snd]. unfold str, char in *. rewrite Hd. change (skip_space (62 :: ?t)) with (62 :: t). cbv iota.
  rewrite (xml_content_ok k es ts) by assumption. cbn [obind fst snd]. rewrite eat_app. reflexivity.
Qed.
