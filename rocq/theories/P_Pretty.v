(** * Proofs: pretty-printed Debug texts *)
From Verif Require Import Rust M_Error M_Helpers M_Parse M_Ean13 M_Ean8 M_Upca M_EanSupp M_Code39 M_Code93 M_Code11
  M_Codabar M_Code128 M_Tf M_Ascii M_Json M_Svg M_Image Symbology M_Use M_Debug M_Pretty
  S_Barcode S_Ean S_Text S_Num S_Linear S_Codabar S_Tf S_Code128 S_All S_Exact S_Debug S_Pretty
  P_Rust P_Num P_Barcode P_Parse P_Debug.
Section Tables.
Context {tables : unicode}.

(** ** Padding is indenting *)
Section Ind.
  Variable P : tree -> Prop.
  Hypothesis HNum : forall n, P (TNum n).
  Hypothesis HQuote : forall c, P (TQuote c).
  Hypothesis HText : forall s, P (TText s).
  Hypothesis HName : forall n, P (TName n).
  Hypothesis HCall : forall n l, Forall P l -> P (TCall n l).
  Hypothesis HList : forall l, Forall P l -> P (TList l).
  Hypothesis HRecord : forall n l, Forall (fun x => P (snd x)) l -> P (TRecord n l).
  Fixpoint tree_all (t : tree) : P t :=
    let fix list_all (l : list tree) : Forall P l :=
      match l with [] => Forall_nil _ | x :: tl => Forall_cons x (tree_all x) (list_all tl) end in
    let fix fields_all (l : list (str * tree)) : Forall (fun x => P (snd x)) l :=
      match l with [] => Forall_nil _ | x :: tl => Forall_cons x (tree_all (snd x)) (fields_all tl) end in
    match t with
    | TNum n => HNum n
    | TQuote c => HQuote c
    | TText s => HText s
    | TName n => HName n
    | TCall n l => HCall n l (list_all l)
    | TList l => HList l (list_all l)
    | TRecord n l => HRecord n l (fields_all l)
    end.
End Ind.

Fixpoint showp (t : tree) : str :=
  match t with
  | TNum n => fmt_dec n
  | TQuote c => debug_char c
  | TText s => debug_str s
  | TName n => n
  | TCall n l => pretty_tuple n (map showp l)
  | TList l => pretty_list showp l
  | TRecord n l => pretty_struct n (map (fun x => (fst x, showp (snd x))) l)
  end.
Fixpoint laid (t : tree) (d : nat) : str :=
  match t with
  | TNum n => fmt_dec n
  | TQuote c => debug_char c
  | TText s => debug_str s
  | TName n => n
  | TCall n l => n ++ lit "(" ++ flat_map (fun x => line (S d) ++ laid x (S d) ++ lit ",") l ++ line d ++ lit ")"
  | TList l => match l with
               | [] => lit "[]"
               | _ => lit "[" ++ flat_map (fun x => line (S d) ++ laid x (S d) ++ lit ",") l ++ line d ++ lit "]"
               end
  | TRecord n l => n ++ lit " {" ++ flat_map (fun x => line (S d) ++ (fst x ++ lit ": " ++ laid (snd x) (S d)) ++ lit ",") l ++ line d ++ lit "}"
  end.
Definition calm (s : str) : bool := forallb (fun c => negb (c =? 10)) s.
Lemma calm_app a b : calm (a ++ b) = calm a && calm b.
Proof. apply forallb_app. Qed.
Lemma pad_calm a rest : calm a = true -> pad_from false (a ++ rest) = a ++ pad_from false rest.
Proof.
  induction a as [|c a IH]; intros H; [reflexivity|]. cbn [calm forallb] in H. apply andb_true_iff in H. destruct H as [H1 H2].
  cbn [app pad_from]. unfold newline. apply negb_true_iff in H1. rewrite H1, IH by assumption. reflexivity.
Qed.
Definition opens (s : str) : Prop := match s with c :: _ => (c =? 10) = false | [] => False end.
Lemma pad_true s : s <> [] -> pad_from true s = lit "    " ++ pad_from false s.
Proof. destruct s as [|c s]; [congruence | reflexivity]. Qed.
Lemma calm_spaces k : calm (repeat 32 k) = true.
Proof. induction k as [|k IH]; [reflexivity | exact IH]. Qed.
Lemma line_S d : line (S d) = 10 :: lit "    " ++ repeat 32 (4 * d).
Proof. unfold line. f_equal. replace (4 * S d)%nat with (4 + 4 * d)%nat by lia. reflexivity. Qed.
Lemma pad_line d s : opens s -> pad_from false (line d ++ s) = line (S d) ++ pad_from false s.
Proof.
  intros H. rewrite line_S. unfold line. cbn [app pad_from]. change (10 =? newline) with true.
  rewrite pad_true by (destruct (repeat 32 (4 * d)); [destruct s; [contradiction | discriminate] | discriminate]).
  rewrite pad_calm by apply calm_spaces. rewrite <- app_assoc. reflexivity.
Qed.

Lemma calm_hex n : forall c acc, calm acc = true -> calm (hex_digits n c acc) = true.
Proof.
  assert (HX : forall d, (hex_digit d =? 10) = false).
  { intros d. unfold hex_digit. destruct (d <? 10); apply N.eqb_neq; lia. }
  induction n as [|n IH]; intros c acc H; [exact H|]. cbn [hex_digits]. destruct (c <? 16).
  - unfold calm in *. cbn [forallb]. now rewrite HX.
  - apply IH. unfold calm in *. cbn [forallb]. now rewrite HX.
Qed.
Lemma calm_escape q c : calm (debug_escape q c) = true.
Proof.
  unfold debug_escape. destruct (N.eqb_spec c 0); [reflexivity|]. destruct (N.eqb_spec c 9); [reflexivity|].
  destruct (N.eqb_spec c 10) as [|H10]; [reflexivity|]. destruct (N.eqb_spec c 13); [reflexivity|].
  assert (HC : (c =? 10) = false) by (now apply N.eqb_neq).
  destruct ((c =? q) || (c =? backslash)); [unfold calm; cbn [forallb]; now rewrite HC|].
  destruct (_ || (negb _ && _)); [|unfold calm; cbn [forallb]; now rewrite HC].
  rewrite !calm_app, calm_hex by reflexivity. reflexivity.
Qed.
Lemma calm_char c : calm (debug_char c) = true.
Proof. unfold debug_char. rewrite !calm_app, calm_escape. reflexivity. Qed.
Lemma calm_str s : calm (debug_str s) = true.
Proof.
  unfold debug_str. rewrite !calm_app. replace (calm (flat_map (debug_escape 34) s)) with true; [reflexivity|].
  induction s as [|c s IH]; [reflexivity|]. cbn [flat_map]. now rewrite calm_app, calm_escape.
Qed.
Lemma calm_dec n : calm (fmt_dec n) = true.
Proof.
  apply forallb_forall. intros c Hc. pose proof (fmt_dec_digits n) as D. rewrite Forall_forall in D. specialize (D c Hc). unfold digit_char in D.
  apply negb_true_iff, N.eqb_neq. lia.
Qed.
Lemma calm_name n : name n = true -> calm n = true.
Proof.
  intros H. destruct (name_form n H) as (c & tl & _ & _ & F). apply forallb_forall. intros x Hx. rewrite forallb_forall in F. specialize (F x Hx).
  apply negb_true_iff. destruct (N.eqb_spec x 10) as [->|]; [discriminate F | reflexivity].
Qed.
Lemma opens_app s rest : opens s -> opens (s ++ rest).
Proof. destruct s; [contradiction | exact (fun H => H)]. Qed.
Lemma opens_name n : name n = true -> opens n.
Proof.
  intros H. pose proof (calm_name n H) as C. destruct n as [|c n]; [discriminate|]. cbn [calm forallb] in C. apply andb_true_iff in C. destruct C as [C _].
  now apply negb_true_iff in C.
Qed.
Lemma opens_laid t d : good t = true -> opens (laid t d).
Proof.
  destruct t as [n|c|s|n|n l|l|n l]; cbn [good laid]; intros G.
  - pose proof (calm_dec n) as C. destruct (fmt_dec_cons n) as (c & tl & E & _). rewrite E in *. cbn [calm forallb] in C. apply andb_true_iff in C.
    destruct C as [C _]. now apply negb_true_iff in C.
  - reflexivity.
  - reflexivity.
  - now apply opens_name.
  - apply andb_true_iff in G. destruct G as [G _]. apply opens_app. now apply opens_name.
  - destruct l; reflexivity.
  - rewrite !andb_true_iff in G. destruct G as [[G _] _]. apply opens_app. now apply opens_name.
Qed.
Lemma pad_entries {A} (f : nat -> A -> str) (l : list A) d rest :
  Forall (fun x => opens (f d x) /\ forall r, pad_from false (f d x ++ r) = f (S d) x ++ pad_from false r) l ->
  pad_from false (flat_map (fun x => line d ++ f d x ++ lit ",") l ++ rest) =
  flat_map (fun x => line (S d) ++ f (S d) x ++ lit ",") l ++ pad_from false rest.
Proof.
  induction 1 as [|x l [HO HX] _ IH]; [reflexivity|]. cbn [flat_map]. rewrite <- !app_assoc.
  rewrite pad_line by now apply opens_app. rewrite HX, pad_calm by reflexivity. rewrite IH. reflexivity.
Qed.
Lemma pad_laid t : good t = true -> forall d rest, pad_from false (laid t d ++ rest) = laid t (S d) ++ pad_from false rest.
Proof.
  induction t as [n|c|s|n|n l IH|l IH|n l IH] using tree_all; cbn [good]; intros G d rest.
  - apply pad_calm, calm_dec.
  - apply pad_calm, calm_char.
  - apply pad_calm, calm_str.
  - apply pad_calm. now apply calm_name.
  - apply andb_true_iff in G. destruct G as [GN GL]. cbn [laid]. rewrite <- !app_assoc. rewrite pad_calm by now apply calm_name. rewrite pad_calm by reflexivity.
    rewrite (pad_entries (fun d x => laid x d)).
    + rewrite pad_line by reflexivity. rewrite pad_calm by reflexivity. reflexivity.
    + rewrite Forall_forall in *. rewrite forallb_forall in GL. intros x Hx. split; [apply opens_laid; auto | intros r; apply IH; auto].
  - cbn [laid]. destruct l as [|x l]; [now apply pad_calm|]. set (l' := x :: l) in *. rewrite <- !app_assoc. rewrite pad_calm by reflexivity.
    rewrite (pad_entries (fun d x => laid x d)).
    + rewrite pad_line by reflexivity. rewrite pad_calm by reflexivity. reflexivity.
    + rewrite Forall_forall in *. rewrite forallb_forall in G. intros y Hy. split; [apply opens_laid; auto | intros r; apply IH; auto].
  - rewrite !andb_true_iff in G. destruct G as [[GN _] GL]. cbn [laid]. rewrite <- !app_assoc. rewrite pad_calm by now apply calm_name. rewrite pad_calm by reflexivity.
    rewrite (pad_entries (fun d (x : str * tree) => fst x ++ lit ": " ++ laid (snd x) d)).
    + rewrite pad_line by reflexivity. rewrite pad_calm by reflexivity. reflexivity.
    + rewrite Forall_forall in *. rewrite forallb_forall in GL. intros x Hx. specialize (GL x Hx). apply andb_true_iff in GL. destruct GL as [G1 G2].
      split; [apply opens_app; now apply opens_name|]. intros r. rewrite <- !app_assoc. rewrite pad_calm by now apply calm_name. rewrite pad_calm by reflexivity.
      rewrite IH by assumption. reflexivity.
Qed.
Lemma entry_laid (s s' : str) : s <> [] -> (forall r, pad_from false (s ++ r) = s' ++ pad_from false r) -> [10] ++ pad_entry s = line 1 ++ s' ++ lit "," ++ [10].
Proof.
  intros N H. unfold pad_entry. rewrite pad_true by (destruct s; [congruence | discriminate]). rewrite H. reflexivity.
Qed.
Lemma entries_laid {A} (f g : A -> str) (l : list A) : Forall (fun x => f x <> [] /\ forall r, pad_from false (f x ++ r) = g x ++ pad_from false r) l ->
  [10] ++ flat_map (fun x => pad_entry (f x)) l = flat_map (fun x => line 1 ++ g x ++ lit ",") l ++ [10].
Proof.
  induction 1 as [|x l [HN HX] _ IH]; [reflexivity|]. cbn [flat_map].
  transitivity (([10] ++ pad_entry (f x)) ++ flat_map (fun x => pad_entry (f x)) l); [reflexivity|]. rewrite (entry_laid (f x) (g x) HN HX).
  rewrite <- !app_assoc. do 3 f_equal. exact IH.
Qed.
Lemma opens_some s : opens s -> s <> [].
Proof. destruct s; [contradiction | discriminate]. Qed.
Lemma showp_laid t : good t = true -> showp t = laid t 0.
Proof.
  induction t as [n|c|s|n|n l IH|l IH|n l IH] using tree_all; cbn [good]; intros G; try reflexivity.
  - apply andb_true_iff in G. destruct G as [GN GL]. cbn [laid showp]. unfold pretty_tuple. f_equal. f_equal.
    rewrite flat_map_concat_map, map_map, <- flat_map_concat_map, app_assoc. unfold newline.
    rewrite (entries_laid showp (fun x => laid x 1)); [now rewrite <- app_assoc|].
    rewrite Forall_forall in *. rewrite forallb_forall in GL. intros x Hx. rewrite IH by auto. split; [apply opens_some, opens_laid; auto | now apply pad_laid; auto].
  - cbn [laid showp]. unfold pretty_list. destruct l as [|x l]; [reflexivity|]. set (l' := x :: l) in *. f_equal. rewrite app_assoc. unfold newline.
    rewrite (entries_laid showp (fun x => laid x 1)); [now rewrite <- app_assoc|].
    rewrite Forall_forall in *. rewrite forallb_forall in G. intros y Hy. rewrite IH by auto. split; [apply opens_some, opens_laid; auto | now apply pad_laid; auto].
  - rewrite !andb_true_iff in G. destruct G as [[GN _] GL]. cbn [laid showp]. unfold pretty_struct. f_equal. f_equal.
    rewrite flat_map_concat_map, map_map, <- flat_map_concat_map, app_assoc. unfold newline. cbn [fst snd].
    rewrite (entries_laid (fun x : str * tree => fst x ++ lit ": " ++ showp (snd x)) (fun x => fst x ++ lit ": " ++ laid (snd x) 1)); [now rewrite <- app_assoc|].
    rewrite Forall_forall in *. rewrite forallb_forall in GL. intros x Hx. specialize (GL x Hx). apply andb_true_iff in GL. destruct GL as [G1 G2].
    rewrite IH by auto. split; [apply opens_some, opens_app; now apply opens_name|]. intros r. rewrite <- !app_assoc. rewrite pad_calm by now apply calm_name.
    rewrite pad_calm by reflexivity. rewrite pad_laid by assumption. reflexivity.
Qed.

(** ** Reading what was laid out *)
Fixpoint filled (t : tree) : bool :=
  match t with
  | TNum _ | TQuote _ | TText _ | TName _ => true
  | TCall _ l => match l with [] => false | _ => true end && forallb filled l
  | TList l => forallb filled l
  | TRecord _ l => forallb (fun x => filled (snd x)) l
  end.
Definition comma (rest : str) : Prop := match rest with [] => True | c :: _ => c = ch "," end.
Lemma comma_stop rest : comma rest -> stop rest.
Proof. destruct rest as [|c tl]; [trivial|]. cbn [comma stop]. tauto. Qed.
Lemma eat_line d close rest : (close =? 32) = false -> eat (line (S d)) (line d ++ close :: rest) = None.
Proof.
  intros H. unfold line. cbn [app eat]. change (10 =? 10) with true. cbv iota. replace (4 * S d)%nat with (4 * d + 4)%nat by lia. rewrite repeat_app.
  induction (4 * d)%nat as [|k IH]; [|exact IH]. cbn [repeat app eat]. rewrite N.eqb_sym, H. reflexivity.
Qed.
Notation items d l := (flat_map (fun x => line (S d) ++ laid x (S d) ++ lit ",") l).
Notation fields d l := (flat_map (fun x => line (S d) ++ (fst x ++ lit ": " ++ laid (snd x) (S d)) ++ lit ",") l).
Definition Laid (n : nat) : Prop :=
  (forall t d rest, good t = true -> filled t = true -> comma rest -> (length (laid t d) <= n)%nat -> read_laid n d (laid t d ++ rest) = Some (t, rest)) /\
  (forall l d close rest, forallb good l = true -> forallb filled l = true -> (close =? 32) = false -> (length (items d l) < n)%nat ->
     laid_items n d close (items d l ++ line d ++ close :: rest) = Some (l, rest)) /\
  (forall l d rest, forallb (fun x => name (fst x) && good (snd x)) l = true -> forallb (fun x => filled (snd x)) l = true ->
     (length (fields d l) < n)%nat -> laid_fields n d (fields d l ++ line d ++ lit "}" ++ rest) = Some (l, rest)).
Lemma laid_len t d : good t = true -> (1 <= length (laid t d))%nat.
Proof. intros G. apply (opens_laid t d) in G. destruct (laid t d); [contradiction | cbn; lia]. Qed.
Lemma laids n : Laid n.
Proof.
  induction n as [|n (IV & II & IF)].
  { split; [|split].
    - intros t d rest G _ _ L. pose proof (laid_len t d G). lia.
    - intros. lia.
    - intros. lia. }
  split; [|split].
  - intros t d rest G FL CM L. pose proof (comma_stop rest CM) as ST. destruct t as [k|c|s|m|m l|l|m l]; cbn [good laid filled] in *.
    + destruct (fmt_dec_cons k) as (c & tl & E & D). pose proof (digit_facts c D) as (F1 & F2 & F3 & F4 & _).
      pose proof (fmt_dec_digits k) as FD. pose proof (read_fmt_dec k) as RD. unfold read_dec in RD.
      pose proof (span_app digitb (fmt_dec k) rest (forallb_digitb _ FD) (stop_digit rest ST)) as SP.
      rewrite E in *. cbn [app] in *. cbn [read_laid]. rewrite F1, F2, F3, F4, SP.
      destruct (_ && _) in RD; [|discriminate]. assert (RE : decimal (digits_of (c :: tl)) = k) by congruence. now rewrite RE.
    + unfold debug_char. cbn [app]. rewrite <- app_assoc. cbn [read_laid].
      change (39 =? ch "[") with false. change (39 =? 39) with true. cbv iota.
      rewrite escape_read by (now right). cbn [app]. unfold guard. now rewrite N.eqb_refl.
    + unfold debug_str in *. cbn [app] in *. rewrite <- app_assoc. cbn [read_laid].
      change (34 =? ch "[") with false. change (34 =? 39) with false. change (34 =? 34) with true. cbv iota. cbn [app].
      rewrite text_read; [reflexivity|]. cbn [length] in L. rewrite app_length in L. cbn [length] in L. lia.
    + destruct (name_form m G) as (c & tl & E & LT & FN). pose proof (letter_facts c LT) as (F1 & F2 & F3 & F4 & _).
      pose proof (span_app nameb m rest FN (stop_name rest ST)) as SP.
      rewrite E in *. cbn [app] in *. cbn [read_laid]. rewrite F1, F2, F3, F4, LT, SP.
      destruct rest as [|a r]; [reflexivity|]. cbn [comma] in CM. subst a. reflexivity.
    + apply andb_true_iff in G. destruct G as [GM GL]. apply andb_true_iff in FL. destruct FL as [FN0 FL].
      destruct (name_form m GM) as (c & tl & E & LT & FN).
      pose proof (letter_facts c LT) as (F1 & F2 & F3 & F4 & _). rewrite <- !app_assoc.
      assert (LM : (1 <= length m)%nat) by (rewrite E; cbn; lia).
      rewrite !app_length in L. change (length (lit "(")) with 1%nat in L. change (length (lit ")")) with 1%nat in L.
      pose proof (span_app nameb m (lit "(" ++ items d l ++ line d ++ lit ")" ++ rest) FN eq_refl) as SP.
      assert (RI : laid_items n d (ch ")") (items d l ++ line d ++ lit ")" ++ rest) = Some (l, rest)).
      { apply (II l d (ch ")")); [assumption | assumption | reflexivity | lia]. }
      rewrite E in *. cbn [app] in *. cbn [read_laid]. rewrite F1, F2, F3, F4, LT, SP, eat_app, RI. now destruct l.
    + destruct l as [|x l]; [reflexivity|]. set (l' := x :: l) in *. rewrite <- !app_assoc. rewrite !app_length in L. change (length (lit "[")) with 1%nat in L.
      change (length (lit "]")) with 1%nat in L.
      assert (RI : laid_items n d (ch "]") (items d l' ++ line d ++ lit "]" ++ rest) = Some (l', rest)).
      { apply (II l' d (ch "]")); [assumption | assumption | reflexivity | lia]. }
      change (lit "[") with [ch "["]. cbn [app]. cbn [read_laid]. rewrite N.eqb_refl.
      replace (eat (lit "]") (items d l' ++ line d ++ lit "]" ++ rest)) with (@None str) by reflexivity. rewrite RI. reflexivity.
    + rewrite !andb_true_iff in G. destruct G as [[GM GN] GL]. destruct (name_form m GM) as (c & tl & E & LT & FN).
      pose proof (letter_facts c LT) as (F1 & F2 & F3 & F4 & _). rewrite <- !app_assoc.
      assert (LM : (1 <= length m)%nat) by (rewrite E; cbn; lia).
      rewrite !app_length in L. change (length (lit " {")) with 2%nat in L. change (length (lit "}")) with 1%nat in L.
      pose proof (span_app nameb m (lit " {" ++ fields d l ++ line d ++ lit "}" ++ rest) FN eq_refl) as SP.
      assert (RF : laid_fields n d (fields d l ++ line d ++ lit "}" ++ rest) = Some (l, rest)).
      { apply IF; [assumption | assumption | lia]. }
      rewrite E in *. cbn [app] in *. cbn [read_laid]. rewrite F1, F2, F3, F4, LT, SP.
      replace (eat (lit "(") (lit " {" ++ fields d l ++ line d ++ lit "}" ++ rest)) with (@None str) by reflexivity. rewrite eat_app, RF. now destruct l.
  - intros l d close rest G FL HC L. destruct l as [|x l]; cbn [laid_items].
    { cbn [flat_map app]. rewrite eat_line by assumption. replace (line d ++ close :: rest) with ((line d ++ [close]) ++ rest) by (rewrite <- app_assoc; reflexivity).
      now rewrite eat_app. }
    cbn [forallb] in G, FL. apply andb_true_iff in G, FL. destruct G as [GX GL], FL as [FX FL]. cbn [flat_map] in L |- *. rewrite <- !app_assoc. rewrite eat_app.
    rewrite !app_length in L. change (length (lit ",")) with 1%nat in L.
    rewrite IV; [|assumption | assumption | reflexivity | lia]. rewrite eat_app. rewrite II; [reflexivity | assumption | assumption | assumption | lia].
  - intros l d rest G FL L. destruct l as [|[m v] l]; cbn [laid_fields].
    { cbn [flat_map app]. change (lit "}") with [ch "}"]. cbn [app]. rewrite eat_line by reflexivity.
      replace (line d ++ ch "}" :: rest) with ((line d ++ [ch "}"]) ++ rest) by (rewrite <- app_assoc; reflexivity). now rewrite eat_app. }
    cbn [forallb fst snd] in G, FL. rewrite !andb_true_iff in G. apply andb_true_iff in FL. destruct G as [[GM GV] GL], FL as [FX FL].
    destruct (name_form m GM) as (c & tl & E & _ & FN).
    cbn [flat_map fst snd] in L |- *. rewrite <- !app_assoc. rewrite eat_app. rewrite !app_length in L. change (length (lit ",")) with 1%nat in L.
    rewrite (span_app nameb m (lit ": " ++ _) FN eq_refl). rewrite eat_app.
    rewrite IV; [|assumption | assumption | reflexivity | lia]. rewrite eat_app. rewrite IF; [reflexivity | assumption | assumption | lia].
Qed.
Theorem read_showp t : good t = true -> filled t = true -> read_pretty (showp t) = Some t.
Proof.
  intros G F. rewrite showp_laid by assumption. unfold read_pretty. destruct (laids (length (laid t 0))) as (R & _). pose proof (R t 0%nat [] G F I (le_n _)) as E.
  rewrite app_nil_r in E. now rewrite E.
Qed.

(** ** The values of the library *)
Definition unit_of (u : unit128) : tree := TRecord (lit "Unit") [(lit "kind", TName (debug_kind (u_kind u))); (lit "index", TNum (u_index u))].
Definition fine {A} (f g : A -> str) (t : A -> tree) : Prop := forall a, f a = show (t a) /\ g a = showp (t a) /\ good (t a) = true /\ filled (t a) = true.
Lemma fine_list {A} (f g : A -> str) t : fine f g t -> fine (debug_list f) (pretty_list g) (fun l => TList (map t l)).
Proof.
  intros H l. cbn [show showp good filled]. unfold debug_list, pretty_list. rewrite map_map. split; [|split; [|split]].
  - do 3 f_equal. apply map_ext. apply H.
  - f_equal. destruct l as [|x l]; [reflexivity|]. cbn [map]. f_equal. f_equal. change (t x :: map t l) with (map t (x :: l)). rewrite !flat_map_concat_map, map_map.
    f_equal. apply map_ext. intros a. f_equal. apply H.
  - apply good_map. intros x _. apply H.
  - apply forallb_forall. intros x Hx. apply in_map_iff in Hx. destruct Hx as (a & <- & _). apply H.
Qed.
Lemma fine_tuple {A} (f g : A -> str) t n : name n = true -> fine f g t -> fine (fun a => debug_tuple n [f a]) (fun a => pretty_tuple n [g a]) (fun a => TCall n [t a]).
Proof. intros N H a. destruct (H a) as (E1 & E2 & G & F). cbn [show showp good filled map forallb]. rewrite E1, E2, N, G, F. auto. Qed.
Lemma fine_num : fine fmt_dec fmt_dec TNum.
Proof. intros n. auto. Qed.
Lemma fine_quote : fine debug_char debug_char TQuote.
Proof. intros n. auto. Qed.
Lemma fine_unit : fine debug_unit pretty_unit unit_of.
Proof. intros [k i]. cbn [unit_of u_kind u_index]. destruct k; repeat split. Qed.
Lemma fine_cunit : fine debug_cunit debug_cunit (fun u => TName (debug_cunit u)).
Proof. intros u. destruct u; repeat split. Qed.

Definition numbers_fine := fine_list _ _ _ fine_num.
Definition quotes_fine := fine_list _ _ _ fine_quote.
Lemma fine_code39 : fine debug_code39 pretty_code39 (fun b => TRecord (lit "Code39") [(lit "data", quotes (c39_data b)); (lit "checksum", truth (c39_checksum b))]).
Proof.
  intros b. destruct (quotes_fine (c39_data b)) as (E1 & E2 & G & F). unfold debug_code39, pretty_code39. fold (quotes (c39_data b)) in *. rewrite E1, E2.
  cbn [good filled forallb fst snd map show showp]. rewrite G, F. destruct (c39_checksum b); repeat split.
Qed.
Lemma fine_eansupp : fine debug_eansupp pretty_eansupp (fun b => match b with EAN2 d => TCall (lit "EAN2") [numbers d] | EAN5 d => TCall (lit "EAN5") [numbers d] end).
Proof. intros [d|d]; [exact (fine_tuple _ _ _ (lit "EAN2") eq_refl numbers_fine d) | exact (fine_tuple _ _ _ (lit "EAN5") eq_refl numbers_fine d)]. Qed.
Lemma fine_tf : fine debug_tf pretty_tf (fun b => match b with Standard d => TCall (lit "Standard") [numbers d] | Interleaved d => TCall (lit "Interleaved") [numbers d] end).
Proof. intros [d|d]; [exact (fine_tuple _ _ _ (lit "Standard") eq_refl numbers_fine d) | exact (fine_tuple _ _ _ (lit "Interleaved") eq_refl numbers_fine d)]. Qed.
Definition result_tree {A} (t : A -> tree) (r : result A) : tree :=
  match r with Ok a => TCall (lit "Ok") [t a] | Err e => TCall (lit "Err") [TName (error_name e)] end.
Lemma fine_result {A} (f g : A -> str) t : fine f g t -> fine (debug_result f) (pretty_result g) (result_tree t).
Proof.
  intros H [a|e]; [exact (fine_tuple f g t (lit "Ok") eq_refl H a)|]. destruct e; repeat split.
Qed.
Definition Agree (a b : M str) : Prop :=
  match a, b with
  | Ret t, Ret t' => exists v, read_debug t = Some v /\ read_pretty t' = Some v
  | Panic r, Panic r' => r = r'
  | _, _ => False
  end.
(** Both texts written from one value *)
Definition Both (a b : M str) : Prop :=
  match a, b with
  | Ret t, Ret t' => exists v, t = show v /\ t' = showp v /\ good v = true /\ filled v = true
  | Panic r, Panic r' => r = r'
  | _, _ => False
  end.
Lemma both_agree a b : Both a b -> Agree a b.
Proof.
  destruct a, b; cbn; try tauto. intros (v & -> & -> & G & F). exists v. split; [now apply read_show | now apply read_showp].
Qed.
Lemma agree {A} (f g : A -> str) t (m : M A) : fine f g t -> Both (r <- m ;; Ret (f r)) (r <- m ;; Ret (g r)).
Proof.
  intros H. destruct m as [a|r]; [|reflexivity]. destruct (H a) as (E1 & E2 & G & F). cbn [bind Both]. now exists (t a).
Qed.
Lemma agree_pure {A} (f g : A -> str) t (a : A) : fine f g t -> Both (Ret (f a)) (Ret (g a)).
Proof. intros H. exact (agree f g t (Ret a) H). Qed.
Lemma fine_ext {A} (f f' g g' : A -> str) t : (forall a, f a = f' a) -> (forall a, g a = g' a) -> fine f g t -> fine f' g' t.
Proof. intros E E' H a. rewrite <- E, <- E'. apply H. Qed.
Lemma fine_numbers {A} (f : A -> list N) n : name n = true -> fine (fun b => debug_tuple n [debug_list fmt_dec (f b)]) (fun b => pretty_tuple n [pretty_list fmt_dec (f b)])
  (fun b => TCall n [numbers (f b)]).
Proof. intros N b. exact (fine_tuple _ _ _ n N numbers_fine (f b)). Qed.
Lemma fine_quotes {A} (f : A -> str) n : name n = true -> fine (fun b => debug_tuple n [debug_list debug_char (f b)]) (fun b => pretty_tuple n [pretty_list debug_char (f b)])
  (fun b => TCall n [quotes (f b)]).
Proof. intros N b. exact (fine_tuple _ _ _ n N quotes_fine (f b)). Qed.
Theorem new_both y p s : Both (debug_new y p s) (pretty_new y p s).
Proof.
  destruct y; cbn [debug_new pretty_new]; first [eapply agree | eapply agree_pure]; apply fine_result.
  - exact (fine_numbers ean13_0 (lit "EAN13") eq_refl).
  - exact (fine_numbers ean8_0 (lit "EAN8") eq_refl).
  - exact (fine_numbers upca_0 (lit "UPCA") eq_refl).
  - exact fine_eansupp.
  - exact fine_code39.
  - exact fine_code39.
  - exact (fine_quotes c93_0 (lit "Code93") eq_refl).
  - exact (fine_quotes c11_0 (lit "Code11") eq_refl).
  - intros b. exact (fine_tuple _ _ _ (lit "Codabar") eq_refl (fine_list _ _ _ fine_cunit) (codabar_0 b)).
  - intros b. exact (fine_tuple _ _ _ (lit "Code128") eq_refl (fine_list _ _ _ fine_unit) (c128_0 b)).
  - exact fine_tf.
  - exact fine_tf.
Qed.
Theorem new_laid y p s : Agree (debug_new y p s) (pretty_new y p s).
Proof. apply both_agree, new_both. Qed.

(** ** Generators *)
Lemma laid_text {A} (f g : A -> str) t : fine f g t -> forall a, read_pretty (g a) = Some (t a).
Proof. intros H a. destruct (H a) as (_ & -> & G & F). now apply read_showp. Qed.
Lemma ascii_laid g : read_pretty (pretty_ascii g) = Some (TRecord (lit "ASCII") [(lit "height", TNum (ascii_height g)); (lit "xdim", TNum (ascii_xdim g))]).
Proof. exact (read_showp (TRecord (lit "ASCII") [(lit "height", TNum (ascii_height g)); (lit "xdim", TNum (ascii_xdim g))]) eq_refl eq_refl). Qed.
Lemma json_laid g : read_pretty (pretty_json g) = Some (TRecord (lit "JSON") [(lit "height", TNum (json_height g)); (lit "xdim", TNum (json_xdim g))]).
Proof. exact (read_showp (TRecord (lit "JSON") [(lit "height", TNum (json_height g)); (lit "xdim", TNum (json_xdim g))]) eq_refl eq_refl). Qed.
Lemma svg_laid h x fr fg fb fa br bg bb ba ns :
  read_pretty (pretty_svg (mkSVG h x (mkColor fr fg fb fa) (mkColor br bg bb ba) ns)) = Some (TRecord (lit "SVG")
    [(lit "height", TNum h); (lit "xdim", TNum x); (lit "foreground", four (lit "Color") fr fg fb fa);
     (lit "background", four (lit "Color") br bg bb ba);
     (lit "xmlns", match ns with None => TName (lit "None") | Some u => TCall (lit "Some") [TText u] end)]).
Proof.
  set (t := TRecord _ _). assert (E : pretty_svg (mkSVG h x (mkColor fr fg fb fa) (mkColor br bg bb ba) ns) = showp t) by (destruct ns; reflexivity).
  rewrite E. apply read_showp; destruct ns; reflexivity.
Qed.
Lemma image_laid v h x r fr fg fb fa br bg bb ba :
  read_pretty (pretty_image (mkImage v h x r (mkRgba fr fg fb fa) (mkRgba br bg bb ba))) = Some (TRecord (debug_variant v)
    [(lit "height", TNum h); (lit "xdim", TNum x); (lit "rotation", TName (debug_rotation r));
     (lit "foreground", four (lit "Color") fr fg fb fa); (lit "background", four (lit "Color") br bg bb ba)]).
Proof.
  set (t := TRecord _ _). assert (E : pretty_image (mkImage v h x r (mkRgba fr fg fb fa) (mkRgba br bg bb ba)) = showp t) by reflexivity.
  rewrite E. apply read_showp; destruct v, r; reflexivity.
Qed.
(** ** Consequences for the constructors *)
Theorem same_laid y p s s' t : pretty_new y p s = Ret t -> pretty_new y p s' = Ret t -> barcode y p s = barcode y p s'.
Proof.
  intros H H'. pose proof (new_both y p s) as A. pose proof (new_both y p s') as A'. rewrite H in A. rewrite H' in A'.
  destruct (debug_new y p s) as [d|] eqn:E; [|contradiction]. destruct (debug_new y p s') as [d'|] eqn:E'; [|contradiction].
  destruct A as (v & -> & P & G & F), A' as (v' & -> & P' & G' & F').
  assert (v = v'). { pose proof (read_showp v G F) as R. pose proof (read_showp v' G' F') as R'. rewrite <- P in R. rewrite <- P' in R'. congruence. }
  subst v'. exact (same_text y p s s' _ E E').
Qed.
Theorem new_pretty y p s :
  match pretty_new y p s with
  | Panic r => barcode y p s = Panic r
  | Ret t =>
      (exists e, barcode y p s = Ret (Err e) /\ read_pretty t = Some (TCall (lit "Err") [TName (error_name e)])) \/
      ((forall e, barcode y p s <> Ret (Err e)) /\
       exists v, new_value y s v /\ read_pretty t = Some (TCall (lit "Ok") [v]))
  end.
Proof.
  pose proof (new_laid y p s) as A. pose proof (new_shown y p s) as B. destruct (debug_new y p s) as [d|r], (pretty_new y p s) as [t|r']; cbn [Agree] in A; try contradiction.
  - destruct A as (v & D & P). destruct B as [(e & B & R) | (B & w & N & R)].
    + left. exists e. split; [exact B|]. congruence.
    + right. split; [exact B|]. exists w. split; [exact N|]. congruence.
  - now subst.
Qed.
End Tables.
