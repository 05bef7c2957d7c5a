(** * Proofs about generator construction and the xmlns setting *)
From Verif Require Import Rust M_Error M_Svg S_Barcode S_Text S_Num S_Svg S_Build
  P_Rust P_Barcode P_Num P_Xml P_Svg P_Svg2.

(** ** Setter chains *)
Lemma svg_build_last calls : forall g,
  fold_left svg_apply calls g =
  mkSVG (svg_height g)
        (last_set (fun c => match c with CallXdim x => Some x | _ => None end) (svg_xdim g) calls)
        (last_set (fun c => match c with CallForeground x => Some x | _ => None end) (svg_foreground g) calls)
        (last_set (fun c => match c with CallBackground x => Some x | _ => None end) (svg_background g) calls)
        (last_set (fun c => match c with CallXmlns x => Some (Some x) | _ => None end) (svg_xmlns g) calls).
Proof.
  induction calls as [|c calls IH]; intros g; [now destruct g|].
  cbn [fold_left]. rewrite IH. now destruct c.
Qed.

(** ** The xmlns value is copied unescaped *)
Lemma svg_generate_text p g b : byte_color (svg_foreground g) -> byte_color (svg_background g) -> len b * svg_xdim g < 2 ^ 32 ->
  svg_generate p g b = Ret (Ok (svg_text g (len b * svg_xdim g) (map (fun i => i * svg_xdim g) (bar_positions b)))).
Proof.
  intros Hf Hb H. apply svg_generate_gen; try assumption.
  - now apply mul_cast_fits.
  - intros i Hi. apply mul_cast_fits. apply bar_positions_lt in Hi. nia.
Qed.
(** The reader only returns plain attribute values *)
Lemma xml_attrs_plain fuel : forall s l rest, xml_attrs fuel s = Some (l, rest) ->
  Forall (fun a => forallb xml_plain (snd a) = true) l.
Proof.
  induction fuel as [|f IH]; intros s l rest H; [discriminate|]. rewrite xml_attrs_S in H.
  destruct (skip_space s) as [|c r]; [discriminate|].
  destruct ((c =? 47) || (c =? 62)); [injection H as <- _; constructor|].
  destruct (is_space (hd 0 s)); [|discriminate].
  destruct (xml_name (c :: r)) as [[n t]|]; [|discriminate]. cbn [obind fst snd] in H.
  destruct (eat [61; 34] t) as [v|]; [|discriminate]. cbn [obind] in H.
  destruct (span xml_plain v) as [val rest'] eqn:ES.
  destruct (eat [34] rest') as [r2|]; [|discriminate]. cbn [obind] in H.
  destruct (xml_attrs f r2) as [[l' r']|] eqn:EA; [|discriminate]. cbn [obind fst snd] in H.
  injection H as <- _. constructor; [|now apply IH in EA].
  cbn [snd]. clear - ES. revert val rest' ES. induction v as [|x v IHv]; intros val rest' ES; cbn [span] in ES.
  - injection ES as <- _. reflexivity.
  - destruct (xml_plain x) eqn:EX.
    + destruct (span xml_plain v) as [a b]. injection ES as <- _. cbn [forallb]. rewrite EX. now apply (IHv a b).
    + injection ES as <- _. reflexivity.
Qed.
Lemma get_Forall P k l v : Forall (fun a : str * str => P (snd a)) l -> get k l = Some v -> P v.
Proof.
  intros HF. induction HF as [|[k' v'] l Hx HF IH]; [discriminate|]. cbn [get].
  destruct (str_eqb k k'); [|assumption]. intros E. injection E as <-. exact Hx.
Qed.
Lemma read_xml_plain s n l es : read_xml s = Some (Elem n l es) -> Forall (fun a => forallb xml_plain (snd a) = true) l.
Proof.
  unfold read_xml. intros H. destruct (xml_element (S (length s)) (skip_space s)) as [[e r]|] eqn:E; [|discriminate].
  cbn [obind fst snd] in H. destruct (skip_space r); [|discriminate]. injection H as ->.
  rewrite xml_element_S in E. destruct (eat [60] (skip_space s)) as [t|]; [|discriminate]. cbn [obind] in E.
  destruct (xml_name t) as [[n' t']|]; [|discriminate]. cbn [obind fst snd] in E.
  destruct (xml_attrs (length s) t') as [[l' t2]|] eqn:EA; [|discriminate]. cbn [obind fst snd] in E.
  apply xml_attrs_plain in EA.
  destruct (distinct (map fst l')); [|discriminate].
  assert (G : forall e', Some (Elem n' l' e', r) = Some (Elem n l es, r) -> l = l') by (intros ? X; now injection X).
  assert (l = l'); [|now subst].
  destruct t2 as [|c t2]; [discriminate|].
  destruct (N.eq_dec c 47) as [->|H47].
  - destruct t2 as [|c2 t2]; [discriminate|]. destruct (N.eq_dec c2 62) as [->|H62].
    + injection E as E1 E2 E3. now subst.
    + destruct c2 as [|c2]; [discriminate|]. do 6 (destruct c2 as [c2|c2|]; try discriminate). congruence.
  - destruct (N.eq_dec c 62) as [->|H62].
    + destruct (xml_content (length s) t2) as [[x y]|]; [|discriminate]. cbn [obind fst snd] in E.
      destruct (eat n' y) as [z|]; [|discriminate]. cbn [obind] in E.
      destruct (eat [62] (skip_space z)) as [z'|]; [|discriminate]. cbn [obind] in E.
      injection E as E1 E2 E3 E4. now subst.
    + destruct c as [|c]; [discriminate|]. do 6 (destruct c as [c|c|]; try discriminate); congruence.
Qed.
Lemma read_svg_plain s d u : read_svg s = Some d -> d_xmlns d = Some u -> forallb xml_plain u = true.
Proof.
  unfold read_svg. intros H HU. destruct (read_xml s) as [[n l es]|] eqn:E; [|discriminate]. cbn [obind] in H.
  apply read_xml_plain in E. unfold read_drawing in H.
  match type of H with (if ?x then _ else _) = _ => destruct x; [|discriminate] end.
  destruct (get (lit "viewBox") l) as [vb|]; [|discriminate]. cbn [obind] in H.
  destruct (read_all read_dec (split_on 32 vb)) as [[|x [|y [|w [|h [|? ?]]]]]|]; try discriminate.
  destruct (read_all read_rect es) as [rs|]; [|discriminate]. cbn [obind] in H. injection H as <-. cbn [d_xmlns] in HU.
  exact (get_Forall (fun v => forallb xml_plain v = true) _ _ _ E HU).
Qed.
Lemma svg_xmlns_iff p g b : byte_color (svg_foreground g) -> byte_color (svg_background g) -> len b * svg_xdim g < 2 ^ 32 ->
  exists out, svg_generate p g b = Ret (Ok out) /\
    ((exists d, read_svg out = Some d /\ d_xmlns d = svg_xmlns g) <-> plain_ns (svg_xmlns g)).
Proof.
  intros Hf Hb H. eexists. split; [now apply svg_generate_text|]. split.
  - intros [d [HR HU]]. destruct (svg_xmlns g) as [u|]; [|exact I]. exact (read_svg_plain _ d u HR HU).
  - intros HN. eexists. split; [now apply svg_text_read|]. reflexivity.
Qed.
(** An xmlns value containing a quote can carry further attributes *)
Definition smuggle (a n v : str) : str := a ++ [34; 32] ++ n ++ [61; 34] ++ v.
Lemma svg_smuggle p g b a n v : byte_color (svg_foreground g) -> byte_color (svg_background g) -> len b * svg_xdim g < 2 ^ 32 ->
  svg_xmlns g = Some (smuggle a n v) -> forallb xml_plain a = true -> forallb xml_plain v = true -> good_name n ->
  ~ In n [lit "version"; lit "xmlns"; lit "viewBox"] ->
  exists out vb es, svg_generate p g b = Ret (Ok out) /\
    read_xml out = Some (Elem (lit "svg") [(lit "version", lit "1.1"); (lit "xmlns", a); (n, v); (lit "viewBox", vb)] es).
Proof.
  intros Hf Hb H HX Ha Hv Hn HI.
  set (w := len b * svg_xdim g). set (offs := map (fun i => i * svg_xdim g) (bar_positions b)).
  set (vb := lit "0 0 " ++ fmt_dec w ++ lit " " ++ fmt_dec (svg_height g)).
  exists (svg_text g w offs), vb,
    (rect_elem (svg_background g) 0 w (svg_height g) :: map (fun o => rect_elem (svg_foreground g) o (svg_xdim g) (svg_height g)) offs).
  split; [now apply svg_generate_text|].
  unfold read_xml. pose proof (svg_text_length g w offs) as HL.
  assert (E : skip_space (svg_text g w offs) = svg_text g w offs) by reflexivity. rewrite E. clear E.
  generalize dependent (length (svg_text g w offs)). intros k HL.
  assert (EA : attrs_text (svg_attrs (svg_xmlns g) w (svg_height g)) =
               attrs_text [(lit "version", lit "1.1"); (lit "xmlns", a); (n, v); (lit "viewBox", vb)]).
  { rewrite HX. unfold svg_attrs, ns_attrs, attrs_text, smuggle, vb. cbn [app flat_map]. unfold attr_text. cbn [fst snd].
    f_equal. rewrite <- !app_assoc. cbn [app]. repeat (rewrite <- ?app_assoc; cbn [app]). reflexivity. }
  unfold svg_text. rewrite EA.
  rewrite (xml_node _ _ _ 8 (rect_elem (svg_background g) 0 w (svg_height g) ::
      map (fun o => rect_elem (svg_foreground g) o (svg_xdim g) (svg_height g)) offs)); [reflexivity|..].
  - now split.
  - constructor; [split; [now split | reflexivity]|]. constructor; [split; [now split | exact Ha]|].
    constructor; [split; assumption|]. constructor; [|constructor]. split; [now split|]. cbn [snd]. unfold vb.
    rewrite !forallb_app. rewrite !(plain_digits (fmt_dec _)) by apply fmt_dec_digits. reflexivity.
  - discriminate.
  - cbn [map fst distinct existsb].
    assert (X : forall t, In t [lit "version"; lit "xmlns"; lit "viewBox"] -> str_eqb n t = false /\ str_eqb t n = false).
    { intros t Ht. split; apply not_true_iff_false; intros Q; apply str_eqb_eq in Q; subst; contradiction. }
    destruct (X (lit "version")) as [_ ->]; [now left|]. destruct (X (lit "xmlns")) as [_ ->]; [right; now left|].
    destruct (X (lit "viewBox")) as [-> _]; [do 2 right; now left|]. reflexivity.
  - constructor; [now apply rect_readable|]. clear - Hf. induction offs; [constructor|]. constructor; [now apply rect_readable | assumption].
  - cbn [length]. lia.
  - cbn [length]. rewrite map_length. lia.
Qed.
