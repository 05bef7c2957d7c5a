(** * Proofs: the characters of the Debug texts *)
From Verif Require Import Rust M_Error M_Ean13 M_Ean8 M_Upca M_EanSupp M_Code39 M_Code93 M_Code11
  M_Codabar M_Code128 M_Tf M_Ascii M_Json M_Svg M_Image Symbology M_Debug M_Pretty S_Num S_Debug P_Num P_Alphabet.
Section Tables.
Context {tables : unicode}.
Notation vis := (Forall (visible tables)).

Lemma vis_ascii s : forallb (fun c => (32 <=? c) && (c <=? 126)) s = true -> vis s.
Proof. intros H. apply Forall_forall. intros c Hc. left. rewrite forallb_forall in H. specialize (H c Hc). cbv beta in H. apply andb_true_iff in H. destruct H as [A B]. apply N.leb_le in A, B. now split. Qed.
Lemma vis_app a b : vis a -> vis b -> vis (a ++ b).
Proof. intros A B. apply Forall_app. now split. Qed.
Lemma vis_dec n : vis (fmt_dec n).
Proof.
  unfold fmt_dec. generalize (S (N.to_nat (N.size n))) as f. intros f.
  assert (G : forall n acc, vis acc -> vis (dec_digits f n acc)); [|apply G; constructor].
  induction f as [|f IH]; intros k acc H; [assumption|]. cbn [dec_digits].
  assert (V : vis ((k mod 10 + 48) :: acc)) by (constructor; [|assumption]; left; pose proof (N.mod_lt k 10 ltac:(discriminate)) as Q; split; revert Q; generalize (k mod 10); intros; lia).
  destruct (k / 10 =? 0); [assumption | now apply IH].
Qed.
Lemma vis_hex f : forall c acc, vis acc -> vis (hex_digits f c acc).
Proof.
  assert (D : forall d, d < 16 -> visible tables (hex_digit d)).
  { intros d Hd. left. unfold hex_digit. destruct (N.ltb_spec d 10); lia. }
  induction f as [|f IH]; intros c acc H; [assumption|]. cbn [hex_digits]. destruct (N.ltb_spec c 16) as [L|L].
  - constructor; auto.
  - apply IH. constructor; [|assumption]. apply D. apply N.mod_lt. lia.
Qed.
Lemma vis_escape q c : (q = 34 \/ q = 39) -> vis (debug_escape q c).
Proof.
  intros Q. unfold debug_escape. repeat match goal with |- vis (if ?b then _ else _) => destruct b eqn:? end; try (apply vis_ascii; reflexivity).
  - apply vis_ascii. cbn [forallb]. match goal with H : (_ =? _) || _ = true |- _ => apply orb_true_iff in H; destruct H as [H|H]; apply N.eqb_eq in H; rewrite H end; [destruct Q as [-> | ->]; reflexivity | reflexivity].
  - apply vis_app; [apply vis_ascii; reflexivity|]. apply vis_app; [apply vis_hex; constructor | apply vis_ascii; reflexivity].
  - constructor; [|constructor]. unfold visible. destruct (N.ltb_spec c 128) as [L|L].
    + left. repeat match goal with H : _ || _ = false |- _ => apply orb_false_iff in H; destruct H | H : (_ <? _) = false |- _ => apply N.ltb_ge in H | H : (_ =? _) = false |- _ => apply N.eqb_neq in H end. unfold char in *. lia.
    + right. split; [exact L|]. change (printable c = true). destruct (printable c); [reflexivity|]. cbn [negb andb] in *. rewrite orb_true_r in *. discriminate.
Qed.
Lemma vis_char c : vis (debug_char c).
Proof. unfold debug_char. repeat apply vis_app; try (apply vis_ascii; reflexivity). apply vis_escape. now right. Qed.
Lemma vis_str s : vis (debug_str s).
Proof.
  unfold debug_str. repeat apply vis_app; try (apply vis_ascii; reflexivity). induction s as [|c s IH]; [constructor|]. cbn [flat_map]. apply vis_app; [apply vis_escape; now left | assumption].
Qed.
Lemma vis_commas l : Forall (fun s => vis s) l -> vis (commas l).
Proof.
  destruct l as [|x l]; intros H; [constructor|]. inversion H; subst. cbn [commas]. apply vis_app; [assumption|].
  clear - H3. induction H3; [constructor|]. cbn [flat_map]. repeat apply vis_app; try assumption. apply vis_ascii; reflexivity.
Qed.
Lemma vis_list {A} (f : A -> str) l : (forall a, vis (f a)) -> vis (debug_list f l).
Proof.
  intros F. unfold debug_list. repeat apply vis_app; try (apply vis_ascii; reflexivity). apply vis_commas. apply Forall_forall. intros s Hs. apply in_map_iff in Hs. destruct Hs as (a & <- & _). apply F.
Qed.
Lemma vis_tuple name l : vis name -> Forall (fun s => vis s) l -> vis (debug_tuple name l).
Proof. intros V F. unfold debug_tuple. repeat apply vis_app; try assumption; try (apply vis_ascii; reflexivity). now apply vis_commas. Qed.
Lemma vis_struct name l : vis name -> Forall (fun x => vis (fst x) /\ vis (snd x)) l -> vis (debug_struct name l).
Proof.
  intros V F. unfold debug_struct. repeat apply vis_app; try assumption; try (apply vis_ascii; reflexivity). apply vis_commas.
  induction F as [|x l [A B] F IH]; constructor; [|assumption]. repeat apply vis_app; try assumption. apply vis_ascii; reflexivity.
Qed.
Ltac vis_tac := repeat first
  [ assumption
  | apply vis_dec | apply vis_char | apply vis_str
  | match goal with
    | |- vis (debug_list _ _) => apply vis_list; intros
    | |- vis (debug_tuple _ _) => apply vis_tuple
    | |- vis (debug_struct _ _) => apply vis_struct
    | |- Forall _ (_ :: _) => apply Forall_cons
    | |- Forall _ [] => apply Forall_nil
    | |- _ /\ _ => split; cbn [fst snd]
    end
  | apply vis_ascii; reflexivity ].
Lemma vis_result {A} (f : A -> str) r : (forall a, vis (f a)) -> vis (debug_result f r).
Proof. intros F. destruct r as [a|e]; cbn [debug_result]; [pose proof (F a); vis_tac|]. destruct e; cbn [debug_error]; vis_tac. Qed.
Lemma vis_cunit u : vis (debug_cunit u). Proof. destruct u; vis_tac. Qed.
Lemma vis_kind k : vis (debug_kind k). Proof. destruct k; vis_tac. Qed.
Lemma vis_unit u : vis (debug_unit u). Proof. unfold debug_unit. pose proof (vis_kind (u_kind u)). vis_tac. Qed.
Lemma vis_new y p s t : debug_new y p s = Ret t -> vis t.
Proof.
  destruct y; cbn [debug_new]; intros H; try (match type of H with bind ?m _ = _ => destruct m as [r|]; [|discriminate H]; cbn [bind] in H end);
    injection H as <-; apply vis_result; intros b.
  1-3: unfold debug_ean13, debug_ean8, debug_upca; vis_tac.
  - destruct b; cbn [debug_eansupp]; vis_tac.
  - unfold debug_code39. destruct (c39_checksum b); cbn [debug_bool]; vis_tac.
  - unfold debug_code39. destruct (c39_checksum b); cbn [debug_bool]; vis_tac.
  - unfold debug_code93. vis_tac.
  - unfold debug_code11. vis_tac.
  - unfold debug_codabar. vis_tac. apply vis_cunit.
  - unfold debug_code128. vis_tac. apply vis_unit.
  - destruct b; cbn [debug_tf]; vis_tac.
  - destruct b; cbn [debug_tf]; vis_tac.
Qed.
Lemma vis_ascii_gen g : vis (debug_ascii g). Proof. unfold debug_ascii. vis_tac. Qed.
Lemma vis_json_gen g : vis (debug_json g). Proof. unfold debug_json. vis_tac. Qed.
Lemma vis_svg_gen g : vis (debug_svg g).
Proof. unfold debug_svg, debug_color. destruct (svg_xmlns g); cbn [debug_option]; vis_tac. Qed.
Lemma vis_image_gen g : vis (debug_image g).
Proof. unfold debug_image, debug_rgba. destruct (img_rotation g), (img_variant g); cbn [debug_rotation debug_variant]; vis_tac. Qed.

(** ** Pretty-printed: also line breaks *)
Notation laid := (Forall (fun c => visible tables c \/ c = 10)).
Lemma vis_laid s : vis s -> laid s. Proof. apply Forall_impl. auto. Qed.
Lemma laid_app a b : laid a -> laid b -> laid (a ++ b).
Proof. intros A B. apply Forall_app. now split. Qed.
Lemma laid_pad s : forall b, laid s -> laid (pad_from b s).
Proof.
  induction s as [|c s IH]; intros b H; [constructor|]. inversion H; subst. cbn [pad_from].
  assert (T : laid (c :: pad_from (c =? newline) s)) by (constructor; auto). destruct b; [|assumption]. apply laid_app; [apply vis_laid, vis_ascii; reflexivity | assumption].
Qed.
Lemma laid_newline : laid [newline]. Proof. constructor; [now right | constructor]. Qed.
Lemma laid_entry s : laid s -> laid (pad_entry s).
Proof. intros H. apply laid_pad. repeat apply laid_app; try assumption; [apply vis_laid, vis_ascii; reflexivity | apply laid_newline]. Qed.
Lemma laid_flat {A} (f : A -> str) l : Forall (fun a => laid (f a)) l -> laid (flat_map f l).
Proof. induction 1; [constructor|]. cbn [flat_map]. now apply laid_app. Qed.
Ltac lit_tac := try (apply vis_laid, vis_ascii; reflexivity); try apply laid_newline; try assumption.
Lemma laid_list {A} (f : A -> str) l : (forall a, laid (f a)) -> laid (pretty_list f l).
Proof.
  intros F. unfold pretty_list. repeat apply laid_app; lit_tac.
  - destruct l; [constructor | apply laid_newline].
  - apply laid_flat. apply Forall_forall. intros a _. apply laid_entry, F.
Qed.
Lemma laid_tuple name l : vis name -> Forall (fun s => laid s) l -> laid (pretty_tuple name l).
Proof. intros V F. unfold pretty_tuple. apply vis_laid in V. repeat apply laid_app; lit_tac. apply laid_flat. revert F. apply Forall_impl. intros a. apply laid_entry. Qed.
Lemma laid_struct name l : vis name -> Forall (fun x => laid (fst x) /\ laid (snd x)) l -> laid (pretty_struct name l).
Proof.
  intros V F. unfold pretty_struct. apply vis_laid in V. repeat apply laid_app; lit_tac. apply laid_flat. revert F. apply Forall_impl. intros x [A B]. apply laid_entry.
  repeat apply laid_app; lit_tac.
Qed.
Ltac laid_tac := repeat first
  [ assumption
  | apply vis_dec | apply vis_char | apply vis_str | apply vis_laid, vis_dec | apply vis_laid, vis_char | apply vis_laid, vis_str
  | match goal with
    | |- laid (pretty_list _ _) => apply laid_list; intros
    | |- laid (pretty_tuple _ _) => apply laid_tuple
    | |- laid (pretty_struct _ _) => apply laid_struct
    | |- Forall _ (_ :: _) => apply Forall_cons
    | |- Forall _ [] => apply Forall_nil
    | |- _ /\ _ => split; cbn [fst snd]
    end
  | apply vis_ascii; reflexivity | apply vis_laid, vis_ascii; reflexivity ].
Lemma laid_result {A} (f : A -> str) r : (forall a, laid (f a)) -> laid (pretty_result f r).
Proof. intros F. destruct r as [a|e]; cbn [pretty_result]; [pose proof (F a); laid_tac|]. destruct e; cbn [debug_error]; laid_tac. Qed.
Lemma laid_unit u : laid (pretty_unit u). Proof. unfold pretty_unit. pose proof (vis_laid _ (vis_kind (u_kind u))). laid_tac. Qed.
Lemma laid_new y p s t : pretty_new y p s = Ret t -> laid t.
Proof.
  destruct y; cbn [pretty_new]; intros H; try (match type of H with bind ?m _ = _ => destruct m as [r|]; [|discriminate H]; cbn [bind] in H end);
    injection H as <-; apply laid_result; intros b.
  1-3: unfold pretty_ean13, pretty_ean8, pretty_upca; laid_tac.
  - destruct b; cbn [pretty_eansupp]; laid_tac.
  - unfold pretty_code39. destruct (c39_checksum b); cbn [debug_bool]; laid_tac.
  - unfold pretty_code39. destruct (c39_checksum b); cbn [debug_bool]; laid_tac.
  - unfold pretty_code93. laid_tac.
  - unfold pretty_code11. laid_tac.
  - unfold pretty_codabar. laid_tac. apply vis_laid, vis_cunit.
  - unfold pretty_code128. laid_tac. apply laid_unit.
  - destruct b; cbn [pretty_tf]; laid_tac.
  - destruct b; cbn [pretty_tf]; laid_tac.
Qed.
Lemma laid_svg_gen g : laid (pretty_svg g).
Proof. unfold pretty_svg, pretty_color. destruct (svg_xmlns g); cbn [pretty_option]; laid_tac. Qed.
End Tables.

(** The tables of core do not matter for the texts of symbols. *)
Lemma same_tables_char (u v : unicode) c : c < 128 -> @debug_char u c = @debug_char v c.
Proof. intros H. unfold debug_char, debug_escape. rewrite (proj2 (N.ltb_lt c 128) H). reflexivity. Qed.
Lemma same_tables_chars (u v : unicode) l : Forall (fun c => c < 128) l -> debug_list (@debug_char u) l = debug_list (@debug_char v) l.
Proof. intros H. unfold debug_list. do 3 f_equal. apply map_ext_in. intros c Hc. apply same_tables_char. rewrite Forall_forall in H. auto. Qed.
Lemma same_tables_pretty (u v : unicode) l : Forall (fun c => c < 128) l -> pretty_list (@debug_char u) l = pretty_list (@debug_char v) l.
Proof.
  intros H. unfold pretty_list. do 3 f_equal. induction H as [|c l Hc H IH]; [reflexivity|]. cbn [flat_map]. now rewrite IH, (same_tables_char u v c Hc).
Qed.
Lemma alphabet_ascii vc (s : str) : forallb (fun c => c <? 128) vc = true -> Forall (fun c => In c vc) s -> Forall (fun c => c < 128) s.
Proof. intros E. apply Forall_impl. intros c Hc. apply N.ltb_lt. rewrite forallb_forall in E. exact (E c Hc). Qed.
Lemma code39_same (u v : unicode) s k : debug_result (@debug_code39 u) (code39_init s k) = debug_result (@debug_code39 v) (code39_init s k)
  /\ pretty_result (@pretty_code39 u) (code39_init s k) = pretty_result (@pretty_code39 v) (code39_init s k).
Proof.
  destruct (code39_init s k) as [b|e] eqn:E; [|split; reflexivity]. apply alphabet_new_Ok in E. destruct E as (F & -> & _).
  apply alphabet_ascii in F; [|reflexivity]. cbn [debug_result pretty_result]. unfold debug_code39, pretty_code39. cbn [c39_data].
  now rewrite (same_tables_chars u v s F), (same_tables_pretty u v s F).
Qed.
Lemma code93_same (u v : unicode) s : debug_result (@debug_code93 u) (code93_new s) = debug_result (@debug_code93 v) (code93_new s)
  /\ pretty_result (@pretty_code93 u) (code93_new s) = pretty_result (@pretty_code93 v) (code93_new s).
Proof.
  destruct (code93_new s) as [b|e] eqn:E; [|split; reflexivity]. apply alphabet_new_Ok in E. destruct E as (F & -> & _).
  apply alphabet_ascii in F; [|reflexivity]. cbn [debug_result pretty_result]. unfold debug_code93, pretty_code93. cbn [c93_0].
  now rewrite (same_tables_chars u v s F), (same_tables_pretty u v s F).
Qed.
Lemma code11_same (u v : unicode) s : debug_result (@debug_code11 u) (code11_new s) = debug_result (@debug_code11 v) (code11_new s)
  /\ pretty_result (@pretty_code11 u) (code11_new s) = pretty_result (@pretty_code11 v) (code11_new s).
Proof.
  destruct (code11_new s) as [b|e] eqn:E; [|split; reflexivity]. apply alphabet_new_Ok in E. destruct E as (F & -> & _).
  apply alphabet_ascii in F; [|reflexivity]. cbn [debug_result pretty_result]. unfold debug_code11, pretty_code11. cbn [c11_0].
  now rewrite (same_tables_chars u v s F), (same_tables_pretty u v s F).
Qed.
Lemma same_tables (u v : unicode) y p s : @debug_new u y p s = @debug_new v y p s /\ @pretty_new u y p s = @pretty_new v y p s.
Proof.
  destruct y; cbn [debug_new pretty_new]; try (split; reflexivity).
  - destruct (code39_same u v s false) as [A B]. unfold code39_new. now rewrite A, B.
  - destruct (code39_same u v s true) as [A B]. unfold code39_with_checksum. now rewrite A, B.
  - destruct (code93_same u v s) as [A B]. now rewrite A, B.
  - destruct (code11_same u v s) as [A B]. now rewrite A, B.
Qed.
Lemma new_ascii (u : unicode) y p s t : debug_new y p s = Ret t -> Forall (fun c => 32 <= c <= 126) t.
Proof.
  intros H. rewrite (proj1 (same_tables u (fun _ => false) y p s)) in H. pose proof (@vis_new (fun _ => false) y p s t H) as V. revert V.
  apply Forall_impl. intros c [A|[_ B]]; [exact A | discriminate B].
Qed.
Lemma new_lines (u : unicode) y p s t : pretty_new y p s = Ret t -> Forall (fun c => 32 <= c <= 126 \/ c = 10) t.
Proof.
  intros H. rewrite (proj2 (same_tables u (fun _ => false) y p s)) in H. pose proof (@laid_new (fun _ => false) y p s t H) as V. revert V.
  apply Forall_impl. intros c [[A|[_ B]]|C]; [now left | discriminate B | now right].
Qed.
