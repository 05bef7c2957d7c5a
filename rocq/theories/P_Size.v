(** * Proofs about the sizes of outputs *)
From Verif Require Import Rust M_Error M_Ascii M_Json M_Svg M_Image S_Barcode S_Text S_Num S_Ascii S_Svg S_Size
  P_Rust P_Num P_Ascii P_Json P_Svg P_Svg2.

Lemma str_len_app a b : str_len (a ++ b) = str_len a + str_len b.
Proof. unfold str_len. induction a as [|c a IH]; [reflexivity|]. cbn [app fold_right]. rewrite IH. lia. Qed.
Lemma str_len_repeat s n : str_len (concat (repeat s n)) = N.of_nat n * str_len s.
Proof. induction n as [|n IH]; [reflexivity|]. cbn [repeat concat]. rewrite str_len_app, IH. lia. Qed.

(** ** Numbers *)
Lemma decimal_bound ds : Forall (fun d => d < 10) ds -> decimal ds < 10 ^ len ds.
Proof.
  intros H. induction ds as [|d ds IH] using rev_ind; [reflexivity|]. apply Forall_app in H. destruct H as [H Hd].
  apply Forall_inv in Hd. cbn beta in Hd. specialize (IH H). rewrite decimal_snoc. replace (len (ds ++ [d])) with (N.succ (len ds)).
  - rewrite N.pow_succ_r'. lia.
  - unfold len. rewrite app_length. cbn [length]. lia.
Qed.
Lemma decimal_low d ds : 1 <= d -> 10 ^ len ds <= decimal (d :: ds).
Proof.
  intros Hd. induction ds as [|e ds IH] using rev_ind; [cbn; lia|].
  change (d :: ds ++ [e]) with ((d :: ds) ++ [e]). rewrite decimal_snoc. replace (len (ds ++ [e])) with (N.succ (len ds)).
  - rewrite N.pow_succ_r'. lia.
  - unfold len. rewrite app_length. cbn [length]. lia.
Qed.
Lemma fmt_dec_size n : written_with n (str_len (fmt_dec n)).
Proof.
  destruct (fmt_dec_numeral n) as (HF & Hne & H0 & Hz & HV).
  assert (HA : str_len (fmt_dec n) = len (fmt_dec n)).
  { apply str_len_ascii. revert HF. apply Forall_impl. intros c Hc. unfold digit_char in Hc. lia. }
  rewrite HA. assert (HL : len (fmt_dec n) = len (digits_of (fmt_dec n))) by (unfold len, digits_of; now rewrite map_length).
  assert (HD : Forall (fun d => d < 10) (digits_of (fmt_dec n))).
  { unfold digits_of. apply Forall_map. revert HF. apply Forall_impl. intros c Hc. unfold digit_char in Hc. lia. }
  split; [|split].
  - destruct (fmt_dec n); [congruence|]. rewrite len_cons. lia.
  - rewrite HL. rewrite <- HV at 1. now apply decimal_bound.
  - destruct (N.eq_dec n 0) as [E|E]; [left; now rewrite (H0 E)|]. specialize (Hz E). clear Hne H0 HA HL HD.
    destruct (fmt_dec n) as [|c tl]; [cbn in HV; congruence|]. right. cbn [hd] in Hz. apply Forall_inv in HF. unfold digit_char in HF.
    rewrite len_cons. replace (len tl + 1 - 1) with (len tl) by lia. replace (1 + len tl - 1) with (len tl) by lia.
    change (digits_of (c :: tl)) with ((c - 48) :: digits_of tl) in HV. rewrite <- HV.
    replace (len tl) with (len (digits_of tl)) by (unfold len, digits_of; now rewrite map_length). apply decimal_low. lia.
Qed.
Lemma fmt_dec_u32 n : n < 2 ^ 32 -> str_len (fmt_dec n) <= 10.
Proof.
  intros H. destruct (fmt_dec_size n) as (_ & _ & [E|E]); [lia|]. set (k := str_len (fmt_dec n)) in *.
  destruct (N.le_gt_cases k 10) as [|Hk]; [assumption|]. exfalso.
  assert (HP : 10 ^ 10 <= 10 ^ (k - 1)) by (apply N.pow_le_mono_r; lia). change (10 ^ 10) with 10000000000 in HP. change (2 ^ 32) with 4294967296 in H. lia.
Qed.

(** ** Text *)
Lemma text_line_size x b : str_len (text_line x b) = len b * x.
Proof.
  unfold text_line. induction b as [|d b IH]; [reflexivity|]. cbn [flat_map]. rewrite str_len_app, IH, len_cons.
  assert (E : forall c n, c < 128 -> str_len (repeat c n) = N.of_nat n).
  { intros c n Hc. rewrite str_len_ascii; [unfold len; now rewrite repeat_length|]. apply Forall_forall. intros z Hz. apply repeat_spec in Hz. now subst. }
  rewrite E; [lia|]. destruct (d =? 1); reflexivity.
Qed.
Lemma join_lines_size l n : str_len (join_lines (repeat l (S n))) = N.of_nat (S n) * str_len l + N.of_nat n.
Proof.
  induction n as [|n IH]; [cbn [repeat join_lines]; lia|].
  change (join_lines (repeat l (S (S n)))) with (l ++ 10 :: join_lines (repeat l (S n))). rewrite str_len_app.
  change (str_len (10 :: join_lines (repeat l (S n)))) with (1 + str_len (join_lines (repeat l (S n)))). rewrite IH. lia.
Qed.
Lemma json_bits_size b acc :
  str_len (fold_left (fun acc b => (acc ++ (if b =? 0 then lit "0" else lit "1")) ++ lit ",") b acc) = str_len acc + 2 * len b.
Proof.
  revert acc. induction b as [|x b IH]; intros acc; [cbn [fold_left]; unfold len; cbn [length]; lia|]. cbn [fold_left]. rewrite IH, !str_len_app, len_cons.
  destruct (x =? 0); change (str_len (lit ",")) with 1; change (str_len (lit "0")) with 1 || change (str_len (lit "1")) with 1; lia.
Qed.
Lemma pop_size (l : str) (c : char) : c < 128 -> str_len (pop (l ++ [c])) + 1 = str_len (l ++ [c]).
Proof.
  intros Hc. unfold pop. rewrite removelast_last. rewrite (str_len_app l [c]). rewrite (str_len_ascii [c]) by now constructor. reflexivity.
Qed.
Lemma Ok_inj {A} (a b : A) : Ok a = Ok b -> a = b.
Proof. congruence. Qed.
Lemma Ret_inj {A} (a b : A) : Ret a = Ret b -> a = b.
Proof. congruence. Qed.
Lemma json_size g b out : b <> [] -> json_generate g b = Ok out ->
  str_len out = 33 + str_len (fmt_dec (json_height g)) + str_len (fmt_dec (json_xdim g)) + (2 * len b - 1).
Proof.
  intros Hb H. unfold json_generate in H. apply Ok_inj in H. subst out. rewrite !str_len_app.
  assert (E : str_len (pop (json_bits b)) + 1 = 2 * len b).
  { assert (HL : exists l : str, json_bits b = l ++ [44 : char]).
    { destruct (exists_last Hb) as (b' & x & E). rewrite E. unfold json_bits. rewrite fold_left_app. eexists. reflexivity. }
    destruct HL as [l HL]. assert (HJ : str_len (json_bits b) = 2 * len b) by exact (json_bits_size b []). rewrite HL in *.
    rewrite (pop_size l 44) by reflexivity. exact HJ. }
  change (str_len (lit "{")) with 1. change (str_len dq) with 1. change (str_len (lit "height")) with 6. change (str_len (lit ":")) with 1.
  change (str_len (lit ",")) with 1. change (str_len (lit "xdim")) with 4. change (str_len (lit "encoding")) with 8.
  change (str_len (lit ":[")) with 2. change (str_len (lit "]}")) with 2. lia.
Qed.

(** ** Drawings *)
Lemma mapM_inv {A B} (f : A -> M B) (P : B -> Prop) l r : (forall x y, In x l -> f x = Ret y -> P y) -> mapM f l = Ret r ->
  length r = length l /\ Forall P r.
Proof.
  revert r. induction l as [|x l IH]; intros r H E; [injection E as <-; split; [reflexivity | constructor]|]. cbn [mapM] in E.
  destruct (f x) as [y|] eqn:Ex; [|discriminate]. cbn [bind] in E. destruct (mapM f l) as [ys|] eqn:El; [|discriminate]. cbn [bind] in E.
  injection E as <-. destruct (IH ys) as [HL HF]; [intros; eapply H; [right|]; eassumption | reflexivity |]. split; [cbn [length]; now rewrite HL|].
  constructor; [|assumption]. apply (H x y); [now left | assumption].
Qed.
Lemma bind_Ret {A B} (m : M A) (f : A -> M B) r : bind m f = Ret r -> exists a, m = Ret a /\ f a = Ret r.
Proof. destruct m as [a|]; [|discriminate]. intros H. exists a. now split. Qed.
Lemma fit_u_lt bits p n r : fit_u bits p n = Ret r -> r < 2 ^ bits.
Proof.
  unfold fit_u. destruct (N.ltb_spec n (2 ^ bits)); [intros E; now injection E as <-|]. destruct p; [discriminate|].
  intros E. injection E as <-. apply N.mod_lt. apply N.pow_nonzero. discriminate.
Qed.
Definition opacity_size (a : N) : bool := str_len (opacity_of a) =? 4.
Lemma opacity_size_check : forallb opacity_size (range 256) = true.
Proof. vm_compute. reflexivity. Qed.
Definition hex_size (a : N) : bool := match format_hex Debug a with Ret h => str_len h =? 2 | Panic _ => false end.
Lemma hex_size_check : forallb hex_size (range 256) = true.
Proof. vm_compute. reflexivity. Qed.
Lemma to_hex_size p c : byte_color c -> exists h, to_hex p c = Ret h /\ str_len h = 6.
Proof.
  intros (Hr & Hg & Hb & _). unfold to_hex. cbn [mapM]. rewrite !(format_hex_profile p) by assumption.
  pose proof (byte_check _ _ hex_size_check Hr) as Er. pose proof (byte_check _ _ hex_size_check Hg) as Eg.
  pose proof (byte_check _ _ hex_size_check Hb) as Eb. unfold hex_size in *.
  destruct (format_hex Debug (red c)) as [h1|]; [|discriminate]. destruct (format_hex Debug (green c)) as [h2|]; [|discriminate].
  destruct (format_hex Debug (blue c)) as [h3|]; [|discriminate]. apply N.eqb_eq in Er, Eg, Eb. cbn [bind concat]. eexists. split; [reflexivity|].
  rewrite !str_len_app, Er, Eg, Eb. reflexivity.
Qed.
Lemma attr_size n v : str_len (attr n v) = str_len n + 3 + str_len v.
Proof. unfold attr. rewrite !str_len_app. change (str_len (lit "=")) with 1. change (str_len dq) with 1. lia. Qed.
Lemma rect_size p g style off w r : byte_color (svg_foreground g) -> byte_color (svg_background g) -> svg_height g < 2 ^ 32 ->
  off < 2 ^ 32 -> w < 2 ^ 32 -> svg_rect p g style off w = Ret r -> str_len r <= 103.
Proof.
  intros Hf Hb Hh Ho Hw H. unfold svg_rect in H. set (c := if style =? 1 then svg_foreground g else svg_background g) in *.
  assert (Hc : byte_color c) by (unfold c; destruct (style =? 1); assumption). clearbody c.
  destruct (to_hex_size p c Hc) as (h & E & Eh). rewrite E in H. cbn [bind] in H. apply Ret_inj in H. subst r.
  assert (HO : str_len (svg_opacity_attr c) <= 21).
  { unfold svg_opacity_attr. destruct (str_eqb _ _ || str_eqb _ _); [cbn; lia|]. rewrite !str_len_app, attr_size, to_opacity_of.
    destruct Hc as (_ & _ & _ & Ha). pose proof (byte_check _ _ opacity_size_check Ha) as Ea. unfold opacity_size in Ea. apply N.eqb_eq in Ea. rewrite Ea.
    change (str_len (lit " ")) with 1. change (str_len (lit "fill-opacity")) with 12. lia. }
  rewrite !str_len_app, !attr_size. rewrite str_len_app, Eh.
  pose proof (fmt_dec_u32 _ Hh). pose proof (fmt_dec_u32 _ Ho). pose proof (fmt_dec_u32 _ Hw).
  change (str_len (lit "<rect ")) with 6. change (str_len (lit "x")) with 1. change (str_len (lit " ")) with 1. change (str_len (lit "y")) with 1.
  change (str_len (lit "0")) with 1. change (str_len (lit "width")) with 5. change (str_len (lit "height")) with 6. change (str_len (lit "fill")) with 4.
  change (str_len (lit "#")) with 1. change (str_len (lit "/>")) with 2. lia.
Qed.
Lemma concat_size (rs : list str) k : Forall (fun r => str_len r <= k) rs -> str_len (concat rs) <= k * len rs.
Proof. induction 1 as [|r rs Hr H IH]; [cbn; lia|]. cbn [concat]. rewrite str_len_app, len_cons. lia. Qed.
Lemma dark_enumerate b i : length (filter (fun x => snd x =? 1) (enumerate_from i b)) = length (filter (fun x => x =? 1) b).
Proof.
  revert i. induction b as [|x b IH]; intros i; [reflexivity|]. cbn [enumerate_from filter snd]. destruct (x =? 1); cbn [length]; now rewrite IH.
Qed.
Lemma svg_size p g b out : byte_color (svg_foreground g) -> byte_color (svg_background g) -> svg_height g < 2 ^ 32 -> svg_xdim g < 2 ^ 32 ->
  svg_generate p g b = Ret (Ok out) -> str_len out <= 103 * dark b + 173 + bytes_of (svg_xmlns g).
Proof.
  intros Hf Hb Hh Hx H. unfold svg_generate in H. apply bind_Ret in H. destruct H as (w & Hw & H).
  apply bind_Ret in H. destruct H as (rs & Hr & H). apply bind_Ret in H. destruct H as (bg & Hg & H). apply Ret_inj, Ok_inj in H. subst out.
  apply fit_u_lt in Hw. apply (mapM_inv _ (fun r => str_len r <= 103)) in Hr.
  2:{ intros [i n] r _ E. apply bind_Ret in E. destruct E as (off & Eo & E). apply fit_u_lt in Eo. now apply (rect_size p g n off (svg_xdim g)). }
  destruct Hr as [HL HF]. apply concat_size in HF. unfold enumerate in HL. rewrite dark_enumerate in HL.
  assert (HD : len rs = dark b) by (unfold dark, len; now rewrite HL). rewrite HD in HF.
  assert (HB : str_len bg <= 103) by (apply (rect_size p g 0 0 w); try assumption; reflexivity).
  rewrite !str_len_app, !attr_size, !str_len_app. pose proof (fmt_dec_u32 _ Hh). pose proof (fmt_dec_u32 _ Hw).
  assert (HN : str_len (match svg_xmlns g with Some u => attr (lit "xmlns") u ++ lit " " | None => [] end) <= 9 + bytes_of (svg_xmlns g)).
  { destruct (svg_xmlns g) as [u|]; cbn [bytes_of]; [|cbn; lia]. rewrite str_len_app, attr_size. change (str_len (lit "xmlns")) with 5. change (str_len (lit " ")) with 1. lia. }
  change (str_len (lit "<svg ")) with 5. change (str_len (lit "version")) with 7. change (str_len (lit "1.1")) with 3. change (str_len (lit " ")) with 1.
  change (str_len (lit "viewBox")) with 7. change (str_len (lit "0 0 ")) with 4. change (str_len (lit ">")) with 1. change (str_len (lit "</svg>")) with 6. unfold str, char in *. lia.
Qed.
