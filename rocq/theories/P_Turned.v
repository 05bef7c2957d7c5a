(** * Turned pictures read the wrong way *)
From Verif Require Import Rust M_Error M_Image Symbology M_Use S_Barcode S_Linear S_Codabar S_Image S_Gen S_All P_Rust P_Barcode P_Image P_Gen P_All P_Apart.

Lemma forallb_rev {A} (f : A -> bool) l : forallb f (rev l) = forallb f l.
Proof. induction l; [reflexivity|]. cbn [rev forallb]. rewrite forallb_app, IHl. cbn [forallb]. now destruct (f a), (forallb f l). Qed.
Lemma read_samples_rev {A} (eqb : A -> A -> bool) fg bg b : read_samples eqb fg bg (rev b) = read_samples eqb fg bg b.
Proof.
  unfold read_samples. rewrite !forallb_rev. destruct b as [|x b]; [reflexivity|]. cbn [rev]. destruct (rev b ++ [x]) eqn:E; [|reflexivity].
  destruct (rev b); discriminate.
Qed.
Lemma read_all_snoc {A B} (f : A -> option B) l x r y : read_all f l = Some r -> f x = Some y -> read_all f (l ++ [x]) = Some (r ++ [y]).
Proof.
  revert r. induction l as [|a l IH]; intros r H Hx.
  - apply read_all_nil in H. subst r. cbn [app read_all]. now rewrite Hx.
  - apply read_all_cons in H. destruct H as (b & bs & H1 & H2 & ->). cbn [app read_all]. rewrite H1, (IH bs H2 Hx). reflexivity.
Qed.
Lemma read_all_rev {A B} (f : A -> option B) (g : A -> A) l r : (forall x, f (g x) = f x) -> read_all f l = Some r -> read_all f (map g (rev l)) = Some (rev r).
Proof.
  intros Hg. revert r. induction l as [|a l IH]; intros r H.
  - apply read_all_nil in H. now subst r.
  - apply read_all_cons in H. destruct H as (b & bs & H1 & H2 & ->). cbn [rev]. rewrite map_app. cbn [map].
    apply read_all_snoc; [now apply IH | now rewrite Hg].
Qed.
Lemma rev_concat {A} (bs : list (list A)) : rev (concat bs) = concat (map (@rev A) (rev bs)).
Proof.
  induction bs as [|b bs IH]; [reflexivity|]. cbn [concat rev]. rewrite rev_app_distr, IH, map_app, concat_app. cbn [map concat].
  now rewrite app_nil_r.
Qed.
Lemma read_line_rev {A} (eqb : A -> A -> bool) fg bg xdim line m : 1 <= xdim ->
  read_line eqb fg bg xdim line = Some m -> read_line eqb fg bg xdim (rev line) = Some (rev m).
Proof.
  intros Hx H. unfold read_line in *. apply obind_Some in H. destruct H as (bs & HC & HR).
  apply chop_sound in HC. destruct HC as [<- HF]. rewrite rev_concat, chop_concat.
  - cbn [obind]. apply read_all_rev; [apply read_samples_rev | assumption].
  - lia.
  - apply Forall_map. apply Forall_rev in HF. revert HF. apply Forall_impl. intros b Hb. now rewrite rev_length.
Qed.

(** The way a picture turned by [r] is read by someone who takes it for one turned by half a turn less *)
Definition opposite (r : rotation) : rotation :=
  match r with RZero => ROneEighty | ROneEighty => RZero | RNinety => RTwoSeventy | RTwoSeventy => RNinety end.
Lemma image_line_opposite r buf k line : image_line r buf k = Some line -> image_line (opposite r) buf k = Some (rev line).
Proof.
  destruct r; cbn [opposite image_line]; intros H; try (rewrite H; reflexivity);
    apply option_map_Some in H; destruct H as (l & -> & ->); now rewrite rev_involutive.
Qed.
Lemma image_opposite p g m k : Forall (fun x => x = 0 \/ x = 1) m -> 1 <= img_xdim g -> fits g m -> k < img_height g ->
  img_foreground g <> img_background g ->
  exists buf, image_generate_buffer p g m = Ret (Ok buf) /\
    image_modules (opposite (img_rotation g)) (img_foreground g) (img_background g) (img_xdim g) k buf = Some (rev m).
Proof.
  intros HM Hx HF Hk HC. destruct (image_modules_picture p g m k) as (buf & E & HI); try assumption.
  exists buf. split; [assumption|]. unfold image_modules in *. apply obind_Some in HI. destruct HI as (line & HL & HR).
  rewrite (image_line_opposite _ _ _ _ HL). cbn [obind]. now apply read_line_rev.
Qed.
