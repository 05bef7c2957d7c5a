(** * Proofs about the image generator *)
From Coq Require Import Permutation.
From Verif Require Import Rust M_Error M_Image S_Image P_Rust.

(** ** Loops *)
Lemma foldM_app {A B} (f : B -> A -> M B) l1 l2 : forall acc,
  foldM f (l1 ++ l2) acc = bind (foldM f l1 acc) (foldM f l2).
Proof.
  induction l1 as [|x l1 IH]; intros acc; [reflexivity|]. cbn [app foldM].
  destruct (f acc x); cbn [bind]; [apply IH | reflexivity].
Qed.
Lemma foldM_ext_In {A B} (f g : B -> A -> M B) l : (forall x acc, In x l -> f acc x = g acc x) ->
  forall acc, foldM f l acc = foldM g l acc.
Proof.
  induction l as [|x l IH]; intros H acc; [reflexivity|]. cbn [foldM]. rewrite H by now left.
  destruct (g acc x); cbn [bind]; [|reflexivity]. apply IH. intros; apply H; now right.
Qed.
Lemma foldM_map {A B C} (f : B -> A -> M B) (h : C -> A) l : forall acc,
  foldM f (map h l) acc = foldM (fun acc x => f acc (h x)) l acc.
Proof.
  induction l as [|x l IH]; intros acc; [reflexivity|]. cbn [map foldM]. destruct (f acc (h x)); cbn [bind]; auto.
Qed.
Lemma foldM_flat_map {A B C} (f : B -> A -> M B) (h : C -> list A) l : forall acc,
  foldM f (flat_map h l) acc = foldM (fun acc x => foldM f (h x) acc) l acc.
Proof.
  induction l as [|x l IH]; intros acc; [reflexivity|]. cbn [flat_map]. rewrite foldM_app. cbn [foldM].
  destruct (foldM f (h x) acc); cbn [bind]; auto.
Qed.
Lemma foldM_panic_inv {A B} (P : B -> Prop) (f : B -> A -> M B) l x : In x l ->
  (forall acc y acc', P acc -> f acc y = Ret acc' -> P acc') ->
  (forall acc, P acc -> panics (f acc x)) -> forall acc, P acc -> panics (foldM f l acc).
Proof.
  intros Hin HP Hx. induction l as [|y l IH]; [contradiction|]. intros acc Ha. cbn [foldM]. destruct Hin as [->|Hin].
  - destruct (Hx acc Ha) as [q Hq]. rewrite Hq. now exists q.
  - destruct (f acc y) as [acc'|q] eqn:E; cbn [bind]; [|now exists q]. apply IH; [assumption|]. now apply (HP acc y).
Qed.

(** ** Writing pixels *)
Definition write : Type := (N * N * rgba)%type.
Definition put (b : buffer) (w : write) : M buffer := let '(x, y, c) := w in put_pixel b x y c.
Definition draw (ws : list write) (b : buffer) : M buffer := foldM put ws b.
Definition painted (ws : list write) (f : N -> N -> rgba) (x y : N) : rgba :=
  fold_left (fun acc (w : write) => let '(x', y', c) := w in if (x' =? x) && (y' =? y) then c else acc) ws (f x y).
Definition holds (b : buffer) (w h : N) (f : N -> N -> rgba) : Prop :=
  buf_w b = w /\ buf_h b = h /\ picture w h f (buf_px b).

Lemma list_update_length {A} (l : list A) n x : length (list_update l n x) = length l.
Proof. revert n. induction l as [|y l IH]; intros [|n]; cbn; auto. Qed.
Lemma list_update_nth {A} (l : list A) n x k : (n < length l)%nat ->
  nth_error (list_update l n x) k = if Nat.eqb k n then Some x else nth_error l k.
Proof.
  revert n k. induction l as [|y l IH]; intros n k H; [cbn in H; lia|].
  destruct n as [|n], k as [|k]; cbn; try reflexivity. apply IH. cbn in H. lia.
Qed.
Lemma cell_inj w x y x' y' : x < w -> x' < w -> y * w + x = y' * w + x' -> x = x' /\ y = y'.
Proof. intros. assert (y = y') by nia. subst. lia. Qed.
Lemma cell_lt w h x y : x < w -> y < h -> y * w + x < w * h.
Proof. nia. Qed.
Lemma put_pixel_holds b w h f x y c : holds b w h f -> x < w -> y < h ->
  exists b', put_pixel b x y c = Ret b' /\
    holds b' w h (fun x' y' => if (x =? x') && (y =? y') then c else f x' y').
Proof.
  intros (Ew & Eh & HL & HP) Hx Hy. unfold put_pixel. rewrite Ew, Eh.
  apply N.ltb_lt in Hx as Bx. apply N.ltb_lt in Hy as By. rewrite Bx, By. cbn [andb].
  eexists. split; [reflexivity|]. split; [reflexivity|]. split; [reflexivity|]. cbn [buf_px].
  pose proof (cell_lt w h x y Hx Hy) as HC. split.
  - unfold len in *. now rewrite list_update_length.
  - intros x' y' Hx' Hy'. unfold pixel. rewrite list_update_nth by (unfold len in HL; lia).
    destruct (Nat.eqb_spec (N.to_nat (y' * w + x')) (N.to_nat (y * w + x))) as [E|E].
    + apply N2Nat.inj in E. destruct (cell_inj w x' y' x y Hx' Hx E) as [-> ->]. now rewrite !N.eqb_refl.
    + destruct (N.eqb_spec x x') as [->|]; [|now apply HP]. destruct (N.eqb_spec y y') as [->|]; [congruence|].
      cbn [andb]. now apply HP.
Qed.
Lemma holds_ext b w h f g : (forall x y, x < w -> y < h -> f x y = g x y) -> holds b w h f -> holds b w h g.
Proof.
  intros H (Ew & Eh & HL & HP). split; [assumption|]. split; [assumption|]. split; [assumption|].
  intros x y Hx Hy. rewrite <- H by assumption. now apply HP.
Qed.
Lemma draw_holds ws : forall b w h f, holds b w h f ->
  Forall (fun z : write => fst (fst z) < w /\ snd (fst z) < h) ws ->
  exists b', draw ws b = Ret b' /\ holds b' w h (painted ws f).
Proof.
  induction ws as [|[[x y] c] ws IH]; intros b w h f HB HF.
  - exists b. split; [reflexivity | assumption].
  - inversion HF as [|? ? [Hx Hy] HF']; subst. cbn [fst snd] in *.
    destruct (put_pixel_holds b w h f x y c HB Hx Hy) as [b' [E HB']].
    destruct (IH b' w h _ HB' HF') as [b'' [E' HB'']]. exists b''. split.
    + unfold draw. cbn [foldM put]. rewrite E. cbn [bind]. exact E'.
    + eapply holds_ext; [|exact HB'']. intros x' y' _ _. reflexivity.
Qed.
Lemma painted_one ws f x y c :
  (forall c', In (x, y, c') ws -> c' = c) -> In (x, y, c) ws -> painted ws f x y = c.
Proof.
  unfold painted. generalize (f x y). intros c0 HU HI.
  enough (forall l c1, (forall c', In (x, y, c') l -> c' = c) ->
    (In (x, y, c) l \/ c1 = c) ->
    fold_left (fun acc (w : write) => let '(x', y', c) := w in if (x' =? x) && (y' =? y) then c else acc) l c1 = c) as HH
    by (apply HH; auto).
  clear. induction l as [|[[x' y'] c'] l IH]; intros c1 HU H.
  - destruct H as [[]|H]. exact H.
  - cbn [fold_left]. apply IH; [intros; apply HU; now right|].
    destruct (N.eqb_spec x' x) as [->|Nx]; [destruct (N.eqb_spec y' y) as [->|Ny]|]; cbn [andb].
    + right. apply HU. now left.
    + destruct H as [[E|H]|H]; [congruence | now left | now right].
    + destruct H as [[E|H]|H]; [congruence | now left | now right].
Qed.
Lemma buffer_new_holds w h : 4 * w * h < 2 ^ 63 -> exists b, buffer_new w h = Ret b /\ holds b w h (fun _ _ => rgba_zero).
Proof.
  intros H. unfold buffer_new. apply N.ltb_lt in H. rewrite H. eexists. split; [reflexivity|].
  split; [reflexivity|]. split; [reflexivity|]. cbn [buf_px]. split.
  - unfold len. rewrite repeat_length. lia.
  - intros x y Hx Hy. unfold pixel. pose proof (cell_lt w h x y Hx Hy).
    rewrite nth_error_repeat; [reflexivity|]. lia.
Qed.

(** ** The picture of the barcode *)
Definition row_writes (xdim : N) (col : N -> rgba) (X : N -> N -> N) (b : list N) (y : N) : list write :=
  flat_map (fun ib => map (fun q => (X (fst ib) q, y, col (snd ib))) (range xdim)) (enumerate b).
Definition all_writes (g : Image) (X : N -> N -> N) (b : list N) : list write :=
  flat_map (row_writes (img_xdim g) (fun v => if v =? 0 then img_background g else img_foreground g) X b)
    (range (img_height g)).
Lemma enumerate_In {A} (l : list A) i x : In (i, x) (enumerate l) <-> nth_error l (N.to_nat i) = Some x.
Proof.
  unfold enumerate. enough (forall k, In (k + i, x) (enumerate_from k l) <-> nth_error l (N.to_nat i) = Some x) as H
    by exact (H 0).
  revert i. induction l as [|y l IH]; intros i k.
  - cbn. destruct (N.to_nat i); split; intros; (contradiction || discriminate).
  - cbn [enumerate_from In]. destruct (N.eq_dec i 0) as [->|Hi].
    + cbn. split.
      * intros [E|H]; [congruence|]. exfalso.
        assert (HG : forall (l : list A) j z k', In (j, z) (enumerate_from k' l) -> k' <= j).
        { clear. induction l as [|a l IH]; intros j z k'; cbn; [contradiction|]. intros [E|H]; [injection E; lia|].
          apply IH in H. lia. }
        apply HG in H. lia.
      * intros E. left. f_equal; [lia | congruence].
    + replace (N.to_nat i) with (S (N.to_nat (i - 1))) by lia. cbn [nth_error]. rewrite <- (IH (i - 1) (k + 1)).
      replace (k + 1 + (i - 1)) with (k + i) by lia. split; [intros [E|H]; [injection E; lia | assumption] | now right].
Qed.
Lemma nth_error_lt {A} (l : list A) i v : nth_error l (N.to_nat i) = Some v -> i < len l.
Proof. intros H. assert (N.to_nat i < length l)%nat by (apply nth_error_Some; congruence). unfold len. lia. Qed.
Lemma place_all p g b X buf :
  (forall i q, i < len b -> q < img_xdim g ->
     bind (mul_u 32 p (cast_u 32 i) (img_xdim g)) (fun x0 => add_u 32 p x0 q) = Ret (X i q)) ->
  foldM (fun buf y => place_row p g b y buf) (range (img_height g)) buf = draw (all_writes g X b) buf.
Proof.
  intros HX. unfold all_writes, draw. rewrite foldM_flat_map. apply foldM_ext_In. intros y acc _.
  unfold place_row, row_writes. rewrite foldM_flat_map. apply foldM_ext_In. intros [i v] acc' Hin.
  rewrite foldM_map. unfold place_module. apply foldM_ext_In. intros q acc'' Hq. cbn [fst snd put].
  apply In_range in Hq. assert (Hi : i < len b).
  { now apply enumerate_In, nth_error_lt in Hin. }
  specialize (HX i q Hi Hq). destruct (mul_u 32 p (cast_u 32 i) (img_xdim g)) as [x0|]; [|discriminate].
  cbn [bind] in *. rewrite HX. reflexivity.
Qed.
Lemma all_writes_In g X b x y c : In (x, y, c) (all_writes g X b) <->
  y < img_height g /\ exists i q v, nth_error b (N.to_nat i) = Some v /\ q < img_xdim g /\ x = X i q /\
    c = if v =? 0 then img_background g else img_foreground g.
Proof.
  unfold all_writes, row_writes. rewrite in_flat_map. split.
  - intros [y' [Hy H]]. apply In_range in Hy. apply in_flat_map in H. destruct H as [[i v] [Hi H]].
    apply in_map_iff in H. destruct H as [q [E Hq]]. apply In_range in Hq. apply enumerate_In in Hi. cbn [fst snd] in E.
    injection E as <- <- <-. split; [assumption|]. exists i, q, v. auto.
  - intros [Hy (i & q & v & Hi & Hq & -> & ->)]. exists y. split; [now apply In_range|]. apply in_flat_map.
    exists (i, v). split; [now apply enumerate_In|]. apply in_map_iff. exists q. split; [reflexivity | now apply In_range].
Qed.
Definition unrotated (g : Image) : Image :=
  mkImage (img_variant g) (img_height g) (img_xdim g) RZero (img_foreground g) (img_background g).
Definition fits (g : Image) (b : list N) : Prop :=
  len b * img_xdim g < 2 ^ 32 /\ 4 * (len b * img_xdim g) * img_height g < 2 ^ 63.
Lemma mul_cast_fits32 p n x : n * x < 2 ^ 32 -> mul_u 32 p (cast_u 32 n) x = Ret (n * x).
Proof.
  intros H. unfold mul_u. destruct (N.eq_dec x 0) as [->|Hx].
  - now rewrite !N.mul_0_r.
  - rewrite cast_u_small; [now apply fit_u_ok|]. nia.
Qed.
Definition rotate (r : rotation) (buf : buffer) : M buffer :=
  match r with
  | RNinety => rotate90 buf
  | ROneEighty => rotate180 buf
  | RTwoSeventy => rotate270 buf
  | RZero => Ret buf
  end.
Lemma place_pixels_unrotated p g b :
  place_pixels p g b = bind (place_pixels p (unrotated g) b) (rotate (img_rotation g)).
Proof.
  unfold place_pixels, unrotated. cbn [img_xdim img_height img_rotation].
  destruct (mul_u 32 p (cast_u 32 (len b)) (img_xdim g)); cbn [bind]; [|reflexivity].
  destruct (buffer_new _ _); cbn [bind]; [|reflexivity].
  change (fun (buf : buffer) (y : N) => place_row p (mkImage (img_variant g) (img_height g) (img_xdim g) RZero (img_foreground g) (img_background g)) b y buf)
    with (fun (buf : buffer) (y : N) => place_row p g b y buf).
  destruct (foldM _ _ _); cbn [bind]; reflexivity.
Qed.
Lemma place_pixels_zero p g b : fits g b ->
  exists buf, place_pixels p (unrotated g) b = Ret buf /\
    holds buf (len b * img_xdim g) (img_height g) (bars (img_xdim g) (img_foreground g) (img_background g) b).
Proof.
  intros [Hw Hs]. unfold place_pixels. cbn [unrotated img_xdim img_height img_rotation].
  rewrite mul_cast_fits32 by assumption. cbn [bind].
  destruct (buffer_new_holds _ _ Hs) as [b0 [E0 H0]]. rewrite E0. cbn [bind].
  set (X := fun i q => i * img_xdim g + q).
  change (foldM _ (range (img_height g)) b0) with (foldM (fun buf y => place_row p g b y buf) (range (img_height g)) b0).
  rewrite (place_all p g b X).
  2:{ intros i q Hi Hq. rewrite mul_cast_fits32 by nia. cbn [bind]. unfold add_u, X. apply fit_u_ok. nia. }
  destruct (draw_holds (all_writes g X b) b0 _ _ _ H0) as [b1 [E1 H1]].
  { apply Forall_forall. intros [[x y] c] HI. apply all_writes_In in HI. destruct HI as [Hy (i & q & v & Hi & Hq & -> & _)].
    apply nth_error_lt in Hi. cbn [fst snd]. split; [unfold X; nia | assumption]. }
  rewrite E1. cbn [bind]. exists b1. split; [reflexivity|]. eapply holds_ext; [|exact H1]. intros x y Hx Hy.
  assert (Hd : img_xdim g <> 0) by nia. set (i := x / img_xdim g). set (q := x mod img_xdim g).
  assert (Hq : q < img_xdim g) by now apply N.mod_lt.
  assert (Ex : x = X i q) by (unfold X, i, q; pose proof (N.div_mod x (img_xdim g) Hd); lia).
  assert (Hi : i < len b) by (unfold X in Ex; nia).
  destruct (nth_error b (N.to_nat i)) as [v|] eqn:Ev.
  2:{ apply nth_error_None in Ev. unfold len in Hi. lia. }
  unfold bars. fold i. rewrite (nth_error_nth _ _ 0 Ev). apply painted_one.
  - intros c' HI. apply all_writes_In in HI. destruct HI as [_ (i' & q' & v' & Hi' & Hq' & E' & ->)].
    assert (Ei : i' = i). { unfold X in E'. unfold i. apply N.div_unique with (r := q'); [assumption|]. lia. }
    rewrite Ei in Hi'. rewrite Hi' in Ev. injection Ev as ->. reflexivity.
  - apply all_writes_In. split; [assumption|]. exists i, q, v. auto.
Qed.

(** ** Rotation *)
Lemma coords_In w h x y : In (x, y) (coords w h) <-> x < w /\ y < h.
Proof.
  unfold coords. rewrite in_flat_map. split.
  - intros [y' [Hy H]]. apply In_range in Hy. apply in_map_iff in H. destruct H as [x' [E Hx]]. apply In_range in Hx.
    injection E as <- <-. auto.
  - intros [Hx Hy]. exists y. split; [now apply In_range|]. apply in_map_iff. exists x. split; [reflexivity|]. now apply In_range.
Qed.
Lemma get_pixel_holds b w h f x y : holds b w h f -> x < w -> y < h -> get_pixel b x y = Ret (f x y).
Proof.
  intros (Ew & Eh & HL & HP) Hx Hy. unfold get_pixel. rewrite Ew, Eh.
  apply N.ltb_lt in Hx as Bx. apply N.ltb_lt in Hy as By. rewrite Bx, By. cbn [andb].
  unfold index. specialize (HP x y Hx Hy). unfold pixel in HP. now rewrite HP.
Qed.
Lemma rotate_with_holds b w h f w' h' place F : holds b w h f -> 4 * w' * h' < 2 ^ 63 ->
  (forall x y, x < w -> y < h -> fst (place x y) < w' /\ snd (place x y) < h' /\ F (fst (place x y)) (snd (place x y)) = f x y) ->
  (forall x' y', x' < w' -> y' < h' -> exists x y, x < w /\ y < h /\ place x y = (x', y')) ->
  exists b', rotate_with b w' h' place = Ret b' /\ holds b' w' h' F.
Proof.
  intros HB Hs HI HO. unfold rotate_with. destruct (buffer_new_holds w' h' Hs) as [b0 [E0 H0]]. rewrite E0. cbn [bind].
  pose proof HB as (Ew & Eh & _). rewrite Ew, Eh.
  set (ws := map (fun xy => (fst (place (fst xy) (snd xy)), snd (place (fst xy) (snd xy)), f (fst xy) (snd xy))) (coords w h) : list write).
  replace (foldM _ (coords w h) b0) with (draw ws b0).
  2:{ unfold draw, ws. rewrite foldM_map. apply foldM_ext_In. intros [x y] acc Hin. apply coords_In in Hin.
      rewrite (get_pixel_holds b w h f) by (tauto || assumption). reflexivity. }
  destruct (draw_holds ws b0 _ _ _ H0) as [b1 [E1 H1]].
  { unfold ws. apply Forall_map, Forall_forall. intros [x y] Hin. apply coords_In in Hin. cbn [fst snd].
    destruct (HI x y) as (A & B & _); tauto. }
  exists b1. split; [assumption|]. eapply holds_ext; [|exact H1]. intros x' y' Hx Hy. apply painted_one.
  - intros c' Hin. apply in_map_iff in Hin. destruct Hin as [[x y] [E Hin]]. apply coords_In in Hin. cbn [fst snd] in E.
    destruct (HI x y) as (_ & _ & C); try tauto. injection E as Ex Ey Ec. now rewrite <- Ex, <- Ey, C.
  - destruct (HO x' y' Hx Hy) as (x & y & Hx0 & Hy0 & E). apply in_map_iff. exists (x, y).
    split; [|now apply coords_In]. cbn [fst snd]. destruct (HI x y Hx0 Hy0) as (_ & _ & C). rewrite <- C, E. reflexivity.
Qed.

(** The pixels in order *)
Lemma nth_ext_error {A} : forall l l' : list A, (forall k, nth_error l k = nth_error l' k) -> l = l'.
Proof.
  induction l as [|x l IH]; intros [|y l'] H; [reflexivity | specialize (H 0%nat); discriminate | specialize (H 0%nat); discriminate |].
  pose proof (H 0%nat) as H0. injection H0 as ->. f_equal. apply IH. intros k. exact (H (S k)).
Qed.
Lemma nth_error_blocks {A B} (row : A -> list B) w : forall (l : list A) x y a,
  (forall a, In a l -> length (row a) = w) -> (x < w)%nat -> nth_error l y = Some a ->
  nth_error (flat_map row l) (y * w + x) = nth_error (row a) x.
Proof.
  induction l as [|a0 l IH]; intros x y a HL Hx Hy; [destruct y; discriminate|]. cbn [flat_map].
  pose proof (HL a0 (or_introl eq_refl)) as H0. destruct y as [|y].
  - injection Hy as ->. cbn [Nat.mul Nat.add]. apply nth_error_app1. lia.
  - cbn [nth_error] in Hy. rewrite nth_error_app2 by (cbn; lia). replace (S y * w + x - length (row a0))%nat with (y * w + x)%nat by (cbn; lia).
    apply IH; [intros; apply HL; now right | assumption | assumption].
Qed.
Lemma range_nth n i : i < n -> nth_error (range n) (N.to_nat i) = Some i.
Proof.
  intros H. unfold range. rewrite nth_error_map, (nth_error_nth' _ 0%nat) by (rewrite seq_length; lia).
  rewrite seq_nth by lia. cbn. f_equal. lia.
Qed.
Lemma range_len n : length (range n) = N.to_nat n.
Proof. unfold range. now rewrite map_length, seq_length. Qed.
Lemma coords_nth w h x y : x < w -> y < h -> nth_error (coords w h) (N.to_nat (y * w + x)) = Some (x, y).
Proof.
  intros Hx Hy. unfold coords. replace (N.to_nat (y * w + x)) with (N.to_nat y * N.to_nat w + N.to_nat x)%nat by lia.
  rewrite (nth_error_blocks _ (N.to_nat w)) with (a := y).
  - now rewrite nth_error_map, range_nth.
  - intros a _. now rewrite map_length, range_len.
  - lia.
  - now apply range_nth.
Qed.
Lemma coords_length w h : len (coords w h) = w * h.
Proof.
  unfold coords, len. rewrite <- (N2Nat.id h) at 2. rewrite <- range_len. induction (range h) as [|y l IH]; [cbn; lia|].
  cbn [flat_map length]. rewrite app_length, map_length, range_len. lia.
Qed.
Lemma cell_split w h k : k < w * h -> exists x y, x < w /\ y < h /\ k = y * w + x.
Proof.
  intros H. assert (w <> 0) by nia. exists (k mod w), (k / w). split; [now apply N.mod_lt|].
  pose proof (N.div_mod k w ltac:(assumption)). split; [|lia]. apply N.div_lt_upper_bound; assumption.
Qed.
Lemma coords_NoDup w h : NoDup (coords w h).
Proof.
  apply NoDup_nth_error. intros i j Hi E. pose proof (coords_length w h) as HL. unfold len in HL.
  destruct (cell_split w h (N.of_nat i)) as (x & y & Hx & Hy & Ei); [lia|].
  assert (Hj : (j < length (coords w h))%nat).
  { apply nth_error_Some. rewrite <- E. apply nth_error_Some. assumption. }
  destruct (cell_split w h (N.of_nat j)) as (x' & y' & Hx' & Hy' & Ej); [lia|].
  replace i with (N.to_nat (y * w + x)) in E by lia. replace j with (N.to_nat (y' * w + x')) in E by lia.
  rewrite !coords_nth in E by assumption. injection E as -> ->. lia.
Qed.
Lemma picture_map {A} w h (f : N -> N -> A) px : picture w h f px -> px = map (fun c => f (fst c) (snd c)) (coords w h).
Proof.
  intros [HL HP]. apply nth_ext_error. intros k. rewrite nth_error_map.
  destruct (Nat.lt_ge_cases k (length px)) as [Hk|Hk].
  - destruct (cell_split w h (N.of_nat k)) as (x & y & Hx & Hy & Ek); [unfold len in HL; lia|].
    replace k with (N.to_nat (y * w + x)) by lia. rewrite coords_nth by assumption. now apply HP.
  - rewrite (proj2 (nth_error_None px k)) by assumption. pose proof (coords_length w h) as HC.
    rewrite (proj2 (nth_error_None _ k)); [reflexivity|]. unfold len in *. lia.
Qed.
Lemma rotate_permutation {A} w h w' h' (f F : N -> N -> A) place px px' :
  picture w h f px -> picture w' h' F px' -> w' * h' = w * h ->
  (forall x y, x < w -> y < h -> F (fst (place x y)) (snd (place x y)) = f x y) ->
  (forall x' y', x' < w' -> y' < h' -> exists x y, x < w /\ y < h /\ place x y = (x', y')) ->
  Permutation px' px.
Proof.
  intros HP HP' HS HF HO. rewrite (picture_map _ _ _ _ HP), (picture_map _ _ _ _ HP').
  transitivity (map (fun c => F (fst c) (snd c)) (map (fun c => place (fst c) (snd c)) (coords w h))).
  - apply Permutation_map. apply NoDup_Permutation_bis.
    + apply coords_NoDup.
    + rewrite map_length. pose proof (coords_length w h). pose proof (coords_length w' h'). unfold len in *. lia.
    + intros [x' y'] Hin. apply coords_In in Hin. destruct (HO x' y') as (x & y & Hx & Hy & E); try tauto.
      apply in_map_iff. exists (x, y). split; [exact E | now apply coords_In].
  - rewrite map_map. apply Permutation_refl'. apply map_ext_in. intros [x y] Hin. apply coords_In in Hin. cbn [fst snd].
    now apply HF.
Qed.
Lemma holds_size b w h f : holds b w h f -> w = buf_w b /\ h = buf_h b.
Proof. intros (-> & -> & _). auto. Qed.
Lemma rotate90_holds b w h f : holds b w h f -> 4 * w * h < 2 ^ 63 ->
  exists b', rotate90 b = Ret b' /\ holds b' h w (fun x y => f y (h - 1 - x)) /\ Permutation (buf_px b') (buf_px b).
Proof.
  intros HB Hs. destruct (holds_size _ _ _ _ HB) as [-> ->]. unfold rotate90.
  set (place := fun x y => (buf_h b - y - 1, x)).
  assert (HI : forall x y, x < buf_w b -> y < buf_h b -> fst (place x y) < buf_h b /\ snd (place x y) < buf_w b /\
    f (snd (place x y)) (buf_h b - 1 - fst (place x y)) = f x y).
  { intros x y Hx Hy. cbn [place fst snd]. split; [lia|]. split; [lia|]. f_equal. lia. }
  assert (HO : forall x' y', x' < buf_h b -> y' < buf_w b -> exists x y, x < buf_w b /\ y < buf_h b /\ place x y = (x', y')).
  { intros x' y' Hx Hy. exists y', (buf_h b - 1 - x'). unfold place. split; [lia|]. split; [lia|]. f_equal. lia. }
  destruct (rotate_with_holds b _ _ f (buf_h b) (buf_w b) place (fun x y => f y (buf_h b - 1 - x)) HB ltac:(lia) HI HO) as [b' [E HB']].
  exists b'. split; [exact E|]. split; [assumption|].
  apply (rotate_permutation (buf_w b) (buf_h b) (buf_h b) (buf_w b) f (fun x y => f y (buf_h b - 1 - x)) place); try assumption.
  - apply HB.
  - apply HB'.
  - lia.
  - intros x y Hx Hy. apply (HI x y Hx Hy).
Qed.
Lemma rotate180_holds b w h f : holds b w h f -> 4 * w * h < 2 ^ 63 ->
  exists b', rotate180 b = Ret b' /\ holds b' w h (fun x y => f (w - 1 - x) (h - 1 - y)) /\ Permutation (buf_px b') (buf_px b).
Proof.
  intros HB Hs. destruct (holds_size _ _ _ _ HB) as [-> ->]. unfold rotate180.
  set (place := fun x y => (buf_w b - x - 1, buf_h b - y - 1)).
  assert (HI : forall x y, x < buf_w b -> y < buf_h b -> fst (place x y) < buf_w b /\ snd (place x y) < buf_h b /\
    f (buf_w b - 1 - fst (place x y)) (buf_h b - 1 - snd (place x y)) = f x y).
  { intros x y Hx Hy. cbn [place fst snd]. split; [lia|]. split; [lia|]. f_equal; lia. }
  assert (HO : forall x' y', x' < buf_w b -> y' < buf_h b -> exists x y, x < buf_w b /\ y < buf_h b /\ place x y = (x', y')).
  { intros x' y' Hx Hy. exists (buf_w b - 1 - x'), (buf_h b - 1 - y'). unfold place. split; [lia|]. split; [lia|]. f_equal; lia. }
  destruct (rotate_with_holds b _ _ f (buf_w b) (buf_h b) place (fun x y => f (buf_w b - 1 - x) (buf_h b - 1 - y)) HB ltac:(lia) HI HO) as [b' [E HB']].
  exists b'. split; [exact E|]. split; [assumption|].
  apply (rotate_permutation (buf_w b) (buf_h b) (buf_w b) (buf_h b) f (fun x y => f (buf_w b - 1 - x) (buf_h b - 1 - y)) place); try assumption.
  - apply HB.
  - apply HB'.
  - lia.
  - intros x y Hx Hy. apply (HI x y Hx Hy).
Qed.
Lemma rotate270_holds b w h f : holds b w h f -> 4 * w * h < 2 ^ 63 ->
  exists b', rotate270 b = Ret b' /\ holds b' h w (fun x y => f (w - 1 - y) x) /\ Permutation (buf_px b') (buf_px b).
Proof.
  intros HB Hs. destruct (holds_size _ _ _ _ HB) as [-> ->]. unfold rotate270.
  set (place := fun x y => (y, buf_w b - x - 1)).
  assert (HI : forall x y, x < buf_w b -> y < buf_h b -> fst (place x y) < buf_h b /\ snd (place x y) < buf_w b /\
    f (buf_w b - 1 - snd (place x y)) (fst (place x y)) = f x y).
  { intros x y Hx Hy. cbn [place fst snd]. split; [lia|]. split; [lia|]. f_equal. lia. }
  assert (HO : forall x' y', x' < buf_h b -> y' < buf_w b -> exists x y, x < buf_w b /\ y < buf_h b /\ place x y = (x', y')).
  { intros x' y' Hx Hy. exists (buf_w b - 1 - y'), x'. unfold place. split; [lia|]. split; [lia|]. f_equal. lia. }
  destruct (rotate_with_holds b _ _ f (buf_h b) (buf_w b) place (fun x y => f (buf_w b - 1 - y) x) HB ltac:(lia) HI HO) as [b' [E HB']].
  exists b'. split; [exact E|]. split; [assumption|].
  apply (rotate_permutation (buf_w b) (buf_h b) (buf_h b) (buf_w b) f (fun x y => f (buf_w b - 1 - y) x) place); try assumption.
  - apply HB.
  - apply HB'.
  - lia.
  - intros x y Hx Hy. apply (HI x y Hx Hy).
Qed.
