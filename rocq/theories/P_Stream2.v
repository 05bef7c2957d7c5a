(** * Proofs: touching symbols in Codabar without start and stop characters, and in Code 128 of any length *)
From Verif Require Import Rust M_Error M_Codabar M_Code128 Symbology M_Use S_Barcode S_Ean S_Text S_Linear S_Codabar S_Tf S_Code128 S_All S_Cut S_Stream
  P_Rust P_Barcode P_Parse P_Codabar P_Code128 P_Code128b P_All P_Stream.
Local Open Scope nat_scope.

(** ** Codabar: no character begins with another one *)
Definition all_units : list cunit := [UZero; UOne; UTwo; UThree; UFour; UFive; USix; USeven; UEight; UNine; UDash; UDollar; UColon; USlash; UPoint; UPlus; UA; UB; UC; UD].
Fixpoint begins (a b : list N) : bool := match a, b with [], _ => true | x :: a, z :: b => N.eqb x z && begins a b | _, _ => false end.
Lemma begins_app a e : begins a (a ++ e) = true.
Proof. induction a as [|x a IH]; [reflexivity|]. cbn [app begins]. now rewrite N.eqb_refl. Qed.
Lemma units_apart u v : begins (codabar_lookup u) (codabar_lookup v) = true -> u = v.
Proof. destruct u, v; (reflexivity || (intros H; vm_compute in H; discriminate H)). Qed.
Lemma unit_first u v x z : codabar_lookup u ++ x = codabar_lookup v ++ z -> u = v /\ x = z.
Proof.
  intros E. assert (EU : u = v).
  { destruct (prefix_cases _ _ _ _ E) as [[e H]|[e H]]; [apply units_apart | symmetry; apply units_apart]; rewrite H; apply begins_app. }
  subst v. split; [reflexivity|]. now apply app_inv_head in E.
Qed.
(** A character and whether a gap follows *)
Definition piece (t : cunit * bool) : list N := codabar_lookup (fst t) ++ (if snd t then [0%N] else []).
Definition line_of (ts : list (cunit * bool)) : list N := concat (map piece ts).
Lemma unit_dark u : exists t, codabar_lookup u = 1%N :: t.
Proof. destruct u; eexists; reflexivity. Qed.
Lemma line_dark ts : line_of ts = [] \/ exists t, line_of ts = 1%N :: t.
Proof. destruct ts as [|[u f] ts]; [now left|]. right. unfold line_of, piece. cbn [map concat fst snd]. destruct (unit_dark u) as [t ->]. now eexists. Qed.
Lemma line_unique ts : forall ts', line_of ts = line_of ts' -> ts = ts'.
Proof.
  induction ts as [|[u f] ts IH]; intros [|[v g] ts'] E; [reflexivity | | |].
  - unfold line_of, piece in E. cbn [map concat fst snd] in E. destruct (unit_dark v) as [t Et]. rewrite Et in E. discriminate E.
  - unfold line_of, piece in E. cbn [map concat fst snd] in E. destruct (unit_dark u) as [t Et]. rewrite Et in E. discriminate E.
  - change (piece (u, f) ++ line_of ts = piece (v, g) ++ line_of ts') in E. unfold piece in E. cbn [fst snd] in E. rewrite <- !app_assoc in E. apply unit_first in E. destruct E as [<- E].
    destruct f, g; cbn [app] in E.
    + injection E as E. f_equal. now apply IH.
    + exfalso. destruct (line_dark ts') as [H|[t H]]; rewrite H in E; discriminate E.
    + exfalso. destruct (line_dark ts) as [H|[t H]]; rewrite H in E; discriminate E.
    + f_equal. now apply IH.
Qed.
Fixpoint pieces (us : list cunit) : list (cunit * bool) :=
  match us with [] => [] | u :: tl => (u, match tl with [] => false | _ => true end) :: pieces tl end.
Lemma gapped_pieces us : gapped us = line_of (pieces us).
Proof.
  induction us as [|u us IH]; [reflexivity|]. destruct us as [|v us].
  - unfold line_of, piece. cbn [gapped pieces map concat fst snd]. now rewrite !app_nil_r.
  - change (line_of (pieces (u :: v :: us))) with (piece (u, true) ++ line_of (pieces (v :: us))). rewrite <- IH. unfold piece. cbn [gapped map concat fst snd]. now rewrite <- app_assoc.
Qed.
Fixpoint groups (ts : list (cunit * bool)) : list (list cunit) :=
  match ts with
  | [] => []
  | (u, false) :: tl => [u] :: groups tl
  | (u, true) :: tl => match groups tl with [] => [[u]] | g :: gs => (u :: g) :: gs end
  end.
Lemma groups_pieces us ts : us <> [] -> groups (pieces us ++ ts) = us :: groups ts.
Proof.
  induction us as [|u us IH]; [congruence|]. intros _. destruct us as [|v us]; [reflexivity|].
  change (pieces (u :: v :: us)) with ((u, true) :: pieces (v :: us)). cbn [app groups]. rewrite IH by discriminate. reflexivity.
Qed.
Lemma groups_all uss : Forall (fun us => us <> []) uss -> groups (concat (map pieces uss)) = uss.
Proof. induction 1 as [|us uss H _ IH]; [reflexivity|]. cbn [map concat]. now rewrite groups_pieces, IH. Qed.
Lemma gapped_all uss : concat (map gapped uss) = line_of (concat (map pieces uss)).
Proof. induction uss as [|us uss IH]; [reflexivity|]. cbn [map concat]. unfold line_of in *. now rewrite map_app, concat_app, <- IH, gapped_pieces. Qed.
Lemma gapped_unique uss uss' : Forall (fun us => us <> []) uss -> Forall (fun us => us <> []) uss' -> concat (map gapped uss) = concat (map gapped uss') -> uss = uss'.
Proof. intros H H' E. rewrite !gapped_all in E. apply line_unique in E. rewrite <- (groups_all uss H), <- (groups_all uss' H'). now f_equal. Qed.
Lemma codabar_gapped p s m : barcode SCodabar p s = Ret (Ok m) -> exists us, us <> [] /\ m = gapped us.
Proof.
  intros H. cbn [barcode] in H. apply run_Ok in H. destruct H as [b [HN HE]]. apply codabar_new_Ok in HN. destruct HN as [_ [HS [us [HU ->]]]].
  rewrite codabar_encode_gapped in HE. injection HE as <-. exists us. split; [|reflexivity]. intros ->. inversion HU. subst. now apply HS.
Qed.
Lemma codabar_streams ms ms' : Forall (fun m => exists p s, barcode SCodabar p s = Ret (Ok m)) ms -> Forall (fun m => exists p s, barcode SCodabar p s = Ret (Ok m)) ms' ->
  concat ms = concat ms' -> ms = ms'.
Proof.
  assert (G : forall l, Forall (fun m => exists p s, barcode SCodabar p s = Ret (Ok m)) l -> exists uss, Forall (fun us => us <> []) uss /\ l = map gapped uss).
  { intros l H. induction H as [|m l (p & s & H) _ (uss & HF & ->)]; [exists []; split; [apply Forall_nil | reflexivity]|].
    destruct (codabar_gapped p s m H) as (us & HN & ->). exists (us :: uss). split; [now apply Forall_cons | reflexivity]. }
  intros H H' E. destruct (G ms H) as (uss & HF & ->). destruct (G ms' H') as (uss' & HF' & ->). f_equal. now apply gapped_unique.
Qed.

(** ** Code 128: the stop character is no other character *)
Definition block (v : N) : list N := render (c128_pattern v).
Definition block_ok (v : N) : bool := Nat.eqb (length (block v)) 11 && negb (str_eqb (block v) (firstn 11 (render c128_stop))).
Lemma stop_len : length (render c128_stop) = 13.
Proof. reflexivity. Qed.
Lemma blocks_ok : forallb block_ok (range 106) = true.
Proof. vm_compute. reflexivity. Qed.
Lemma block_ok_lt v : (v < 106)%N -> block_ok v = true.
Proof. intros H. pose proof blocks_ok as E. rewrite forallb_forall in E. exact (E v (proj2 (In_range 106 v) H)). Qed.
Local Opaque c128_pattern c128_table c128_stop.
Lemma block_lt v : (v < 106)%N -> length (block v) = 11 /\ block v <> firstn 11 (render c128_stop).
Proof.
  intros H. pose proof (block_ok_lt v H) as E. unfold block_ok in E. revert E. generalize (firstn 11 (render c128_stop)) (block v). intros t b E. apply andb_prop in E. destruct E as [E1 E2].
  apply Nat.eqb_eq in E1. split; [exact E1|]. intros ->. rewrite (proj2 (str_eqb_eq t t) eq_refl) in E2. discriminate E2.
Qed.
Lemma blocks_render vs : Forall (fun v => (v < 106)%N) vs -> render (concat (map c128_pattern vs) ++ c128_stop) = concat (map block vs) ++ render c128_stop.
Proof.
  induction 1 as [|v vs H _ IH]; [reflexivity|]. cbn [map concat]. rewrite <- !app_assoc. unfold block at 1. unfold render in *.
  rewrite render_from_app_even; [now rewrite IH | now right |]. destruct (c128_row v H) as [-> _]. reflexivity.
Qed.
Lemma firstn_block (a x : list N) : length a = 11 -> firstn 11 (a ++ x) = a.
Proof. intros H. rewrite firstn_app, H, <- H, firstn_all, Nat.sub_diag. cbn [firstn]. apply app_nil_r. Qed.
Lemma skipn_block (a x : list N) : length a = 11 -> skipn 11 (a ++ x) = x.
Proof. intros H. rewrite skipn_app, H, <- H, skipn_all, Nat.sub_diag. reflexivity. Qed.
Lemma stop_first (t e : list N) : length t = 13 -> firstn 11 (t ++ e) = firstn 11 t.
Proof. intros H. rewrite firstn_app, H. apply app_nil_r. Qed.
Lemma stop_apart v x e : (v < 106)%N -> render c128_stop ++ e <> block v ++ x.
Proof.
  intros H E. destruct (block_lt v H) as [HL HN]. apply HN. apply (f_equal (firstn 11)) in E. rewrite (firstn_block _ _ HL), (stop_first _ _ stop_len) in E. now symmetry.
Qed.
Lemma blocks_prefix vs : forall vs' b, Forall (fun v => (v < 106)%N) vs -> Forall (fun v => (v < 106)%N) vs' ->
  (concat (map block vs) ++ render c128_stop) ++ b = concat (map block vs') ++ render c128_stop -> b = [].
Proof.
  induction vs as [|v vs IH]; intros [|v' vs'] b H H' E; cbn [map concat] in E.
  - cbn [app] in E. rewrite <- (app_nil_r (render c128_stop)) in E at 2. now apply app_inv_head in E.
  - exfalso. inversion H' as [|? ? L' F']; subst. cbn [app] in E. rewrite <- app_assoc in E. exact (stop_apart _ _ _ L' E).
  - exfalso. inversion H as [|? ? L F]; subst. cbn [app] in E. rewrite <- !app_assoc in E. symmetry in E. rewrite <- (app_nil_r (render c128_stop)) in E at 1. exact (stop_apart _ _ _ L E).
  - inversion H as [|? ? L F]; subst. inversion H' as [|? ? L' F']; subst. apply (IH vs' b F F'). rewrite <- !app_assoc in E. rewrite <- !app_assoc.
    apply (f_equal (skipn 11)) in E. rewrite (skipn_block _ _ (proj1 (block_lt v L))), (skipn_block _ _ (proj1 (block_lt v' L'))) in E. exact E.
Qed.
Lemma code128_blocks p s m : barcode SCode128 p s = Ret (Ok m) -> exists vs, Forall (fun v => (v < 106)%N) vs /\ m = concat (map block vs) ++ render c128_stop.
Proof.
  intros H. cbn [barcode] in H. apply run_Ret in H. destruct H as [b [HN HE]]. destruct (code128_new_Ok s b HN) as [segs [HM [_ ->]]].
  destruct (encode_returns_form p _ m (message_units_idx _ HM) HE) as [chk [HC ->]]. rewrite message_units_values. exists (message_values segs ++ [chk]).
  assert (HF : Forall (fun v => (v < 106)%N) (message_values segs ++ [chk])) by (apply Forall_app; split; [now apply message_values_lt | apply Forall_cons; [exact HC | apply Forall_nil]]).
  split; [exact HF|]. now apply blocks_render.
Qed.
Lemma code128_prefix p p' s s' m b : barcode SCode128 p s = Ret (Ok m) -> barcode SCode128 p' s' = Ret (Ok (m ++ b)) -> b = [].
Proof.
  intros H H'. destruct (code128_blocks p s m H) as (vs & HF & E). destruct (code128_blocks p' s' _ H') as (vs' & HF' & E'). rewrite E in E'. now apply (blocks_prefix vs vs').
Qed.

(** ** All symbologies *)
Lemma streams_any y ms ms' : Forall (fun m => exists p s, (str_len s < 2 ^ 48)%N /\ barcode y p s = Ret (Ok m)) ms -> Forall (fun m => exists p s, (str_len s < 2 ^ 48)%N /\ barcode y p s = Ret (Ok m)) ms' ->
  concat ms = concat ms' -> ms = ms'.
Proof.
  assert (D : y = SCodabar \/ y = SCode128 \/ (y <> SCodabar /\ y <> SCode128)) by (destruct y; (now left) || (right; now left) || (right; right; split; discriminate)).
  intros H H' E. destruct D as [->|[->|[D1 D2]]].
  - apply codabar_streams; [eapply Forall_impl; [|exact H] | eapply Forall_impl; [|exact H'] | exact E]; intros m (p & s & _ & HB); now exists p, s.
  - apply (prefix_unique (fun m => exists p s, barcode SCode128 p s = Ret (Ok m))); [| |eapply Forall_impl; [|exact H] | eapply Forall_impl; [|exact H'] | exact E]; try (intros m (p & s & _ & HB); now exists p, s).
    + intros (p & s & HB). destruct (code128_blocks p s [] HB) as (vs & _ & E0). symmetry in E0. apply app_eq_nil in E0. destruct E0 as [_ E0]. discriminate E0.
    + intros m b (p & s & HB) (p' & s' & HB'). exact (code128_prefix p p' s s' m b HB HB').
  - apply (streams y); [eapply Forall_impl; [|exact H] | eapply Forall_impl; [|exact H'] | exact E]; intros m (p & s & HL & HB); exists s; (split; [exact HL|]; split; [now exists p|]; split; congruence).
Qed.
