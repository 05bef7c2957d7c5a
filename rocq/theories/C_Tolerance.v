(** * Property C88: symbols printed with edges out of place *)
From Verif Require Import Rust M_Error Symbology M_Use S_Barcode S_Ean S_Text S_Linear S_Codabar S_Tf S_Code128 S_All S_Blind S_Tolerance
  P_Barcode P_All P_Blind P_Tolerance P_Readable.
From Coq Require Import ZArith.
Open Scope N_scope.

(** ** C88.  The edges of a symbol ([edges]) and the picture they make, nothing moved: the symbol itself, enlarged. *)
Theorem C88_unmoved : forall y p s m x q, str_len s < 2 ^ 48 -> barcode y p s = Ret (Ok m) ->
  exists ws, scan m = Some ws /\ picture (edges x q ws) (q + x * length m)%nat = repeat 0 q ++ enlarged x m.
Proof.
  intros y p s m x q Hs H. destruct (shape_scan y m (barcode_shape y p s m Hs H)) as (ws & HS & -> & HD & _). exists ws.
  split; [assumption|]. now apply picture_unmoved.
Qed.
Print Assumptions C88_unmoved.
(** Each edge anywhere less than half a module from its place: a reader that knows the grid reads the data. *)
Theorem C88_half_module : forall y p s m ws x q es n, str_len s < 2 ^ 48 -> barcode y p s = Ret (Ok m) -> scan m = Some ws -> (1 <= x)%nat ->
  moved 2 x (edges x q ws) es -> Forall (fun e => e <= n)%nat es -> grid_read y x q (picture es n) = read_modules y m.
Proof.
  intros y p s m ws x q es n Hs H HW Hx HM HN. destruct (shape_scan y m (barcode_shape y p s m Hs H)) as (ws' & HS & _ & HD).
  rewrite HW in HS. injection HS as <-. unfold read_modules. rewrite HW. cbn [obind].
  apply (grid_reads y x q ws es n Hx (shape_pos y ws HD) (proj1 HD) HM HN).
Qed.
Print Assumptions C88_half_module.
(** Less than a quarter: so does a reader that knows the width of a module but not where the symbol begins. *)
Theorem C88_quarter_module : forall y p s m ws x q es n, str_len s < 2 ^ 48 -> barcode y p s = Ret (Ok m) -> scan m = Some ws -> (1 <= x)%nat ->
  moved 4 x (edges x q ws) es -> Forall (fun e => e <= n)%nat es -> rounded_read y x (picture es n) = read_modules y m.
Proof.
  intros y p s m ws x q es n Hs H HW Hx HM HN. destruct (shape_scan y m (barcode_shape y p s m Hs H)) as (ws' & HS & _ & HD).
  rewrite HW in HS. injection HS as <-. unfold read_modules. rewrite HW. cbn [obind].
  apply (rounded_reads y x q ws es n Hx (shape_pos y ws HD) (proj1 HD) HM HN).
Qed.
Print Assumptions C88_quarter_module.
(** Bars that all grow or shrink by the same amount, less than a module: so does a reader that knows neither the width of a module,
    nor the growth, nor the place. *)
Theorem C88_spread : forall y p s m ws x q l t es n, str_len s < 2 ^ 48 -> barcode y p s = Ret (Ok m) -> scan m = Some ws ->
  (Z.abs (t - l) < Z.of_nat x)%Z -> shifted l t (edges x q ws) es -> Forall (fun e => e <= n)%nat es ->
  spread_read y (picture es n) = read_modules y m.
Proof.
  intros y p s m ws x q l t es n Hs H HW HX HM HN. destruct (barcode_narrow2 y p s m Hs H) as (ws' & -> & HD & [HB HP]).
  assert (E : ws' = ws).
  { destruct (tail_repeat y) as [k Ek]. rewrite Ek, scan_render_tail in HW; [now injection HW | exact (shape_pos y ws' HD) | exact (proj1 HD)]. }
  subst ws'. unfold read_modules. rewrite HW. cbn [obind].
  apply (spread_reads y x q l t ws es n (shape_pos y ws HD) (proj1 HD) HB HP HX HM HN).
Qed.
Print Assumptions C88_spread.
(** What is read is the caller's data, unless a plus is printed in Codabar or a Code 128 symbol has more than 6489 characters. *)
Theorem C88_data : forall y p s m, str_len s < 2 ^ 48 -> barcode y p s = Ret (Ok m) ->
  (y = SCodabar -> ~ In (ch "+") s) -> (y = SCode128 -> len s <= 6489) ->
  exists ws r, scan m = Some ws /\ meant y s (Some r) /\ forall x q es n, (1 <= x)%nat -> Forall (fun e => e <= n)%nat es ->
    (moved 2 x (edges x q ws) es -> grid_read y x q (picture es n) = Some r) /\
    (moved 4 x (edges x q ws) es -> rounded_read y x (picture es n) = Some r) /\
    (forall l t, (Z.abs (t - l) < Z.of_nat x)%Z -> shifted l t (edges x q ws) es -> spread_read y (picture es n) = Some r).
Proof.
  intros y p s m Hs H HC H8. destruct (readable_meant y p s m Hs H HC H8) as (r & R & HM).
  destruct (shape_scan y m (barcode_shape y p s m Hs H)) as (ws & HS & _). exists ws, r. split; [assumption|]. split; [assumption|].
  intros x q es n Hx HN. rewrite <- R. split; [|split].
  - intros Hm. now apply (C88_half_module y p s m ws).
  - intros Hm. now apply (C88_quarter_module y p s m ws x q).
  - intros l t Hl Hm. now apply (C88_spread y p s m ws x q l t).
Qed.
Print Assumptions C88_data.

(** None of the limits can be raised: at exactly half a module (a quarter, when the place is not known; a whole module, for spreading
    ink) one picture comes from two data. *)
Definition elements (y : symbology) (s : str) : list nat :=
  match barcode y Debug s with Ret (Ok m) => match scan m with Some ws => ws | None => [] end | _ => [] end.
Theorem C88_tight :
  (exists es, moved_up_to 2 2 (edges 2 2 (elements SCodabar (lit "A0A"))) es /\ moved_up_to 2 2 (edges 2 2 (elements SCodabar (lit "A1A"))) es) /\
  (exists es, moved_up_to 4 4 (edges 4 6 (elements SCodabar (lit "A0A"))) es /\ moved_up_to 4 4 (edges 4 4 (elements SCodabar (lit "A1A"))) es) /\
  (exists es es', shifted 0 1 (edges 1 0 (elements SStf (lit "11"))) es /\ shifted 0 1 (edges 1 0 (elements SStf (lit "22"))) es' /\
     picture es 60 = picture es' 60).
Proof.
  split; [|split].
  - exists (midway (edges 2 2 (elements SCodabar (lit "A0A"))) (edges 2 2 (elements SCodabar (lit "A1A")))).
    split; vm_compute; repeat constructor.
  - exists (midway (edges 4 6 (elements SCodabar (lit "A0A"))) (edges 4 4 (elements SCodabar (lit "A1A")))).
    split; vm_compute; repeat constructor.
  - exists (thicker false (edges 1 0 (elements SStf (lit "11")))), (thicker false (edges 1 0 (elements SStf (lit "22")))).
    split; [vm_compute; repeat split|]. split; [vm_compute; repeat split|]. vm_compute. reflexivity.
Qed.
Print Assumptions C88_tight.

(** A Code 39 symbol at five samples to the module: every edge moved by one or two samples; then bars three samples too wide *)
Example C88_case : exists m ws es es',
  barcode SCode39 Debug (lit "7") = Ret (Ok m) /\ scan m = Some ws /\
  moved 2 5 (edges 5 3 ws) es /\ es <> edges 5 3 ws /\ grid_read SCode39 5 3 (picture es 200) = Some (Text (lit "7")) /\
  shifted (-1) 2 (edges 5 3 ws) es' /\ spread_read SCode39 (picture es' 200) = Some (Text (lit "7")) /\
  moved 4 5 (edges 5 3 ws) (thicker true (edges 5 3 ws)) /\ rounded_read SCode39 5 (picture (thicker true (edges 5 3 ws)) 200) = Some (Text (lit "7")).
Proof.
  eexists. exists (elements SCode39 (lit "7")).
  exists (thicker true (thicker false (thicker true (edges 5 3 (elements SCode39 (lit "7")))))).
  exists (map pred (thicker false (thicker false (thicker false (edges 5 3 (elements SCode39 (lit "7"))))))).
  split; [vm_compute; reflexivity|]. split; [vm_compute; reflexivity|]. split; [vm_compute; repeat constructor|].
  split; [vm_compute; discriminate|]. split; [vm_compute; reflexivity|]. split; [vm_compute; repeat split|].
  split; [vm_compute; reflexivity|]. split; [vm_compute; repeat constructor | vm_compute; reflexivity].
Qed.
