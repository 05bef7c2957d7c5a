(** * C93: readers that ask for quiet zones never read a part of a symbol *)
From Verif Require Import Rust M_Error Symbology M_Use S_Barcode S_Text S_Ean S_Linear S_Codabar S_Tf S_Code128 S_All S_Row S_Quiet S_Any S_Line
  P_Rust P_All P_Any P_Quiet P_Line P_Readable.

(** A page with any number of symbols of any symbologies, each followed by at least five light modules.  Whatever a reader
    of any symbology that asks for quiet zones reads from whatever part of the page, in either direction: that part holds
    exactly one of the symbols and light modules around it, is read from left to right, and the reading
    is the data of that symbol. *)
Theorem C93_only_whole_symbols : forall (items : list (symbology * profile * str * list N * nat)) a l y' r,
  (forall y p s m g, In (y, p, s, m, g) items ->
     str_len s < 2 ^ 48 /\ (y = SCodabar -> cod_framed s) /\ barcode y p s = Ret (Ok m) /\ (5 <= g)%nat) ->
  part_of l (page a (map (fun '(y, p, s, m, g) => (m, g)) items)) ->
  read_quiet y' l = Some r \/ read_quiet y' (rev l) = Some r ->
  (y' = SCodabar -> exists t, r = Text t /\ cod_framed t) ->
  exists y p s m g, In (y, p, s, m, g) items /\ trim l = trim m /\ read_quiet y' l = Some r /\ same_kind y y' /\
    exists r0, read_modules y m = Some r0 /\ same_item r r0.
Proof.
  intros items a l y' r H. apply only_whole_symbols. apply Forall_forall. intros [[[[y p] s] m] g] HI. exact (H y p s m g HI).
Qed.
Print Assumptions C93_only_whole_symbols.

(** Every symbol of a page is found in some part of it if the light modules around it are enough for its symbology. *)
Theorem C93_every_symbol_found : forall (xs zs : list (symbology * profile * str * list N * nat)) a y p s m g,
  str_len s < 2 ^ 48 -> barcode y p s = Ret (Ok m) ->
  let place := map (fun '(y, p, s, m, g) => (m, g)) in
  (fst (quiet_zones y) <= light_after (page a (place xs)))%nat -> (snd (quiet_zones y) <= g + length (tail y))%nat ->
  exists l, part_of l (page a (place (xs ++ (y, p, s, m, g) :: zs))) /\ trim l = trim m /\ read_quiet y l = read_modules y m.
Proof. exact every_symbol_found. Qed.
Print Assumptions C93_every_symbol_found.
(** and there it is read as the caller's data, unless a plus is printed in Codabar or a Code 128 symbol has more than 6489 characters. *)
Theorem C93_data_found : forall (xs zs : list (symbology * profile * str * list N * nat)) a y p s m g, str_len s < 2 ^ 48 -> barcode y p s = Ret (Ok m) ->
  (y = SCodabar -> ~ In (ch "+") s) -> (y = SCode128 -> len s <= 6489) ->
  let place := map (fun '(y, p, s, m, g) => (m, g)) in
  (fst (quiet_zones y) <= light_after (page a (place xs)))%nat -> (snd (quiet_zones y) <= g + length (tail y))%nat ->
  exists l r, part_of l (page a (place (xs ++ (y, p, s, m, g) :: zs))) /\ read_quiet y l = Some r /\ meant y s (Some r).
Proof.
  intros xs zs a y p s m g Hs H HC H8 place HA HG. destruct (readable_meant y p s m Hs H HC H8) as (r & R & HM).
  destruct (C93_every_symbol_found xs zs a y p s m g Hs H HA HG) as (l & HP & _ & HR). exists l, r. rewrite HR. auto.
Qed.
Print Assumptions C93_data_found.

Definition symbol_on_line (y : symbology) (s : str) : list N := match barcode y Debug s with Ret (Ok m) => m | _ => [] end.
Definition parts (line : list N) : list (list N) :=
  flat_map (fun i => map (fun n => firstn n (skipn i line)) (seq 1 (length line - i))) (seq 0 (length line)).
Example C93_case :
  barcode SSupp Debug (lit "12") = Ret (Ok (symbol_on_line SSupp (lit "12"))) /\
  (** of all parts of a page, the add-on reader accepts those with the whole symbol and its margins *)
  let line := page 8 [(symbol_on_line SSupp (lit "12"), 5%nat)] in
  flat_map (fun l => match read_quiet SSupp l with Some r => [(length l, r)] | None => [] end) (parts line) =
    [(33%nat, Digits [1;2]); (32%nat, Digits [1;2])].
Proof. split; [vm_compute; reflexivity|]. vm_compute. reflexivity. Qed.
(** Asking for quiet zones is needed: the right part of a Code 39 symbol reads as an interleaved number. *)
Theorem C93_parts_without_zones : exists (p : profile) (s : str) (m l : list N) (r : reading), barcode SCode39 p s = Ret (Ok m) /\ part_of l (page 10 [(m, 10%nat)]) /\
  read_modules SItf l = Some r /\ r = Digits [2;5] /\ read_quiet SItf l = None.
Proof.
  set (m := symbol_on_line SCode39 (lit "K")). exists Debug, (lit "K"), m, (skipn 16 m ++ repeat 0 10), (Digits [2;5]).
  split; [vm_compute; reflexivity|]. split; [|repeat split; vm_compute; reflexivity].
  exists (repeat 0 10 ++ firstn 16 m), []. vm_compute. reflexivity.
Qed.
Print Assumptions C93_parts_without_zones.
