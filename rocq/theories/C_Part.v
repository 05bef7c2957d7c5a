(** * Properties C98 and C105: parts of a symbol *)
From Verif Require Import Rust M_Error Symbology M_Use S_Barcode S_Text S_Ean S_Linear S_Codabar S_Tf S_Code128 S_All S_Cut S_Part
  P_Part P_Part2.

(** ** C98.  Cut anything off a printed retail symbol, two-digit add-on, Code 93 or Code 128 symbol,
    on either side or on both, as long as a dark module is lost: the reader of the symbology reads
    nothing in what is left.  The same goes for Codabar symbols with start and stop characters, when
    the reader asks for these.  No quiet zone is asked for, and the whole symbol need not be readable: a
    misread Codabar or Code 128 symbol is covered as well. *)
Theorem C98_no_part_read : forall y p s m l r, str_len s < 2 ^ 48 -> barcode y p s = Ret (Ok m) ->
  whole_only y s -> proper_part m l -> read_modules y l = Some r -> accepts y r -> False.
Proof. exact part_read. Qed.
Print Assumptions C98_no_part_read.

(** Every part of these symbols, from any module to any module: only the whole is read. *)
Definition printed (y : symbology) (s : str) : list N := match barcode y Debug s with Ret (Ok t) => t | _ => [] end.
Definition parts (m : list N) : list (list N) :=
  flat_map (fun i => map (fun n => firstn n (skipn i m)) (seq 1 (length m - i))) (seq 0 (length m)).
Definition found (y : symbology) (s : str) : list reading :=
  flat_map (fun l => match read_modules y l with Some r => [r] | None => [] end) (parts (printed y s)).
Example C98_case : found SSupp (lit "34") = [Digits [3; 4]] /\ found SCode93 (lit "A") = [Text (lit "A")] /\
  length (parts (printed SCode93 (lit "A"))) = 1081%nat.
Proof. split; [vm_compute; reflexivity|]. split; vm_compute; reflexivity. Qed.
Example C98_case_hypotheses : barcode SCode93 Debug (lit "A") = Ret (Ok (printed SCode93 (lit "A"))) /\ whole_only SCode93 (lit "A") /\
  proper_part (printed SCode93 (lit "A")) (firstn 30 (skipn 5 (printed SCode93 (lit "A")))).
Proof.
  split; [vm_compute; reflexivity|]. split; [exact I|].
  exists (firstn 5 (printed SCode93 (lit "A"))), (skipn 30 (skipn 5 (printed SCode93 (lit "A")))). split; [now rewrite !firstn_skipn | vm_compute; tauto].
Qed.

(** ** The other symbols have parts that are read: the Code 39 symbol of AABBA has one that reads XX,
    whose second character is a valid check character, the Code 11 symbol of 03553 one that reads 4 with
    a valid check character, and 2 of 5 symbols and five-digit add-ons are read without their end. *)
Definition part (i n : nat) (m : list N) : list N := firstn n (skipn i m).
Lemma part_proper i n m : In 1 (firstn i m ++ skipn n (skipn i m)) -> proper_part m (part i n m).
Proof. exists (firstn i m), (skipn n (skipn i m)). split; [unfold part; now rewrite !firstn_skipn | assumption]. Qed.
Theorem C98_parts_misread : exists l1 l2 l3 l4 l5 l6,
  (proper_part (printed SCode39 (lit "AABBA")) l1 /\ read_modules SCode39 l1 = Some (Text (lit "XX"))) /\
  (proper_part (printed SCode39Checked (lit "AABBA")) l2 /\ read_modules SCode39Checked l2 = Some (Text (lit "X" ++ [c39_check (lit "X")]))) /\
  (proper_part (printed SCode11 (lit "03553")) l3 /\ read_modules SCode11 l3 = Some (Text (lit "4"))) /\
  (proper_part (printed SItf (lit "1234")) l4 /\ read_modules SItf l4 = Some (Digits [1; 2])) /\
  (proper_part (printed SStf (lit "125")) l5 /\ read_modules SStf l5 = Some (Digits [1; 2])) /\
  (proper_part (printed SSupp (lit "02001")) l6 /\ read_modules SSupp l6 = Some (Digits [0; 2])).
Proof.
  exists (part 17 52 (printed SCode39 (lit "AABBA"))), (part 17 52 (printed SCode39Checked (lit "AABBA"))),
    (part 13 31 (printed SCode11 (lit "03553"))), (part 0 27 (printed SItf (lit "1234"))), (part 0 45 (printed SStf (lit "125"))),
    (part 0 20 (printed SSupp (lit "02001"))).
  split; [|split; [|split; [|split; [|split]]]]; (split; [apply part_proper; vm_compute; tauto | vm_compute; reflexivity]).
Qed.
Print Assumptions C98_parts_misread.

(** ** C105.  But no part of a symbol is read as long as the whole: readers that know how many characters to expect read the whole symbol
    or nothing, whatever the symbology. *)
Theorem C105_parts_shorter : forall y p s m l r r', str_len s < 2 ^ 48 -> barcode y p s = Ret (Ok m) -> read_modules y m = Some r ->
  proper_part m l -> read_modules y l = Some r' -> (reported r' < reported r)%nat.
Proof. exact parts_shorter. Qed.
Print Assumptions C105_parts_shorter.
(** In particular a part is never read as the whole symbol is. *)
Corollary C105_not_the_data : forall y p s m l r, str_len s < 2 ^ 48 -> barcode y p s = Ret (Ok m) -> read_modules y m = Some r ->
  proper_part m l -> read_modules y l <> Some r.
Proof. intros y p s m l r Hs HB HR HP HR'. pose proof (parts_shorter y p s m l r r Hs HB HR HP HR'). lia. Qed.
Print Assumptions C105_not_the_data.
Example C105_case :
  read_modules SItf (printed SItf (lit "1234")) = Some (Digits [1; 2; 3; 4])
  /\ proper_part (printed SItf (lit "1234")) (part 0 27 (printed SItf (lit "1234")))
  /\ read_modules SItf (part 0 27 (printed SItf (lit "1234"))) = Some (Digits [1; 2])
  /\ map reported (found SCodabar (lit "00")) = [1; 1; 2; 1; 1; 1; 1; 1; 1; 1; 1; 1; 1]%nat.
Proof.
  split; [vm_compute; reflexivity|]. split; [apply part_proper; vm_compute; tauto|]. split; [vm_compute; reflexivity|]. vm_compute. reflexivity.
Qed.
