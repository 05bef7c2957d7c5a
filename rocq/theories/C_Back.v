(** * Property C99: parts of a symbol, upside down *)
From Verif Require Import Rust M_Error Symbology M_Use S_Barcode S_Text S_Ean S_Linear S_Codabar S_Tf S_Code128 S_All S_Cut S_Part
  P_Back.

(** ** C99.  Take any run of neighbouring modules out of a printed retail symbol, two-digit add-on,
    Code 93 or Code 128 symbol - all of it or any part - and turn it round: the reader of the symbology
    reads nothing in it.  The same goes for Codabar symbols with start and stop characters, when the
    reader asks for these.  No quiet zone is asked for, and the symbol need not be readable the right
    way round. *)
Theorem C99_no_part_backwards : forall y p s m u l v r, str_len s < 2 ^ 48 -> barcode y p s = Ret (Ok m) ->
  whole_only y s -> m = u ++ l ++ v -> read_modules y (rev l) = Some r -> accepts y r -> False.
Proof. exact back_read. Qed.
Print Assumptions C99_no_part_backwards.

(** Every part of these symbols, from any module to any module, turned round: none is read; the right way
    round one is. *)
Definition printed (y : symbology) (s : str) : list N := match barcode y Debug s with Ret (Ok t) => t | _ => [] end.
Definition parts (m : list N) : list (list N) :=
  flat_map (fun i => map (fun n => firstn n (skipn i m)) (seq 1 (length m - i))) (seq 0 (length m)).
Definition found (y : symbology) (ps : list (list N)) : list reading :=
  flat_map (fun l => match read_modules y l with Some r => [r] | None => [] end) ps.
Example C99_case : found SCode93 (parts (printed SCode93 (lit "A"))) = [Text (lit "A")] /\
  found SCode93 (map (@rev N) (parts (printed SCode93 (lit "A")))) = [] /\
  found SSupp (map (@rev N) (parts (printed SSupp (lit "34")))) = [] /\
  length (parts (printed SCode93 (lit "A"))) = 1081%nat.
Proof. split; [vm_compute; reflexivity|]. split; [vm_compute; reflexivity|]. split; vm_compute; reflexivity. Qed.
Example C99_case_hypotheses : barcode SCode93 Debug (lit "A") = Ret (Ok (printed SCode93 (lit "A"))) /\ whole_only SCode93 (lit "A") /\
  printed SCode93 (lit "A") = firstn 5 (printed SCode93 (lit "A")) ++ firstn 30 (skipn 5 (printed SCode93 (lit "A"))) ++ skipn 30 (skipn 5 (printed SCode93 (lit "A"))).
Proof. split; [vm_compute; reflexivity|]. split; [exact I | now rewrite !firstn_skipn]. Qed.

(** ** The other symbols have parts that are read upside down: the Code 39 symbol of PAP one that reads 1
    (P is the mirror image of the start and stop character), that of PAAP one that reads 1 and the check
    character of 1, the Code 11 symbol of 6116 one that reads 1 with a valid check character, the
    interleaved 2 of 5 symbol of 0111 one that reads 46, the standard 2 of 5 symbol of 406 one that
    reads 6, and the five-digit add-on 05892 one that reads 99. *)
Definition part (i n : nat) (m : list N) : list N := firstn n (skipn i m).
Definition part_of (m l : list N) : Prop := exists u v, m = u ++ l ++ v.
Lemma part_is i n m : part_of m (part i n m).
Proof. exists (firstn i m), (skipn n (skipn i m)). unfold part. now rewrite !firstn_skipn. Qed.
Theorem C99_parts_misread : exists l1 l2 l3 l4 l5 l6,
  (part_of (printed SCode39 (lit "PAP")) l1 /\ read_modules SCode39 (rev l1) = Some (Text (lit "1"))) /\
  (part_of (printed SCode39Checked (lit "PAAP")) l2 /\ read_modules SCode39Checked (rev l2) = Some (Text (lit "1" ++ [c39_check (lit "1")]))) /\
  (part_of (printed SCode11 (lit "6116")) l3 /\ read_modules SCode11 (rev l3) = Some (Text (lit "1"))) /\
  (part_of (printed SItf (lit "0111")) l4 /\ read_modules SItf (rev l4) = Some (Digits [4; 6])) /\
  (part_of (printed SStf (lit "406")) l5 /\ read_modules SStf (rev l5) = Some (Digits [6])) /\
  (part_of (printed SSupp (lit "05892")) l6 /\ read_modules SSupp (rev l6) = Some (Digits [9; 9])).
Proof.
  exists (part 13 38 (printed SCode39 (lit "PAP"))), (part 13 51 (printed SCode39Checked (lit "PAAP"))),
    (part 8 31 (printed SCode11 (lit "6116"))), (part 8 27 (printed SItf (lit "0111"))), (part 12 33 (printed SStf (lit "406"))),
    (part 26 20 (printed SSupp (lit "05892"))).
  split; [|split; [|split; [|split; [|split]]]]; (split; [apply part_is | vm_compute; reflexivity]).
Qed.
Print Assumptions C99_parts_misread.
