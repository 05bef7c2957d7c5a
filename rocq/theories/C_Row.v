(** * Property C78: symbols printed next to each other *)
From Verif Require Import Rust M_Error Symbology M_Use S_Barcode S_Ean S_Text S_Linear S_Codabar S_Tf S_Code128 S_All S_Row P_Rust P_All P_Row.

(** ** C78.  Any number of symbols on one line, of any symbologies, each followed by at least five light modules (the standards
    ask for more): a reader that parts them at the wide spaces reads each as if it were alone. *)
Theorem C78_side_by_side : forall items : list (symbology * profile * str * list N * nat), items <> [] ->
  (forall y p s m g, In (y, p, s, m, g) items -> str_len s < 2 ^ 48 /\ barcode y p s = Ret (Ok m) /\ (5 <= g)%nat) ->
  read_row (map (fun '(y, p, s, m, g) => y) items) (in_a_row (map (fun '(y, p, s, m, g) => (m, g)) items)) =
  Some (map (fun '(y, p, s, m, g) => read_modules y m) items).
Proof.
  intros items Hn H. set (its := map (fun '(y, p, s, m, g) => (y, m, g)) items : list (symbology * list N * nat)).
  assert (Hi : its <> []) by (unfold its; destruct items; [congruence | discriminate]).
  assert (HF : Forall (fun it => Shape (fst (fst it)) (snd (fst it)) /\ (5 <= snd it)%nat) its).
  { unfold its. apply Forall_map, Forall_forall. intros [[[[y p] s] m] g] HI. cbn [fst snd]. destruct (H y p s m g HI) as (Hs & E & Hg).
    split; [now apply (barcode_shape y p s) | assumption]. }
  pose proof (row_read its Hi HF) as R. unfold its in R. rewrite !map_map in R.
  rewrite (map_ext (fun '(y, p, s, m, g) => y) (fun x => fst (fst (let '(y, p, s, m, g) := x in (y, m, g))))) by (intros [[[[y p] s] m] g]; reflexivity).
  rewrite (map_ext (fun '(y, p, s, m, g) => (m, g)) (fun x => (snd (fst (let '(y, p, s, m, g) := x in (y, m, g))), snd (let '(y, p, s, m, g) := x in (y, m, g))))) by (intros [[[[y p] s] m] g]; reflexivity).
  rewrite (map_ext (fun '(y, p, s, m, g) => read_modules y m) (fun x => read_modules (fst (fst (let '(y, p, s, m, g) := x in (y, m, g)))) (snd (fst (let '(y, p, s, m, g) := x in (y, m, g)))))) by (intros [[[[y p] s] m] g]; reflexivity).
  exact R.
Qed.
Print Assumptions C78_side_by_side.

(** A book number with its price add-on, and what becomes of them without a gap *)
Definition symbol_of (y : symbology) (s : str) : list N := match barcode y Debug s with Ret (Ok m) => m | _ => [] end.
Example C78_case :
  read_row [SEan13; SSupp] (in_a_row [(symbol_of SEan13 (lit "978144937332"), 9%nat); (symbol_of SSupp (lit "52499"), 5%nat)]) =
    Some [Some (Digits [9;7;8;1;4;4;9;3;7;3;3;2;0]); Some (Digits [5;2;4;9;9])]
  /\ read_row [SEan13; SSupp] (in_a_row [(symbol_of SEan13 (lit "978144937332"), 0%nat); (symbol_of SSupp (lit "52499"), 0%nat)]) = None
  /\ read_row [SStf; SCode39] (in_a_row [(symbol_of SStf (lit "12"), 5%nat); (symbol_of SCode39 (lit "A"), 6%nat)]) =
    Some [Some (Digits [1;2]); Some (Text (lit "A"))].
Proof. repeat (split; [vm_compute; reflexivity|]). vm_compute. reflexivity. Qed.
