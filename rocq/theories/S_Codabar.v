(** * Specification of Codabar (AIM BC3, NW-7)

    Seven elements per character, wide elements two modules; nothing here refers
    to the model. *)
From Verif Require Import Rust S_Barcode S_Linear.

Definition cod_chars : list char := lit "0123456789-$:/.+ABCD".
Definition cod_table : list (list nat) := table
    "1111122 1111221 1112112 2211111 1121121 2111121 1211112 1211211 1221111 2112111 1112211 1122111 2111212 2121112 2121211 1121212 1122121 1212112 1112122 1112221".
Definition cod_pattern : char -> list nat := pattern cod_chars cod_table.

(** Characters separated by one narrow space *)
Definition cod_symbol (cs : list char) : list nat :=
  match cs with
  | [] => []
  | c :: tl => cod_pattern c ++ concat (map (fun d => 1%nat :: cod_pattern d) tl)
  end.

Definition read_cod (ws : list nat) : option (list char) :=
  let? bs := chop 8 (ws ++ [1%nat]) in
  let? cs := read_all (gap_block 7) bs in
  read_all (read_char cod_chars cod_table) cs.

(** Start and stop characters, and messages framed by them *)
Definition cod_stop (c : char) : Prop := In c (lit "ABCD").
Definition cod_framed (s : str) : Prop :=
  exists a mid z, s = a :: mid ++ [z] /\ cod_stop a /\ cod_stop z /\
    Forall (fun c => ~ cod_stop c) mid.

(** The exchange of B and C (used to state what the printed symbols mean) *)
Definition exchange (c : char) : char :=
  if c =? ch "B" then ch "C" else if c =? ch "C" then ch "B" else c.
