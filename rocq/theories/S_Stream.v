(** * Specification: symbols printed one behind the other, touching *)
From Verif Require Import Rust M_Error Symbology M_Use S_Barcode S_Text S_Codabar.

(** The symbols of a symbology; in Codabar those with start and stop characters and without the misprinted plus (C30), in Code 128
    those whose check character is computed without overflow (C41) *)
Definition symbol_of (y : symbology) (s : str) (m : list N) : Prop :=
  str_len s < 2 ^ 48 /\ (exists p, barcode y p s = Ret (Ok m)) /\
  (y = SCodabar -> cod_framed s /\ ~ In (ch "+") s) /\ (y = SCode128 -> len s <= 6489).
Definition symbol_in (y : symbology) (m : list N) : Prop := exists s, symbol_of y s m.
