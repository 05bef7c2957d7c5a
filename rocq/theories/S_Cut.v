(** * Specification: scan lines that miss one end of the symbol *)
From Verif Require Import Rust Symbology S_Barcode S_Codabar S_Text S_All.

(** What is left of a picture when at least one dark module is missing at its right or
    left end *)
Definition cut_right (m m' : list N) : Prop := exists b, m = m' ++ b /\ In 1 b.
Definition cut_left (m m' : list N) : Prop := exists a, m = a ++ m' /\ In 1 a.

(** A Codabar reader asks for a start and a stop character; nothing is asked of other readings. *)
Definition accepts (y : symbology) (r : reading) : Prop :=
  match y, r with SCodabar, Text t => cod_framed t | _, _ => True end.

(** What a reader may report about a symbol cut on the right: nothing, but 2 of 5 digits may be
    lost (in pairs when interleaved), and the first two digits of a five-digit add-on read *)
Definition lost_right (y : symbology) (r r' : reading) : Prop :=
  match y with
  | SItf => exists ds e, r = Digits (ds ++ e) /\ r' = Digits ds /\ e <> [] /\ Nat.even (length e) = true
  | SStf => exists ds e, r = Digits (ds ++ e) /\ r' = Digits ds /\ e <> []
  | SSupp => exists ds, r = Digits ds /\ length ds = 5%nat /\ r' = Digits (firstn 2 ds)
  | _ => False
  end.
Definition lost_left (y : symbology) (r r' : reading) : Prop :=
  match y with
  | SItf => exists ds e, r = Digits (e ++ ds) /\ r' = Digits ds /\ e <> [] /\ Nat.even (length e) = true
  | SStf => exists ds e, r = Digits (e ++ ds) /\ r' = Digits ds /\ e <> []
  | _ => False
  end.

(** The same in terms of what was printed, whether the whole symbol is readable or not *)
Definition after_cut (y : symbology) (s : str) (r' : reading) : Prop :=
  match y with
  | SItf => exists ds u ds' v, itf_carries s ds /\ ds = u ++ ds' ++ v /\ r' = Digits ds' /\
      (u = [] \/ v = []) /\ u ++ v <> [] /\ Nat.even (length (u ++ v)) = true
  | SStf => exists u ds' v, digits_of s = u ++ ds' ++ v /\ r' = Digits ds' /\ (u = [] \/ v = []) /\ u ++ v <> []
  | SSupp => length s = 5%nat /\ r' = Digits (firstn 2 (digits_of s))
  | SCodabar => ~ cod_framed s
  | _ => False
  end.
