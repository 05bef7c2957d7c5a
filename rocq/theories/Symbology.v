(** * The symbologies of the library, as an enumeration (shared by model and specification) *)
Inductive symbology : Type :=
  | SEan13 | SEan8 | SUpca | SSupp | SCode39 | SCode39Checked | SCode93 | SCode11
  | SCodabar | SCode128 | SItf | SStf.
