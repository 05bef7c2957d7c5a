(** * Property C86: how many wrong characters it takes to be misread *)
From Verif Require Import Rust M_Error Symbology M_Use S_Barcode S_Text S_Ean S_Linear S_Codabar S_Tf S_Code128 S_All S_Check128 S_Cell S_Several
  P_Several P_Readable.

(** ** C86.  Symbols with check characters: up to [k] characters (digit, data, check, start or stop) are replaced by as many
    elements of arbitrary widths.  While [k] is less than [characters_needed], a reader that verifies the check
    characters accepts nothing but the undamaged symbol.  Code 93 is the one with two check characters that stands two wrong ones. *)
Theorem C86_wrong_characters : forall y p s m, str_len s < 2 ^ 48 -> checked y s -> barcode y p s = Ret (Ok m) ->
  (y = SCode128 -> read_modules y m <> None) ->
  exists ws r, m = render ws /\ read_as y ws = Some r /\ verified y r /\
    forall k ws' r', (k < characters_needed y s)%nat -> cells_changed y k ws ws' ->
      read_as y ws' = Some r' -> verified y r' -> ws' = ws.
Proof. exact several_characters. Qed.
Print Assumptions C86_wrong_characters.
(** Code 128 symbols of up to 6489 characters are all readable. *)
Theorem C86_data : forall y p s m, str_len s < 2 ^ 48 -> checked y s -> barcode y p s = Ret (Ok m) -> (y = SCode128 -> len s <= 6489) ->
  exists ws r, m = render ws /\ read_as y ws = Some r /\ verified y r /\
    forall k ws' r', (k < characters_needed y s)%nat -> cells_changed y k ws ws' ->
      read_as y ws' = Some r' -> verified y r' -> ws' = ws.
Proof.
  intros y p s m Hs HC H H128. apply (C86_wrong_characters y p s m Hs HC H). intros ->. exact (readable_128 p s m H (H128 eq_refl)).
Qed.
Print Assumptions C86_data.

(** The numbers cannot be raised: data whose symbols differ in just so many characters (which ones is listed), both accepted
    by verifying readers. *)
Definition twins : list (symbology * str * str * list nat) :=
  [(SEan13, lit "750103131130", lit "750103111330", [32; 40]%nat); (SUpca, lit "73831201409", lit "73831241009", [32; 40]%nat);
   (SEan8, lit "5512345", lit "5512543", [24; 32]%nat); (SSupp, lit "12345", lit "32145", [3; 15]%nat);
   (SCode39Checked, lit "AB", lit "BA", [10; 20]%nat); (SCode11, lit "12", lit "20", [6; 12]%nat);
   (SCode128, set_char CA :: lit "AC", set_char CA :: lit "CB", [6; 12]%nat);
   (SCode93, lit "A", lit "B", [6; 12; 18]%nat); (SCode93, lit "A00000000000000", lit "000000100000000", [6; 42]%nat)].
Definition picture (y : symbology) (s : str) : list N := match barcode y Debug s with Ret (Ok m) => m | _ => [] end.
Definition elements (y : symbology) (s : str) : list nat := match scan (picture y s) with Some ws => ws | None => [] end.
Theorem C86_needed_tight : forall y s t ns, In (y, s, t, ns) twins -> exists m m' ws ws' r r',
  checked y s /\ barcode y Debug s = Ret (Ok m) /\ barcode y Debug t = Ret (Ok m') /\ m = render ws /\ m' = render ws' /\
  cells_changed y (characters_needed y s) ws ws' /\ read_as y ws = Some r /\ read_as y ws' = Some r' /\ r <> r' /\
  verified y r /\ verified y r'.
Proof.
  intros y s t ns H. exists (picture y s), (picture y t), (elements y s), (elements y t). cbn [twins In] in H.
  repeat (destruct H as [H|H]; [injection H as <- <- <- Hn;
    do 2 eexists; split; [exact I || reflexivity|]; split; [vm_compute; reflexivity|]; split; [vm_compute; reflexivity|];
    split; [vm_compute; reflexivity|]; split; [vm_compute; reflexivity|]; split;
    [apply (steps_between _ ns); subst ns; vm_compute; reflexivity|];
    split; [vm_compute; reflexivity|]; split; [vm_compute; reflexivity|]; split; [discriminate|]; split;
    (exact I || (exists (lit "AB"), (ch "L"); now split) || (exists (lit "BA"), (ch "L"); now split)) |]).
  contradiction.
Qed.
Print Assumptions C86_needed_tight.
Theorem C86_every_symbology : forall y s, checked y s -> exists s' t ns, In (y, s', t, ns) twins.
Proof. intros [] s H; try contradiction; do 3 eexists; cbn [twins In]; tauto. Qed.
Print Assumptions C86_every_symbology.
(** The O of CODE93 printed as P and the D as each of the 47 characters: nothing is read. *)
Definition with_two (a b : list nat) : list nat :=
  let ws := elements SCode93 (lit "CODE93") in firstn 12 ws ++ a ++ b ++ skipn 24 ws.
Example C86_case : characters_needed SCode93 (lit "CODE93") = 3%nat
  /\ read_as SCode93 (with_two (c93_pattern (ch "O")) (c93_pattern (ch "D"))) = Some (Text (lit "CODE93"))
  /\ map (fun b => read_as SCode93 (with_two (c93_pattern (ch "P")) b)) c93_table = repeat None 47.
Proof. vm_compute. repeat split; reflexivity. Qed.
