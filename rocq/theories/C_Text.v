(** * Properties C46-C48: the ASCII and JSON generators *)
From Verif Require Import Rust M_Error M_Ascii M_Json S_Barcode S_Text S_Num S_Ascii S_Json P_Ascii P_Json.

(** ** C46.  [split_on 10] gives the lines: all pieces between newlines, also an empty last
    one, so equality with [repeat] excludes a trailing newline. *)
Theorem C46_ascii_lines : forall p height xdim b, Forall (fun x => x = 0 \/ x = 1) b ->
  exists out, ascii_generate p (mkASCII height xdim) b = Ret (Ok out) /\
    (height = 0 -> out = []) /\
    (1 <= height -> split_on 10 out = repeat (text_line xdim b) (N.to_nat height)).
Proof. exact ascii_generate_spec. Qed.
Print Assumptions C46_ascii_lines.
(** The same with the text itself *)
Theorem C46_ascii_text : forall p g b, Forall (fun x => x = 0 \/ x = 1) b ->
  ascii_generate p g b =
  Ret (Ok (join_lines (repeat (text_line (ascii_xdim g) b) (N.to_nat (ascii_height g))))).
Proof. exact ascii_generate_join. Qed.
Print Assumptions C46_ascii_text.
Example C46_case : Forall (fun x => x = 0 \/ x = 1) [1; 0; 1] /\
  ascii_generate Debug (mkASCII 2 2) [1; 0; 1] = Ret (Ok (lit "##  ##" ++ [10] ++ lit "##  ##")) /\
  text_line 2 [1; 0; 1] = lit "##  ##".
Proof. split; [repeat (constructor; [lia|]); constructor|]. split; reflexivity. Qed.

(** ** C47 *)
Theorem C47_ascii_panics_iff : forall p height xdim b,
  panics (ascii_generate p (mkASCII height xdim) b) <-> Exists (fun d => 2 <= d) b.
Proof. exact ascii_panics. Qed.
Print Assumptions C47_ascii_panics_iff.
Example C47_case : ascii_generate Release (mkASCII 0 0) [1; 2] = Panic PanicIndex /\
  ascii_generate Release (mkASCII 0 0) [1; 1] = Ret (Ok []).
Proof. split; reflexivity. Qed.

(** ** C48.  [json_generate] is a total function: it cannot panic. *)
Theorem C48_json_object : forall height xdim b,
  exists out, json_generate (mkJSON height xdim) b = Ok out /\
    read_json out = Some (JObj [(lit "height", JNum height); (lit "xdim", JNum xdim);
      (lit "encoding", JArr (map (fun v => JNum (if v =? 0 then 0 else 1)) b))]).
Proof. intros h x b. exists (json_text h x b). split; [apply json_generate_text | apply json_text_read]. Qed.
Print Assumptions C48_json_object.
Example C48_case :
  json_generate (mkJSON 10 2) [1; 0; 7] =
    Ok (lit "{" ++ [34] ++ lit "height" ++ [34] ++ lit ":10," ++ [34] ++ lit "xdim" ++ [34] ++ lit ":2," ++
        [34] ++ lit "encoding" ++ [34] ++ lit ":[1,0,1]}") /\
  (exists out, json_generate (mkJSON 0 0) [] = Ok out /\
     read_json out = Some (JObj [(lit "height", JNum 0); (lit "xdim", JNum 0); (lit "encoding", JArr [])])) /\
  (* the reader rejects trailing commas and leading zeros *)
  read_json (lit "[1,0,]") = None /\ read_json (lit "[01]") = None /\ read_json (lit "[1, 0]") = Some (JArr [JNum 1; JNum 0]).
Proof.
  split; [reflexivity|]. split; [eexists; split; [reflexivity | vm_compute; reflexivity]|].
  split; [vm_compute; reflexivity|]. split; vm_compute; reflexivity.
Qed.
