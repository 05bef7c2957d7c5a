(** * Model of src/generators/json.rs *)
From Verif Require Import Rust M_Error.

(** src/generators/json.rs:20-25, struct JSON, public fields (usize) *)
Record JSON : Type := mkJSON { json_height : N; json_xdim : N }.

(** json.rs:35-40, JSON::new (and Default, 27-31) *)
Definition json_new : JSON := mkJSON 10 1.

(** json.rs:44-51, the fold that prints the modules *)
Definition json_bits (barcode : list N) : str :=
  fold_left (fun acc b =>
               let n := if b =? 0 then lit "0" else lit "1" in
               (acc ++ n) ++ lit ",") barcode [].

(** String::pop() used for its effect *)
Definition pop {A} (l : list A) : list A := removelast l.

(** A double quote character *)
Definition dq : str := [34].

(** json.rs:43-62, generate *)
Definition json_generate (g : JSON) (barcode : list N) : result str :=
  let bits := pop (json_bits barcode) in
  Ok (lit "{" ++ dq ++ lit "height" ++ dq ++ lit ":" ++ fmt_dec (json_height g)
        ++ lit "," ++ dq ++ lit "xdim" ++ dq ++ lit ":" ++ fmt_dec (json_xdim g)
        ++ lit "," ++ dq ++ lit "encoding" ++ dq ++ lit ":[" ++ bits ++ lit "]}").
