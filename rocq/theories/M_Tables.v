(** * Constant tables, transcribed mechanically from the Rust source.

    Characters are written as Unicode scalar values, the comment at the end of
    the line shows printable ones. *)
From Verif Require Import Rust.

(** src/sym/ean13.rs:24-61 *)
Definition ean_ENCODINGS : list (list (list N)) :=
  [ [ [0; 0; 0; 1; 1; 0; 1];
    [0; 0; 1; 1; 0; 0; 1];
    [0; 0; 1; 0; 0; 1; 1];
    [0; 1; 1; 1; 1; 0; 1];
    [0; 1; 0; 0; 0; 1; 1];
    [0; 1; 1; 0; 0; 0; 1];
    [0; 1; 0; 1; 1; 1; 1];
    [0; 1; 1; 1; 0; 1; 1];
    [0; 1; 1; 0; 1; 1; 1];
    [0; 0; 0; 1; 0; 1; 1] ];
  [ [0; 1; 0; 0; 1; 1; 1];
    [0; 1; 1; 0; 0; 1; 1];
    [0; 0; 1; 1; 0; 1; 1];
    [0; 1; 0; 0; 0; 0; 1];
    [0; 0; 1; 1; 1; 0; 1];
    [0; 1; 1; 1; 0; 0; 1];
    [0; 0; 0; 0; 1; 0; 1];
    [0; 0; 1; 0; 0; 0; 1];
    [0; 0; 0; 1; 0; 0; 1];
    [0; 0; 1; 0; 1; 1; 1] ];
  [ [1; 1; 1; 0; 0; 1; 0];
    [1; 1; 0; 0; 1; 1; 0];
    [1; 1; 0; 1; 1; 0; 0];
    [1; 0; 0; 0; 0; 1; 0];
    [1; 0; 1; 1; 1; 0; 0];
    [1; 0; 0; 1; 1; 1; 0];
    [1; 0; 1; 0; 0; 0; 0];
    [1; 0; 0; 0; 1; 0; 0];
    [1; 0; 0; 1; 0; 0; 0];
    [1; 1; 1; 0; 1; 0; 0] ] ].

(** src/sym/ean13.rs:65-76 *)
Definition ean13_PARITY : list (list N) :=
  [ [0; 0; 0; 0; 0];
  [0; 1; 0; 1; 1];
  [0; 1; 1; 0; 1];
  [0; 1; 1; 1; 0];
  [1; 0; 0; 1; 1];
  [1; 1; 0; 0; 1];
  [1; 1; 1; 0; 0];
  [1; 0; 1; 0; 1];
  [1; 0; 1; 1; 0];
  [1; 1; 0; 1; 0] ].

(** src/sym/ean13.rs:79 *)
Definition ean_LEFT_GUARD : list N :=
  [1; 0; 1].

(** src/sym/ean13.rs:81 *)
Definition ean_MIDDLE_GUARD : list N :=
  [0; 1; 0; 1; 0].

(** src/sym/ean13.rs:83 *)
Definition ean_RIGHT_GUARD : list N :=
  [1; 0; 1].

(** src/sym/upca.rs:20-45 *)
Definition upca_ENCODINGS : list (list (list N)) :=
  [ [ [0; 0; 0; 1; 1; 0; 1];
    [0; 0; 1; 1; 0; 0; 1];
    [0; 0; 1; 0; 0; 1; 1];
    [0; 1; 1; 1; 1; 0; 1];
    [0; 1; 0; 0; 0; 1; 1];
    [0; 1; 1; 0; 0; 0; 1];
    [0; 1; 0; 1; 1; 1; 1];
    [0; 1; 1; 1; 0; 1; 1];
    [0; 1; 1; 0; 1; 1; 1];
    [0; 0; 0; 1; 0; 1; 1] ];
  [ [1; 1; 1; 0; 0; 1; 0];
    [1; 1; 0; 0; 1; 1; 0];
    [1; 1; 0; 1; 1; 0; 0];
    [1; 0; 0; 0; 0; 1; 0];
    [1; 0; 1; 1; 1; 0; 0];
    [1; 0; 0; 1; 1; 1; 0];
    [1; 0; 1; 0; 0; 0; 0];
    [1; 0; 0; 0; 1; 0; 0];
    [1; 0; 0; 1; 0; 0; 0];
    [1; 1; 1; 0; 1; 0; 0] ] ].

(** src/sym/upca.rs:49-60 (unused by the code) *)
Definition upca_PARITY : list (list N) :=
  [ [0; 0; 0; 0; 0];
  [0; 1; 0; 1; 1];
  [0; 1; 1; 0; 1];
  [0; 1; 1; 1; 0];
  [1; 0; 0; 1; 1];
  [1; 1; 0; 0; 1];
  [1; 1; 1; 0; 0];
  [1; 0; 1; 0; 1];
  [1; 0; 1; 1; 0];
  [1; 1; 0; 1; 0] ].

(** src/sym/upca.rs:63 *)
Definition upca_LEFT_GUARD : list N :=
  [1; 0; 1].

(** src/sym/upca.rs:65 *)
Definition upca_MIDDLE_GUARD : list N :=
  [0; 1; 0; 1; 0].

(** src/sym/upca.rs:67 *)
Definition upca_RIGHT_GUARD : list N :=
  [1; 0; 1].

(** src/sym/ean_supp.rs:16 *)
Definition supp_LEFT_GUARD : list N :=
  [1; 0; 1; 1].

(** src/sym/ean_supp.rs:19-30 *)
Definition supp_EAN5_PARITY : list (list N) :=
  [ [1; 1; 0; 0; 0];
  [1; 0; 1; 0; 0];
  [1; 0; 0; 1; 0];
  [1; 0; 0; 0; 1];
  [0; 1; 1; 0; 0];
  [0; 0; 1; 1; 0];
  [0; 0; 0; 1; 1];
  [0; 1; 0; 1; 0];
  [0; 1; 0; 0; 1];
  [0; 0; 1; 0; 1] ].

(** src/sym/ean_supp.rs:33-38 *)
Definition supp_EAN2_PARITY : list (list N) :=
  [ [0; 0; 0; 0; 0];
  [0; 1; 0; 0; 0];
  [1; 0; 0; 0; 0];
  [1; 1; 0; 0; 0] ].

(** src/sym/code39.rs:15-59 *)
Definition code39_CHARS : list (char * list N) :=
  [ (48, [1; 0; 1; 0; 0; 1; 1; 0; 1; 1; 0; 1]) (* 0 *);
    (49, [1; 1; 0; 1; 0; 0; 1; 0; 1; 0; 1; 1]) (* 1 *);
    (50, [1; 0; 1; 1; 0; 0; 1; 0; 1; 0; 1; 1]) (* 2 *);
    (51, [1; 1; 0; 1; 1; 0; 0; 1; 0; 1; 0; 1]) (* 3 *);
    (52, [1; 0; 1; 0; 0; 1; 1; 0; 1; 0; 1; 1]) (* 4 *);
    (53, [1; 1; 0; 1; 0; 0; 1; 1; 0; 1; 0; 1]) (* 5 *);
    (54, [1; 0; 1; 1; 0; 0; 1; 1; 0; 1; 0; 1]) (* 6 *);
    (55, [1; 0; 1; 0; 0; 1; 0; 1; 1; 0; 1; 1]) (* 7 *);
    (56, [1; 1; 0; 1; 0; 0; 1; 0; 1; 1; 0; 1]) (* 8 *);
    (57, [1; 0; 1; 1; 0; 0; 1; 0; 1; 1; 0; 1]) (* 9 *);
    (65, [1; 1; 0; 1; 0; 1; 0; 0; 1; 0; 1; 1]) (* A *);
    (66, [1; 0; 1; 1; 0; 1; 0; 0; 1; 0; 1; 1]) (* B *);
    (67, [1; 1; 0; 1; 1; 0; 1; 0; 0; 1; 0; 1]) (* C *);
    (68, [1; 0; 1; 0; 1; 1; 0; 0; 1; 0; 1; 1]) (* D *);
    (69, [1; 1; 0; 1; 0; 1; 1; 0; 0; 1; 0; 1]) (* E *);
    (70, [1; 0; 1; 1; 0; 1; 1; 0; 0; 1; 0; 1]) (* F *);
    (71, [1; 0; 1; 0; 1; 0; 0; 1; 1; 0; 1; 1]) (* G *);
    (72, [1; 1; 0; 1; 0; 1; 0; 0; 1; 1; 0; 1]) (* H *);
    (73, [1; 0; 1; 1; 0; 1; 0; 0; 1; 1; 0; 1]) (* I *);
    (74, [1; 0; 1; 0; 1; 1; 0; 0; 1; 1; 0; 1]) (* J *);
    (75, [1; 1; 0; 1; 0; 1; 0; 1; 0; 0; 1; 1]) (* K *);
    (76, [1; 0; 1; 1; 0; 1; 0; 1; 0; 0; 1; 1]) (* L *);
    (77, [1; 1; 0; 1; 1; 0; 1; 0; 1; 0; 0; 1]) (* M *);
    (78, [1; 0; 1; 0; 1; 1; 0; 1; 0; 0; 1; 1]) (* N *);
    (79, [1; 1; 0; 1; 0; 1; 1; 0; 1; 0; 0; 1]) (* O *);
    (80, [1; 0; 1; 1; 0; 1; 1; 0; 1; 0; 0; 1]) (* P *);
    (81, [1; 0; 1; 0; 1; 0; 1; 1; 0; 0; 1; 1]) (* Q *);
    (82, [1; 1; 0; 1; 0; 1; 0; 1; 1; 0; 0; 1]) (* R *);
    (83, [1; 0; 1; 1; 0; 1; 0; 1; 1; 0; 0; 1]) (* S *);
    (84, [1; 0; 1; 0; 1; 1; 0; 1; 1; 0; 0; 1]) (* T *);
    (85, [1; 1; 0; 0; 1; 0; 1; 0; 1; 0; 1; 1]) (* U *);
    (86, [1; 0; 0; 1; 1; 0; 1; 0; 1; 0; 1; 1]) (* V *);
    (87, [1; 1; 0; 0; 1; 1; 0; 1; 0; 1; 0; 1]) (* W *);
    (88, [1; 0; 0; 1; 0; 1; 1; 0; 1; 0; 1; 1]) (* X *);
    (89, [1; 1; 0; 0; 1; 0; 1; 1; 0; 1; 0; 1]) (* Y *);
    (90, [1; 0; 0; 1; 1; 0; 1; 1; 0; 1; 0; 1]) (* Z *);
    (45, [1; 0; 0; 1; 0; 1; 0; 1; 1; 0; 1; 1]) (* - *);
    (46, [1; 1; 0; 0; 1; 0; 1; 0; 1; 1; 0; 1]) (* . *);
    (32, [1; 0; 0; 1; 1; 0; 1; 0; 1; 1; 0; 1]) (* space *);
    (36, [1; 0; 0; 1; 0; 0; 1; 0; 0; 1; 0; 1]) (* $ *);
    (47, [1; 0; 0; 1; 0; 0; 1; 0; 1; 0; 0; 1]) (* / *);
    (43, [1; 0; 0; 1; 0; 1; 0; 0; 1; 0; 0; 1]) (* + *);
    (37, [1; 0; 1; 0; 0; 1; 0; 0; 1; 0; 0; 1]) (* % *) ].

(** src/sym/code39.rs:62 *)
Definition code39_GUARD : list N :=
  [1; 0; 0; 1; 0; 1; 1; 0; 1; 1; 0; 1].

(** src/sym/code93.rs:18-66 *)
Definition code93_CHARS : list (char * list N) :=
  [ (48, [1; 0; 0; 0; 1; 0; 1; 0; 0]) (* 0 *);
    (49, [1; 0; 1; 0; 0; 1; 0; 0; 0]) (* 1 *);
    (50, [1; 0; 1; 0; 0; 0; 1; 0; 0]) (* 2 *);
    (51, [1; 0; 1; 0; 0; 0; 0; 1; 0]) (* 3 *);
    (52, [1; 0; 0; 1; 0; 1; 0; 0; 0]) (* 4 *);
    (53, [1; 0; 0; 1; 0; 0; 1; 0; 0]) (* 5 *);
    (54, [1; 0; 0; 1; 0; 0; 0; 1; 0]) (* 6 *);
    (55, [1; 0; 1; 0; 1; 0; 0; 0; 0]) (* 7 *);
    (56, [1; 0; 0; 0; 1; 0; 0; 1; 0]) (* 8 *);
    (57, [1; 0; 0; 0; 0; 1; 0; 1; 0]) (* 9 *);
    (65, [1; 1; 0; 1; 0; 1; 0; 0; 0]) (* A *);
    (66, [1; 1; 0; 1; 0; 0; 1; 0; 0]) (* B *);
    (67, [1; 1; 0; 1; 0; 0; 0; 1; 0]) (* C *);
    (68, [1; 1; 0; 0; 1; 0; 1; 0; 0]) (* D *);
    (69, [1; 1; 0; 0; 1; 0; 0; 1; 0]) (* E *);
    (70, [1; 1; 0; 0; 0; 1; 0; 1; 0]) (* F *);
    (71, [1; 0; 1; 1; 0; 1; 0; 0; 0]) (* G *);
    (72, [1; 0; 1; 1; 0; 0; 1; 0; 0]) (* H *);
    (73, [1; 0; 1; 1; 0; 0; 0; 1; 0]) (* I *);
    (74, [1; 0; 0; 1; 1; 0; 1; 0; 0]) (* J *);
    (75, [1; 0; 0; 0; 1; 1; 0; 1; 0]) (* K *);
    (76, [1; 0; 1; 0; 1; 1; 0; 0; 0]) (* L *);
    (77, [1; 0; 1; 0; 0; 1; 1; 0; 0]) (* M *);
    (78, [1; 0; 1; 0; 0; 0; 1; 1; 0]) (* N *);
    (79, [1; 0; 0; 1; 0; 1; 1; 0; 0]) (* O *);
    (80, [1; 0; 0; 0; 1; 0; 1; 1; 0]) (* P *);
    (81, [1; 1; 0; 1; 1; 0; 1; 0; 0]) (* Q *);
    (82, [1; 1; 0; 1; 1; 0; 0; 1; 0]) (* R *);
    (83, [1; 1; 0; 1; 0; 1; 1; 0; 0]) (* S *);
    (84, [1; 1; 0; 1; 0; 0; 1; 1; 0]) (* T *);
    (85, [1; 1; 0; 0; 1; 0; 1; 1; 0]) (* U *);
    (86, [1; 1; 0; 0; 1; 1; 0; 1; 0]) (* V *);
    (87, [1; 0; 1; 1; 0; 1; 1; 0; 0]) (* W *);
    (88, [1; 0; 1; 1; 0; 0; 1; 1; 0]) (* X *);
    (89, [1; 0; 0; 1; 1; 0; 1; 1; 0]) (* Y *);
    (90, [1; 0; 0; 1; 1; 1; 0; 1; 0]) (* Z *);
    (45, [1; 0; 0; 1; 0; 1; 1; 1; 0]) (* - *);
    (46, [1; 1; 1; 0; 1; 0; 1; 0; 0]) (* . *);
    (32, [1; 1; 1; 0; 1; 0; 0; 1; 0]) (* space *);
    (36, [1; 1; 1; 0; 0; 1; 0; 1; 0]) (* $ *);
    (47, [1; 0; 1; 1; 0; 1; 1; 1; 0]) (* / *);
    (43, [1; 0; 1; 1; 1; 0; 1; 1; 0]) (* + *);
    (37, [1; 1; 0; 1; 0; 1; 1; 1; 0]) (* % *);
    (40, [1; 0; 0; 1; 0; 0; 1; 1; 0]) (* left paren *);
    (41, [1; 1; 1; 0; 1; 1; 0; 1; 0]) (* right paren *);
    (91, [1; 1; 1; 0; 1; 0; 1; 1; 0]) (* [ *);
    (93, [1; 0; 0; 1; 1; 0; 0; 1; 0]) (* ] *) ].

(** src/sym/code93.rs:69 *)
Definition code93_GUARD : list N :=
  [1; 0; 1; 0; 1; 1; 1; 1; 0].

(** src/sym/code93.rs:70 *)
Definition code93_TERMINATOR : list N :=
  [1].

(** src/sym/code11.rs:16-28 *)
Definition code11_CHARS : list (char * list N) :=
  [ (48, [1; 0; 1; 0; 1; 1]) (* 0 *);
    (49, [1; 1; 0; 1; 0; 1; 1]) (* 1 *);
    (50, [1; 0; 0; 1; 0; 1; 1]) (* 2 *);
    (51, [1; 1; 0; 0; 1; 0; 1]) (* 3 *);
    (52, [1; 0; 1; 1; 0; 1; 1]) (* 4 *);
    (53, [1; 1; 0; 1; 1; 0; 1]) (* 5 *);
    (54, [1; 0; 0; 1; 1; 0; 1]) (* 6 *);
    (55, [1; 0; 1; 0; 0; 1; 1]) (* 7 *);
    (56, [1; 1; 0; 1; 0; 0; 1]) (* 8 *);
    (57, [1; 1; 0; 1; 0; 1]) (* 9 *);
    (45, [1; 0; 1; 1; 0; 1]) (* - *) ].

(** src/sym/code11.rs:31 *)
Definition code11_GUARD : list N :=
  [1; 0; 1; 1; 0; 0; 1].

(** src/sym/code11.rs:32 *)
Definition code11_SEPARATOR : list N :=
  [0].

(** src/sym/tf.rs:18-23 *)
Definition tf_WIDTHS : list str :=
  [ lit "NNWWN";
    lit "WNNNW";
    lit "NWNNW";
    lit "WWNNN";
    lit "NNWNW";
    lit "WNWNN";
    lit "NWWNN";
    lit "NNNWW";
    lit "WNNWN";
    lit "NWNWN" ].

(** src/sym/tf.rs:25 *)
Definition tf_ITF_START : list N :=
  [1; 0; 1; 0].

(** src/sym/tf.rs:26 *)
Definition tf_ITF_STOP : list N :=
  [1; 1; 0; 1].

(** src/sym/tf.rs:27 *)
Definition tf_STF_START : list N :=
  [1; 1; 0; 1; 1; 0; 1; 0].

(** src/sym/tf.rs:28 *)
Definition tf_STF_STOP : list N :=
  [1; 1; 0; 1; 0; 1; 1; 0].

(** src/sym/code128.rs:86-217: for each row the three column strings
    (sets A, B, C) and the 11-module pattern.  Pattern order is the row index. *)
Definition code128_CHARS : list (list str * list N) :=
  [ ([[32]; [32]; [48; 48]], [1; 1; 0; 1; 1; 0; 0; 1; 1; 0; 0]) (* 0: space *);
    ([[33]; [33]; [48; 49]], [1; 1; 0; 0; 1; 1; 0; 1; 1; 0; 0]) (* 1: ! *);
    ([[34]; [34]; [48; 50]], [1; 1; 0; 0; 1; 1; 0; 0; 1; 1; 0]) (* 2: double quote *);
    ([[35]; [35]; [48; 51]], [1; 0; 0; 1; 0; 0; 1; 1; 0; 0; 0]) (* 3: # *);
    ([[36]; [36]; [48; 52]], [1; 0; 0; 1; 0; 0; 0; 1; 1; 0; 0]) (* 4: $ *);
    ([[37]; [37]; [48; 53]], [1; 0; 0; 0; 1; 0; 0; 1; 1; 0; 0]) (* 5: % *);
    ([[38]; [38]; [48; 54]], [1; 0; 0; 1; 1; 0; 0; 1; 0; 0; 0]) (* 6: & *);
    ([[39]; [39]; [48; 55]], [1; 0; 0; 1; 1; 0; 0; 0; 1; 0; 0]) (* 7: quote *);
    ([[40]; [40]; [48; 56]], [1; 0; 0; 0; 1; 1; 0; 0; 1; 0; 0]) (* 8: left paren *);
    ([[41]; [41]; [48; 57]], [1; 1; 0; 0; 1; 0; 0; 1; 0; 0; 0]) (* 9: right paren *);
    ([[42]; [42]; [49; 48]], [1; 1; 0; 0; 1; 0; 0; 0; 1; 0; 0]) (* 10: star *);
    ([[43]; [43]; [49; 49]], [1; 1; 0; 0; 0; 1; 0; 0; 1; 0; 0]) (* 11: + *);
    ([[44]; [44]; [49; 50]], [1; 0; 1; 1; 0; 0; 1; 1; 1; 0; 0]) (* 12: , *);
    ([[45]; [45]; [49; 51]], [1; 0; 0; 1; 1; 0; 1; 1; 1; 0; 0]) (* 13: - *);
    ([[46]; [46]; [49; 52]], [1; 0; 0; 1; 1; 0; 0; 1; 1; 1; 0]) (* 14: . *);
    ([[47]; [47]; [49; 53]], [1; 0; 1; 1; 1; 0; 0; 1; 1; 0; 0]) (* 15: / *);
    ([[48]; [48]; [49; 54]], [1; 0; 0; 1; 1; 1; 0; 1; 1; 0; 0]) (* 16: 0 *);
    ([[49]; [49]; [49; 55]], [1; 0; 0; 1; 1; 1; 0; 0; 1; 1; 0]) (* 17: 1 *);
    ([[50]; [50]; [49; 56]], [1; 1; 0; 0; 1; 1; 1; 0; 0; 1; 0]) (* 18: 2 *);
    ([[51]; [51]; [49; 57]], [1; 1; 0; 0; 1; 0; 1; 1; 1; 0; 0]) (* 19: 3 *);
    ([[52]; [52]; [50; 48]], [1; 1; 0; 0; 1; 0; 0; 1; 1; 1; 0]) (* 20: 4 *);
    ([[53]; [53]; [50; 49]], [1; 1; 0; 1; 1; 1; 0; 0; 1; 0; 0]) (* 21: 5 *);
    ([[54]; [54]; [50; 50]], [1; 1; 0; 0; 1; 1; 1; 0; 1; 0; 0]) (* 22: 6 *);
    ([[55]; [55]; [50; 51]], [1; 1; 1; 0; 1; 1; 0; 1; 1; 1; 0]) (* 23: 7 *);
    ([[56]; [56]; [50; 52]], [1; 1; 1; 0; 1; 0; 0; 1; 1; 0; 0]) (* 24: 8 *);
    ([[57]; [57]; [50; 53]], [1; 1; 1; 0; 0; 1; 0; 1; 1; 0; 0]) (* 25: 9 *);
    ([[58]; [58]; [50; 54]], [1; 1; 1; 0; 0; 1; 0; 0; 1; 1; 0]) (* 26: : *);
    ([[59]; [59]; [50; 55]], [1; 1; 1; 0; 1; 1; 0; 0; 1; 0; 0]) (* 27: ; *);
    ([[60]; [60]; [50; 56]], [1; 1; 1; 0; 0; 1; 1; 0; 1; 0; 0]) (* 28: < *);
    ([[61]; [61]; [50; 57]], [1; 1; 1; 0; 0; 1; 1; 0; 0; 1; 0]) (* 29: = *);
    ([[62]; [62]; [51; 48]], [1; 1; 0; 1; 1; 0; 1; 1; 0; 0; 0]) (* 30: > *);
    ([[63]; [63]; [51; 49]], [1; 1; 0; 1; 1; 0; 0; 0; 1; 1; 0]) (* 31: ? *);
    ([[64]; [64]; [51; 50]], [1; 1; 0; 0; 0; 1; 1; 0; 1; 1; 0]) (* 32: @ *);
    ([[65]; [65]; [51; 51]], [1; 0; 1; 0; 0; 0; 1; 1; 0; 0; 0]) (* 33: A *);
    ([[66]; [66]; [51; 52]], [1; 0; 0; 0; 1; 0; 1; 1; 0; 0; 0]) (* 34: B *);
    ([[67]; [67]; [51; 53]], [1; 0; 0; 0; 1; 0; 0; 0; 1; 1; 0]) (* 35: C *);
    ([[68]; [68]; [51; 54]], [1; 0; 1; 1; 0; 0; 0; 1; 0; 0; 0]) (* 36: D *);
    ([[69]; [69]; [51; 55]], [1; 0; 0; 0; 1; 1; 0; 1; 0; 0; 0]) (* 37: E *);
    ([[70]; [70]; [51; 56]], [1; 0; 0; 0; 1; 1; 0; 0; 0; 1; 0]) (* 38: F *);
    ([[71]; [71]; [51; 57]], [1; 1; 0; 1; 0; 0; 0; 1; 0; 0; 0]) (* 39: G *);
    ([[72]; [72]; [52; 48]], [1; 1; 0; 0; 0; 1; 0; 1; 0; 0; 0]) (* 40: H *);
    ([[73]; [73]; [52; 49]], [1; 1; 0; 0; 0; 1; 0; 0; 0; 1; 0]) (* 41: I *);
    ([[74]; [74]; [52; 50]], [1; 0; 1; 1; 0; 1; 1; 1; 0; 0; 0]) (* 42: J *);
    ([[75]; [75]; [52; 51]], [1; 0; 1; 1; 0; 0; 0; 1; 1; 1; 0]) (* 43: K *);
    ([[76]; [76]; [52; 52]], [1; 0; 0; 0; 1; 1; 0; 1; 1; 1; 0]) (* 44: L *);
    ([[77]; [77]; [52; 53]], [1; 0; 1; 1; 1; 0; 1; 1; 0; 0; 0]) (* 45: M *);
    ([[78]; [78]; [52; 54]], [1; 0; 1; 1; 1; 0; 0; 0; 1; 1; 0]) (* 46: N *);
    ([[79]; [79]; [52; 55]], [1; 0; 0; 0; 1; 1; 1; 0; 1; 1; 0]) (* 47: O *);
    ([[80]; [80]; [52; 56]], [1; 1; 1; 0; 1; 1; 1; 0; 1; 1; 0]) (* 48: P *);
    ([[81]; [81]; [52; 57]], [1; 1; 0; 1; 0; 0; 0; 1; 1; 1; 0]) (* 49: Q *);
    ([[82]; [82]; [53; 48]], [1; 1; 0; 0; 0; 1; 0; 1; 1; 1; 0]) (* 50: R *);
    ([[83]; [83]; [53; 49]], [1; 1; 0; 1; 1; 1; 0; 1; 0; 0; 0]) (* 51: S *);
    ([[84]; [84]; [53; 50]], [1; 1; 0; 1; 1; 1; 0; 0; 0; 1; 0]) (* 52: T *);
    ([[85]; [85]; [53; 51]], [1; 1; 0; 1; 1; 1; 0; 1; 1; 1; 0]) (* 53: U *);
    ([[86]; [86]; [53; 52]], [1; 1; 1; 0; 1; 0; 1; 1; 0; 0; 0]) (* 54: V *);
    ([[87]; [87]; [53; 53]], [1; 1; 1; 0; 1; 0; 0; 0; 1; 1; 0]) (* 55: W *);
    ([[88]; [88]; [53; 54]], [1; 1; 1; 0; 0; 0; 1; 0; 1; 1; 0]) (* 56: X *);
    ([[89]; [89]; [53; 55]], [1; 1; 1; 0; 1; 1; 0; 1; 0; 0; 0]) (* 57: Y *);
    ([[90]; [90]; [53; 56]], [1; 1; 1; 0; 1; 1; 0; 0; 0; 1; 0]) (* 58: Z *);
    ([[91]; [91]; [53; 57]], [1; 1; 1; 0; 0; 0; 1; 1; 0; 1; 0]) (* 59: [ *);
    ([[92]; [92]; [54; 48]], [1; 1; 1; 0; 1; 1; 1; 1; 0; 1; 0]) (* 60: backslash *);
    ([[93]; [93]; [54; 49]], [1; 1; 0; 0; 1; 0; 0; 0; 0; 1; 0]) (* 61: ] *);
    ([[94]; [94]; [54; 50]], [1; 1; 1; 1; 0; 0; 0; 1; 0; 1; 0]) (* 62: ^ *);
    ([[95]; [95]; [54; 51]], [1; 0; 1; 0; 0; 1; 1; 0; 0; 0; 0]) (* 63: _ *);
    ([[0]; [96]; [54; 52]], [1; 0; 1; 0; 0; 0; 0; 1; 1; 0; 0]) (* 64: U+0000 *);
    ([[1]; [97]; [54; 53]], [1; 0; 0; 1; 0; 1; 1; 0; 0; 0; 0]) (* 65: U+0001 *);
    ([[2]; [98]; [54; 54]], [1; 0; 0; 1; 0; 0; 0; 0; 1; 1; 0]) (* 66: U+0002 *);
    ([[3]; [99]; [54; 55]], [1; 0; 0; 0; 0; 1; 0; 1; 1; 0; 0]) (* 67: U+0003 *);
    ([[4]; [100]; [54; 56]], [1; 0; 0; 0; 0; 1; 0; 0; 1; 1; 0]) (* 68: U+0004 *);
    ([[5]; [101]; [54; 57]], [1; 0; 1; 1; 0; 0; 1; 0; 0; 0; 0]) (* 69: U+0005 *);
    ([[6]; [102]; [55; 48]], [1; 0; 1; 1; 0; 0; 0; 0; 1; 0; 0]) (* 70: U+0006 *);
    ([[7]; [103]; [55; 49]], [1; 0; 0; 1; 1; 0; 1; 0; 0; 0; 0]) (* 71: U+0007 *);
    ([[8]; [104]; [55; 50]], [1; 0; 0; 1; 1; 0; 0; 0; 0; 1; 0]) (* 72: U+0008 *);
    ([[9]; [105]; [55; 51]], [1; 0; 0; 0; 0; 1; 1; 0; 1; 0; 0]) (* 73: U+0009 *);
    ([[10]; [106]; [55; 52]], [1; 0; 0; 0; 0; 1; 1; 0; 0; 1; 0]) (* 74: U+000A *);
    ([[11]; [107]; [55; 53]], [1; 1; 0; 0; 0; 0; 1; 0; 0; 1; 0]) (* 75: U+000B *);
    ([[12]; [108]; [55; 54]], [1; 1; 0; 0; 1; 0; 1; 0; 0; 0; 0]) (* 76: U+000C *);
    ([[13]; [109]; [55; 55]], [1; 1; 1; 1; 0; 1; 1; 1; 0; 1; 0]) (* 77: U+000D *);
    ([[14]; [110]; [55; 56]], [1; 1; 0; 0; 0; 0; 1; 0; 1; 0; 0]) (* 78: U+000E *);
    ([[15]; [111]; [55; 57]], [1; 0; 0; 0; 1; 1; 1; 1; 0; 1; 0]) (* 79: U+000F *);
    ([[16]; [112]; [56; 48]], [1; 0; 1; 0; 0; 1; 1; 1; 1; 0; 0]) (* 80: U+0010 *);
    ([[17]; [113]; [56; 49]], [1; 0; 0; 1; 0; 1; 1; 1; 1; 0; 0]) (* 81: U+0011 *);
    ([[18]; [114]; [56; 50]], [1; 0; 0; 1; 0; 0; 1; 1; 1; 1; 0]) (* 82: U+0012 *);
    ([[19]; [115]; [56; 51]], [1; 0; 1; 1; 1; 1; 0; 0; 1; 0; 0]) (* 83: U+0013 *);
    ([[20]; [116]; [56; 52]], [1; 0; 0; 1; 1; 1; 1; 0; 1; 0; 0]) (* 84: U+0014 *);
    ([[21]; [117]; [56; 53]], [1; 0; 0; 1; 1; 1; 1; 0; 0; 1; 0]) (* 85: U+0015 *);
    ([[22]; [118]; [56; 54]], [1; 1; 1; 1; 0; 1; 0; 0; 1; 0; 0]) (* 86: U+0016 *);
    ([[23]; [119]; [56; 55]], [1; 1; 1; 1; 0; 0; 1; 0; 1; 0; 0]) (* 87: U+0017 *);
    ([[24]; [120]; [56; 56]], [1; 1; 1; 1; 0; 0; 1; 0; 0; 1; 0]) (* 88: U+0018 *);
    ([[25]; [121]; [56; 57]], [1; 1; 0; 1; 1; 0; 1; 1; 1; 1; 0]) (* 89: U+0019 *);
    ([[26]; [122]; [57; 48]], [1; 1; 0; 1; 1; 1; 1; 0; 1; 1; 0]) (* 90: U+001A *);
    ([[27]; [123]; [57; 49]], [1; 1; 1; 1; 0; 1; 1; 0; 1; 1; 0]) (* 91: U+001B *);
    ([[28]; [124]; [57; 50]], [1; 0; 1; 0; 1; 1; 1; 1; 0; 0; 0]) (* 92: U+001C *);
    ([[29]; [125]; [57; 51]], [1; 0; 1; 0; 0; 0; 1; 1; 1; 1; 0]) (* 93: U+001D *);
    ([[30]; [126]; [57; 52]], [1; 0; 0; 0; 1; 0; 1; 1; 1; 1; 0]) (* 94: U+001E *);
    ([[31]; [247]; [57; 53]], [1; 0; 1; 1; 1; 1; 0; 1; 0; 0; 0]) (* 95: U+001F *);
    ([[379]; [379]; [57; 54]], [1; 0; 1; 1; 1; 1; 0; 0; 0; 1; 0]) (* 96: U+017B *);
    ([[378]; [378]; [57; 55]], [1; 1; 1; 1; 0; 1; 0; 1; 0; 0; 0]) (* 97: U+017A *);
    ([[381]; [381]; [57; 56]], [1; 1; 1; 1; 0; 1; 0; 0; 0; 1; 0]) (* 98: U+017D *);
    ([[262]; [262]; [57; 57]], [1; 0; 1; 1; 1; 0; 1; 1; 1; 1; 0]) (* 99: U+0106 *);
    ([[385]; [380]; [385]], [1; 0; 1; 1; 1; 1; 0; 1; 1; 1; 0]) (* 100: U+0181 *);
    ([[380]; [192]; [192]], [1; 1; 1; 0; 1; 0; 1; 1; 1; 1; 0]) (* 101: U+017C *);
    ([[377]; [377]; [377]], [1; 1; 1; 1; 0; 1; 0; 1; 1; 1; 0]) (* 102: U+0179 *);
    ([[83; 84; 65; 82; 84; 45; 192]; [83; 84; 65; 82; 84; 45; 192]; [83; 84; 65; 82; 84; 45; 192]], [1; 1; 0; 1; 0; 0; 0; 0; 1; 0; 0]) (* 103: START *);
    ([[83; 84; 65; 82; 84; 45; 385]; [83; 84; 65; 82; 84; 45; 385]; [83; 84; 65; 82; 84; 45; 385]], [1; 1; 0; 1; 0; 0; 1; 0; 0; 0; 0]) (* 104: START *);
    ([[83; 84; 65; 82; 84; 45; 262]; [83; 84; 65; 82; 84; 45; 262]; [83; 84; 65; 82; 84; 45; 262]], [1; 1; 0; 1; 0; 0; 1; 1; 1; 0; 0]) (* 105: START *) ].

(** src/sym/code128.rs:220 *)
Definition code128_STOP : list N :=
  [1; 1; 0; 0; 0; 1; 1; 1; 0; 1; 0].

(** src/sym/code128.rs:223 *)
Definition code128_TERM : list N :=
  [1; 1].
