(** The fixed-column layouts of the TOUGH input records. *)
From Coq Require Import List.
From Verif Require Import Spec.Fields.
Import ListNotations.

Definition cols_ROCKS_1 : list col := CText 5 :: CInt 5 :: repeat (CSci 10 4) 7.
Definition cols_ROCKS_2 : list col := repeat (CSci 10 4) 7.
Definition cols_RPCAP : list col := CInt 5 :: CText 5 :: repeat (CSci 10 3) 7.
Definition cols_FLAC_1 : list col := repeat (CInt 5) 16.
Definition cols_FLAC_2 : list col := CInt 10 :: repeat (CSci 10 3) 7.
Definition cols_FLAC_3 : list col := CInt 5 :: CText 5 :: repeat (CSci 10 3) 7.
Definition cols_MULTI : list col := repeat (CInt 5) 5.
Definition cols_SELEC_1 : list col := repeat (CInt 5) 16.
Definition cols_SELEC_2 : list col := repeat (CSci 10 3) 8.
Definition cols_SOLVR : list col := [CInt 1; CText 2; CText 2; CText 3; CText 2; CSci 10 4; CSci 10 4].
Definition cols_PARAM_1 : list col :=
  [CInt 2; CInt 2; CInt 4; CInt 4; CInt 4; CRaw 24; CText 10; CSci 10 4; CSci 10 4].
Definition cols_PARAM_2 : list col :=
  [CSci 10 4; CSci 10 4; CFix 10; CSci 10 4; CText 10; CSci 10 4; CSci 10 4; CSci 10 4].
Definition cols_PARAM_3 : list col := repeat (CSci 10 4) 8.
Definition cols_PARAM_4 : list col := [CSci 10 4; CSci 10 4; CText 10; CSci 10 4; CSci 10 4; CSci 10 4].
Definition cols_PARAM_5 : list col := repeat (CSci 20 13) 4.
Definition cols_INDOM_0 : list col := repeat (CSci 20 13) 4.
Definition cols_INDOM_5 : list col := [CText 5].
Definition cols_MOMOP : list col := [CRaw 40].
Definition cols_TIMES_1 : list col := [CInt 5; CInt 5; CSci 10 4; CSci 10 4].
Definition cols_TIMES_2 : list col := repeat (CSci 10 4) 8.
Definition cols_FOFT : list col := [CText 5].
Definition cols_COFT : list col := [CText 10].
Definition cols_GOFT : list col := [CText 5].
Definition cols_GENER_0 : list col := repeat (CSci 14 7) 4.
Definition cols_DIFFU : list col := repeat (CSci 10 3) 8.
Definition cols_OUTPU_1 : list col := [CText 20].
Definition cols_OUTPU_2 : list col := [CText 15].
Definition cols_OUTPU_3 : list col := [CText 20; CInt 5; CInt 5].
Definition cols_COORD : list col := repeat (CSci 20 13) 3.

(** Widths of the integer columns after a label of [n] characters. *)
Definition gener_ints (n : nat) : nat * nat * nat :=
  match n with
  | 5 => (5, 5, 5) | 6 => (6, 4, 4) | 7 => (5, 4, 4) | 8 => (4, 4, 4) | _ => (5, 3, 3)
  end.
Definition cols_GENER (n : nat) : list col :=
  let '(a, b, c) := gener_ints n in
  [CText n; CText 5; CInt a; CInt b; CInt c; CInt 5; CText 5; CText 4; CInt 1]
  ++ repeat (CSci 10 3) 3.
Definition eleme_ints (n : nat) : nat * nat :=
  match n with 5 => (5, 5) | 6 => (5, 4) | 7 => (4, 4) | 8 => (4, 3) | _ => (3, 3) end.
Definition cols_ELEME (n : nat) : list col :=
  let '(a, b) := eleme_ints n in
  [CText n; CInt a; CInt b; CText 5] ++ repeat (CSci 10 4) 3 ++ repeat (CSci 10 3) 3.
Definition conne_ints (n : nat) : nat * nat :=
  match n with 5 => (5, 5) | 6 => (5, 4) | 7 => (5, 3) | 8 => (3, 3) | _ => (3, 2) end.
Definition cols_CONNE (n : nat) : list col :=
  let '(a, b) := conne_ints n in
  [CText (2 * n); CInt a; CInt b; CInt b; CInt 5] ++ repeat (CSci 10 4) 3 ++ repeat (CSci 10 3) 2.
Definition cols_INCON_0 : list col := repeat (CSci 20 13) 4.
Definition cols_INCON (n : nat) : list col :=
  let '(a, b) := eleme_ints n in
  [CText n; CInt a; CInt b; CSci 15 9] ++ repeat (CSci 10 3) 5.
