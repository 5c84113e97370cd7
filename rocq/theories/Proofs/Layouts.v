(** The package's format tables are the layouts of Spec/Layouts.v. *)
From Coq Require Import String Ascii ZArith Bool Lia List.
From Verif Require Import Base.Str Model.Py Model.Records Spec.Fields Spec.Layouts Proofs.RecordLemmas.
Import ListNotations.

Lemma f_ROCKS_1 : fmt_ROCKS_1 = toks cols_ROCKS_1. Proof. reflexivity. Qed.
Lemma f_ROCKS_2 : fmt_ROCKS_2 = toks cols_ROCKS_2. Proof. reflexivity. Qed.
Lemma f_RPCAP : fmt_RPCAP = toks cols_RPCAP. Proof. reflexivity. Qed.
Lemma f_FLAC_1 : fmt_FLAC_1 = toks cols_FLAC_1. Proof. reflexivity. Qed.
Lemma f_FLAC_2 : fmt_FLAC_2 = toks cols_FLAC_2. Proof. reflexivity. Qed.
Lemma f_FLAC_3 : fmt_FLAC_3 = toks cols_FLAC_3. Proof. reflexivity. Qed.
Lemma f_MULTI : fmt_MULTI = toks cols_MULTI. Proof. reflexivity. Qed.
Lemma f_SELEC_1 : fmt_SELEC_1 = toks cols_SELEC_1. Proof. reflexivity. Qed.
Lemma f_SELEC_2 : fmt_SELEC_2 = toks cols_SELEC_2. Proof. reflexivity. Qed.
Lemma f_SOLVR : fmt_SOLVR = toks cols_SOLVR. Proof. reflexivity. Qed.
Lemma f_PARAM_1 : fmt_PARAM_1 = toks cols_PARAM_1. Proof. reflexivity. Qed.
Lemma f_PARAM_2 : fmt_PARAM_2 = toks cols_PARAM_2. Proof. reflexivity. Qed.
Lemma f_PARAM_3 : fmt_PARAM_3 = toks cols_PARAM_3. Proof. reflexivity. Qed.
Lemma f_PARAM_4 : fmt_PARAM_4 = toks cols_PARAM_4. Proof. reflexivity. Qed.
Lemma f_PARAM_5 : fmt_PARAM_5 = toks cols_PARAM_5. Proof. reflexivity. Qed.
Lemma f_INDOM_0 : fmt_INDOM_0 = toks cols_INDOM_0. Proof. reflexivity. Qed.
Lemma f_INDOM_5 : fmt_INDOM_5 = toks cols_INDOM_5. Proof. reflexivity. Qed.
Lemma f_MOMOP : fmt_MOMOP = toks cols_MOMOP. Proof. reflexivity. Qed.
Lemma f_TIMES_1 : fmt_TIMES_1 = toks cols_TIMES_1. Proof. reflexivity. Qed.
Lemma f_TIMES_2 : fmt_TIMES_2 = toks cols_TIMES_2. Proof. reflexivity. Qed.
Lemma f_FOFT : fmt_FOFT = toks cols_FOFT. Proof. reflexivity. Qed.
Lemma f_COFT : fmt_COFT = toks cols_COFT. Proof. reflexivity. Qed.
Lemma f_GOFT : fmt_GOFT = toks cols_GOFT. Proof. reflexivity. Qed.
Lemma f_GENER_0 : fmt_GENER_0 = toks cols_GENER_0. Proof. reflexivity. Qed.
Lemma f_DIFFU : fmt_DIFFU = toks cols_DIFFU. Proof. reflexivity. Qed.
Lemma f_OUTPU_1 : fmt_OUTPU_1 = toks cols_OUTPU_1. Proof. reflexivity. Qed.
Lemma f_OUTPU_2 : fmt_OUTPU_2 = toks cols_OUTPU_2. Proof. reflexivity. Qed.
Lemma f_OUTPU_3 : fmt_OUTPU_3 = toks cols_OUTPU_3. Proof. reflexivity. Qed.
Lemma f_COORD : fmt_COORD = toks cols_COORD. Proof. reflexivity. Qed.
Lemma f_INCON_0 : fmt_INCON_0 = toks cols_INCON_0. Proof. reflexivity. Qed.
Lemma f_GENER n : (5 <= n <= 9)%nat -> fmt_GENER n = Ok (toks (cols_GENER n)).
Proof. intros. do 10 (destruct n as [|n]; try lia; try reflexivity). Qed.
Lemma f_ELEME n : (5 <= n <= 9)%nat -> fmt_ELEME n = Ok (toks (cols_ELEME n)).
Proof. intros. do 10 (destruct n as [|n]; try lia; try reflexivity). Qed.
Lemma f_CONNE n : (5 <= n <= 9)%nat -> fmt_CONNE n = Ok (toks (cols_CONNE n)).
Proof. intros. do 10 (destruct n as [|n]; try lia; try reflexivity). Qed.
Lemma f_INCON n : (5 <= n <= 9)%nat -> fmt_INCON n = Ok (toks (cols_INCON n)).
Proof. intros. do 10 (destruct n as [|n]; try lia; try reflexivity). Qed.
