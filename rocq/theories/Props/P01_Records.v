(** C01 - C04: one fixed-column record. *)
From Coq Require Import String Ascii ZArith QArith Qabs Bool List.
From Verif Require Import Base.Str Base.Digits Base.Flt Base.QPow Base.FltRound Base.FltText.
From Verif Require Import Model.Py Model.Records Model.Write Model.Read.
From Verif Require Import Spec.Fields Spec.Values Spec.Layouts.
From Verif Require Import Proofs.RecordLemmas Proofs.Stability Proofs.Layouts Proofs.Samples.
Import ListNotations.
Local Open Scope Z_scope.

(** C01.  Any list of values that fit the columns is written as one line and
    comes back column by column. *)
Theorem C01_record_roundtrip : forall cs vs, rec_ok cs vs = true ->
  exists line, write_record vs (str2format (map col_tok cs) []) = Ok [line] /\
    good_line line /\ read_record line (map col_tok cs) = Ok (rec_val cs vs).
Proof.
  exact (fun cs vs H => ex_intro _ _ (conj (write_record_cols cs vs H)
           (conj (rec_line_good cs vs H) (read_record_cols cs vs H)))).
Qed.
Print Assumptions C01_record_roundtrip.

Example C01_example :
  rec_ok cols_ROCKS_1 [text "SAND"; PInt 2; num 2600 0; num 35 (-2); num 1 (-12); num 1 (-12); num 3 (-13)] = true.
Proof. vm_compute. reflexivity. Qed.

(** C01.  The layouts used by the package are the documented ones. *)
Theorem C01_layouts :
  fmt_ROCKS_1 = map col_tok cols_ROCKS_1 /\ fmt_ROCKS_2 = map col_tok cols_ROCKS_2 /\
  fmt_RPCAP = map col_tok cols_RPCAP /\ fmt_FLAC_1 = map col_tok cols_FLAC_1 /\
  fmt_FLAC_2 = map col_tok cols_FLAC_2 /\ fmt_FLAC_3 = map col_tok cols_FLAC_3 /\
  fmt_MULTI = map col_tok cols_MULTI /\ fmt_SELEC_1 = map col_tok cols_SELEC_1 /\
  fmt_SELEC_2 = map col_tok cols_SELEC_2 /\ fmt_SOLVR = map col_tok cols_SOLVR /\
  fmt_PARAM_1 = map col_tok cols_PARAM_1 /\ fmt_PARAM_2 = map col_tok cols_PARAM_2 /\
  fmt_PARAM_3 = map col_tok cols_PARAM_3 /\ fmt_PARAM_4 = map col_tok cols_PARAM_4 /\
  fmt_PARAM_5 = map col_tok cols_PARAM_5 /\ fmt_INDOM_0 = map col_tok cols_INDOM_0 /\
  fmt_INDOM_5 = map col_tok cols_INDOM_5 /\ fmt_MOMOP = map col_tok cols_MOMOP /\
  fmt_TIMES_1 = map col_tok cols_TIMES_1 /\ fmt_TIMES_2 = map col_tok cols_TIMES_2 /\
  fmt_FOFT = map col_tok cols_FOFT /\ fmt_COFT = map col_tok cols_COFT /\
  fmt_GOFT = map col_tok cols_GOFT /\ fmt_GENER_0 = map col_tok cols_GENER_0 /\
  fmt_DIFFU = map col_tok cols_DIFFU /\ fmt_OUTPU_1 = map col_tok cols_OUTPU_1 /\
  fmt_OUTPU_2 = map col_tok cols_OUTPU_2 /\ fmt_OUTPU_3 = map col_tok cols_OUTPU_3 /\
  fmt_COORD = map col_tok cols_COORD /\ fmt_INCON_0 = map col_tok cols_INCON_0 /\
  (forall n, (5 <= n <= 9)%nat ->
     fmt_GENER n = Ok (map col_tok (cols_GENER n)) /\ fmt_ELEME n = Ok (map col_tok (cols_ELEME n)) /\
     fmt_CONNE n = Ok (map col_tok (cols_CONNE n)) /\ fmt_INCON n = Ok (map col_tok (cols_INCON n))).
Proof.
  repeat (split; [reflexivity|]).
  exact (fun n H => conj (f_GENER n H) (conj (f_ELEME n H) (conj (f_CONNE n H) (f_INCON n H)))).
Qed.
Print Assumptions C01_layouts.

(** C02.  The float that comes back differs from the one written by at most
    half a unit of the last printed digit plus one binary rounding; sign and
    zero are kept. *)
Theorem C02_float_accuracy : forall cs vs i w k v x,
  rec_ok cs vs = true -> nth_error cs i = Some (CSci w k) -> nth_error vs i = Some v ->
  num_of v = Some x -> (k <= 13)%nat -> flt_rng x = true ->
  exists line back y,
    write_record vs (str2format (map col_tok cs) []) = Ok [line] /\
    read_record line (map col_tok cs) = Ok back /\
    nth_error back i = Some (PFloat y) /\ is_f64 y = true /\
    match x, y with Fin s m _, Fin s' m' _ => s = s' /\ (m = 0 <-> m' = 0) | _, _ => False end /\
    (Qabs (fval x - fval y) <= Qabs (fval x) * (qpow 10 (- Z.of_nat k) * Qmake 1 2 + qpow 2 (-52)))%Q.
Proof. exact record_accuracy. Qed.
Print Assumptions C02_float_accuracy.

Example C02_example :
  let vs := [num 1 (-20); num (-314159265) (-8)] in
  rec_ok cols_DIFFU vs = true /\ nth_error cols_DIFFU 1 = Some (CSci 10 3) /\
  match num_of (nth 1 vs PNone) with Some x => flt_rng x = true | None => False end.
Proof. vm_compute. repeat split. Qed.

(** C03.  Reading a line and writing it again, any number of times, gives the
    same line. *)
Theorem C03_stable_text : forall n cs vs,
  rec_ok cs vs = true -> rec_stable cs vs = true -> (rec_width cs <= 80)%nat ->
  exists line, write_record vs (str2format (map col_tok cs) []) = Ok [line] /\
    cycles n (map col_tok cs) line = Ok line.
Proof.
  exact (fun n cs vs H S W => ex_intro _ _ (cycles_ok n cs vs H S W)).
Qed.
Print Assumptions C03_stable_text.

Example C03_example :
  let vs := [num 1 (-20); num (-314159265) (-8); PNone; PInt 7; PNpInt (-3)] in
  rec_ok cols_DIFFU vs = true /\ rec_stable cols_DIFFU vs = true /\ (rec_width cols_DIFFU <= 80)%nat.
Proof. vm_compute. repeat split; repeat constructor. Qed.

(** C04.  Exactly which numbers fit: k decimals need k+6 columns, and one more
    for a negative number. *)
Theorem C04_fits_iff : forall w k x, (1 <= k)%nat -> flt_rng x = true ->
  (sci_fits w k x = true <->
   ((match x with Fin true _ _ => 1 | _ => 0 end) + k + 6 <= w)%nat).
Proof.
  intros w k x K R. rewrite (fits_iff w k x K R). destruct x as [[|]| |]; try discriminate R; reflexivity.
Qed.
Print Assumptions C04_fits_iff.

(** C04.  In the whole file format only the 10.4e and 15.9e columns are too
    narrow for negative numbers. *)
Theorem C04_refuted :
  roundtrip_get #"options" [(#"options", PDict [(#"gravity", num (-981) (-2))])]
  = Ok (PDict [(#"t_steps", plist []); (#"gravity", num (-981) (-2)); (#"t_reduce_factor", num 0 0)]).
Proof. vm_compute. reflexivity. Qed.
Print Assumptions C04_refuted.

(** C04.  The shifted digit also changes a neighbouring number: 2.5e-12 comes
    back as 0.25. *)
Theorem C04_neighbour_refuted :
  roundtrip_get #"options"
    [(#"options", PDict [(#"gravity", num (-981) (-2)); (#"t_reduce_factor", num 25 (-13));
                         (#"mesh_scale_factor", num 1 0); (#"t_steps", num 1 0)])]
  = Ok (PDict [(#"t_steps", num 1 0); (#"gravity", num (-981) (-2));
               (#"t_reduce_factor", num 25 (-2)); (#"mesh_scale_factor", num 21 0)]).
Proof. vm_compute. reflexivity. Qed.
Print Assumptions C04_neighbour_refuted.
