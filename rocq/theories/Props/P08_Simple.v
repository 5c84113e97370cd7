(** C08, C10, C12 - C14, C16: the short blocks. *)
From Coq Require Import String Ascii ZArith Bool Lia List.
From Verif Require Import Base.Str Base.Digits Base.Flt.
From Verif Require Import Model.Py Model.Records Model.Write Model.Read.
From Verif Require Import Spec.Fields Spec.Values Spec.Types Spec.Rocks Spec.Simple.
From Verif Require Import Proofs.RecordLemmas Proofs.DictLemmas Proofs.BlockTools Proofs.RocksProof Proofs.SimpleProof Proofs.Samples.
Import ListNotations.
Local Open Scope Z_scope.

(** C08.  The numbers of components and phases come from the table of equations
    of state or from the explicit settings, and are read back with the
    isothermal flag. *)
Theorem C08_multi : forall p, MULTI_ok p ->
  exists body, write_multi p = Ok (head ($"MULTI") :: body) /\
    Forall good_line body /\
    forall ll q rest, read_block ll (head ($"MULTI")) q (body ++ rest)
      = Ok (true, dupdate q (MULTI_back p), rest).
Proof. exact (fun p H => ex_intro _ _ (MULTI_block p H)). Qed.
Print Assumptions C08_multi.

Definition C08_params : dict :=
  [(#"eos", text "eco2n"); (#"n_component", PNone); (#"n_phase", PInt 2); (#"isothermal", PBool true);
   (#"diffusion", PNone); (#"n_component_mass", PNone)].
Example C08_multi_example :
  MULTI_ok C08_params /\
  MULTI_back C08_params = [(#"n_component", PInt 3); (#"isothermal", PBool true); (#"n_phase", PInt 2)].
Proof.
  split; [|byc]. unfold MULTI_ok. parts; [byc| |byc|eexists; byc|exact I|byc|byc|byc|byc].
  vm_compute. discriminate.
Qed.

(** C08.  Solver settings come back; missing ones are the package defaults. *)
Theorem C08_solvr : forall p, SOLVR_ok p ->
  exists body, write_solvr p = Ok (head ($"SOLVR") :: body) /\
    Forall good_line body /\
    forall ll q rest, read_block ll (head ($"SOLVR")) q (body ++ rest)
      = Ok (true, dupdate q (SOLVR_back p), rest).
Proof. exact (fun p H => ex_intro _ _ (SOLVR_block p H)). Qed.
Print Assumptions C08_solvr.

Definition C08_solver : dict :=
  [(#"solver", PDict [(#"method", PInt 3); (#"o_precond", text "O4"); (#"eps", num 1 (-7))])].
Example C08_solvr_example :
  SOLVR_ok C08_solver /\
  SOLVR_back C08_solver =
    [(#"solver", PDict [(#"method", PInt 3); (#"z_precond", text "Z0"); (#"o_precond", text "O4");
                        (#"rel_iter_max", num 1 (-1)); (#"eps", num 1 (-7))])].
Proof.
  split; [|byc]. unfold SOLVR_ok. parts; [reflexivity|distinct|byc|byc|byc|byc|byc|byc|byc].
Qed.

(** C08.  The START and NOVER lines set their flags and nothing else, at any
    place of the file. *)
Theorem C08_flags : forall ll q rest fuel,
  (write_start = Ok [head ($"START"); start_line] /\ Forall good_line [head ($"START"); start_line] /\
   read_blocks (S (S fuel)) ll q (head ($"START") :: start_line :: rest)
   = read_blocks fuel ll (dset #"start" (PBool true) q) rest) /\
  (write_nover = Ok [head ($"NOVER")] /\ Forall good_line [head ($"NOVER")] /\
   read_blocks (S fuel) ll q (head ($"NOVER") :: rest)
   = read_blocks fuel ll (dset #"nover" (PBool true) q) rest).
Proof. exact (fun ll q rest fuel => conj (START_block ll q rest fuel) (NOVER_block ll q rest fuel)). Qed.
Print Assumptions C08_flags.

Example C08_flags_example :
  let rocks := (#"rocks", PDict [(KS ($"SAND"), PDict [])]) in
  roundtrip_get #"start" [rocks] = Ok (PBool true) /\
  roundtrip_get #"nover" [rocks] = Ok PNone /\
  roundtrip_get #"nover" [rocks; (#"nover", PBool true)] = Ok (PBool true).
Proof. cbv zeta; parts; byc. Qed.

(** C08.  A solver without "method" cannot be written; a file written with
    start off, read and written again, has start on. *)
Theorem C08_refuted :
  let rocks := (#"rocks", PDict [(KS ($"SAND"), PDict [])]) in
  write_text [rocks; (#"solver", PDict [(#"z_precond", text "Z1")])] ($"all") = Err KeyError /\
  (let* q := roundtrip [rocks; (#"start", PBool false)] in roundtrip_get #"start" q) = Ok (PBool true) /\
  roundtrip_get #"start" [rocks; (#"start", PBool false)] = Ok PNone.
Proof. cbv zeta; parts; byc. Qed.
Print Assumptions C08_refuted.

(** C10.  Integers keep their index and floats their order, whatever follows. *)
Theorem C10_selec : forall p, SELEC_ok p ->
  exists body, write_selec p = Ok (head ($"SELEC") :: body) /\
    Forall good_line body /\
    forall ll q rest, read_block ll (head ($"SELEC")) q (body ++ rest)
      = Ok (true, dupdate q (SELEC_back p), rest).
Proof. exact (fun p H => ex_intro _ _ (SELEC_block p H)). Qed.
Print Assumptions C10_selec.

Definition C10_params (floats : list pyval) : dict :=
  [(#"selections", PDict [(#"integers", PDict [(KI 16, PInt 4); (KI 1, PInt 0); (KI 7, PInt (-3))]); (#"floats", plist floats)])].
Definition C10_rows : list pyval := [plist [num 1 0; PNone; num 25 (-1)]; plist [num 3 4; PNone]].
Example C10_example :
  SELEC_ok (C10_params C10_rows) /\
  SELEC_back (C10_params C10_rows) =
    [(#"selections", PDict [(#"integers", PDict [(KI 1, PInt 2); (KI 7, PInt (-3)); (KI 16, PInt 4)]);
                            (#"floats", plist [plist [num 1 0; PNone; num 25 (-1)]; plist [num 3 4]])])] /\
  SELEC_ok (C10_params [num 1 0]) /\ SELEC_ok (C10_params []).
Proof.
  assert (R : forall l, (List.length l <= 8)%nat -> forallb (fits 3) l = true -> row_ok 3 (plist l)).
  { intros l L F. exists SList, l. auto. }
  assert (I : int_indices 16 [(KI 16, PInt 4); (KI 1, PInt 0); (KI 7, PInt (-3))]).
  { split; [distinct|]. each; eexists; (split; [reflexivity|lia]). }
  assert (Z : int_of (PInt 0) = Some 0) by reflexivity.
  parts; [|byc| |]; unfold SELEC_ok;
    (parts; [reflexivity|byc|right; reflexivity|reflexivity|reflexivity|reflexivity|exact I| | |intros _; exact Z]).
  - each; byc.
  - each; (apply R; [simpl; lia|byc]).
  - each; byc.
  - each; (apply R; [simpl; lia|byc]).
  - each; byc.
  - each.
Qed.

(** C10.  Selections without floats are read back without the entry the writer
    requires, so what was read cannot be written again; without a first integer
    the file cannot be read at all. *)
Theorem C10_refuted :
  let rocks := (#"rocks", PDict [(KS ($"SAND"), PDict [])]) in
  let no_floats := rocks :: C10_params [] in
  (let* q := roundtrip no_floats in Ok (write_text q ($"all"))) = Ok (Err KeyError) /\
  roundtrip [rocks; (#"selections", PDict [(#"integers", PDict [(KI 2, PInt 3)]); (#"floats", plist [])])] = Err KeyError.
Proof. cbv zeta; parts; byc. Qed.
Print Assumptions C10_refuted.

(** C12.  Options come back under the same index. *)
Theorem C12_momop : forall p, MOMOP_ok p ->
  exists body, write_momop p = Ok (head ($"MOMOP") :: body) /\
    Forall good_line body /\
    forall ll q rest, read_block ll (head ($"MOMOP")) q (body ++ rest)
      = Ok (true, dupdate q (MOMOP_back p), rest).
Proof. exact (fun p H => ex_intro _ _ (MOMOP_block p H)). Qed.
Print Assumptions C12_momop.

Definition C12_params : dict :=
  [(#"more_options", PDict [(KI 40, PInt 9); (KI 2, PInt 0); (KI 17, PNone); (KI 3, PInt 5)])].
Example C12_example :
  MOMOP_ok C12_params /\
  MOMOP_back C12_params = [(#"more_options", PDict [(KI 2, PInt 0); (KI 3, PInt 5); (KI 40, PInt 9)])].
Proof.
  split; [|byc]. unfold MOMOP_ok, options_ok. parts; [reflexivity|distinct|].
  each; (split; [eexists; split; [reflexivity|lia]|reflexivity]).
Qed.

(** C13.  Times of any number come back in order. *)
Theorem C13_times : forall p, TIMES_ok p ->
  exists body, write_times p = Ok (head ($"TIMES") :: body) /\
    Forall good_line body /\
    forall ll q rest, read_block ll (head ($"TIMES")) q (body ++ rest)
      = Ok (true, dupdate q (TIMES_back p), rest).
Proof. exact (fun p H => ex_intro _ _ (TIMES_block p H)). Qed.
Print Assumptions C13_times.

Definition C13_params : dict := [(#"times", plist (map (fun i => num i 3) [1; 2; 3; 4; 5; 6; 7; 8; 9; 10]))].
Example C13_example :
  TIMES_ok C13_params /\ TIMES_back C13_params = C13_params /\
  TIMES_ok [(#"times", num 5 2)].
Proof.
  parts; [|byc|]; unfold TIMES_ok; (parts; [byc|each; byc|byc]).
Qed.

(** C14.  Labels that fit their columns come back in the same order. *)
Theorem C14_histories : forall p,
  (OFT_ok 5 #"element_history" p ->
   exists body, write_foft p = Ok (head ($"FOFT") :: body) /\ Forall good_line body /\
    forall ll q rest, read_block ll (head ($"FOFT")) q (body ++ rest)
      = Ok (true, dupdate q (OFT_back #"element_history" p), rest)) /\
  (OFT_ok 10 #"connection_history" p ->
   exists body, write_coft p = Ok (head ($"COFT") :: body) /\ Forall good_line body /\
    forall ll q rest, read_block ll (head ($"COFT")) q (body ++ rest)
      = Ok (true, dupdate q (OFT_back #"connection_history" p), rest)) /\
  (OFT_ok 5 #"generator_history" p ->
   exists body, write_goft p = Ok (head ($"GOFT") :: body) /\ Forall good_line body /\
    forall ll q rest, read_block ll (head ($"GOFT")) q (body ++ rest)
      = Ok (true, dupdate q (OFT_back #"generator_history" p), rest)).
Proof.
  exact (fun p => conj (fun H => ex_intro _ _ (FOFT_block p H))
                 (conj (fun H => ex_intro _ _ (COFT_block p H)) (fun H => ex_intro _ _ (GOFT_block p H)))).
Qed.
Print Assumptions C14_histories.

Definition C14_params : dict :=
  [(#"element_history", plist [text "AAA 0"; text "A1B23"; text "AAA 0"]);
   (#"connection_history", PSeq STuple [text "AAA 0AAA 1"]); (#"generator_history", plist [text "WEL"])].
Example C14_example :
  OFT_ok 5 #"element_history" C14_params /\ OFT_ok 10 #"connection_history" C14_params /\
  OFT_ok 5 #"generator_history" C14_params.
Proof.
  parts; do 2 eexists; (split; [reflexivity|]); each; eexists; (split; [reflexivity|byc]).
Qed.

(** C14.  Labels of six characters, which the package supports, are cut. *)
Theorem C14_refuted :
  let rocks := (#"rocks", PDict [(KS ($"SAND"), PDict [])]) in
  roundtrip_get #"element_history" [rocks; (#"element_history", plist [text "AAA101"; text "AAA102"])]
    = Ok (plist [text "AAA10"; text "AAA10"]) /\
  roundtrip_get #"connection_history" [rocks; (#"connection_history", plist [text "AAA101AAA102"])]
    = Ok (plist [text "AAA101AAA1"]).
Proof. cbv zeta; parts; byc. Qed.
Print Assumptions C14_refuted.

(** C16.  Rows come back, and the header of the next block is not consumed. *)
Theorem C16_diffu : forall p, DIFFU_ok p ->
  exists body, write_diffu p = Ok (head ($"DIFFU") :: body) /\
    Forall good_line body /\
    forall ll q rest, block_follows head head_noend rest ->
      read_block ll (head ($"DIFFU")) q (body ++ rest)
      = Ok (true, dupdate q (DIFFU_back p), rest).
Proof. exact DIFFU_next. Qed.
Print Assumptions C16_diffu.

Definition C16_params : dict :=
  [(#"diffusion", plist [plist [num (-1) (-6); num (-1) (-6)]; PSeq STuple [PNone; num 2 (-5); PNone]])].
Example C16_example :
  DIFFU_ok C16_params /\
  DIFFU_back C16_params = [(#"diffusion", plist [plist [num (-1) (-6); num (-1) (-6)]; plist [PNone; num 2 (-5)]])] /\
  block_follows head head_noend [head ($"ENDCY")].
Proof.
  parts; [|byc|].
  - do 2 eexists. split; [reflexivity|]. each; (split; [do 2 eexists; parts; [reflexivity|simpl; lia|byc]|byc]).
  - exists ($"ENDCY"), []. split; [cbn; tauto|now left].
Qed.

(** C16.  A table given as an array of several rows makes the writer fail. *)
Theorem C16_array_refuted :
  let rocks := (#"rocks", PDict [(KS ($"SAND"), PDict [])]) in
  let row := PSeq SArray [num 1 (-6); num 1 (-6)] in
  write_text [rocks; (#"eos", text "eos7"); (#"diffusion", PSeq SArray [row; row])] ($"all") = Err ValueError.
Proof. vm_compute. reflexivity. Qed.
Print Assumptions C16_array_refuted.
