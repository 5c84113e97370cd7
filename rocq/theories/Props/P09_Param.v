(** C09, C11: the PARAM and INDOM blocks. *)
From Coq Require Import String Ascii ZArith Bool Lia List.
From Verif Require Import Base.Str Base.Digits Base.Flt.
From Verif Require Import Model.Py Model.Records Model.Write Model.Read.
From Verif Require Import Spec.Fields Spec.Values Spec.Types Spec.Rocks Spec.Flac Spec.Simple Spec.Param Spec.Indom.
From Verif Require Import Proofs.RecordLemmas Proofs.DictLemmas Proofs.BlockTools Proofs.RocksProof Proofs.SimpleProof Proofs.ParamProof Proofs.IndomProof Proofs.Samples.
Import ListNotations.
Local Open Scope Z_scope.

(** C09.  All settings come back, and the line after the block is left to the
    next block, provided it is a block header or the initial conditions already
    take two records. *)
Theorem C09_param : forall p, PARAM_ok p ->
  exists body, write_param p = Ok (head ($"PARAM") :: body) /\
    Forall good_line body /\
    forall ll q rest, default_readable q ->
      ((4 < List.length (conditions_of p))%nat \/ block_follows head head_noend rest) ->
      read_block ll (head ($"PARAM")) q (body ++ rest) = Ok (true, PARAM_upd p q, rest).
Proof. exact PARAM_next. Qed.
Print Assumptions C09_param.

Definition C09_params : dict :=
  [(#"options", PDict [(#"n_iteration", PInt 8); (#"n_cycle", PInt 9999); (#"t_max", num 1 8);
                       (#"t_steps", plist (map (fun i => num i 0) [1; 2; 3; 4; 5; 6; 7; 8; 9])); (#"eps1", num 1 (-5))]);
   (#"extra_options", PDict [(KI 1, PInt 1); (KI 16, PInt 4); (KI 24, PInt 3)]);
   (#"default", PDict [(#"initial_condition", plist [num 10132 1; num 2 (-2); num 25 0])])].
Example C09_example :
  PARAM_ok C09_params /\ default_readable [] /\ block_follows head head_noend [head ($"ENDCY")] /\
  val #"t_steps" (entries (val #"options" (PARAM_upd C09_params []))) = val #"t_steps" (options_of C09_params) /\
  val #"extra_options" (PARAM_upd C09_params []) = val #"extra_options" C09_params /\
  val #"default" (PARAM_upd C09_params []) = val #"default" C09_params.
Proof.
  parts; [|now left| |byc|byc|byc].
  - unfold PARAM_ok. parts; [reflexivity|distinct|byc|reflexivity| | |simpl; lia|byc|byc|byc|].
    + split; [distinct|]. each; (split; [eexists; split; [reflexivity|lia]|byc]).
    + do 2 eexists. split; reflexivity.
    + split; [left; each; byc|byc].
  - exists ($"ENDCY"), []. split; [cbn; tauto|now left].
Qed.

(** C09.  Findings: without time steps the value changes at each read/write
    cycle; an option of two digits shifts all the following options; the ninth
    initial condition is dropped. *)
Theorem C09_refuted :
  let rocks := (#"rocks", PDict [(KS ($"SAND"), PDict [])]) in
  let steps := fun q => val #"t_steps" (entries (val #"options" q)) in
  (let* q1 := roundtrip [rocks; (#"options", PDict [(#"t_max", num 1 3)])] in
   let* q2 := roundtrip q1 in
   let* q3 := roundtrip q2 in Ok [steps q1; steps q2; steps q3])
    = Ok [plist []; PInt 0; num 0 0] /\
  roundtrip_get #"extra_options" [rocks; (#"extra_options", PDict [(KI 1, PInt 12); (KI 16, PInt 4)])]
    = Ok (PDict [(KI 1, PInt 1); (KI 2, PInt 2); (KI 17, PInt 4)]) /\
  roundtrip_get #"default" [rocks; (#"default", PDict [(#"initial_condition", plist (map PInt [1; 2; 3; 4; 5; 6; 7; 8; 9]))])]
    = Ok (PDict [(#"initial_condition", plist (map (fun i => num i 0) [1; 2; 3; 4; 5; 6; 7; 8]))]).
Proof. cbv zeta; parts; byc. Qed.
Print Assumptions C09_refuted.

(** C11.  The initial conditions come back for the rocks that have some; other
    rocks are left as they are.  Rocks with more than four values come first. *)
Theorem C11_indom : forall p, INDOM_ok p ->
  exists body, write_indom p = Ok (head ($"INDOM") :: body) /\
    Forall good_line body /\
    forall ll q rest, has_rocks (rocks_order_of p) q ->
      read_block ll (head ($"INDOM")) q (body ++ rest) = Ok (true, with_rocks (indom_back p) q, rest).
Proof. exact (fun p H => ex_intro _ _ (INDOM_block p H)). Qed.
Print Assumptions C11_indom.

Definition C11_conditions (l : list Z) : pyval := PDict [(#"initial_condition", plist (map (fun i => num i 0) l))].
Definition C11_params : dict :=
  [(#"rocks", PDict [(KS ($"SAND"), C11_conditions [1; 2; 3; 4; 5]); (KS ($"CLAY"), PDict []);
                     (KS ($"INF"), C11_conditions []); (KS ($"ROCK1"), C11_conditions [7; 8])]);
   (#"rocks_order", plist [text "SAND"; text "ROCK1"])].
Example C11_example :
  INDOM_ok C11_params /\
  indom_back C11_params = [(KS ($"SAND"), C11_conditions [1; 2; 3; 4; 5]); (KS ($"ROCK1"), C11_conditions [7; 8])] /\
  has_rocks (rocks_order_of C11_params)
    [(#"rocks", PDict [(KS ($"SAND"), PDict []); (KS ($"ROCK1"), PDict []); (KS ($"CLAY"), PDict []); (KS ($"INF"), PDict [])])].
Proof.
  parts; [|byc|].
  - unfold INDOM_ok. parts; [reflexivity|reflexivity| |exact I|distinct| |byc].
    + cbn [order_ok]. split; [|split; [|now left]].
      * apply NoDup_cons; [intros [E|[]]; discriminate|]. apply NoDup_cons; [intros []|apply NoDup_nil].
      * each; eexists; (split; [reflexivity|cbn; tauto]).
    + each; do 2 eexists; (split; [reflexivity|split; [exact I|]]); intros E; [parts; byc|discriminate|discriminate|parts; byc].
  - eexists. parts; [reflexivity|byc|each; reflexivity].
Qed.

(** C11.  Findings: a rock with more than four values after one with at most
    four makes the file unreadable, and so does a name that reads as a number. *)
Theorem C11_refuted :
  let file := fun a b => roundtrip [(#"rocks", PDict [a; b])] in
  file (KS ($"SAND"), C11_conditions [1; 2]) (KS ($"CLAY"), C11_conditions [1; 2; 3; 4; 5]) = Err StopIteration /\
  file (KS ($"SAND"), C11_conditions [1; 2]) (KS ($"1-100"), C11_conditions [3; 4]) = Err StopIteration.
Proof. cbv zeta; parts; byc. Qed.
Print Assumptions C11_refuted.
