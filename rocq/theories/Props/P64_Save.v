(** C64: a SAVE file read as an output. *)
From Coq Require Import String Ascii ZArith Bool Lia Permutation List.
From Verif Require Import Base.Str Base.Digits Base.Flt.
From Verif Require Import Model.Py Model.Records Model.Write Model.Read Model.Dispatch Model.Output Model.Save.
From Verif Require Import Spec.Fields Spec.Values Spec.Types Spec.Rocks Spec.Labels Spec.Indom Spec.Incon Spec.Simple Spec.File Spec.Save.
From Verif Require Import Proofs.RecordLemmas Proofs.DictLemmas Proofs.BlockTools Proofs.LabelProof Proofs.InconProof Proofs.Samples Proofs.SaveProof.
Import ListNotations.
Local Open Scope Z_scope.

(** C64.  Every element gets its own primary variables, porosity and user values,
    in the order of the file or in the order asked, when all elements have a
    porosity and as many values as each other. *)
Theorem C64_save : forall fuel p own h body title stop rest order labels,
  INCON_ok p -> INCON_known None p -> listed p own -> complete p own ->
  write_incon p = Ok (h :: body ++ [[nl]]) -> save_frame title stop rest ->
  order = NoOrder /\ labels = own \/ order = ListOrder labels /\ labels <> [] /\ Permutation own labels ->
  exists o, read_save fuel order (concat (title :: body ++ stop :: rest)) = Ok o /\
    sv_type o = Element /\ sv_format o = $"save" /\ sv_labels o = labels /\
    (forall k c, In (k, c) (sv_data o) -> List.length c = List.length labels) /\
    forall i s, nth_error labels i = Some s ->
      row_at o i = map (fun kv => (fst kv, Some (snd kv))) (save_cells (conditions p s)).
Proof. exact save_file. Qed.
Print Assumptions C64_save.

(** C64.  An order of another length, or with an unknown label, is refused. *)
Theorem C64_refuses : forall fuel p own h body title stop rest labels,
  INCON_ok p -> INCON_known None p -> listed p own -> complete p own ->
  write_incon p = Ok (h :: body ++ [[nl]]) -> save_frame title stop rest -> labels <> [] ->
  (List.length labels <> List.length own ->
     read_save fuel (ListOrder labels) (concat (title :: body ++ stop :: rest)) = Err ValueError) /\
  (List.length labels = List.length own -> (exists s, In s labels /\ ~ In s own) ->
     read_save fuel (ListOrder labels) (concat (title :: body ++ stop :: rest)) = Err KeyError).
Proof. exact save_refuses. Qed.
Print Assumptions C64_refuses.

Definition C64_params : dict :=
  [(#"initial_conditions", PDict [
      (KS ($"AAA10"), PDict [(#"porosity", num 1 (-1)); (#"userx", plist [num 7 0; PNone; num 9 0]); (#"values", plist [num 1 5; PNone; num 2 1])]);
      (KS ($"e1b12"), PDict [(#"porosity", num 3 (-1)); (#"userx", plist [num 1 0; PNone; num 3 0]); (#"values", plist [num 1 5; PInt 2; num 3 0])])]);
   (#"initial_conditions_order", plist [text "e1b12"; text "AAA10"])].
Definition C64_own : list str := [$"e1b12"; $"AAA10"].
Definition C64_title : str := $"INCON -- INITIAL CONDITIONS FOR    2 ELEMENTS AT TIME  0.1E+01" ++ [nl].
Definition C64_rest : list str := [$"   10   20    0" ++ [nl]].
Definition C64_text (p : dict) : res str :=
  let* ls := write_incon p in Ok (concat (C64_title :: removelast (tl ls) ++ ($"+++" ++ [nl]) :: C64_rest)).
Definition C64_read (order : order_arg) (p : dict) : res saved := let* t := C64_text p in read_save 0 order t.
Example C64_example :
  INCON_ok C64_params /\ INCON_known None C64_params /\ listed C64_params C64_own /\ complete C64_params C64_own /\
  (exists h body, write_incon C64_params = Ok (h :: body ++ [[nl]])) /\ save_frame C64_title ($"+++" ++ [nl]) C64_rest /\
  C64_read (ListOrder [$"AAA10"; $"e1b12"]) C64_params =
    Ok (Saved Element $"save" [$"AAA10"; $"e1b12"]
          [($"X1", [num 1 5; num 1 5]); ($"X2", [PNone; num 2 0]); ($"X3", [num 2 1; num 3 0]);
           ($"porosity", [num 1 (-1); num 3 (-1)]);
           ($"userx", [plist [num 7 0; PNone; num 9 0]; plist [num 1 0; PNone; num 3 0]])]).
Proof.
  parts; [| |byc| | | |byc].
  - unfold INCON_ok. cbv zeta. parts; [byc|byc|discriminate|distinct| |apply Nat.leb_le; byc|apply Nat.leb_le; byc| |byc].
    + unfold subset_ok. change (val #"initial_conditions_order" C64_params) with (plist [text "e1b12"; text "AAA10"]). unfold plist. split.
      * apply NoDup_cons; [intros [E|[]]; discriminate|]. apply NoDup_cons; [intros []|apply NoDup_nil].
      * each; eexists; (split; [reflexivity|]); [right; left|left]; byc.
    + change (incons_of C64_params) with (entries (snd (hd (KNone, PNone) C64_params))). unfold C64_params. cbn [hd snd entries].
      each; eexists _, _; (split; [reflexivity|split; [byc|split; [byc|]]]); unfold incon_ok; parts; try byc; try distinct; try exact I.
  - unfold INCON_known. cbv zeta. right. parts; [now left|byc|byc|]. intros _. byc.
  - split; [intros s [<-|[<-|[]]]; byc|]. intros s t [<-|[<-|[]]] [<-|[<-|[]]]; split; byc.
  - exists (head ($"INCON")), (save_entries C64_params). apply INCON_write.
    unfold INCON_ok. cbv zeta. parts; [byc|byc|discriminate|distinct| |apply Nat.leb_le; byc|apply Nat.leb_le; byc| |byc].
    + unfold subset_ok. change (val #"initial_conditions_order" C64_params) with (plist [text "e1b12"; text "AAA10"]). unfold plist. split.
      * apply NoDup_cons; [intros [E|[]]; discriminate|]. apply NoDup_cons; [intros []|apply NoDup_nil].
      * each; eexists; (split; [reflexivity|]); [right; left|left]; byc.
    + change (incons_of C64_params) with (entries (snd (hd (KNone, PNone) C64_params))). unfold C64_params. cbn [hd snd entries].
      each; eexists _, _; (split; [reflexivity|split; [byc|split; [byc|]]]); unfold incon_ok; parts; try byc; try distinct; try exact I.
  - unfold save_frame. parts; [byc| |right; byc| |].
    + eexists. split; [reflexivity|byc].
    + eexists. split; [reflexivity|byc].
    + each. split; [byc|]. eexists. split; [reflexivity|byc].
Qed.

(** C64.  Findings: a file where an element has no porosity cannot be read, nor
    one where only some elements have user values, nor any file with two elements
    or more when the order is given as a numpy array. *)
Definition C64_element (label : string) (l : dict) : key * pyval := (KS (lit label), PDict (l ++ [(#"values", plist [num 1 5])])).
Definition C64_case (l : dict) : dict := [(#"initial_conditions", PDict l); (#"initial_conditions_order", PNone)].
Theorem C64_refuted :
  C64_read NoOrder (C64_case [C64_element "AAA10" [(#"porosity", num 1 (-1))]]) =
    Ok (Saved Element $"save" [$"AAA10"] [($"X1", [num 1 5]); ($"porosity", [num 1 (-1)])]) /\
  C64_read NoOrder (C64_case [C64_element "AAA10" []]) = Err KeyError /\
  C64_read NoOrder (C64_case [C64_element "AAA10" [(#"porosity", num 1 (-1))];
                              C64_element "AAA11" [(#"porosity", num 1 (-1)); (#"userx", plist [num 2 0])]]) = Err IndexError.
Proof. parts; byc. Qed.
Print Assumptions C64_refuted.
Theorem C64_array_refuted : forall fuel p own h body title stop rest a b l,
  INCON_ok p -> INCON_known None p -> listed p own -> complete p own ->
  write_incon p = Ok (h :: body ++ [[nl]]) -> save_frame title stop rest ->
  read_save fuel (ArrayOrder (a :: b :: l)) (concat (title :: body ++ stop :: rest)) = Err ValueError.
Proof. exact save_array. Qed.
Print Assumptions C64_array_refuted.
