(** The lines of cells of AVS-UCD files. *)
From Coq Require Import String Ascii Arith ZArith QArith Qcanon Bool Lia List.
From Verif Require Import Base.Str Base.Digits Base.Flt Base.FltText Model.Py Model.Numpy Model.Mesh Model.F3grid Model.Avsucd Spec.MeshCells Spec.Ucd Proofs.F3Text Proofs.F3Binary Proofs.AvsucdProof.
Import ListNotations.
Local Open Scope nat_scope.

Lemma in_ucd_ok a b w : translated_cell a b -> assoc (fst a) short_types = Ok w -> in_ucd (fst a) (snd a) w (snd b).
Proof.
  destruct a as [t vs], b as [t' ws]. cbn [fst snd]. intros (E0 & order & O & T) W. cbn [fst snd] in *. subst t'. unfold to_ucd, short_types in *. cbn [assoc] in O, W.
  Ltac is_type t O W T s := let E := fresh in destruct (streqb t $s) eqn:E;
    [apply streqb_eq in E; subst t; injection O as <-; injection W as <-; unfold take, item in T; cbn [mapM] in T;
     cbn [nth_error] in T; repeat match type of T with context [match ?l with [] => _ | _ :: _ => _ end] => is_var l; destruct l as [|? l]; [cbn [bind] in T; discriminate T|cbn [bind] in T] end;
     cbn [nth_error bind] in T; injection T as <-; constructor|clear E].
  is_type t O W T "vertex"%string. is_type t O W T "line"%string. is_type t O W T "triangle"%string. is_type t O W T "quad"%string. is_type t O W T "tetra"%string.
  is_type t O W T "pyramid"%string. is_type t O W T "wedge"%string. is_type t O W T "hexahedron"%string. discriminate O.
Qed.
Theorem ucd_lines repr version m file : write_mesh repr version m = Ok file -> exists pre lines post, file = pre ++ concat lines ++ post /\
  List.length lines = List.length (flat (u_cells m)) /\
  forall i t vs, nth_error (flat (u_cells m)) i = Some (t, vs) -> exists line mat w ws, nth_error lines i = Some (line ++ [nl]) /\ ~ In nl line /\
    in_ucd t vs w ws /\ split_ws line = print_Z (Z.of_nat i + 1) :: print_Z mat :: w :: map (fun v => print_Z (Z.of_nat v + 1)) ws.
Proof.
  unfold write_mesh, write. intros H. destruct (mapM _ (u_cell_data m)) as [cds|]; [|discriminate H]. cbn [bind] in H.
  destruct (mapM _ (filter _ cds)) as [data|]; [|discriminate H]. cbn [bind] in H.
  destruct (mapM (node_line repr) _) as [nodes|]; [|discriminate H]. cbn [bind] in H.
  destruct (material_array _ cds) as [material|]; [|discriminate H]. cbn [bind] in H.
  destruct (mapM (ucd_cell material) _) as [ls|] eqn:L; [|discriminate H]. cbn [bind] in H.
  destruct (if total (u_point_data m) =? 0 then _ else _) as [pt|]; [|discriminate H]. cbn [bind] in H.
  destruct (if total data =? 0 then _ else _) as [ct|]; [|discriminate H]. cbn [bind] in H.
  rewrite flat_all in L. apply MaterialProof.mapM_F2 in L.
  set (head := $"# Written by toughio v") in *. set (counts := word_line (map nat_text _)) in *.
  exists (head ++ version ++ [nl] ++ counts ++ concat nodes), ls, (pt ++ ct). split.
  { assert (E : file = head ++ version ++ [nl] ++ counts ++ concat nodes ++ concat ls ++ pt ++ ct) by congruence.
    rewrite E. repeat rewrite <- app_assoc. reflexivity. }
  assert (LN := MaterialProof.Forall2_length _ _ _ L). unfold numbered in LN. rewrite combine_length, seq_length, Nat.min_id in LN. split; [now symmetry|].
  intros i t vs N. assert (NN : nth_error (numbered (flat (u_cells m))) i = Some (i, (t, vs))).
  { unfold numbered. assert (G : forall (l : list (str * list nat)) a j x, nth_error l j = Some x -> nth_error (combine (seq a (List.length l)) l) j = Some (a + j, x)).
    { clear. induction l as [|y l IH]; intros a [|j] x E; try discriminate E; cbn in *; [rewrite Nat.add_0_r; congruence|]. rewrite (IH (S a) j x E). do 2 f_equal. lia. }
    now apply (G _ 0). }
  assert (F2N : forall A B (R : A -> B -> Prop) l r, Forall2 R l r -> forall j x, nth_error l j = Some x -> exists y, nth_error r j = Some y /\ R x y).
  { clear. intros A B R l r. induction 1 as [|x y l r X _ IH]; intros [|j] z E; try discriminate E; cbn in *; [exists y; split; congruence|]. auto. }
  destruct (F2N _ _ _ _ _ L i _ NN) as (line & LI & U). cbn beta in U. apply ucd_cell_ok in U as (b & mat & w & TR & _ & W & ->). cbn [fst snd] in *.
  assert (IW : Forall isword (cell_words (i, (t, vs)) mat w (snd b))).
  { unfold cell_words. constructor; [apply isword_nat|]. constructor; [apply isword_print|]. constructor; [eapply short_long; eauto|]. apply Forall_map, Forall_forall. intros v _. apply isword_nat. }
  exists (join [sp] (cell_words (i, (t, vs)) mat w (snd b))), mat, w, (snd b). split; [exact LI|]. split; [|split; [exact (in_ucd_ok _ _ _ TR W)|]].
  - intros I. assert (G : forall l c, Forall isword l -> In c (join [sp] l) -> c = sp \/ is_space c = false).
    { clear. induction l as [|x l IH]; intros c F I; [destruct I|]. inversion_clear F as [|? ? (_ & X) F']. unfold no_space_str in X. rewrite forallb_forall in X.
      assert (XX : In c x -> is_space c = false) by (intros J; apply X in J; now destruct (is_space c)). destruct l as [|y l]; [right; now apply XX|].
      change (join [sp] (x :: y :: l)) with (x ++ [sp] ++ join [sp] (y :: l)) in I. apply in_app_or in I as [I|I]; [right; now apply XX|]. destruct I as [<-|I]; auto. }
    destruct (G _ _ IW I) as [E|E]; discriminate E.
  - assert (SW : forall l, Forall isword l -> l <> [] -> split_ws (join [sp] l) = l).
    { intros l F N0. transitivity (words_of (word_line l)); [|now apply words_line]. rewrite words_of_split. unfold word_line. symmetry. apply (TecplotProof.split_ws_trail [nl] (join [sp] l)). reflexivity. }
    rewrite (SW _ IW) by discriminate. unfold cell_words. cbn [fst].
    assert (NT : forall n, nat_text (S n) = print_Z (Z.of_nat n + 1)). { intros n. unfold nat_text. now rewrite Nat2Z.inj_succ, <- Z.add_1_r. }
    rewrite NT. do 3 f_equal. apply map_ext. intros v. apply NT.
Qed.
Lemma moved_is (u v p q : Qc) : (v - u = q - p)%Qc -> (q = p + (v - u))%Qc.
Proof. intros ->. ring. Qed.
Ltac solve_moved A1 A2 A3 B1 B2 B3 := apply moved_is in A1, A2, A3, B1, B2, B3; rewrite ?A1, ?A2, ?A3, ?B1, ?B2, ?B3.
Theorem ucd_turned at_ t vs w ws x : in_ucd t vs w ws -> upright at_ vs -> facing at_ t vs = Some x -> facing at_ t ws = Some (- x)%Qc.
Proof.
  intros I U F. destruct I; cbn [facing] in F; try discriminate F.
  all: repeat match type of F with context [match ?r with _ => _ end] => is_var r; destruct r; cbn in F; try discriminate F end.
  all: cbn [facing upright streqb] in *; match type of F with Some ?y = Some _ => assert (x = y) by congruence; subst x end; unfold moved in U.
  - cbn. f_equal. unfold signed. ring.
  - destruct U as ((A1 & A2 & A3) & B1 & B2 & B3). cbn. f_equal. unfold signed. solve_moved A1 A2 A3 B1 B2 B3. ring.
  - destruct U as ((A1 & A2 & A3) & (C1 & C2 & C3) & B1 & B2 & B3). cbn. f_equal. unfold signed. solve_moved A1 A2 A3 B1 B2 B3. ring.
Qed.
