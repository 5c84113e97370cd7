(** The faces of cells. *)
From Coq Require Import String Ascii Arith ZArith Bool Lia Permutation List.
From Verif Require Import Base.Str Model.Py Model.Numpy Model.Mesh Spec.MeshCells Proofs.DictLemmas Proofs.NumpyProof Proofs.ConnectProof Proofs.MaterialProof Proofs.PruneProof.
Import ListNotations.
Local Open Scope nat_scope.

Definition pair_dec : forall x y : nat * nat, {x = y} + {x <> y}.
Proof. intros [a b] [c d]. destruct (Nat.eq_dec a c), (Nat.eq_dec b d); subst; auto; right; congruence. Defined.
Fixpoint nodupb (l : list (nat * nat)) : bool := match l with [] => true | x :: r => negb (existsb (fun y => (fst x =? fst y) && (snd x =? snd y)) r) && nodupb r end.
Lemma existsb_pair (x : nat * nat) l : existsb (fun y => (fst x =? fst y) && (snd x =? snd y)) l = true <-> In x l.
Proof.
  rewrite existsb_exists. split.
  - intros ([a b] & I & E). destruct x as [c d]. cbn [fst snd] in E. apply andb_true_iff in E as [E1 E2]. apply Nat.eqb_eq in E1, E2. now subst.
  - intros I. exists x. split; [exact I|]. now rewrite !Nat.eqb_refl.
Qed.
Lemma nodupb_ok l : nodupb l = true -> NoDup l.
Proof.
  induction l as [|x l IH]; cbn [nodupb]; [constructor|]. intros E. apply andb_true_iff in E as [E1 E2]. constructor; [|auto].
  intros I. apply (proj2 (existsb_pair x l)) in I. now rewrite I in E1.
Qed.
Definition closedb (t : list (list nat)) : bool :=
  let E := flat_map edges t in nodupb E && forallb (fun e => existsb (fun y => (snd e =? fst y) && (fst e =? snd y)) E) E.
Lemma closedb_ok t : closedb t = true -> closed_surface t.
Proof.
  unfold closedb. intros E. apply andb_true_iff in E as [E1 E2]. split; [now apply nodupb_ok|]. intros a b I. rewrite forallb_forall in E2. specialize (E2 _ I). cbn [fst snd] in E2.
  exact (proj1 (existsb_pair (b, a) _) E2).
Qed.
Ltac perm_list := apply (isort_perm_eq Nat.leb nat_order); reflexivity.
Lemma table_standard type t : face_table type = Some t ->
  closed_surface t /\ exists order, Permutation order (standard_faces type) /\ Forall2 (@Permutation nat) t order.
Proof.
  unfold face_table, standard_faces. destruct (streqb type $"tetra").
  { intros E; injection E as <-. split; [apply closedb_ok; reflexivity|]. exists [[1; 2; 3]; [0; 2; 3]; [0; 1; 3]; [0; 1; 2]].
    split; [|repeat (constructor; [perm_list|]); constructor]. apply (isort_perm_eq (lexb Nat.leb) lex_nat). reflexivity. }
  destruct (streqb type $"pyramid").
  { intros E; injection E as <-. split; [apply closedb_ok; reflexivity|]. exists [[0; 1; 4]; [1; 2; 4]; [2; 3; 4]; [0; 3; 4]; [0; 1; 2; 3]].
    split; [|repeat (constructor; [perm_list|]); constructor]. apply (isort_perm_eq (lexb Nat.leb) lex_nat). reflexivity. }
  destruct (streqb type $"wedge").
  { intros E; injection E as <-. split; [apply closedb_ok; reflexivity|]. exists [[0; 1; 2]; [3; 4; 5]; [0; 1; 3; 4]; [1; 2; 4; 5]; [0; 2; 3; 5]].
    split; [|repeat (constructor; [perm_list|]); constructor]. apply (isort_perm_eq (lexb Nat.leb) lex_nat). reflexivity. }
  destruct (streqb type $"hexahedron"); [|discriminate].
  intros E; injection E as <-. split; [apply closedb_ok; reflexivity|]. exists [[0; 1; 2; 3]; [4; 5; 6; 7]; [0; 1; 4; 5]; [1; 2; 5; 6]; [2; 3; 6; 7]; [0; 3; 4; 7]].
  split; [|repeat (constructor; [perm_list|]); constructor]. apply Permutation_refl.
Qed.
Lemma take_map {A} (l : list A) is out : take l is = Ok out -> map (nth_error l) is = map Some out.
Proof. intros T. apply take_ok in T. induction T; cbn [map]; congruence. Qed.
Theorem faces_surfaces cells F : faces cells = Ok F -> surfaces cells F.
Proof.
  unfold faces, surfaces. intros E. apply mapM_F2 in E. assert (X : all_cells cells = flat cells) by (unfold all_cells, flat; now rewrite flat_map_concat_map).
  rewrite X in E. eapply Forall2_impl; [|exact E]. intros [t c] fs. cbn [fst snd]. unfold cell_faces. destruct (face_table t) as [tb|] eqn:T; [|discriminate]. intros M.
  destruct (table_standard _ _ T) as (CS & order & P1 & P2). exists tb, order. split; [exact CS|]. split; [exact P1|]. split; [exact P2|].
  apply mapM_F2 in M. eapply Forall2_impl; [|exact M]. intros a b. apply take_map.
Qed.
Theorem connections_full dim cells out : connections dim cells = Ok out ->
  exists F, surfaces cells F /\ List.length out = n_cells cells /\ Forall (fun row => List.length row = 6) out /\
  (forall p q, interface F p q -> entry out p = Some (Z.of_nat (fst q))) /\
  (forall p, fst p < n_cells cells -> snd p < 6 -> (forall q, ~ interface F p q) -> entry out p = Some (-1)%Z) /\
  (forall p j, entry out p = Some (Z.of_nat j) -> exists g, interface F p (j, g)).
Proof.
  intros C. destruct (connections_spec _ _ _ C) as (F & E & [S1 S2] & H1 & H2). exists F. split; [now apply faces_surfaces|]. repeat (split; [assumption|]).
  intros [i f] j. now apply connections_only with (dim := dim) (cells := cells).
Qed.
