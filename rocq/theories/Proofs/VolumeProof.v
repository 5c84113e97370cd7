(** Volumes of cells. *)
From Coq Require Import String Ascii Arith ZArith QArith Qcanon Lqa Bool Lia Sorted List.
From Verif Require Import Base.Str Model.Py Model.Numpy Model.Mesh Model.MeshOps Model.Grid Model.Geometry Spec.Geometry
  Proofs.NumpyProof Proofs.ConnectProof Proofs.MaterialProof Proofs.ExtrudeProof Proofs.GridProof Proofs.VoxelProof.
Import ListNotations.
Local Open Scope nat_scope.

Lemma typed_all bs : typed_cells bs = all_cells bs.
Proof. unfold typed_cells, all_cells. apply flat_map_concat_map. Qed.
Lemma volumes_nth {V} (m : mesh Qc V) vs i tc : volumes m = Ok vs -> nth_error (typed_cells (cells m)) i = Some tc ->
  exists v, nth_error vs i = Some v /\ cell_volume (points m) (fst tc) (snd tc) = Ok v.
Proof.
  unfold volumes. destruct (guard _ _); [|discriminate]. cbn [bind]. intros E N. rewrite typed_all in N. apply mapM_F2 in E.
  clear -E N. revert i N. induction E as [|x y l k R E IH]; intros i N; [destruct i; discriminate|]. destruct i as [|i].
  - injection N as ->. exists y. split; [reflexivity|exact R].
  - exact (IH i N).
Qed.
Lemma triple_det a b c : triple_product a b c = det a b c.
Proof. destruct a as [[? ?] ?], b as [[? ?] ?], c as [[? ?] ?]. unfold triple_product, dot, cross, det. ring. Qed.
Lemma vsub_minus a b : vsub a b = minus a b.
Proof. reflexivity. Qed.
Lemma take_points points (cell : list nat) ps : Forall2 (fun n p => let '(x, y, z) := p in nth_error points n = Some [x; y; z]) cell ps ->
  forall is q js, take cell is = Ok js -> take ps is = Ok q -> (let* pp := take points js in mapM to_vec pp) = Ok q.
Proof.
  intros F is. induction is as [|i is IH]; intros q js Ej Eq.
  - injection Ej as <-. injection Eq as <-. reflexivity.
  - unfold take in Ej, Eq. cbn [mapM] in Ej, Eq. unfold item at 1 in Ej. unfold item at 1 in Eq.
    destruct (nth_error cell i) as [n|] eqn:Nc; [|discriminate]. destruct (nth_error ps i) as [p|] eqn:Np; [|discriminate]. cbn [bind] in Ej, Eq.
    destruct (mapM (item cell) is) as [js'|] eqn:E1; [|discriminate]. destruct (mapM (item ps) is) as [q'|] eqn:E2; [|discriminate].
    injection Ej as <-. injection Eq as <-. specialize (IH q' js' E1 E2).
    assert (P : let '(x, y, z) := p in nth_error points n = Some [x; y; z]).
    { clear -F Nc Np. revert i Nc Np. induction F as [|a b l k R F IH]; intros i Nc Np; [destruct i; discriminate|]. destruct i; [injection Nc as ->; injection Np as ->; exact R|exact (IH i Nc Np)]. }
    destruct p as [[x y] z]. unfold take. cbn [mapM]. unfold item at 1. rewrite P. cbn [bind]. unfold take in IH.
    destruct (mapM (item points) js') as [pp|] eqn:E3; [|discriminate]. cbn [bind] in IH |- *. cbn [mapM]. unfold to_vec at 1. cbn [bind]. rewrite IH. reflexivity.
Qed.
(** The volume as a sum over the table of tetrahedra. *)
Lemma cell_volume_at points type cell ps t terms :
  Forall2 (fun n p => let '(x, y, z) := p in nth_error points n = Some [x; y; z]) cell ps ->
  tetra_table type = Some t ->
  mapM (fun l => let* vs := take ps l in tetra_term vs) t = Ok terms ->
  cell_volume points type cell = Ok (qsum terms / qnat 6)%Qc.
Proof.
  intros F T E. unfold cell_volume. rewrite T.
  assert (M : mapM (fun l => let* is := take cell l in let* ps := take points is in let* vs := mapM to_vec ps in tetra_term vs) t = Ok terms).
  { rewrite <- E. clear T. revert terms E. induction t as [|l t IH]; intros terms E; [reflexivity|]. cbn [mapM] in E |- *.
    destruct (take ps l) as [q|] eqn:Q; [|discriminate]. cbn [bind] in E. destruct (tetra_term q) as [u|] eqn:U; [|discriminate]. cbn [bind] in E.
    destruct (mapM (fun l => let* vs := take ps l in tetra_term vs) t) as [us|] eqn:R; [|discriminate].
    assert (J : exists js, take cell l = Ok js).
    { apply take_total. apply mapM_F2 in Q. rewrite (Forall2_length _ _ _ F). clear -Q. induction Q as [|i p l q R Q IH]; constructor; [|exact IH].
      unfold item in R. apply nth_error_Some. destruct (nth_error ps i); discriminate. }
    destruct J as (js & J). rewrite J. cbn [bind]. pose proof (take_points _ _ _ F l q js J Q) as TP. destruct (take points js) as [pp|]; [|discriminate]. cbn [bind] in TP |- *.
    rewrite TP. cbn [bind]. rewrite U. cbn [bind]. rewrite (IH _ eq_refl). reflexivity. }
  rewrite M. reflexivity.
Qed.
Lemma tetra_term_six a b c d : tetra_term [a; b; c; d] = Ok (qabs (six a b c d)).
Proof. cbn [tetra_term]. rewrite !vsub_minus, triple_det. reflexivity. Qed.
Lemma qabs_sign s x : (s = 1 \/ s = -(1))%Qc -> (0 <= s * x)%Qc -> qabs x = (s * x)%Qc.
Proof.
  intros [-> | ->] P; unfold qabs.
  - assert (L : (0 <= x)%Qc) by (replace x with (1 * x)%Qc by ring; exact P). apply qleb_le in L. rewrite L. ring.
  - destruct (qleb 0 x) eqn:L; [|ring]. apply qleb_le in L.
    assert (M : (x <= 0)%Qc) by (rewrite <- (Qcopp_involutive x); apply Qcopp_le_compat in L; replace (-(1) * x)%Qc with (- x)%Qc in P by ring; apply Qcopp_le_compat in P; exact P).
    assert (x = 0)%Qc by (apply Qcle_antisym; assumption). subst x. ring.
Qed.
Lemma qabs_magnitude x : magnitude x (qabs x).
Proof.
  unfold magnitude, qabs. destruct (qleb 0 x) eqn:L.
  - apply qleb_le in L. split; [exact L|now left].
  - apply qleb_false in L. split; [|now right]. apply Qclt_le_weak, Qcopp_le_compat in L. exact L.
Qed.

(** ** The volume of each kind of cell *)
Definition sixth (x : Qc) : Qc := (x / qnat 6)%Qc.
Lemma tetra_volume {V} (m : mesh Qc V) vs i a b c d : volumes m = Ok vs -> cell_at (points m) (cells m) i $"tetra" [a; b; c; d] ->
  nth_error vs i = Some (sixth (qsum [qabs (six a b c d)])).
Proof.
  intros E (cell & N & F). destruct (volumes_nth m vs i _ E N) as (v & Nv & C). cbn [fst snd] in C. rewrite Nv. f_equal.
  rewrite (cell_volume_at _ $"tetra" _ _ _ [qabs (six a b c d)] F eq_refl) in C; [injection C as <-; reflexivity|].
  cbn [mapM take item nth_error bind]. rewrite tetra_term_six. reflexivity.
Qed.
Lemma pyramid_volume {V} (m : mesh Qc V) vs i p0 p1 p2 p3 p4 : volumes m = Ok vs -> cell_at (points m) (cells m) i $"pyramid" [p0; p1; p2; p3; p4] ->
  nth_error vs i = Some (sixth (qsum [qabs (six p0 p1 p3 p4); qabs (six p1 p2 p3 p4)])).
Proof.
  intros E (cell & N & F). destruct (volumes_nth m vs i _ E N) as (v & Nv & C). cbn [fst snd] in C. rewrite Nv. f_equal.
  rewrite (cell_volume_at _ $"pyramid" _ _ _ [qabs (six p0 p1 p3 p4); qabs (six p1 p2 p3 p4)] F eq_refl) in C; [injection C as <-; reflexivity|].
  cbn [mapM take item nth_error bind]. rewrite !tetra_term_six. reflexivity.
Qed.
Lemma wedge_volume {V} (m : mesh Qc V) vs i p0 p1 p2 p3 p4 p5 : volumes m = Ok vs -> cell_at (points m) (cells m) i $"wedge" [p0; p1; p2; p3; p4; p5] ->
  nth_error vs i = Some (sixth (qsum [qabs (six p0 p1 p2 p5); qabs (six p0 p1 p4 p5); qabs (six p0 p3 p4 p5)])).
Proof.
  intros E (cell & N & F). destruct (volumes_nth m vs i _ E N) as (v & Nv & C). cbn [fst snd] in C. rewrite Nv. f_equal.
  rewrite (cell_volume_at _ $"wedge" _ _ _ [qabs (six p0 p1 p2 p5); qabs (six p0 p1 p4 p5); qabs (six p0 p3 p4 p5)] F eq_refl) in C; [injection C as <-; reflexivity|].
  cbn [mapM take item nth_error bind]. rewrite !tetra_term_six. reflexivity.
Qed.
Lemma hexahedron_volume {V} (m : mesh Qc V) vs i p0 p1 p2 p3 p4 p5 p6 p7 : volumes m = Ok vs ->
  cell_at (points m) (cells m) i $"hexahedron" [p0; p1; p2; p3; p4; p5; p6; p7] ->
  nth_error vs i = Some (sixth (qsum [qabs (six p0 p1 p3 p4); qabs (six p1 p4 p5 p6); qabs (six p1 p2 p3 p6); qabs (six p3 p4 p6 p7); qabs (six p1 p3 p4 p6)])).
Proof.
  intros E (cell & N & F). destruct (volumes_nth m vs i _ E N) as (v & Nv & C). cbn [fst snd] in C. rewrite Nv. f_equal.
  rewrite (cell_volume_at _ $"hexahedron" _ _ _ [qabs (six p0 p1 p3 p4); qabs (six p1 p4 p5 p6); qabs (six p1 p2 p3 p6); qabs (six p3 p4 p6 p7); qabs (six p1 p3 p4 p6)] F eq_refl) in C; [injection C as <-; reflexivity|].
  cbn [mapM take item nth_error bind]. rewrite !tetra_term_six. reflexivity.
Qed.

(** ** Volumes enclosed by the faces *)
Lemma six_nonzero : qnat 6 <> 0%Qc.
Proof. discriminate. Qed.
Lemma signed_sum s l : (s = 1 \/ s = -(1))%Qc -> Forall (fun x => 0 <= s * x)%Qc l -> qsum (map qabs l) = (s * qsum l)%Qc.
Proof.
  intros S F. induction F as [|x l P F IH]; cbn [map qsum fold_right]; [ring|]. unfold qsum in IH. rewrite IH, (qabs_sign s x S P). ring.
Qed.
Ltac points := repeat match goal with p : point |- _ => destruct p as [[? ?] ?] end.
Lemma enclosed_from s A B v : (s = 1 \/ s = -(1))%Qc -> v = sixth (s * A) -> A = B -> (rational 6 * v = s * B)%Qc.
Proof. intros _ -> ->. unfold sixth, Qcdiv. change (rational 6) with (qnat 6). field. exact six_nonzero. Qed.
Lemma qabs_opp x : qabs (- x)%Qc = qabs x.
Proof.
  unfold qabs. destruct (qleb 0 x) eqn:A, (qleb 0 (- x)) eqn:B; try ring.
  - apply qleb_le in A, B. apply Qcopp_le_compat in B. rewrite Qcopp_involutive in B. assert (x = 0)%Qc by (apply Qcle_antisym; assumption). subst x. ring.
  - exfalso. apply qleb_false in A, B. q_arith.
Qed.
Lemma shift_zero (A B d : Qc) : d = 0%Qc -> (A - B = d)%Qc -> A = B.
Proof. intros -> E. replace A with ((A - B) + B)%Qc by ring. rewrite E. ring. Qed.

Theorem tetra_enclosed {V} (m : mesh Qc V) vs i p0 p1 p2 p3 s : volumes m = Ok vs -> cell_at (points m) (cells m) i $"tetra" [p0; p1; p2; p3] ->
  same_sign s [six p0 p1 p2 p3] ->
  exists v, nth_error vs i = Some v /\ (rational 6 * v = s * (cone3 p1 p2 p3 + cone3 p0 p3 p2 + cone3 p0 p1 p3 + cone3 p0 p2 p1))%Qc.
Proof.
  intros E C (S & F). rewrite (tetra_volume m vs i _ _ _ _ E C). eexists. split; [reflexivity|].
  pose proof (signed_sum s _ S F) as Q. cbn [map] in Q. rewrite Q. eapply enclosed_from; [exact S|reflexivity|].
  cbn [qsum fold_right]. points. unfold six, det, minus, cone3, cone4, det. ring.
Qed.
Theorem pyramid_enclosed {V} (m : mesh Qc V) vs i p0 p1 p2 p3 p4 s : volumes m = Ok vs -> cell_at (points m) (cells m) i $"pyramid" [p0; p1; p2; p3; p4] ->
  same_sign s [six p0 p1 p3 p4; six p1 p2 p3 p4] -> planar p0 p3 p2 p1 ->
  exists v, nth_error vs i = Some v /\
    (rational 6 * v = s * (cone3 p0 p1 p4 + cone3 p1 p2 p4 + cone3 p2 p3 p4 + cone3 p3 p0 p4 + cone4 p0 p3 p2 p1))%Qc.
Proof.
  intros E C (S & F) P. rewrite (pyramid_volume m vs i _ _ _ _ _ E C). eexists. split; [reflexivity|].
  pose proof (signed_sum s _ S F) as Q. cbn [map] in Q. rewrite Q. eapply enclosed_from; [exact S|reflexivity|].
  apply (shift_zero _ _ _ P). cbn [qsum fold_right]. points. unfold six, det, minus, cone3, cone4, det. ring.
Qed.
Theorem wedge_enclosed {V} (m : mesh Qc V) vs i p0 p1 p2 p3 p4 p5 s : volumes m = Ok vs -> cell_at (points m) (cells m) i $"wedge" [p0; p1; p2; p3; p4; p5] ->
  same_sign s [six p0 p1 p2 p5; six p0 p1 p5 p4; six p0 p3 p4 p5] ->
  exists v, nth_error vs i = Some v /\
    (rational 6 * v = s * (cone3 p0 p2 p1 + cone3 p3 p4 p5 + cone4 p0 p1 p4 p3 + cone4 p1 p2 p5 p4 + cone4 p0 p3 p5 p2))%Qc.
Proof.
  intros E C (S & F). rewrite (wedge_volume m vs i _ _ _ _ _ _ E C). eexists. split; [reflexivity|].
  assert (O : six p0 p1 p4 p5 = (- six p0 p1 p5 p4)%Qc) by (points; unfold six, det, minus; ring). rewrite O, qabs_opp.
  pose proof (signed_sum s _ S F) as Q. cbn [map] in Q. rewrite Q. eapply enclosed_from; [exact S|reflexivity|].
  cbn [qsum fold_right]. clear. points. unfold six, det, minus, cone3, cone4, det. ring.
Qed.
Theorem hexahedron_enclosed {V} (m : mesh Qc V) vs i p0 p1 p2 p3 p4 p5 p6 p7 s : volumes m = Ok vs ->
  cell_at (points m) (cells m) i $"hexahedron" [p0; p1; p2; p3; p4; p5; p6; p7] ->
  same_sign s [six p0 p1 p3 p4; six p1 p4 p5 p6; six p1 p2 p3 p6; six p3 p4 p6 p7; six p1 p3 p4 p6] ->
  planar p0 p3 p2 p1 -> planar p0 p1 p5 p4 -> planar p2 p3 p7 p6 -> planar p0 p4 p7 p3 ->
  exists v, nth_error vs i = Some v /\
    (rational 6 * v = s * (cone4 p0 p3 p2 p1 + cone4 p4 p5 p6 p7 + cone4 p0 p1 p5 p4 + cone4 p1 p2 p6 p5 + cone4 p2 p3 p7 p6 + cone4 p0 p4 p7 p3))%Qc.
Proof.
  intros E C (S & F) P1 P2 P3 P4. rewrite (hexahedron_volume m vs i _ _ _ _ _ _ _ _ E C). eexists. split; [reflexivity|].
  pose proof (signed_sum s _ S F) as Q. cbn [map] in Q. rewrite Q. eapply enclosed_from; [exact S|reflexivity|].
  apply (shift_zero _ _ (six p0 p3 p2 p1 + six p0 p1 p5 p4 + six p2 p3 p7 p6 + six p0 p4 p7 p3)%Qc).
  - rewrite P1, P2, P3, P4. ring.
  - cbn [qsum fold_right]. clear. points. unfold six, det, minus, cone3, cone4, det. ring.
Qed.

(** ** Cells made of three edges *)
Theorem parallelepiped {V} (m : mesh Qc V) vs i o a b c : volumes m = Ok vs ->
  cell_at (points m) (cells m) i $"hexahedron"
    [o; plus o a; plus (plus o a) b; plus o b; plus o c; plus (plus o a) c; plus (plus (plus o a) b) c; plus (plus o b) c] ->
  exists v, nth_error vs i = Some v /\ magnitude (det a b c) v.
Proof.
  intros E C. rewrite (hexahedron_volume m vs i _ _ _ _ _ _ _ _ E C). eexists. split; [reflexivity|].
  set (D := det a b c).
  assert (T1 : six o (plus o a) (plus o b) (plus o c) = D) by (unfold D; clear; points; unfold six, det, minus, plus; ring).
  assert (T2 : six (plus o a) (plus o c) (plus (plus o a) c) (plus (plus (plus o a) b) c) = D) by (unfold D; clear; points; unfold six, det, minus, plus; ring).
  assert (T3 : six (plus o a) (plus (plus o a) b) (plus o b) (plus (plus (plus o a) b) c) = D) by (unfold D; clear; points; unfold six, det, minus, plus; ring).
  assert (T4 : six (plus o b) (plus o c) (plus (plus (plus o a) b) c) (plus (plus o b) c) = D) by (unfold D; clear; points; unfold six, det, minus, plus; ring).
  assert (T5 : six (plus o a) (plus o b) (plus o c) (plus (plus (plus o a) b) c) = (qnat 2 * D)%Qc) by (change (qnat 2) with (1 + 1)%Qc; unfold D; clear; points; unfold six, det, minus, plus; ring).
  rewrite T1, T2, T3, T4, T5.
  assert (A : qabs (qnat 2 * D)%Qc = (qnat 2 * qabs D)%Qc).
  { unfold qabs. destruct (qleb 0 D) eqn:L, (qleb 0 (qnat 2 * D)) eqn:L'; try ring.
    - exfalso. apply qleb_le in L. apply qleb_false in L'. change (qnat 2) with (1 + 1)%Qc in L'. q_arith.
    - exfalso. apply qleb_false in L. apply qleb_le in L'. change (qnat 2) with (1 + 1)%Qc in L'. q_arith. }
  rewrite A. replace (sixth _) with (qabs D); [apply qabs_magnitude|]. cbn [qsum fold_right]. unfold sixth.
  change (qnat 6) with (1 + 1 + 1 + 1 + 1 + 1)%Qc. change (qnat 2) with (1 + 1)%Qc. field. discriminate.
Qed.
Theorem half_parallelepiped {V} (m : mesh Qc V) vs i o a b c : volumes m = Ok vs ->
  cell_at (points m) (cells m) i $"wedge" [o; plus o a; plus o b; plus o c; plus (plus o a) c; plus (plus o b) c] ->
  exists v, nth_error vs i = Some v /\ magnitude (det a b c) (rational 2 * v)%Qc.
Proof.
  intros E C. rewrite (wedge_volume m vs i _ _ _ _ _ _ E C). eexists. split; [reflexivity|].
  set (D := det a b c).
  assert (T1 : six o (plus o a) (plus o b) (plus (plus o b) c) = D) by (unfold D; clear; points; unfold six, det, minus, plus; ring).
  assert (T2 : six o (plus o a) (plus (plus o a) c) (plus (plus o b) c) = (- D)%Qc) by (unfold D; clear; points; unfold six, det, minus, plus; ring).
  assert (T3 : six o (plus o c) (plus (plus o a) c) (plus (plus o b) c) = D) by (unfold D; clear; points; unfold six, det, minus, plus; ring).
  rewrite T1, T2, T3, qabs_opp. replace (rational 2 * _)%Qc with (qabs D); [apply qabs_magnitude|]. cbn [qsum fold_right]. unfold sixth.
  change (qnat 6) with (1 + 1 + 1 + 1 + 1 + 1)%Qc. change (rational 2) with (1 + 1)%Qc. field. discriminate.
Qed.
Theorem third_parallelepiped {V} (m : mesh Qc V) vs i o a b c : volumes m = Ok vs ->
  cell_at (points m) (cells m) i $"pyramid" [o; plus o a; plus (plus o a) b; plus o b; plus o c] ->
  exists v, nth_error vs i = Some v /\ magnitude (det a b c) (rational 3 * v)%Qc.
Proof.
  intros E C. rewrite (pyramid_volume m vs i _ _ _ _ _ E C). eexists. split; [reflexivity|].
  set (D := det a b c).
  assert (T1 : six o (plus o a) (plus o b) (plus o c) = D) by (unfold D; clear; points; unfold six, det, minus, plus; ring).
  assert (T2 : six (plus o a) (plus (plus o a) b) (plus o b) (plus o c) = D) by (unfold D; clear; points; unfold six, det, minus, plus; ring).
  rewrite T1, T2. replace (rational 3 * _)%Qc with (qabs D); [apply qabs_magnitude|]. cbn [qsum fold_right]. unfold sixth.
  change (qnat 6) with (1 + 1 + 1 + 1 + 1 + 1)%Qc. change (rational 3) with (1 + 1 + 1)%Qc. field. discriminate.
Qed.
Theorem sixth_parallelepiped {V} (m : mesh Qc V) vs i o a b c : volumes m = Ok vs ->
  cell_at (points m) (cells m) i $"tetra" [o; plus o a; plus o b; plus o c] ->
  exists v, nth_error vs i = Some v /\ magnitude (det a b c) (rational 6 * v)%Qc.
Proof.
  intros E C. rewrite (tetra_volume m vs i _ _ _ _ E C). eexists. split; [reflexivity|].
  set (D := det a b c).
  assert (T1 : six o (plus o a) (plus o b) (plus o c) = D) by (unfold D; clear; points; unfold six, det, minus, plus; ring).
  rewrite T1. replace (rational 6 * _)%Qc with (qabs D); [apply qabs_magnitude|]. cbn [qsum fold_right]. unfold sixth.
  change (qnat 6) with (1 + 1 + 1 + 1 + 1 + 1)%Qc. change (rational 6) with (1 + 1 + 1 + 1 + 1 + 1)%Qc. field. discriminate.
Qed.

(** ** Every mesh of solid cells has volumes, none negative, moved or not *)
Lemma qsum_nonneg l : Forall (fun x => 0 <= x)%Qc l -> (0 <= qsum l)%Qc.
Proof.
  induction 1 as [|x l P F IH]; cbn [qsum fold_right]; [apply Qcle_refl|]. change (fold_right Qcplus 0 l)%Qc with (qsum l).
  apply Qcle_trans with x; [exact P|]. rewrite <- (Qcplus_0_r x) at 1. apply Qcplus_le_compat; [apply Qcle_refl|exact IH].
Qed.
Lemma sixth_nonneg x : (0 <= x)%Qc -> (0 <= x / qnat 6)%Qc.
Proof.
  intros P. unfold Qcdiv. replace 0%Qc with (0 * / qnat 6)%Qc by ring. apply Qcmult_le_compat_r; [exact P|]. discriminate.
Qed.
Theorem volumes_nonneg {V} (m : mesh Qc V) vs : volumes m = Ok vs -> List.length vs = List.length (typed_cells (cells m)) /\ Forall (fun v => 0 <= v)%Qc vs.
Proof.
  unfold volumes. destruct (guard _ _); [|discriminate]. cbn [bind]. intros E. rewrite typed_all. apply mapM_F2 in E. split; [symmetry; exact (Forall2_length _ _ _ E)|].
  induction E as [|tc v l vs' R E IH]; constructor; [|exact IH]. unfold cell_volume in R. destruct (tetra_table (fst tc)) as [t|]; [|discriminate].
  destruct (mapM _ t) as [terms|] eqn:M; [|discriminate]. injection R as <-. apply sixth_nonneg, qsum_nonneg. apply mapM_F2 in M. clear -M.
  induction M as [|x y t terms R M IH]; constructor; [|exact IH]. destruct (take (snd tc) x) as [is|]; [|discriminate]. cbn [bind] in R.
  destruct (take (points m) is) as [ps|]; [|discriminate]. cbn [bind] in R. destruct (mapM to_vec ps) as [q|]; [|discriminate]. cbn [bind] in R.
  unfold tetra_term in R. destruct q as [|a [|b [|c [|d [|]]]]]; try discriminate. injection R as <-. apply qabs_magnitude.
Qed.
Lemma take_map {A B} (f : A -> B) l is : take (map f l) is = (let* x := take l is in Ok (map f x)).
Proof.
  unfold take. induction is as [|i is IH]; [reflexivity|]. cbn [mapM]. unfold item at 1 3. rewrite nth_error_map. destruct (nth_error l i); [|reflexivity]. cbn [bind option_map].
  rewrite IH. destruct (mapM (item l) is); reflexivity.
Qed.
Lemma to_vec_moved t ps : mapM to_vec (map (moved t) ps) = (let* q := mapM to_vec ps in Ok (map (fun p => plus p t) q)).
Proof.
  induction ps as [|p ps IH]; [reflexivity|]. cbn [mapM map]. destruct t as [[tx ty] tz]. destruct p as [|x [|y [|z [|]]]]; try reflexivity.
  cbn [moved to_vec bind]. cbn [map] in IH. rewrite IH. destruct (mapM to_vec ps); reflexivity.
Qed.
Lemma tetra_term_moved t q : tetra_term (map (fun p => plus p t) q) = tetra_term q.
Proof.
  destruct q as [|a [|b [|c [|d [|]]]]]; try reflexivity. cbn [map]. rewrite !tetra_term_six. f_equal. f_equal. clear. destruct t as [[? ?] ?], a as [[? ?] ?], b as [[? ?] ?], c as [[? ?] ?], d as [[? ?] ?].
  unfold six, det, minus, plus. ring.
Qed.
Lemma mapM_ext {A B} (f g : A -> res B) l : (forall x, f x = g x) -> mapM f l = mapM g l.
Proof. intros E. induction l as [|x l IH]; [reflexivity|]. cbn [mapM]. now rewrite E, IH. Qed.
Theorem volumes_moved {V} (m : mesh Qc V) t :
  volumes (Mesh (dim m) (map (moved t) (points m)) (cells m) (point_data m) (cell_data m) (field_data m)) = volumes m.
Proof.
  unfold volumes. cbn [points cells]. destruct (guard _ _); [|reflexivity]. cbn [bind]. apply mapM_ext. intros tc. unfold cell_volume. destruct (tetra_table (fst tc)) as [tb|]; [|reflexivity].
  match goal with |- (let* x := ?A in _) = (let* y := ?B in _) => assert (A = B) as ->; [|reflexivity] end. apply mapM_ext. intros l.
  destruct (take (snd tc) l) as [is|]; [|reflexivity]. cbn [bind]. rewrite take_map. destruct (take (points m) is) as [ps|]; [|reflexivity]. cbn [bind].
  rewrite to_vec_moved. destruct (mapM to_vec ps) as [q|]; [|reflexivity]. cbn [bind]. apply tetra_term_moved.
Qed.
Lemma take_three (points : list (list Qc)) is : (forall p, In p points -> List.length p = 3) -> (forall i, In i is -> i < List.length points) ->
  exists ps q, take points is = Ok ps /\ mapM to_vec ps = Ok q /\ List.length q = List.length is.
Proof.
  intros D B. induction is as [|i is IH]; [exists [], []; split; [reflexivity|split; reflexivity]|].
  destruct IH as (ps & q & T & Q & L); [intros j J; apply B; now right|]. destruct (nth_error points i) as [p|] eqn:N; [|apply nth_error_None in N; specialize (B i (or_introl eq_refl)); lia].
  pose proof (D p (nth_error_In _ _ N)) as Lp. destruct p as [|x [|y [|z [|]]]]; try discriminate.
  exists ([x; y; z] :: ps), ((x, y, z) :: q). unfold take in *. cbn [mapM]. unfold item at 1. rewrite N. cbn [bind]. rewrite T. cbn [bind mapM to_vec]. rewrite Q.
  split; [reflexivity|]. split; [reflexivity|]. cbn [List.length]. now rewrite L.
Qed.
Lemma term_total (points : list (list Qc)) cell l : (forall p, In p points -> List.length p = 3) -> (forall n, In n cell -> n < List.length points) ->
  List.length l = 4 -> Forall (fun i => i < List.length cell) l ->
  exists v, (let* is := take cell l in let* ps := take points is in let* vs := mapM to_vec ps in tetra_term vs) = Ok v.
Proof.
  intros D B L F. destruct (take_total cell l F) as (is & T). rewrite T. cbn [bind].
  assert (Lis : List.length is = 4). { unfold take in T. apply mapM_F2, Forall2_length in T. congruence. }
  destruct (take_three points is D) as (ps & q & T2 & Q & Lq).
  { intros i I. apply B. unfold take in T. destruct (mapM_In _ _ _ _ T I) as (j & _ & J). unfold item in J. destruct (nth_error cell j) eqn:N; [|discriminate]. injection J as <-. exact (nth_error_In _ _ N). }
  rewrite T2. cbn [bind]. rewrite Q. cbn [bind]. rewrite Lis in Lq. destruct q as [|a [|b [|c [|d [|]]]]]; try discriminate. eexists. reflexivity.
Qed.
Lemma cell_volume_total (points : list (list Qc)) tc : solid_cell tc -> (forall p, In p points -> List.length p = 3) -> (forall n, In n (snd tc) -> n < List.length points) ->
  exists v, cell_volume points (fst tc) (snd tc) = Ok v.
Proof.
  intros S D B. destruct tc as [ty c]. cbn [fst snd] in *.
  assert (T : exists t, tetra_table ty = Some t /\ Forall (fun l => List.length l = 4 /\ Forall (fun i => i < List.length c) l) t).
  { destruct S as [(E & L) | [(E & L) | [(E & L) | (E & L)]]]; cbn [fst snd] in E, L; subst ty; rewrite L; eexists; (split; [reflexivity|]);
      repeat (apply Forall_cons || apply Forall_nil || split); try reflexivity; lia. }
  destruct T as (t & T & F). unfold cell_volume. rewrite T.
  destruct (mapM_total (fun l => let* is := take c l in let* ps := take points is in let* vs := mapM to_vec ps in tetra_term vs) t) as (terms & M).
  { rewrite Forall_forall in F. intros l I. destruct (F l I) as (L & Fl). now apply term_total. }
  rewrite M. eexists. reflexivity.
Qed.
Theorem volumes_total {V} (m : mesh Qc V) : cells m <> [] -> (forall b, In b (cells m) -> snd b <> []) -> sound 3 (points m) (cells m) ->
  (forall tc, In tc (typed_cells (cells m)) -> solid_cell tc) -> exists vs, volumes m = Ok vs.
Proof.
  intros N NE (D & B) S. unfold volumes.
  assert (G : negb (List.length (cells m) =? 0) && forallb (fun b => negb (List.length (snd b) =? 0)) (cells m) = true).
  { apply andb_true_iff. split; [destruct (cells m); [contradiction|reflexivity]|]. apply forallb_forall. intros b I. specialize (NE b I). destruct (snd b); [contradiction|reflexivity]. }
  rewrite G. cbn [guard bind]. rewrite typed_all in *. apply mapM_total. intros tc I. apply cell_volume_total; [now apply S|exact D|exact (proj2 (B tc I))].
Qed.
