(** Planes, areas and distances. *)
From Coq Require Import String Ascii Arith ZArith QArith Qcanon Reals Qreals Lra Bool Lia Permutation List.
From Verif Require Import Base.Str Model.Py Model.Numpy Model.Mesh Model.MeshOps Model.Geometry Model.MeshFile Model.Import Model.Conne.
From Verif Require Import Spec.MeshCells Spec.Geometry Spec.Import Spec.Conne.
From Verif Require Import Proofs.ReorderProof Proofs.ConnectProof Proofs.FaceProof Proofs.GeometryProof Proofs.MeshFileProof Proofs.ImportProof Proofs.FacesProof.
Import ListNotations.
Local Open Scope R_scope.

(** ** Vectors *)
Ltac vec := repeat match goal with a : xyz |- _ => destruct a as [[? ?] ?] | a : arrow |- _ => destruct a as [[? ?] ?] end; cbn in *.
Notation cross3 := arrow_cross.
Lemma dot_pos a : 0 <= dot3 a a.
Proof. vec. nra. Qed.
Lemma norm_sq a : norm3 a * norm3 a = dot3 a a.
Proof. vec. apply sqrt_sqrt. nra. Qed.
Lemma norm_pos a : 0 <= norm3 a.
Proof. vec. apply sqrt_pos. Qed.
Lemma norm_dot a : norm3 a = sqrt (dot3 a a).
Proof. vec. reflexivity. Qed.
Lemma arrow_norm3 a : arrow_norm a = norm3 a.
Proof. vec. reflexivity. Qed.
Lemma norm_is_zero a : norm3 a = 0 -> a = zero3.
Proof. destruct a as [[x y] z]. apply norm_zero. Qed.
Lemma norm_gt a : a <> zero3 -> 0 < norm3 a.
Proof. intros N. destruct (norm_pos a) as [H|H]; [exact H|]. exfalso. apply N, norm_is_zero. now symmetry. Qed.
Lemma norm_scale k a : norm3 (scale3 k a) = Rabs k * norm3 a.
Proof.
  rewrite !norm_dot. replace (dot3 (scale3 k a) (scale3 k a)) with (Rsqr k * dot3 a a) by (vec; unfold Rsqr; ring).
  rewrite sqrt_mult; [|apply Rle_0_sqr|apply dot_pos]. now rewrite sqrt_Rsqr_abs.
Qed.
Lemma lagrange u v : dot3 (cross3 u v) (cross3 u v) = dot3 u u * dot3 v v - dot3 u v * dot3 u v.
Proof. vec. ring. Qed.
Lemma cauchy u v : Rabs (dot3 u v) <= norm3 u * norm3 v.
Proof.
  pose proof (lagrange u v) as L. pose proof (dot_pos (cross3 u v)) as P. rewrite <- (norm_sq u), <- (norm_sq v) in L.
  pose proof (norm_pos u). pose proof (norm_pos v). apply Rsqr_incr_0; [|apply Rabs_pos|nra]. rewrite <- Rsqr_abs. unfold Rsqr. nra.
Qed.
Lemma dot_sym a b : dot3 a b = dot3 b a.
Proof. vec. ring. Qed.
Lemma dot_scale k a b : dot3 (scale3 k a) b = k * dot3 a b.
Proof. vec. ring. Qed.
Lemma dot_scale_r k a b : dot3 a (scale3 k b) = k * dot3 a b.
Proof. vec. ring. Qed.
Lemma dot_plus a b c : dot3 (plus3 a b) c = dot3 a c + dot3 b c.
Proof. vec. ring. Qed.
Lemma scale_one a : scale3 1 a = a.
Proof. vec. apply arrow_ext; ring. Qed.
Lemma scale_zero a : scale3 0 a = zero3.
Proof. vec. apply arrow_ext; ring. Qed.
Lemma scale_scale k l a : scale3 k (scale3 l a) = scale3 (k * l) a.
Proof. vec. apply arrow_ext; ring. Qed.
Lemma cross_left u v : dot3 (cross3 u v) u = 0.
Proof. vec. ring. Qed.
Lemma cross_right u v : dot3 (cross3 u v) v = 0.
Proof. vec. ring. Qed.
Lemma det_dot u v w : det3 u v w = dot3 (cross3 u v) w.
Proof. vec. ring. Qed.
Lemma minus_plus a d : minus3 (plus3 a d) a = d.
Proof. vec. apply arrow_ext; ring. Qed.
Lemma plus_minus a q : q = plus3 a (minus3 q a).
Proof. vec. apply arrow_ext; ring. Qed.
Lemma minus_zero a b : minus3 a b = zero3 -> a = b.
Proof. vec. intros E. injection E as E1 E2 E3. apply arrow_ext; lra. Qed.
Lemma dist_sym a b : dist3 a b = dist3 b a.
Proof. apply norm_flip. Qed.

(** The normal, the area. *)
Lemma area_cross a b c : triangle_area a b c = norm3 (cross3 (minus3 b a) (minus3 c a)) / 2.
Proof. unfold triangle_area. now rewrite <- lagrange, norm_dot. Qed.
Lemma bent_cross a b c : bent a b c <-> cross3 (minus3 b a) (minus3 c a) <> zero3.
Proof.
  unfold bent. rewrite area_cross. split.
  - intros H E. rewrite E in H. cbn in H. rewrite Rmult_0_l, !Rplus_0_l, sqrt_0 in H. lra.
  - intros N. apply norm_gt in N. lra.
Qed.
Lemma quotient_ok x y k : quotient x y = Ok k -> y <> 0 /\ k = x / y.
Proof. unfold quotient. destruct (Req_EM_T y 0); [discriminate|]. intros E. injection E as <-. auto. Qed.
Lemma quotient_total x y : y <> 0 -> quotient x y = Ok (x / y).
Proof. unfold quotient. destruct (Req_EM_T y 0); [contradiction|reflexivity]. Qed.
Lemma normalized_ok n u : normalized n = Ok u -> n <> zero3 /\ u = scale3 (/ norm3 n) n.
Proof.
  unfold normalized. destruct (quotient 1 (arrow_norm n)) as [k|] eqn:Q; [|discriminate]. cbn [bind]. intros E. injection E as <-. apply quotient_ok in Q as (N & ->).
  rewrite arrow_norm3 in *. split.
  - intros ->. apply N. cbn. rewrite Rmult_0_l, !Rplus_0_l. apply sqrt_0.
  - unfold Rdiv. rewrite Rmult_1_l. destruct n as [[? ?] ?]. reflexivity.
Qed.
Lemma normalized_total n : n <> zero3 -> normalized n = Ok (scale3 (/ norm3 n) n).
Proof.
  intros N. pose proof (norm_gt n N) as P. unfold normalized. rewrite quotient_total by (rewrite arrow_norm3; lra). cbn [bind]. rewrite arrow_norm3. unfold Rdiv. rewrite Rmult_1_l.
  destruct n as [[? ?] ?]. reflexivity.
Qed.
Lemma unit_length n : n <> zero3 -> norm3 (scale3 (/ norm3 n) n) = 1.
Proof. intros N. pose proof (norm_gt n N) as P. rewrite norm_scale, Rabs_right; [now apply Rinv_l; lra|]. apply Rle_ge, Rlt_le, Rinv_0_lt_compat, P. Qed.
Lemma unit_normal_cross a b c : cross3 (minus3 b a) (minus3 c a) <> zero3 ->
  unit_normal a b c (scale3 (/ norm3 (cross3 (minus3 b a) (minus3 c a))) (cross3 (minus3 b a) (minus3 c a))).
Proof.
  intros N. set (u := minus3 b a) in *. set (v := minus3 c a) in *. pose proof (norm_gt _ N) as P. pose proof (Rinv_0_lt_compat _ P) as PI. split; [now apply unit_length|]. split; [|split].
  - rewrite dot_scale. fold u. rewrite cross_left. ring.
  - rewrite dot_scale. fold v. rewrite cross_right. ring.
  - fold u v. rewrite det_dot, dot_scale_r, <- norm_sq, <- Rmult_assoc, Rinv_l by lra. lra.
Qed.
(** In the basis of two vectors and their normal. *)
Lemma in_basis u v w : scale3 (dot3 (cross3 u v) (cross3 u v)) w =
  plus3 (scale3 (dot3 w (cross3 u v)) (cross3 u v)) (plus3 (scale3 (dot3 (cross3 w v) (cross3 u v)) u) (scale3 (dot3 (cross3 u w) (cross3 u v)) v)).
Proof. vec. apply arrow_ext; ring. Qed.
Lemma in_plane u v w : cross3 u v <> zero3 -> dot3 w (cross3 u v) = 0 -> exists s t, w = plus3 (scale3 s u) (scale3 t v).
Proof.
  intros N D. pose proof (in_basis u v w) as B. rewrite D, scale_zero, plus3_0l in B. pose proof (norm_gt _ N) as P. pose proof (norm_sq (cross3 u v)) as S.
  set (k := dot3 (cross3 u v) (cross3 u v)) in *. assert (K : k <> 0) by (rewrite <- S; nra).
  exists (/ k * dot3 (cross3 w v) (cross3 u v)), (/ k * dot3 (cross3 u w) (cross3 u v)).
  rewrite <- (scale_one w) at 1. rewrite <- (Rinv_l k K), <- scale_scale, B. clear. generalize (dot3 (cross3 w v) (cross3 u v)) (dot3 (cross3 u w) (cross3 u v)). intros x y. vec. apply arrow_ext; ring.
Qed.
Lemma along_normal u v w : cross3 u v <> zero3 -> dot3 w u = 0 -> dot3 w v = 0 -> exists k, w = scale3 k (cross3 u v).
Proof.
  intros N D1 D2. pose proof (norm_gt _ N) as P. pose proof (norm_sq (cross3 u v)) as S. set (k := dot3 (cross3 u v) (cross3 u v)) in *. assert (K : k <> 0) by (rewrite <- S; nra).
  exists (/ k * dot3 w (cross3 u v)). rewrite <- (scale_one w) at 1. rewrite <- (Rinv_l k K), <- scale_scale. pose proof (in_basis u v w) as B. fold k in B. rewrite B.
  replace (dot3 (cross3 w v) (cross3 u v)) with (dot3 w u * dot3 v v - dot3 w v * dot3 u v) by (vec; ring).
  replace (dot3 (cross3 u w) (cross3 u v)) with (dot3 w v * dot3 u u - dot3 w u * dot3 u v) by (vec; ring).
  rewrite D1, D2. generalize (dot3 w (cross3 u v)). intros x. clear. vec. apply arrow_ext; ring.
Qed.
Lemma unit_normal_unique a b c n : cross3 (minus3 b a) (minus3 c a) <> zero3 -> unit_normal a b c n ->
  n = scale3 (/ norm3 (cross3 (minus3 b a) (minus3 c a))) (cross3 (minus3 b a) (minus3 c a)).
Proof.
  intros N (L & D1 & D2 & P). set (u := minus3 b a) in *. set (v := minus3 c a) in *. destruct (along_normal u v n N D1 D2) as (k & ->). f_equal.
  rewrite det_dot, dot_scale_r, <- norm_sq in P. pose proof (norm_gt _ N) as Q. rewrite norm_scale in L. assert (K : 0 < k) by nra. rewrite Rabs_right in L by lra.
  apply (Rmult_eq_reg_r (norm3 (cross3 u v))); [|lra]. rewrite Rinv_l by lra. exact L.
Qed.
Lemma unit_normal_bent a b c n : unit_normal a b c n -> cross3 (minus3 b a) (minus3 c a) <> zero3.
Proof. intros (_ & _ & _ & P) E. rewrite det_dot, E in P. destruct n as [[? ?] ?]. cbn in P. lra. Qed.

(** ** Planes *)
Lemma plane_dot a b c n q : unit_normal a b c n -> on_plane a b c q <-> dot3 (minus3 q a) n = 0.
Proof.
  intros U. pose proof (unit_normal_bent _ _ _ _ U) as N. split.
  - destruct U as (_ & D1 & D2 & _). intros (s & t & ->). rewrite minus_plus, dot_plus, !dot_scale, (dot_sym _ n), (dot_sym (minus3 c a) n), D1, D2. ring.
  - intros D. assert (D' : dot3 (minus3 q a) (cross3 (minus3 b a) (minus3 c a)) = 0).
    { rewrite (unit_normal_unique _ _ _ _ N U), dot_scale_r in D. apply Rmult_integral in D as [D|D]; [|exact D]. exfalso. pose proof (norm_gt _ N) as P. apply Rinv_0_lt_compat in P. lra. }
    destruct (in_plane _ _ _ N D') as (s & t & E). exists s, t. rewrite <- E. apply plus_minus.
Qed.
(** The least distance to a plane. *)
Lemma plane_least a b c n p : unit_normal a b c n -> plane_distance p a b c (Rabs (dot3 (minus3 p a) n)).
Proof.
  intros U. pose proof (proj1 U) as L1. assert (NN : dot3 n n = 1) by (rewrite <- norm_sq, L1; ring). split.
  - exists (minus3 p (scale3 (dot3 (minus3 p a) n) n)). split.
    + apply (plane_dot _ _ _ _ _ U). assert (H : forall k, dot3 (minus3 (minus3 p (scale3 k n)) a) n = dot3 (minus3 p a) n - k * dot3 n n) by (clear; intros k; vec; ring). rewrite H, NN. ring.
    + unfold dist3. replace (minus3 p (minus3 p (scale3 (dot3 (minus3 p a) n) n))) with (scale3 (dot3 (minus3 p a) n) n).
      * rewrite norm_scale, L1. ring.
      * generalize (dot3 (minus3 p a) n). intros k. vec. apply arrow_ext; ring.
  - intros q Q. apply (plane_dot _ _ _ _ _ U) in Q. replace (dot3 (minus3 p a) n) with (dot3 (minus3 p q) n + dot3 (minus3 q a) n) by (vec; ring).
    rewrite Q, Rplus_0_r. pose proof (cauchy (minus3 p q) n) as C. rewrite L1, Rmult_1_r in C. exact C.
Qed.
Lemma intersection_ok c1 c2 a b c n q : unit_normal a b c n -> intersection c1 (minus3 c2 c1) a n = Ok q -> crosses c1 c2 a b c q.
Proof.
  intros U. unfold intersection. destruct (quotient _ _) as [t|] eqn:Q; [|discriminate]. cbn [bind]. intros E. injection E as <-. apply quotient_ok in Q as (N & ->).
  change (arrow_dot (minus3 c2 c1) n) with (dot3 (minus3 c2 c1) n) in *. set (l := minus3 c2 c1) in *.
  change (arrow_dot (arrow_sub a c1) n) with (dot3 (minus3 a c1) n). set (x := dot3 (minus3 a c1) n). change (arrow_add c1 (arrow_mul (x / dot3 l n) l)) with (plus3 c1 (scale3 (x / dot3 l n) l)).
  assert (V : forall t, dot3 (minus3 (plus3 c1 (scale3 t l)) a) n = t * dot3 l n - x). { intros t. unfold x. clearbody l. vec. ring. }
  split; [|split].
  - exists (x / dot3 l n). reflexivity.
  - apply (plane_dot _ _ _ _ _ U). rewrite V. field. exact N.
  - intros q' (t & ->) P. fold l. apply (plane_dot _ _ _ _ _ U) in P. fold l in P. rewrite V in P. do 2 f_equal. apply (Rmult_eq_reg_r (dot3 l n)); [|exact N].
    unfold Rdiv. rewrite Rmult_assoc, Rinv_l by exact N. lra.
Qed.
Lemma intersection_total c1 c2 a n : dot3 (minus3 c2 c1) n <> 0 -> exists q, intersection c1 (minus3 c2 c1) a n = Ok q.
Proof. intros N. unfold intersection. rewrite quotient_total by exact N. cbn [bind]. eauto. Qed.
Lemma crosses_not_flat c1 c2 a b c n q : unit_normal a b c n -> c1 <> c2 -> crosses c1 c2 a b c q -> dot3 (minus3 c2 c1) n <> 0.
Proof.
  intros U NC ((t & ->) & P & H) E. pose proof (proj1 (plane_dot _ _ _ _ _ U) P) as P1. set (l := minus3 c2 c1) in *.
  assert (LN : l <> zero3) by (intros X; apply NC; symmetry; now apply minus_zero).
  assert (Q : on_plane a b c (plus3 c1 (scale3 (t + 1) l))).
  { apply (plane_dot _ _ _ _ _ U). rewrite <- P1. replace (dot3 (minus3 (plus3 c1 (scale3 (t + 1) l)) a) n) with (dot3 (minus3 (plus3 c1 (scale3 t l)) a) n + dot3 l n) by (clearbody l; clear; vec; ring). rewrite E. ring. }
  assert (Q' : plus3 c1 (scale3 (t + 1) l) = plus3 c1 (scale3 t l)) by exact (H _ (ex_intro _ (t + 1) eq_refl) Q). apply LN. clearbody l. clear -Q'. vec. injection Q' as E1 E2 E3. apply arrow_ext; nra.
Qed.

(** The distances add up when the plane is between the points. *)
Lemma separated_sum c1 c2 a b c n q : unit_normal a b c n -> c1 <> c2 -> crosses c1 c2 a b c q -> separated c1 c2 a b c -> dist3 c1 q + dist3 c2 q = dist3 c1 c2.
Proof.
  intros U NC CR S. pose proof (crosses_not_flat _ _ _ _ _ _ _ U NC CR) as NF. destruct CR as ((t & ->) & P & _). apply (plane_dot _ _ _ _ _ U) in P.
  pose proof (unit_normal_bent _ _ _ _ U) as N. pose proof (unit_normal_unique _ _ _ _ N U) as EN. pose proof (norm_gt _ N) as PN.
  set (k := norm3 (cross3 (minus3 b a) (minus3 c a))) in *.
  assert (D : forall w, det3 (minus3 b a) (minus3 c a) w = k * dot3 w n). { intros w. rewrite det_dot, EN, dot_scale_r, (dot_sym w), <- Rmult_assoc, Rinv_r by lra. ring. }
  unfold separated in S. rewrite !D in S. clear D EN.
  assert (S' : dot3 (minus3 c1 a) n * dot3 (minus3 c2 a) n <= 0). { apply Rmult_le_reg_l with (k * k); [nra|]. rewrite Rmult_0_r. nra. }
  clear S. set (x := dot3 (minus3 c1 a) n) in *. set (y := dot3 (minus3 c2 a) n) in *.
  assert (P' : x + t * (y - x) = 0). { rewrite <- P. unfold x, y. clear. vec. ring. }
  assert (XY : y - x <> 0). { intros Z. apply NF. rewrite <- Z. unfold x, y. clear. vec. ring. }
  assert (T : 0 <= t <= 1).
  { destruct (Rlt_le_dec 0 (y - x)).
    - assert (x <= 0) by nra. assert (0 <= y) by nra. split; nra.
    - assert (0 <= x) by nra. assert (y <= 0) by nra. split; nra. }
  unfold dist3. replace (minus3 c1 (plus3 c1 (scale3 t (minus3 c2 c1)))) with (scale3 t (minus3 c1 c2)) by (clear; vec; apply arrow_ext; ring).
  replace (minus3 c2 (plus3 c1 (scale3 t (minus3 c2 c1)))) with (scale3 (t - 1) (minus3 c1 c2)) by (clear; vec; apply arrow_ext; ring).
  rewrite !norm_scale. rewrite (Rabs_right t), (Rabs_left1 (t - 1)) by lra. ring.
Qed.

(** ** Areas of quads *)
Lemma segment_area a b c d q : on_segment a c q -> on_segment b d q -> triangle_area a b c + triangle_area a c d = norm3 (cross3 (minus3 c a) (minus3 d b)) / 2.
Proof.
  intros (s & S & ->) (t & T & E). rewrite !area_cross.
  replace (cross3 (minus3 b a) (minus3 c a)) with (scale3 t (cross3 (minus3 c a) (minus3 d b))).
  2: { assert (B : minus3 b a = minus3 (scale3 s (minus3 c a)) (scale3 t (minus3 d b))). { clear -E. vec. injection E as E1 E2 E3. apply arrow_ext; lra. }
       rewrite B. clear. vec. apply arrow_ext; ring. }
  replace (cross3 (minus3 c a) (minus3 d a)) with (scale3 (1 - t) (cross3 (minus3 c a) (minus3 d b))).
  2: { assert (B : minus3 d a = plus3 (scale3 s (minus3 c a)) (scale3 (1 - t) (minus3 d b))). { clear -E. vec. injection E as E1 E2 E3. apply arrow_ext; lra. }
       rewrite B. clear. vec. apply arrow_ext; ring. }
  rewrite !norm_scale, !Rabs_right by lra. lra.
Qed.
Lemma segment_flip a b q : on_segment a b q -> on_segment b a q.
Proof. intros (t & T & ->). exists (1 - t). split; [lra|]. clear. vec. apply arrow_ext; ring. Qed.
Lemma quad_area ps qs x y : convex_quad ps -> same_quad ps qs -> polygon_area ps x -> polygon_area qs y -> x = y.
Proof.
  intros (a & b & c & d & q & -> & S1 & S2) (a' & b' & c' & d' & E & I) A B. injection E as <- <- <- <-.
  inversion A; subst. rewrite (segment_area _ _ _ _ _ S1 S2). pose proof (segment_flip _ _ _ S1) as S1'. pose proof (segment_flip _ _ _ S2) as S2'.
  repeat (destruct I as [<-|I]; [inversion B; subst; rewrite (segment_area _ _ _ _ q) by assumption; f_equal; rewrite !norm_dot; f_equal; clear; vec; ring|]). destruct I.
Qed.
Lemma triangle_perm (ps qs : list xyz) x y : Permutation ps qs -> polygon_area ps x -> polygon_area qs y -> List.length ps = 3%nat -> x = y.
Proof.
  intros P A B L. destruct A as [a b c|]; [|discriminate]. pose proof (Permutation_length P) as L'. rewrite L in L'. destruct B as [a' b' c'|]; [|discriminate].
  rewrite !area_cross. f_equal. rewrite !norm_dot. f_equal.
  assert (H : (a', b', c') = (a, b, c) \/ (a', b', c') = (a, c, b) \/ (a', b', c') = (b, a, c) \/ (a', b', c') = (b, c, a) \/ (a', b', c') = (c, a, b) \/ (a', b', c') = (c, b, a)).
  { clear -P. destruct (in_split a [a'; b'; c']) as (l1 & l2 & E); [apply (Permutation_in _ P); now left|]. rewrite E in P. apply Permutation_cons_app_inv in P. apply Permutation_length_2_inv in P.
    destruct l1 as [|x1 [|x2 [|x3 l1]]]; cbn [app] in E, P; [| | |destruct l1; discriminate E]; inversion E; subst; (destruct P as [P|P]; inversion P; subst); tauto. }
  repeat (destruct H as [E|H]; [injection E as -> -> ->; clear; vec; ring|]). injection H as -> -> ->. clear. vec. ring.
Qed.
