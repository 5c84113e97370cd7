(** Reading back the MESH file of a mesh. *)
From Coq Require Import String Ascii Arith ZArith Bool Lia Permutation List.
From Verif Require Import Base.Str Base.Digits Base.Flt Base.FltText Model.Py Model.Records Model.Numpy Model.Mesh Model.MeshFile Model.Read Model.MeshRead
  Spec.Fields Spec.Values Spec.Types Spec.Layouts Spec.Rocks Spec.Labels Spec.Mesh Spec.File Spec.MeshCells Spec.MeshFile Spec.MeshBack
  Proofs.RecordLemmas Proofs.DictLemmas Proofs.Layouts Proofs.BlockTools Proofs.SimpleProof Proofs.LabelProof Proofs.MeshProof Proofs.NumpyProof Proofs.ConnectProof Proofs.FaceProof Proofs.MeshFileProof Proofs.FileProof Proofs.SelectProof Model.Labeler Spec.Labeler Proofs.LabelerProof.
Import ListNotations.
Local Open Scope nat_scope.

(** ** The text of single columns *)
Lemma text_col w s : List.length s <= w -> col_text (CText w) (PStr s) = ljust w s.
Proof.
  intros L. unfold col_text. cbn. rewrite firstn_all2 by exact L. reflexivity.
Qed.
Lemma loose_col w s : List.length s <= w -> col_text (CLoose w) (PStr s) = ljust w s.
Proof. intros L. unfold col_text. cbn. rewrite firstn_all2 by exact L. reflexivity. Qed.
Lemma blank_int_col w : col_text (CInt w) PNone = spaces w.
Proof. unfold col_text. cbn. unfold rjust. cbn. rewrite Nat.sub_0_r, app_nil_r. reflexivity. Qed.
Lemma blank_sci_col w k : col_text (CSci w k) PNone = spaces w.
Proof. unfold col_text. cbn. rewrite ?firstn_nil. unfold rjust, ljust. cbn [List.length]. rewrite Nat.sub_0_r, ?app_nil_r. reflexivity. Qed.
Lemma sci_col w k x : col_text (CSci w k) (PFloat x) = rjust w (fmt_e k x).
Proof. reflexivity. Qed.
Lemma int_col z : (1 <= z <= 3)%Z -> col_text (CInt 5) (PInt z) = rjust 5 (print_Z z).
Proof. intros H. assert (X : z = 1%Z \/ z = 2%Z \/ z = 3%Z) by lia. destruct X as [-> | [-> | ->]]; vm_compute; reflexivity. Qed.

(** ** Lines *)
Lemma rjust_least w s : w <= List.length (rjust w s).
Proof. unfold rjust. rewrite app_length, spaces_length. lia. Qed.
Lemma ljust_least w s : w <= List.length (ljust w s).
Proof. unfold ljust. rewrite app_length, spaces_length. lia. Qed.
Lemma record80_full s : 80 <= List.length s -> record80 s = s ++ [nl].
Proof. intros H. unfold record80, ljust. replace (80 - List.length s) with 0 by lia. cbn [spaces repeat]. now rewrite app_nil_r. Qed.

Definition e_cell (c : mcell * mat) : dict :=
  [(#"material", mat_back (snd c)); (#"volume", PFloat (mc_volume (fst c)));
   (#"center", PSeq SList [PFloat (mc_x (fst c)); PFloat (mc_y (fst c)); PFloat (mc_z (fst c))])].
Definition e_link (m : measures) : dict :=
  [(#"permeability_direction", PInt (me_isot m)); (#"nodal_distances", PSeq SList [PFloat (me_d1 m); PFloat (me_d2 m)]);
   (#"interface_area", PFloat (me_area m)); (#"gravity_cosine_angle", PFloat (me_angle m))].

Lemma firstn_spaces n k : firstn n (repeat sp k) = repeat sp (Nat.min n k).
Proof. revert k. induction n as [|n IH]; intros [|k]; cbn; [reflexivity..|]. now rewrite IH. Qed.
Lemma ljust_five k t : List.length t <= 5 -> ljust 5 (firstn 5 (ljust k t)) = ljust 5 t.
Proof.
  intros L. unfold ljust at 2. rewrite firstn_app, firstn_all2 by exact L. unfold ljust, spaces. rewrite app_length, <- app_assoc. f_equal.
  rewrite firstn_spaces, repeat_length, <- repeat_app. f_equal. lia.
Qed.
Lemma mat_column t : mat_fits t = true -> ljust 5 (firstn 5 (mat_text t)) = ljust 5 (material_text (mat_back t)) /\ material_ok (mat_back t) = true /\
  List.length (material_text (mat_back t)) <= 5.
Proof.
  destruct t as [s | z]; cbn [mat_fits mat_text mat_back material_text material_ok].
  - intros H. rewrite !andb_true_iff in H. destruct H as [[N D] E]. apply streqb_eq in E. rewrite N, D. split; [|split; [reflexivity|]].
    + rewrite E at 1. apply ljust_five. unfold name_ok in N. rewrite !andb_true_iff, Nat.leb_le in N. tauto.
    + unfold name_ok in N. rewrite !andb_true_iff, Nat.leb_le in N. tauto.
  - intros H. rewrite H. rewrite andb_true_iff, Z.leb_le, Z.ltb_lt in H. pose proof (print_Z_len5 z H) as L.
    assert (LL : List.length (rjust 5 (print_Z z)) = 5) by (unfold rjust; rewrite app_length, spaces_length; lia).
    rewrite firstn_all2 by lia. split; [reflexivity|]. split; [reflexivity|]. lia.
Qed.
Lemma eleme_same n coord c t : 5 <= n <= 9 -> cell_fits n coord c = true -> mat_fits t = true ->
  eleme_line (mc_label c) (mat_text t) (mc_volume c) (mc_x c) (mc_y c) (mc_z c) = elem_line n (PStr (mc_label c)) (e_cell (c, t)).
Proof.
  intros N F M. unfold cell_fits in F. rewrite !andb_true_iff, Nat.eqb_eq in F. destruct F as (((((L & _) & E) & _) & _) & _).
  destruct (mat_column t M) as (T & _ & TL).
  unfold elem_line, rec_line, elem_vals, cols_elem, e_cell, eleme_line. cbn [fst snd]. unfold three.
  change (val #"nseq" _) with PNone. change (val #"nadd" _) with PNone. change (val #"heat_exchange_area" _) with PNone.
  change (val #"permeability_modifier" _) with PNone.
  match goal with |- context [val #"material" ?d] => change (val #"material" d) with (mat_back t); change (val #"volume" d) with (PFloat (mc_volume c));
    change (val #"center" d) with (PSeq SList [PFloat (mc_x c); PFloat (mc_y c); PFloat (mc_z c)]) end.
  cbn [items firstn repeat app cols_text]. rewrite text_col, loose_col, !blank_int_col, !blank_sci_col, !sci_col, <- T by lia.
  assert (LL : ljust 15 (mc_label c) = ljust n (mc_label c) ++ spaces (fst (eleme_ints n)) ++ spaces (snd (eleme_ints n))).
  { rewrite <- (ljust_pad n 15) by lia. f_equal. do 5 (destruct n as [|n]; [lia|]). do 5 (destruct n as [|n]; [reflexivity|]). lia. }
  rewrite LL. rewrite record80_full.
  - rewrite <- !app_assoc. reflexivity.
  - repeat rewrite app_length. rewrite !spaces_length.
    pose proof (ljust_least 5 (firstn 5 (mat_text t))). pose proof (ljust_least 15 (mc_label c)) as X. rewrite LL, !app_length, !spaces_length in X.
    pose proof (rjust_least 10 (fmt_e 4 (mc_volume c))). pose proof (rjust_least 10 (fmt_e 3 (mc_x c))). pose proof (rjust_least 10 (fmt_e 3 (mc_y c))). pose proof (rjust_least 10 (fmt_e 3 (mc_z c))).
    cbn [List.length]. lia.
Qed.
Lemma conne_same n l1 l2 m : 5 <= n <= 9 -> List.length l1 = n -> List.length l2 = n -> measures_fit m = true ->
  conne_line l1 l2 (me_isot m) (me_d1 m) (me_d2 m) (me_area m) (me_angle m) = conn_line n (PStr (l1 ++ l2)) (e_link m).
Proof.
  intros N L1 L2 F. unfold measures_fit in F. rewrite !andb_true_iff, !Z.leb_le in F. destruct F as (((I1 & I2) & _) & _).
  unfold conn_line, rec_line, conn_vals, cols_conn, e_link, conne_line, two.
  change (val #"nseq" _) with PNone. change (val #"nadd" _) with PNone. change (val #"radiant_emittance_factor" _) with PNone.
  match goal with |- context [val #"nodal_distances" ?d] => change (val #"nodal_distances" d) with (PSeq SList [PFloat (me_d1 m); PFloat (me_d2 m)]);
    change (val #"permeability_direction" d) with (PInt (me_isot m)); change (val #"interface_area" d) with (PFloat (me_area m));
    change (val #"gravity_cosine_angle" d) with (PFloat (me_angle m)) end.
  assert (L : List.length (l1 ++ l2) = 2 * n) by (rewrite app_length; lia).
  cbn [items firstn repeat app cols_text]. rewrite text_col, !blank_int_col, !blank_sci_col, !sci_col, int_col by lia.
  assert (LL : ljust 25 (l1 ++ l2) = ljust (2 * n) (l1 ++ l2) ++ spaces (fst (conne_ints n)) ++ spaces (snd (conne_ints n)) ++ spaces (snd (conne_ints n))).
  { rewrite <- (ljust_pad (2 * n) 25) by lia. f_equal. clear L L1 L2. do 5 (destruct n as [|n]; [lia|]). do 5 (destruct n as [|n]; [reflexivity|]). lia. }
  rewrite LL. rewrite record80_full.
  - rewrite <- !app_assoc. reflexivity.
  - repeat rewrite app_length. rewrite !spaces_length.
    pose proof (ljust_least 25 (l1 ++ l2)) as X. rewrite LL, !app_length, !spaces_length in X.
    pose proof (rjust_least 10 (fmt_e 4 (me_d1 m))). pose proof (rjust_least 10 (fmt_e 4 (me_d2 m))). pose proof (rjust_least 10 (fmt_e 4 (me_area m))). pose proof (rjust_least 10 (fmt_e 3 (me_angle m))).
    pose proof (rjust_least 5 (print_Z (me_isot m))). cbn [List.length]. lia.
Qed.

(** ** The parameters that would give the same blocks *)
Definition u_elements (order : list (mcell * mat)) : dict := map (fun c => (KS (mc_label (fst c)), PDict (e_cell c))) order.
Definition u_connections (pairs : list (str * str * measures)) : dict :=
  map (fun p => (KS (fst (fst p) ++ snd (fst p)), PDict (e_link (snd p)))) pairs.
Definition u_mesh (coord : bool) (order : list (mcell * mat)) (pairs : list (str * str * measures)) : dict :=
  [(#"elements", PDict (u_elements order)); (#"elements_order", PNone); (#"coordinates", PBool coord);
   (#"connections", PDict (u_connections pairs)); (#"connections_order", PNone)].

Lemma width_all (A : Type) (f : A -> str) n (l : list A) (v : A -> pyval) : l <> [] -> (forall x, In x l -> List.length (f x) = n) ->
  label_width (map (fun x => (KS (f x), v x)) l) = n.
Proof.
  intros NE H. unfold label_width, dkeys. rewrite !map_map. cbn [fst key_text].
  destruct l as [|a l]; [contradiction|]. clear NE. revert a H. induction l as [|b l IH]; intros a H.
  - cbn. rewrite (H a) by now left. lia.
  - cbn [map fold_right]. rewrite (H a) by now left. specialize (IH b). cbn [map fold_right] in IH. rewrite IH; [lia|]. intros x I. apply H. now right.
Qed.
Lemma cell_parts n coord c : cell_fits n coord c = true -> label_ok (mc_label c) = true /\ startswith $"+++" (mc_label c) = false /\ List.length (mc_label c) = n /\
  sci_fits 10 4 (mc_volume c) = true /\ sci_fits 10 3 (mc_x c) = true /\ sci_fits 10 3 (mc_y c) = true /\ sci_fits 10 3 (mc_z c) = true /\
  (coord = true -> sci_fits 20 13 (mc_x c) = true /\ sci_fits 20 13 (mc_y c) = true /\ sci_fits 20 13 (mc_z c) = true).
Proof.
  unfold cell_fits. rewrite !andb_true_iff, Nat.eqb_eq, negb_true_iff. intros (((((A & B) & C) & D) & E) & F). cbn [forallb] in E. rewrite !andb_true_iff in E.
  repeat split; try tauto; subst coord; cbn [negb orb forallb] in F; rewrite !andb_true_iff in F; tauto.
Qed.
Lemma measures_parts m : measures_fit m = true -> (1 <= me_isot m <= 3)%Z /\ sci_fits 10 4 (me_d1 m) = true /\ sci_fits 10 4 (me_d2 m) = true /\
  sci_fits 10 4 (me_area m) = true /\ sci_fits 10 3 (me_angle m) = true.
Proof. unfold measures_fit. cbn [forallb]. rewrite !andb_true_iff, !Z.leb_le. tauto. Qed.
Lemma last_app_nonempty {A} (a b : list A) d : b <> [] -> last (a ++ b) d = last b d.
Proof. intros H. induction a as [|x a IH]; [reflexivity|]. cbn [app]. destruct (a ++ b) eqn:E; [apply app_eq_nil in E as [_ ->]; contradiction|]. exact IH. Qed.
Lemma label_pair a b : label_ok a = true -> label_ok b = true -> label_ok (a ++ b) = true.
Proof.
  unfold label_ok. rewrite !andb_true_iff. intros [[N T] O] [[N' T'] O']. rewrite one_line_app, O, O'. destruct a as [|x a]; [discriminate|]. destruct b as [|y b]; [discriminate|].
  split; [split; [reflexivity|]|reflexivity]. cbn [app trimmed] in *. rewrite !andb_true_iff in *. split; [tauto|].
  change (x :: a ++ y :: b) with ((x :: a) ++ y :: b). rewrite last_app_nonempty by discriminate. tauto.
Qed.

Section Mesh.
Variables (n : nat) (coord : bool) (order : list (mcell * mat)) (pairs : list (str * str * measures)).
Hypothesis N : 5 <= n <= 9.
Hypothesis NO : order <> [].
Hypothesis FO : forall c, In c order -> cell_fits n coord (fst c) = true /\ mat_fits (snd c) = true.
Hypothesis DO : NoDup (map (fun c => mc_label (fst c)) order).
Hypothesis NP : pairs <> [].
Hypothesis FP : forall p, In p pairs -> In (fst (fst p)) (map (fun c => mc_label (fst c)) order) /\ In (snd (fst p)) (map (fun c => mc_label (fst c)) order) /\ measures_fit (snd p) = true.
Hypothesis DP : NoDup (map fst pairs).
Let u := u_mesh coord order pairs.

Lemma u_els : elements_of u = u_elements order.
Proof. reflexivity. Qed.
Lemma u_cons : connections_of u = u_connections pairs.
Proof. reflexivity. Qed.
Lemma u_els_order : elements_order_of u = map (fun c => PStr (mc_label (fst c))) order.
Proof. unfold elements_order_of. rewrite u_els. change (val #"elements_order" u) with PNone. cbn [order_list]. unfold u_elements, dkeys. rewrite !map_map. reflexivity. Qed.
Lemma u_cons_order : connections_order_of u = map (fun p => PStr (fst (fst p) ++ snd (fst p))) pairs.
Proof. unfold connections_order_of. rewrite u_cons. change (val #"connections_order" u) with PNone. cbn [order_list]. unfold u_connections, dkeys. rewrite !map_map. reflexivity. Qed.
Lemma u_els_unique : keys_unique (u_elements order).
Proof.
  unfold keys_unique, dkeys, u_elements. rewrite map_map. cbn [fst]. rewrite <- (map_map (fun c => mc_label (fst c)) KS).
  apply FinFun.Injective_map_NoDup; [|exact DO]. intros a b E. now injection E.
Qed.
Lemma cell_width : label_width (u_elements order) = n.
Proof. unfold u_elements. apply width_all; [exact NO|]. intros c I. now apply cell_parts with (coord := coord), FO. Qed.
Lemma pair_parts p : In p pairs -> exists a b, In a order /\ In b order /\ fst p = (mc_label (fst a), mc_label (fst b)).
Proof.
  intros I. destruct (FP p I) as (A & B & _). apply in_map_iff in A as (a & EA & A). apply in_map_iff in B as (b & EB & B).
  exists a, b. split; [exact A|]. split; [exact B|]. rewrite EA, EB. now destruct (fst p).
Qed.
Lemma pair_lengths p : In p pairs -> List.length (fst (fst p)) = n /\ List.length (snd (fst p)) = n.
Proof.
  intros I. destruct (pair_parts p I) as (a & b & A & B & ->). cbn [fst snd]. split; eapply cell_parts, FO; assumption.
Qed.
Lemma u_cons_unique : keys_unique (u_connections pairs).
Proof.
  unfold keys_unique, dkeys, u_connections. rewrite map_map. cbn [fst]. 
  assert (X : forall l, (forall p, In p l -> In p pairs) -> NoDup (map fst l) -> NoDup (map (fun p : str * str * measures => KS (fst (fst p) ++ snd (fst p))) l)).
  { induction l as [|p l IH]; intros S D; [constructor|]. cbn [map] in *. inversion_clear D as [|? ? D1 D2]. constructor; [|apply IH; auto; intros; apply S; now right].
    intros I. apply in_map_iff in I as (q & E & I). injection E as E. apply D1. apply in_map_iff. exists q. split; [|exact I].
    destruct (pair_lengths p (S p (or_introl eq_refl))) as (P1 & P2). destruct (pair_lengths q (S q (or_intror I))) as (Q1 & Q2).
    assert (E1 : fst (fst q) = fst (fst p)) by (rewrite <- (firstn_len_app n (fst (fst q)) (snd (fst q)) Q1), <- (firstn_len_app n (fst (fst p)) (snd (fst p)) P1); now rewrite E).
    rewrite E1 in E. apply app_inv_head in E. destruct (fst q), (fst p). cbn [fst snd] in *. now subst. }
  apply X; [auto|exact DP].
Qed.
Lemma pair_width : half_width (u_connections pairs) = n.
Proof.
  unfold half_width, u_connections. rewrite (width_all _ (fun p : str * str * measures => fst (fst p) ++ snd (fst p)) (n * 2)).
  - apply Nat.div_mul. lia.
  - exact NP.
  - intros p I. rewrite app_length. destruct (pair_lengths p I). lia.
Qed.

Lemma u_ELEME : Spec.Mesh.ELEME_ok u.
Proof.
  unfold Spec.Mesh.ELEME_ok. rewrite u_els, cell_width. split; [reflexivity|]. split; [reflexivity|].
  split; [unfold u_elements; destruct order; [contradiction|discriminate]|]. split; [apply u_els_unique|]. split; [exact I|]. split; [exact N|].
  unfold u_elements. rewrite Forall_map. apply Forall_forall. intros c I. destruct (FO c I) as (F & M). destruct (cell_parts _ _ _ F) as (L & _ & LN & V & X & Y & Z & _).
  exists (mc_label (fst c)), (e_cell c). split; [reflexivity|]. split; [exact L|]. unfold element_ok.
  split; [|split; [|split; [reflexivity|split; [reflexivity|split; [|split]]]]].
  - unfold keys_unique, e_cell. cbn. repeat constructor; cbn; intuition discriminate.
  - unfold e_cell. destruct (snd c); reflexivity.
  - change (val #"material" (e_cell c)) with (mat_back (snd c)). now apply mat_column.
  - unfold fits. change (val #"volume" (e_cell c)) with (PFloat (mc_volume (fst c))). cbn [forallb]. cbn. now rewrite V.
  - change (val #"center" (e_cell c)) with (PSeq SList [PFloat (mc_x (fst c)); PFloat (mc_y (fst c)); PFloat (mc_z (fst c))]).
    unfold center_ok, three. cbn. now rewrite X, Y, Z.
Qed.
Lemma u_COORD : coord = true -> COORD_ok u.
Proof.
  intros EC. unfold COORD_ok. rewrite u_els. split; [reflexivity|]. split; [reflexivity|]. split; [apply u_els_unique|]. split; [exact I|].
  unfold u_elements. rewrite Forall_map. apply Forall_forall. intros c I. destruct (FO c I) as (F & M). destruct (cell_parts _ _ _ F) as (_ & _ & _ & _ & _ & _ & _ & D).
  destruct (D EC) as (X & Y & Z). exists (mc_label (fst c)), (e_cell c). split; [reflexivity|].
  change (val #"center" (e_cell c)) with (PSeq SList [PFloat (mc_x (fst c)); PFloat (mc_y (fst c)); PFloat (mc_z (fst c))]).
  unfold coord_ok, three. cbn. now rewrite X, Y, Z.
Qed.
Lemma u_CONNE : Spec.Mesh.CONNE_ok u.
Proof.
  unfold Spec.Mesh.CONNE_ok. rewrite u_cons, pair_width. split; [reflexivity|]. split; [reflexivity|].
  split; [unfold u_connections; destruct pairs; [contradiction|discriminate]|]. split; [apply u_cons_unique|]. split; [exact I|]. split; [exact N|].
  unfold u_connections. rewrite Forall_map. apply Forall_forall. intros [[la lb] m] I. destruct (FP _ I) as (_ & _ & M). cbn [fst snd] in *. destruct (measures_parts _ M) as (D & D1 & D2 & A & G).
  exists (la ++ lb), (e_link m). split; [reflexivity|]. destruct (pair_lengths _ I) as (L1 & L2). cbn [fst snd] in *. split.
  - destruct (pair_parts _ I) as (a & b & Ha & Hb & E). cbn [fst snd] in E. injection E as -> ->. destruct (FO a Ha) as (Fa & _). destruct (FO b Hb) as (Fb & _).
    destruct (cell_parts _ _ _ Fa) as (La & Pa & _). destruct (cell_parts _ _ _ Fb) as (Lb & _).
    unfold pair_ok. rewrite label_pair by assumption. rewrite app_length, L1, L2. replace (n + n <=? 2 * n) with true by (symmetry; apply Nat.leb_le; lia).
    cbn [andb]. apply negb_true_iff. destruct (mc_label (fst a)) as [|x [|y [|z l]]]; cbn [List.length] in L1; try lia. exact Pa.
  - unfold connection_ok. split; [|split; [reflexivity|split; [reflexivity|split; [reflexivity|split; [now left|]]]]].
    + unfold keys_unique, e_link. cbn. repeat constructor; cbn; intuition discriminate.
    + change (val #"permeability_direction" (e_link m)) with (PInt (me_isot m)).
      change (val #"nodal_distances" (e_link m)) with (PSeq SList [PFloat (me_d1 m); PFloat (me_d2 m)]).
      change (val #"interface_area" (e_link m)) with (PFloat (me_area m)).
      split; [|split; [cbn; lia|split; [|split]]].
      * assert (E : me_isot m = 1%Z \/ me_isot m = 2%Z \/ me_isot m = 3%Z) by lia. destruct E as [-> | [-> | ->]]; vm_compute; reflexivity.
      * unfold fits, two. cbn. now rewrite D1, D2.
      * unfold fits. cbn. now rewrite A.
      * unfold fits. cbn. now rewrite G.
Qed.

Lemma rock_cell c : In c order -> rock_named (u_elements order) (PStr (mc_label (fst c))) = e_cell c.
Proof.
  intros I. unfold rock_named. cbn [name_key]. rewrite (val_some _ _ (PDict (e_cell c))); [reflexivity|]. apply in_dget; [apply u_els_unique|].
  unfold u_elements. apply in_map_iff. exists c. auto.
Qed.
Lemma rock_pair p : In p pairs -> rock_named (u_connections pairs) (PStr (fst (fst p) ++ snd (fst p))) = e_link (snd p).
Proof.
  intros I. unfold rock_named. cbn [name_key]. rewrite (val_some _ _ (PDict (e_link (snd p)))); [reflexivity|]. apply in_dget; [apply u_cons_unique|].
  unfold u_connections. apply in_map_iff. exists p. auto.
Qed.
Lemma u_eleme_body : ELEME_body u = map (fun c => eleme_line (mc_label (fst c)) (mat_text (snd c)) (mc_volume (fst c)) (mc_x (fst c)) (mc_y (fst c)) (mc_z (fst c))) order ++ [[nl]].
Proof.
  unfold ELEME_body. rewrite u_els, u_els_order, cell_width, map_map. f_equal. apply map_ext_in. intros c I. rewrite rock_cell by exact I.
  destruct (FO c I) as (F & M). rewrite (eleme_same n coord) by assumption. now destruct c.
Qed.
Lemma u_conne_body : CONNE_body u = map (fun p => conne_line (fst (fst p)) (snd (fst p)) (me_isot (snd p)) (me_d1 (snd p)) (me_d2 (snd p)) (me_area (snd p)) (me_angle (snd p))) pairs ++ [[nl]].
Proof.
  unfold CONNE_body. rewrite u_cons, u_cons_order, pair_width, map_map. f_equal. apply map_ext_in. intros p I. rewrite rock_pair by exact I.
  destruct (FP p I) as (_ & _ & M). destruct (pair_lengths p I). now rewrite (conne_same n) by assumption.
Qed.
Definition c_line (x : pyval) : str :=
  match items (coord_of u x) with [PFloat a; PFloat b; PFloat c] => Spec.MeshFile.coord_line a b c | _ => [] end.
Lemma u_center c : In c order -> coord_of u (PStr (mc_label (fst c))) = PSeq SList [PFloat (mc_x (fst c)); PFloat (mc_y (fst c)); PFloat (mc_z (fst c))].
Proof. intros I. unfold coord_of. rewrite u_els, rock_cell by exact I. reflexivity. Qed.
Lemma c_lines : map c_line (elements_order_of u) = map (fun c => Spec.MeshFile.coord_line (mc_x (fst c)) (mc_y (fst c)) (mc_z (fst c))) order.
Proof. rewrite u_els_order, map_map. apply map_ext_in. intros c I. unfold c_line. rewrite u_center by exact I. reflexivity. Qed.
Lemma c_line_text a b c : Spec.MeshFile.coord_line a b c = cols_text cols_COORD [PFloat a; PFloat b; PFloat c] ++ [nl].
Proof. unfold Spec.MeshFile.coord_line, cols_COORD. cbn [repeat cols_text]. rewrite !sci_col, app_nil_r, <- !app_assoc. reflexivity. Qed.
Lemma c_rec c : In c order -> coord = true -> rec_ok cols_COORD [PFloat (mc_x (fst c)); PFloat (mc_y (fst c)); PFloat (mc_z (fst c))] = true.
Proof.
  intros I EC. destruct (FO c I) as (F & _). destruct (cell_parts _ _ _ F) as (_ & _ & _ & _ & _ & _ & _ & D). destruct (D EC) as (X & Y & Z).
  unfold cols_COORD. cbn. now rewrite X, Y, Z.
Qed.
Lemma c_line_good c : In c order -> coord = true -> good_line (Spec.MeshFile.coord_line (mc_x (fst c)) (mc_y (fst c)) (mc_z (fst c))).
Proof. intros I EC. rewrite c_line_text. eexists. split; [reflexivity|]. apply cols_text_one_line. now apply c_rec. Qed.
Lemma c_read x : coord = true -> In x (elements_order_of u) -> blank (c_line x) = false /\
  exists l, read_record (c_line x) fmt_COORD = Ok l /\ PSeq SList l = coord_back (coord_of u x).
Proof.
  intros EC I. rewrite u_els_order in I. apply in_map_iff in I as (c & <- & I). unfold c_line. rewrite u_center by exact I. cbn [items].
  pose proof (c_rec c I EC) as R. rewrite c_line_text. pose proof (read_cols cols_COORD _ [nl] R eq_refl) as E. split.
  - match goal with |- blank ?l = false => destruct (blank l) eqn:B; [|reflexivity] end. exfalso. apply blank_all in B.
    rewrite (blank_record cols_COORD eq_refl _ B) in E. discriminate.
  - eexists. split; [exact E|]. reflexivity.
Qed.
Lemma u_known ll : length_told ll n (map (fun c => mc_label (fst c)) order) -> label_choice ll /\ ELEME_known (label_given ll) u /\ CONNE_known (label_given ll) u.
Proof.
  intros H. split; [|split].
  - destruct H as [-> | [-> _]]; cbn [label_choice]; [lia|exact I].
  - unfold ELEME_known. rewrite u_els, u_els_order, cell_width. destruct order as [|c r]; [contradiction|]. cbn [map first_known name_key key_text].
    destruct H as [-> | [-> H]]; [left; cbn; f_equal; lia|right]. split; [now left|]. cbn [map] in H. apply Forall_cons_iff in H as [H _].
    unfold plain_label in H. apply andb_true_iff in H as [H _]. split; [|split; [exact H|]].
    + eapply cell_parts, FO. now left.
    + intros _. replace (rock_named _ _) with (e_cell c); [reflexivity|]. unfold rock_named. cbn [name_key]. cbn [u_elements map]. unfold val. cbn [dget]. now rewrite key_eqb_refl.
  - unfold CONNE_known. rewrite u_cons, u_cons_order, pair_width. destruct pairs as [|[[la lb] m] r]; [contradiction|]. cbn [map name_key key_text].
    destruct H as [-> | [-> H]]; [left; cbn; f_equal; lia|right]. split; [now left|]. rewrite Forall_forall in H.
    destruct (FP _ (or_introl eq_refl)) as (A & B & _). cbn [fst snd] in *. pose proof (H _ A) as HA. pose proof (H _ B) as HB. unfold plain_label in HA, HB. apply andb_true_iff in HA as [HA _]. apply andb_true_iff in HB as [_ HB].
    assert (L : List.length la = n). { apply in_map_iff in A as (c & <- & A). eapply cell_parts, FO, A. }
    rewrite firstn_len_app by exact L. rewrite skipn_len_app by exact L. split; [exact L|]. split; [exact HA|].
    intros _. destruct lb; [discriminate HB|]. apply negb_true_iff in HB. exact HB.
Qed.

Definition mesh_text : str :=
  block_text $"ELEME" (map (fun c => eleme_line (mc_label (fst c)) (mat_text (snd c)) (mc_volume (fst c)) (mc_x (fst c)) (mc_y (fst c)) (mc_z (fst c))) order) ++
  (if coord then block_text $"COORD" (map (fun c => Spec.MeshFile.coord_line (mc_x (fst c)) (mc_y (fst c)) (mc_z (fst c))) order) else []) ++
  block_text $"CONNE" (map (fun p => conne_line (fst (fst p)) (snd (fst p)) (me_isot (snd p)) (me_d1 (snd p)) (me_d2 (snd p)) (me_area (snd p)) (me_angle (snd p))) pairs).
Definition mesh_lines : list str :=
  head $"ELEME" :: ELEME_body u ++ (if coord then head $"COORD" :: (map c_line (elements_order_of u) ++ [[nl]]) else []) ++ head $"CONNE" :: CONNE_body u.
Lemma block_lines k ls : List.length k = 5 -> block_text k ls = concat (head k :: ls ++ [[nl]]).
Proof.
  intros L. cbn [concat]. rewrite concat_app. cbn [concat]. rewrite app_nil_r. unfold block_text, head, ljust. rewrite L. cbn [Nat.sub spaces repeat]. rewrite app_nil_r, <- !app_assoc. reflexivity.
Qed.
Lemma mesh_text_lines : mesh_text = concat mesh_lines.
Proof.
  unfold mesh_text, mesh_lines. rewrite u_eleme_body, u_conne_body, c_lines. rewrite !block_lines by reflexivity.
  cbn [concat]. rewrite !concat_app. cbn [concat]. rewrite <- !app_assoc. do 2 f_equal. cbn [app concat]. destruct coord; cbn [concat]; rewrite ?concat_app; cbn [concat]; rewrite <- ?app_assoc; reflexivity.
Qed.
Lemma mesh_lines_good : Forall good_line mesh_lines.
Proof.
  unfold mesh_lines. constructor; [now apply good_head|]. apply Forall_app. split; [apply ELEME_good, u_ELEME|]. apply Forall_app. split.
  - assert (X : forall (b : bool) l, (b = true -> Forall good_line l) -> Forall good_line (if b then head $"COORD" :: l ++ [[nl]] else [])).
    { intros [|] l G; [|constructor]. constructor; [now apply good_head|]. apply Forall_app. split; [now apply G|]. constructor; auto using good_nl. }
    apply X. intros EC. rewrite c_lines, Forall_map. apply Forall_forall. intros c I. now apply c_line_good.
  - constructor; [now apply good_head|]. apply CONNE_good, u_CONNE.
Qed.
Lemma elements_u : elements_back u = map (fun c => (KS (mc_label (fst c)), PDict (cell_read false (snd c) (fst c)))) order.
Proof.
  unfold elements_back. rewrite u_els, u_els_order, map_map. apply map_ext_in. intros c I. cbn [name_key]. rewrite rock_cell by exact I.
  unfold cell_read. cbn [fst snd]. destruct c as [c [s | z]]; reflexivity.
Qed.
Lemma connections_u : connections_back u = map (fun p => (KS (fst (fst p) ++ snd (fst p)), PDict (measures_read (snd p)))) pairs.
Proof.
  unfold connections_back. rewrite u_cons, u_cons_order, map_map. apply map_ext_in. intros p I. cbn [name_key]. rewrite rock_pair by exact I. reflexivity.
Qed.
Lemma centers_u : with_centers u (elements_back u) = map (fun c => (KS (mc_label (fst c)), PDict (cell_read true (snd c) (fst c)))) order.
Proof.
  unfold with_centers. rewrite elements_u, map_map. apply map_ext_in. intros c I. cbn [fst snd key_val]. rewrite u_els, rock_cell by exact I. reflexivity.
Qed.
Lemma MESH_back_u : MESH_back u = mesh_read coord order pairs.
Proof.
  unfold MESH_back, run_steps. cbn [fold_left fst snd]. change (filled (val #"coordinates" u)) with coord.
  replace (filled (val #"connections" u)) with true.
  2: { change (val #"connections" u) with (PDict (u_connections pairs)). unfold u_connections. destruct pairs; [contradiction|reflexivity]. }
  unfold ELEME_upd, CONNE_back, COORD_upd, mesh_read. rewrite elements_u, connections_u, u_els_order, u_cons_order.
  set (E1 := map _ order).
  assert (W : with_centers u E1 = map (fun c => (KS (mc_label (fst c)), PDict (cell_read true (snd c) (fst c)))) order) by (unfold E1; rewrite <- elements_u; apply centers_u).
  revert W. generalize (with_centers u). intros w W. destruct coord.
  - cbn. rewrite W. reflexivity.
  - reflexivity.
Qed.
Lemma set_late k v k' v' q : dmem k q = true -> k <> k' -> dset k v (dset k' v' q) = dset k' v' (dset k v q).
Proof.
  intros M D. induction q as [|[a w] q IH]; [discriminate M|]. unfold dmem in *. cbn [dget dset] in *. destruct (key_eqb k a) eqn:E, (key_eqb k' a) eqn:E'; cbn [dset]; rewrite ?E, ?E'; try reflexivity.
  - apply key_eqb_eq in E, E'. congruence.
  - now rewrite IH.
Qed.
(** The blocks of the mesh in a file, other blocks before and after. *)
Theorem mesh_run ll q rest r : length_told ll n (map (fun c => mc_label (fst c)) order) -> Run (label_given ll) (dupdate q (mesh_read coord order pairs)) rest r ->
  Run (label_given ll) q (mesh_lines ++ rest) r.
Proof.
  intros H HR. destruct (u_known ll H) as (LC & KE & KC). unfold mesh_lines. cbn [app]. rewrite <- app_assoc.
  destruct (ELEME_block u u_ELEME) as (_ & _ & RE). destruct (CONNE_block u u_CONNE) as (_ & _ & RC).
  eapply Run_block; [apply RE, KE|]. rewrite <- app_assoc. cbn [app].
  assert (EQ : dupdate (if coord then COORD_upd u (ELEME_upd u q) else ELEME_upd u q) (CONNE_back u) = dupdate q (mesh_read coord order pairs)).
  { unfold ELEME_upd, CONNE_back, COORD_upd, mesh_read. rewrite elements_u, connections_u, u_els_order, u_cons_order.
    set (E1 := map _ order).
    assert (W : with_centers u E1 = map (fun c => (KS (mc_label (fst c)), PDict (cell_read true (snd c) (fst c)))) order) by (unfold E1; rewrite <- elements_u; apply centers_u).
    revert W. generalize (with_centers u). intros w W. destruct coord; [|reflexivity].
    unfold dupdate. cbn [fold_left fst snd]. unfold val at 1. rewrite dget_dset_other, dget_dset_other, dget_dset_same by discriminate. cbn [entries]. rewrite W. do 2 f_equal.
    rewrite (set_late #"elements" _ #"coordinates"), dset_dset by (try discriminate; unfold dmem; now rewrite dget_dset_other, dget_dset_same by discriminate).
    f_equal. rewrite (set_late #"elements" _ #"elements_order"), dset_dset by (try discriminate; unfold dmem; now rewrite dget_dset_same). reflexivity. }
  rewrite <- EQ in HR.
  assert (X : forall q, Run (label_given ll) (dupdate q (CONNE_back u)) rest r -> Run (label_given ll) q (head $"CONNE" :: CONNE_body u ++ rest) r).
  { intros q' R'. eapply Run_block; [apply RC, KC|exact R']. }
  assert (Y : forall b : bool, (b = true -> coord = true) -> forall q, COORD_pre u q -> Run (label_given ll) (dupdate (if b then COORD_upd u q else q) (CONNE_back u)) rest r ->
    Run (label_given ll) q ((if b then head $"COORD" :: map c_line (elements_order_of u) ++ [[nl]] else []) ++ head $"CONNE" :: CONNE_body u ++ rest) r).
  { intros [|] EB q' P R'; cbn [app]; [|now apply X]. eapply Run_block; [|apply X, R']. apply COORD_read; [now apply u_COORD, EB| |exact P]. intros x I. apply c_read; auto. }
  apply Y; [auto| |exact HR]. apply coord_ready.
Qed.
Theorem mesh_reads ll fuel : length_told ll n (map (fun c => mc_label (fst c)) order) -> read_text fuel ll mesh_text = Ok (mesh_read coord order pairs).
Proof.
  intros H. destruct (u_known ll H) as (LC & _ & _). rewrite mesh_text_lines.
  eapply (read_first ($"ELEME")); [cbn; tauto|apply mesh_lines_good|reflexivity|exact LC|].
  rewrite <- (app_nil_r mesh_lines). apply mesh_run; [exact H|]. intros fuel' _. destruct fuel'; reflexivity.
Qed.
End Mesh.

(** ** From the mesh *)
Lemma called_renamed names m t : NoDup (map fst names) -> called names m t -> renamed names (padded m) = t.
Proof.
  intros ND C. change (padded m) with (five m). unfold renamed, called in *. destruct C as [I | [NI ->]].
  - induction names as [|[k v] names IH]; [contradiction|]. cbn [find fst]. inversion_clear ND as [|? ? N1 N2]. destruct (mat_eqb (five m) k) eqn:E.
    + apply mat_eqb_eq in E. subst k. destruct I as [I | I]; [now injection I|]. exfalso. apply N1. apply in_map_iff. exists (five m, t). auto.
    + destruct I as [I | I]; [|now apply IH]. injection I as -> ->. rewrite (proj2 (mat_eqb_eq (five m) (five m)) eq_refl) in E. discriminate.
  - destruct (find _ names) as [[k v]|] eqn:E; [|reflexivity]. apply find_some in E as [I E]. apply mat_eqb_eq in E. cbn [fst] in E. subst k.
    exfalso. apply NI. apply in_map_iff. exists (five m, v). auto.
Qed.
Definition labelled (cs : list mcell) (me : nat * nat * nat -> measures) (l : nat * nat * nat) : str * str * measures :=
  (nth (fst (fst l)) (map mc_label cs) [], nth (snd l) (map mc_label cs) [], me l).
Lemma nodup_nth {A} (l : list A) d i j : NoDup l -> i < List.length l -> j < List.length l -> nth i l d = nth j l d -> i = j.
Proof. intros N I J E. now apply (proj1 (NoDup_nth l d) N). Qed.
Lemma nodup_map_links (A : Type) (g : nat * nat * nat -> A) ls : NoDup ls -> (forall x y, In x ls -> In y ls -> g x = g y -> x = y) -> NoDup (map g ls).
Proof.
  induction ls as [|x ls IH]; intros N H; [constructor|]. inversion_clear N as [|? ? N1 N2]. cbn [map]. constructor.
  - intros I. apply in_map_iff in I as (y & E & I). apply N1. rewrite <- (H y x); auto; [now right|now left].
  - apply IH; [exact N2|]. intros a b A1 B1. apply H; now right.
Qed.
Theorem mesh_back_lines n names ending coord cs conn me mt : 5 <= n <= 9 ->
  (forall c, In c cs -> cell_fits n coord c = true /\ called names (mc_mat c) (mt c) /\ mat_fits (mt c) = true) ->
  NoDup (map mc_label cs) -> NoDup (map fst names) -> links conn <> [] ->
  (forall i f j, In (i, f, j) (links conn) -> i < List.length cs /\ j < List.length cs /\ measures_fit (me (i, f, j)) = true) ->
  (forall i f f' j, In (i, f, j) (links conn) -> In (i, f', j) (links conn) -> f = f') ->
  exists body, write_mesh names ending coord cs conn me = Ok (concat (head $"ELEME" :: body)) /\ Forall good_line (head $"ELEME" :: body) /\
    forall ll, length_told ll n (map mc_label cs) -> label_choice ll /\ forall q rest r,
      Run (label_given ll) (dupdate q (mesh_read coord (map (fun c => (c, mt c)) (ending_last ending cs)) (map (labelled cs me) (links conn)))) rest r ->
      Run (label_given ll) q (head $"ELEME" :: body ++ rest) r.
Proof.
  intros N FC DL DN NL FL ONE.
  assert (LN : Forall (fun c => List.length (mc_label c) = n) cs).
  { apply Forall_forall. intros c I. destruct (FC c I) as (F & _). now apply cell_parts in F. }
  pose proof (ending_perm ending cs) as P. set (order := map (fun c => (c, mt c)) (ending_last ending cs)). set (pairs := map (labelled cs me) (links conn)).
  assert (IO : forall c, In c (ending_last ending cs) -> In c cs) by (intros c I; eapply Permutation_in; eauto).
  assert (LO : map (fun c => mc_label (fst c)) order = map mc_label (ending_last ending cs)) by (unfold order; now rewrite map_map).
  assert (LI : forall l, In l (map mc_label cs) -> In l (map (fun c => mc_label (fst c)) order)).
  { intros l I. rewrite LO. eapply Permutation_in; [apply Permutation_map; symmetry; exact P|exact I]. }
  assert (NC : cs <> []). { intros ->. destruct (links conn) as [|[[i f] j] r]; [contradiction|]. destruct (FL i f j) as (A & _); [now left|]. cbn in A. lia. }
  assert (H1 : order <> []). { unfold order. intros E. apply map_eq_nil in E. rewrite E in P. apply Permutation_nil in P. contradiction. }
  assert (H2 : forall c, In c order -> cell_fits n coord (fst c) = true /\ mat_fits (snd c) = true).
  { intros c I. unfold order in I. apply in_map_iff in I as (c' & <- & I). cbn [fst snd]. destruct (FC c' (IO _ I)) as (A & _ & B). auto. }
  assert (H3 : NoDup (map (fun c => mc_label (fst c)) order)).
  { rewrite LO. eapply Permutation_NoDup; [apply Permutation_map; symmetry; exact P|exact DL]. }
  assert (H4 : pairs <> []). { unfold pairs. intros E. apply map_eq_nil in E. contradiction. }
  assert (H5 : forall p, In p pairs -> In (fst (fst p)) (map (fun c => mc_label (fst c)) order) /\ In (snd (fst p)) (map (fun c => mc_label (fst c)) order) /\ measures_fit (snd p) = true).
  { intros p I. unfold pairs in I. apply in_map_iff in I as ([[i f] j] & <- & I). destruct (FL _ _ _ I) as (A & B & M). unfold labelled. cbn [fst snd].
    split; [|split; [|exact M]]; apply LI, nth_In; now rewrite map_length. }
  assert (H6 : NoDup (map fst pairs)).
  { unfold pairs. rewrite map_map. unfold labelled. cbn [fst]. apply nodup_map_links; [apply links_nodup|]. intros [[i f] j] [[i' f'] j'] I1 I2 E. cbn [fst snd] in E. injection E as E1 E2.
    destruct (FL _ _ _ I1) as (A & B & _). destruct (FL _ _ _ I2) as (A' & B' & _).
    apply nodup_nth in E1; [|exact DL|now rewrite map_length..]. apply nodup_nth in E2; [|exact DL|now rewrite map_length..]. subst i' j'. now rewrite (ONE i f f' j). }
  eexists. split; [|split; [apply (mesh_lines_good n coord order pairs); assumption|]].
  - fold (mesh_lines coord order pairs). rewrite <- (mesh_text_lines n coord order pairs) by assumption.
    rewrite (write_mesh_text n) by (auto; intros i f j I; destruct (FL _ _ _ I) as (A & B & M); apply measures_parts in M; tauto).
    f_equal. unfold mesh_text, order, pairs. rewrite !map_map. cbn [fst snd]. f_equal.
    + f_equal. apply map_ext_in. intros c I. destruct (FC c (IO _ I)) as (_ & C & _). now rewrite (called_renamed _ _ _ DN C).
  - intros ll LT.
    assert (LT' : length_told ll n (map (fun c => mc_label (fst c)) order)).
    { destruct LT as [-> | [-> F]]; [now left|right]. split; [reflexivity|]. rewrite LO. rewrite Forall_forall in *. intros s I. apply F.
      eapply Permutation_in; [apply Permutation_map; exact P|exact I]. }
    split; [destruct LT as [-> | [-> _]]; cbn [label_choice]; [lia|exact I]|].
    intros q rest r R. apply (mesh_run n coord order pairs); assumption.
Qed.
Lemma Run_over ll q : Run ll q [] (Ok q).
Proof. intros [|fuel] _; reflexivity. Qed.
Theorem mesh_back n names ending coord cs conn me mt : 5 <= n <= 9 ->
  (forall c, In c cs -> cell_fits n coord c = true /\ called names (mc_mat c) (mt c) /\ mat_fits (mt c) = true) ->
  NoDup (map mc_label cs) -> NoDup (map fst names) -> links conn <> [] ->
  (forall i f j, In (i, f, j) (links conn) -> i < List.length cs /\ j < List.length cs /\ measures_fit (me (i, f, j)) = true) ->
  (forall i f f' j, In (i, f, j) (links conn) -> In (i, f', j) (links conn) -> f = f') ->
  exists text, write_mesh names ending coord cs conn me = Ok text /\
    forall ll fuel, length_told ll n (map mc_label cs) -> read_mesh fuel ll text = Ok (mesh_read coord (map (fun c => (c, mt c)) (ending_last ending cs)) (map (labelled cs me) (links conn))).
Proof.
  intros N FC DL DN NL FL ONE. destruct (mesh_back_lines n names ending coord cs conn me mt N FC DL DN NL FL ONE) as (body & W & G & R).
  eexists. split; [exact W|]. intros ll fuel LT. destruct (R ll LT) as (LC & RR). unfold read_mesh.
  erewrite (read_first ($"ELEME")); [|cbn; tauto|exact G|reflexivity|exact LC|rewrite <- (app_nil_r body) at 1; apply RR, Run_over].
  reflexivity.
Qed.
(** with the connections of the blocks of the mesh *)
Theorem mesh_blocks_back n names ending coord blocks cs conn me mt : connections 3 blocks = Ok conn -> List.length cs = n_cells blocks -> 5 <= n <= 9 ->
  (forall c, In c cs -> cell_fits n coord c = true /\ called names (mc_mat c) (mt c) /\ mat_fits (mt c) = true) ->
  NoDup (map mc_label cs) -> NoDup (map fst names) -> (forall l, measures_fit (me l) = true) ->
  exists F, surfaces blocks F /\ ((exists p q, interface F p q) ->
    (forall i f f' j g g', interface F (i, f) (j, g) -> interface F (i, f') (j, g') -> f = f') ->
  exists order ls text, Permutation order cs /\ NoDup ls /\
    (forall i f j, In (i, f, j) ls <-> i <= j /\ exists g, interface F (i, f) (j, g)) /\
    write_mesh names ending coord cs conn me = Ok text /\
    forall ll fuel, length_told ll n (map mc_label cs) -> read_mesh fuel ll text = Ok (mesh_read coord (map (fun c => (c, mt c)) order)
      (map (fun l => (nth (fst (fst l)) (map mc_label cs) [], nth (snd l) (map mc_label cs) [], me l)) ls))).
Proof.
  intros C LC N FC DL DN FM.
  assert (LN : Forall (fun c => List.length (mc_label c) = n) cs).
  { apply Forall_forall. intros c I. destruct (FC c I) as (F & _). now apply cell_parts in F. }
  destruct (connections_full _ _ _ C) as (F & SU & L1 & L2 & H1 & H2 & H3). exists F. split; [exact SU|]. intros (p & q & PQ) ONE.
  assert (LI : forall i f j, In (i, f, j) (links conn) <-> i <= j /\ exists g, interface F (i, f) (j, g)).
  { intros i f j. rewrite links_In. split; [intros [E X]; eauto|]. intros [X (g & I)]. split; [|exact X]. exact (H1 _ _ I). }
  destruct (mesh_back n names ending coord cs conn me mt N FC DL DN) as (text & W & R).
  - intros E. assert (X : fst p <= fst q \/ fst q <= fst p) by lia. destruct X as [X | X].
    + assert (I : In (fst p, snd p, fst q) (links conn)) by (apply links_In; split; [destruct p; exact (H1 _ _ PQ)|exact X]). rewrite E in I. destruct I.
    + apply interface_sym in PQ. assert (I : In (fst q, snd q, fst p) (links conn)) by (apply links_In; split; [destruct q; exact (H1 _ _ PQ)|exact X]). rewrite E in I. destruct I.
  - intros i f j I. apply links_In in I as [E X]. rewrite LC.
    assert (B : forall i f v, entry conn (i, f) = Some v -> i < n_cells blocks).
    { intros i' f' v E'. unfold entry in E'. cbn [fst snd] in E'. destruct (nth_error conn i') as [row|] eqn:RR; [|discriminate]. rewrite <- L1. apply nth_error_Some. congruence. }
    split; [eapply B, E|]. split; [|apply FM]. destruct (connections_symmetric _ _ _ _ _ _ C E) as (j' & E'). eapply B, E'.
  - intros i f f' j I I'. apply LI in I as [_ (g & I)]. apply LI in I' as [_ (g' & I')]. eapply ONE; eassumption.
  - exists (ending_last ending cs), (links conn), text. split; [apply ending_perm|]. split; [apply links_nodup|]. split; [exact LI|]. split; [exact W|]. exact R.
Qed.

(** ** Generated labels *)
Lemma upper_not x : is_upper x = true -> is_space x = false /\ is_digit x = false /\ Ascii.eqb x nl = false /\ Ascii.eqb "+" x = false.
Proof. destruct x as [[|] [|] [|] [|] [|] [|] [|] [|]]; vm_compute; intros H; repeat split; try reflexivity; discriminate H. Qed.
Lemma alnum_not x : (is_upper x || is_digit x)%bool = true -> is_space x = false /\ Ascii.eqb x nl = false.
Proof. destruct x as [[|] [|] [|] [|] [|] [|] [|] [|]]; vm_compute; intros H; repeat split; try reflexivity; discriminate H. Qed.
Theorem generated_labels m n ls : 5 <= n <= 9 -> (0 <= m <= capacity (Z.of_nat n))%Z -> labeler m (Some (Z.of_nat n)) = Ok ls ->
  NoDup ls /\ Forall (fun s => label_ok s = true /\ startswith $"+++" s = false /\ List.length s = n /\ plain_label s = true) ls.
Proof.
  intros N M L. destruct (labeler_good m (Z.of_nat n)) as (ls' & L' & _ & ND & G); [lia|exact M|]. rewrite L in L'. injection L' as <-. split; [exact ND|].
  eapply Forall_impl; [|exact G]. intros s (a & b & c & ds & -> & LEN & A & B & C & D).
  destruct (upper_not _ A) as (A1 & A2 & A3 & A4).
  assert (Al : forallb (fun x => is_upper x || is_digit x)%bool (a :: b :: c :: ds) = true).
  { cbn [forallb]. rewrite A. cbn [orb andb]. apply andb_true_iff. split; [|apply andb_true_iff; split].
    - destruct (is_upper b); [reflexivity|]. cbn [orb] in *. apply andb_true_iff in B. tauto.
    - destruct (is_upper c); [reflexivity|]. cbn [orb] in *. apply andb_true_iff in C. tauto.
    - rewrite forallb_forall in D |- *. intros x I. rewrite (D x I). apply orb_true_r. }
  rewrite forallb_forall in Al. split; [|split; [|split]].
  - unfold label_ok. apply andb_true_iff. split; [apply andb_true_iff; split; [reflexivity|]|].
    + unfold trimmed. rewrite A1. cbn [negb andb]. apply negb_true_iff. apply alnum_not. apply Al.
      destruct (exists_last (l := a :: b :: c :: ds)) as (l & z & E); [discriminate|]. rewrite E, last_last. apply in_app_iff. right. now left.
    + unfold one_line. apply forallb_forall. intros x I. apply negb_true_iff. now apply alnum_not, Al.
  - change ($"+++") with ["+"; "+"; "+"]%char. cbn [startswith]. now rewrite A4.
  - lia.
  - unfold plain_label. rewrite A2. cbn [negb]. rewrite andb_true_r. cbn [skipn]. cbn [List.length] in LEN. destruct ds as [|x [|y ds]]; try reflexivity. cbn [forallb skipn] in *. rewrite !andb_true_iff in D. tauto.
Qed.
