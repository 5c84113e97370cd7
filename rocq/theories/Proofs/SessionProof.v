(** Histories of calls on a mesh. *)
From Coq Require Import String Ascii Arith ZArith QArith Qcanon Bool Lia List.
From Verif Require Import Base.Str Model.Py Model.Numpy Model.Mesh Model.MeshOps Model.Grid Model.Geometry Model.Session
  Spec.Order Spec.MeshCells Spec.Extrude Spec.Prune Spec.Geometry Spec.Materials Spec.Session
  Proofs.NumpyProof Proofs.ReorderProof Proofs.MaterialProof Proofs.ExtrudeProof Proofs.PruneProof Proofs.VoxelProof Proofs.GeometryProof.
Import ListNotations.
Local Open Scope nat_scope.

(** ** Cells of blocks *)
Lemma typed_length cs : List.length (typed_cells cs) = list_sum (sizes cs).
Proof.
  unfold typed_cells, sizes. induction cs as [|b cs IH]; [reflexivity|]. cbn [flat_map map list_sum fold_right]. rewrite app_length, map_length. now rewrite IH.
Qed.
Lemma n_cells_typed cs : n_cells cs = List.length (typed_cells cs).
Proof. rewrite typed_length. reflexivity. Qed.
Lemma typed_in cs t c : In (t, c) (typed_cells cs) <-> exists rows, In (t, rows) cs /\ In c rows.
Proof.
  unfold typed_cells. rewrite in_flat_map. split.
  - intros ((t', rows) & I & J). apply in_map_iff in J as (c' & E & J). cbn [fst snd] in *. injection E as -> ->. now exists rows.
  - intros (rows & I & J). exists (t, rows). split; [exact I|]. cbn [fst snd]. apply in_map_iff. now exists c.
Qed.
Lemma F2_in_r {A B} (R : A -> B -> Prop) l l' b : Forall2 R l l' -> In b l' -> exists a, In a l /\ R a b.
Proof. induction 1 as [|x y l l' H F IH]; intros I; [destruct I|]. destruct I as [<- | I]; [exists x; split; [now left|exact H]|]. destruct (IH I) as (a & J & K). exists a. split; [now right|exact K]. Qed.
Lemma F3_in_r {A B C} (R : A -> B -> C -> Prop) l o l' c : Forall3 R l o l' -> In c l' -> exists a b, In a l /\ R a b c.
Proof. induction 1 as [|x y z l m n H F IH]; intros I; [destruct I|]. destruct I as [<- | I]; [exists x, y; split; [now left|exact H]|]. destruct (IH I) as (a & b & J & K). exists a, b. split; [now right|exact K]. Qed.
Lemma F2_fst {A B} (R : str * A -> str * B -> Prop) (l : list (str * A)) (l' : list (str * B)) :
  Forall2 (fun kv kv' => fst kv' = fst kv /\ R kv kv') l l' -> map fst l' = map fst l.
Proof. induction 1 as [|x y l l' (H & _) F IH]; [reflexivity|]. cbn [map]. now rewrite H, IH. Qed.
Lemma concat_length_sum {A} (ps : list (list A)) : List.length (concat ps) = list_sum (map (@List.length A) ps).
Proof. induction ps as [|p ps IH]; [reflexivity|]. cbn [concat map list_sum fold_right]. rewrite app_length. now rewrite IH. Qed.
Lemma pieces_index n size j : j < n * size -> exists i r, i < n /\ r < size /\ j = i * size + r.
Proof.
  intros L. assert (S : size <> 0) by (intros ->; lia). exists (j / size), (j mod size). split; [|split].
  - apply Nat.div_lt_upper_bound; [exact S|lia].
  - now apply Nat.mod_upper_bound.
  - rewrite Nat.mul_comm. now apply Nat.div_mod.
Qed.
Lemma nth_in_inv {A} (l : list A) x : In x l -> exists i, nth_error l i = Some x /\ i < List.length l.
Proof. intros I. apply In_nth_error in I as (i & E). exists i. split; [exact E|]. apply nth_error_Some. congruence. Qed.
Lemma nth_some {A} (l : list A) i : i < List.length l -> exists x, nth_error l i = Some x.
Proof. intros L. destruct (nth_error l i) as [x|] eqn:E; [eauto|]. apply nth_error_None in E. lia. Qed.

(** ** Dictionaries *)
Lemma put_in {B} k (x : B) d j y : In (j, y) (put k x d) -> (j = k /\ y = x) \/ In (j, y) d.
Proof.
  induction d as [|(k', z) d IH]; cbn [put]; intros I.
  - destruct I as [E | []]. injection E as -> ->. now left.
  - destruct (streqb k k').
    + destruct I as [E | I]; [injection E as -> ->; now left|right; now right].
    + destruct I as [E | I]; [right; left; exact E|]. destruct (IH I) as [H | H]; [now left|right; now right].
Qed.
Lemma put_key {B} k (x : B) d j : In j (map fst (put k x d)) -> j = k \/ In j (map fst d).
Proof.
  intros I. apply in_map_iff in I as ((j', y) & <- & I). apply put_in in I as [(-> & _) | I]; [now left|right]. apply in_map_iff. now exists (j', y).
Qed.
Lemma put_once {B} k (x : B) d : NoDup (map fst d) -> NoDup (map fst (put k x d)).
Proof.
  induction d as [|(k', z) d IH]; cbn [put map fst]; intros N; [constructor; [intros []|constructor]|]. apply NoDup_cons_iff in N as (N1 & N2).
  destruct (streqb k k') eqn:E; cbn [map fst].
  - apply streqb_eq in E. subst k'. now constructor.
  - constructor; [|now apply IH]. intros I. apply put_key in I as [-> | I]; [now rewrite streqb_refl in E|contradiction].
Qed.
Lemma update_once {B} (e : list (str * B)) : forall d, NoDup (map fst d) -> NoDup (map fst (update d e)).
Proof. unfold update. induction e as [|(k, x) e IH]; intros d N; [exact N|]. cbn [fold_left fst snd]. apply IH. now apply put_once. Qed.
Lemma value_in {B} k (x : B) d : value k d = Some x -> In (k, x) d.
Proof.
  induction d as [|(k', y) d IH]; cbn [value]; [discriminate|]. destruct (streqb k k') eqn:E; intros H.
  - apply streqb_eq in E. subst k'. injection H as ->. now left.
  - right. now apply IH.
Qed.
Lemma in_value {B} k (x : B) d : NoDup (map fst d) -> In (k, x) d -> value k d = Some x.
Proof.
  induction d as [|(k', y) d IH]; cbn [value map fst]; intros N I; [destruct I|]. apply NoDup_cons_iff in N as (N1 & N2). destruct I as [E | I].
  - injection E as -> ->. now rewrite streqb_refl.
  - destruct (streqb k k') eqn:E; [|now apply IH]. apply streqb_eq in E. subst k'. exfalso. apply N1. apply in_map_iff. now exists (k, x).
Qed.
Lemma value_F2 {A B} (R : A -> B -> Prop) (l : list (str * A)) (l' : list (str * B)) k v :
  Forall2 (fun kv kv' => fst kv' = fst kv /\ R (snd kv) (snd kv')) l l' -> value k l = Some v -> exists v', value k l' = Some v' /\ R v v'.
Proof.
  induction 1 as [|(k1, x) (k2, y) l l' (H1 & H2) F IH]; cbn [value fst snd] in *; [discriminate|]. subst k2.
  destruct (streqb k k1); intros E; [injection E as ->; now exists y|now apply IH].
Qed.

(** ** Materials *)
Lemma set_nth_all {A} (x : A) is : forall l, List.length (fold_left (fun d i => set_nth i x d) is l) = List.length l.
Proof. induction is as [|i is IH]; intros l; [reflexivity|]. cbn [fold_left]. rewrite IH. apply set_nth_length. Qed.
Lemma set_material_length name s st st' : set_material name s st = Ok st' -> List.length (fst st') = List.length (fst st).
Proof.
  destruct st as (data, field). unfold set_material. intros E. destruct (selected (List.length data) s) as [is|] eqn:S; cbn [bind] in E; [|discriminate].
  destruct s as [l|l|l]; [| |destruct is as [|i is]]; injection E as <-; cbn [fst fold_left]; rewrite ?set_nth_all, ?set_nth_length; reflexivity.
Qed.
(** What set_material does on a mesh. *)
Lemma assign_inv name s m m' : assign name s m = Ok m' -> m' = m \/ exists v i, List.length v = n_cells (cells m) /\
  m' = Mesh (dim m) (points m) (cells m) (point_data m) (put $"material" v (cell_data m)) (put name (i, 3%Z) (field_data m)).
Proof.
  unfold assign. cbv zeta. intros E. destruct (selected (n_cells (cells m)) s) as [is|]; cbn [bind] in E; [|discriminate].
  assert (G : m' = m \/ (let* data := assoc $"material" (cell_data m) in
      let* _ := guard (List.length data =? n_cells (cells m)) Unmodelled in
      let* data := mapM integer data in
      let* st := set_material name s (data, map (fun kv => (fst kv, fst (snd kv))) (field_data m)) in
      let* imat := assoc name (snd st) in
      let* m := add_cell_data $"material" (map of_integer (fst st)) m in
      Ok (Mesh (dim m) (points m) (cells m) (point_data m) (cell_data m) (put name (imat, 3%Z) (field_data m)))) = Ok m').
  { destruct s as [l|l|l]; auto. destruct is; auto. left. congruence. }
  clear E. destruct G as [G | G]; [now left|right].
  destruct (assoc $"material" (cell_data m)) as [data|]; cbn [bind] in G; [|discriminate].
  destruct (List.length data =? n_cells (cells m)); cbn [guard bind] in G; [|discriminate].
  destruct (mapM integer data) as [zs|]; cbn [bind] in G; [|discriminate].
  destruct (set_material name s _) as [st|]; cbn [bind] in G; [|discriminate].
  destruct (assoc name (snd st)) as [i|]; cbn [bind] in G; [|discriminate].
  unfold add_cell_data in G. destruct (List.length (map of_integer (fst st)) =? n_cells (cells m)) eqn:L; cbn [guard bind] in G; [|discriminate].
  apply Nat.eqb_eq in L. injection G as <-. cbn [dim points cells point_data cell_data field_data]. now exists (map of_integer (fst st)), i.
Qed.

(** ** Consistency *)
Lemma add_point_ok k v m m' : consistent m -> add_point_data k v m = Ok m' -> consistent m'.
Proof.
  intros [A B C D E (F1 & F2 & F3)] H. unfold add_point_data in H. destruct (List.length v =? List.length (points m)) eqn:L; cbn [guard bind] in H; [|discriminate].
  apply Nat.eqb_eq in L. injection H as <-. constructor; cbn [dim points cells point_data cell_data field_data]; auto.
  - intros j y I. apply put_in in I as [(-> & ->) | I]; eauto.
  - split; [now apply put_once|now split].
Qed.
Lemma add_cell_ok k v m m' : consistent m -> add_cell_data k v m = Ok m' -> consistent m'.
Proof.
  intros [A B C D E (F1 & F2 & F3)] H. unfold add_cell_data in H. destruct (List.length v =? n_cells (cells m)) eqn:L; cbn [guard bind] in H; [|discriminate].
  apply Nat.eqb_eq in L. rewrite n_cells_typed in L. injection H as <-. constructor; cbn [dim points cells point_data cell_data field_data]; auto.
  - intros j y I. apply put_in in I as [(-> & ->) | I]; eauto.
  - split; [assumption|split; [now apply put_once|assumption]].
Qed.
Lemma assign_ok name s m m' : consistent m -> assign name s m = Ok m' -> consistent m'.
Proof.
  intros K H. apply assign_inv in H as [-> | (v & i & L & ->)]; [exact K|]. destruct K as [A B C D E (F1 & F2 & F3)].
  rewrite n_cells_typed in L. constructor; cbn [dim points cells point_data cell_data field_data]; auto.
  - intros j y I. apply put_in in I as [(-> & ->) | I]; eauto.
  - split; [assumption|split; now apply put_once].
Qed.
Lemma extrude_consistent hs axis m m' : consistent m -> plane (cells m) -> extrude Qcplus Qc_eq_bool 0%Qc hs axis m = Ok m' -> consistent m'.
Proof.
  intros [A B C D E (F1 & F2 & F3)] P H. apply extrude_ok in H as (Ax & Dm & Lp & Pt & Cs & Pd & Cd & Fd); auto; [|apply Forall_forall; exact B].
  set (npts := List.length (points m)) in *. set (nh := List.length hs) in *. constructor.
  - intros N. rewrite N in Cs. inversion Cs as [X|]. now apply A.
  - intros q I. apply nth_in_inv in I as (j & Ej & L). rewrite Lp in L. apply pieces_index in L as (l & r & Hl & Hr & ->).
    destruct (nth_some (points m) r Hr) as (b & Eb). destruct (Pt l r b) as (q' & Eq & X); [lia|exact Eb|]. rewrite Ej in Eq. injection Eq as <-. rewrite Dm.
    destruct X as [(x & y & _ & ->) | (h & _ & _ & _ & Y & _)]; [destruct axis as [|[|axis]]; reflexivity|exact Y].
  - intros t c I. apply typed_in in I as (rows & I & J). destruct (F2_in_r _ _ _ _ Cs I) as ((t0, rows0) & I0 & (PR & Ls & Pr)). cbn [fst snd] in *.
    apply nth_in_inv in J as (j & Ej & L). rewrite Ls in L. apply pieces_index in L as (i & r & Hi & Hr & ->).
    destruct (nth_some rows0 r Hr) as (c0 & Ec). pose proof (Pr i r c0 Hi Ec) as X. rewrite Ej in X. injection X as ->.
    assert (I1 : In (t0, c0) (typed_cells (cells m))) by (apply typed_in; exists rows0; split; [exact I0|eapply nth_error_In; exact Ec]).
    destruct (C _ _ I1) as (HN & HB). split.
    + rewrite app_length, !map_length. inversion PR; subst; inversion HN as [Y Z|Y Z|Y Z|Y Z|Y Z|Y Z|Y Z|Y Z]; constructor.
    + intros n J. rewrite Lp. fold npts in HB. apply in_app_iff in J as [J | J]; apply in_map_iff in J as (n0 & <- & J); specialize (HB n0 J); nia.
  - intros k v I. destruct (F2_in_r _ _ _ _ Pd I) as ((k0, v0) & I0 & (_ & (L & _))). cbn [snd] in L. rewrite L, Lp. now rewrite (D _ _ I0).
  - intros k v I. destruct (F2_in_r _ _ _ _ Cd I) as ((k0, v0) & I0 & (_ & (ps & ps' & _ & _ & X & Y & _))). cbn [snd] in X. rewrite <- X, concat_length_sum, Y. symmetry. apply typed_length.
  - rewrite (F2_fst (fun kv kv' => repeats (nh + 1) (snd kv) (snd kv')) _ _ Pd), (F2_fst (fun kv kv' => snd kv' = (fst (snd kv), 3%Z)) _ _ Fd).
    split; [exact F1|]. split; [|exact F3]. erewrite (F2_fst _ _ _ Cd). exact F2.
Qed.
Lemma prune_dim (m m' : mesh Qc Qc) : prune qleb m = Ok m' -> dim m' = dim m.
Proof.
  unfold prune. cbv zeta. intros H. destruct (if _ <? _ then _ else _) as [((pts, pd), cs)|]; cbn [bind] in H; [|discriminate].
  destruct (mapM _ (cell_data m)) as [pieces|]; cbn [bind] in H; [|discriminate]. destruct (mapM _ cs) as [cs'|]; cbn [bind] in H; [|discriminate].
  destruct (mapM _ pieces) as [data'|]; cbn [bind] in H; [|discriminate]. injection H as <-. reflexivity.
Qed.
Lemma prune_consistent (m m' : mesh Qc Qc) : consistent m -> prune qleb m = Ok m' -> consistent m'.
Proof.
  intros [A B C D E (F1 & F2 & F3)] H. pose proof (prune_dim m m' H) as Dm. apply (prune_ok qleb qleb_order) in H as (Nd & Ip & (js & Pj & Pd) & orders & Cs & Cd & Fd); auto.
  assert (Q : Forall (fun kv : str * list Qc => List.length (snd kv) = List.length (points m)) (point_data m)) by (apply Forall_forall; intros (k, v) I; exact (D k v I)).
  pose proof (Pd Q) as Pd'. clear Pd Q.
  constructor.
  - intros N. rewrite N in Cs. inversion Cs as [X|]. now apply A.
  - intros q I. rewrite Dm. apply B. now apply Ip.
  - intros t c' I. apply typed_in in I as (rows' & I & J). destruct (F3_in_r _ _ _ _ _ Cs I) as ((t0, rows0) & is & I0 & (Et & (_ & _ & K & _))). cbn [fst snd] in *. subst t0.
    destruct (F2_in_r _ _ _ _ K J) as (i & _ & (c & Ec & X)). unfold corners in X.
    assert (I1 : In (t, c) (typed_cells (cells m))) by (apply typed_in; exists rows0; split; [exact I0|eapply nth_error_In; exact Ec]).
    destruct (C _ _ I1) as (HN & HB). split.
    + apply (f_equal (@List.length _)) in X. rewrite !map_length in X. now rewrite <- X.
    + intros n Jn. assert (Q : In (nth_error (points m') n) (map (nth_error (points m)) c)) by (rewrite X; now apply in_map).
      apply in_map_iff in Q as (n0 & Q & J0). apply nth_error_Some. rewrite <- Q. apply nth_error_Some. now apply HB.
  - intros k v I. destruct (F2_in_r _ _ _ _ Pd' I) as ((k0, v0) & I0 & (_ & L)). cbn [snd] in L. now rewrite (picked_len _ _ _ L), (picked_len _ _ _ Pj).
  - intros k v I. destruct (F2_in_r _ _ _ _ Cd I) as ((k0, v0) & I0 & (_ & (ps & ps' & _ & _ & X & Y & _))). cbn [snd] in X. rewrite <- X, concat_length_sum, Y. symmetry. apply typed_length.
  - rewrite (F2_fst (fun kv kv' => picked (snd kv) js (snd kv')) _ _ Pd'), Fd.
    split; [exact F1|]. split; [|exact F3]. erewrite (F2_fst _ _ _ Cd). exact F2.
Qed.

Lemma to_points_consistent (m m' : mesh Qc Qc) : consistent m -> cell_data_to_point_data m = Ok m' -> consistent m'.
Proof.
  intros [A B C D E (F1 & F2 & F3)] H. assert (X : dim m' = dim m /\ NoDup (map fst (point_data m')) /\ field_data m' = field_data m).
  { unfold cell_data_to_point_data in H. cbv zeta in H. destruct (volumes m); cbn [bind] in H; [|discriminate]. destruct (forallb _ _); cbn [guard bind] in H; [|discriminate].
    destruct (mapM _ (cell_data m)); cbn [bind] in H; [|discriminate]. injection H as <-. cbn [dim point_data field_data]. split; [reflexivity|]. split; [now apply update_once|reflexivity]. }
  destruct X as (X1 & X2 & X3). destruct (to_points m m' H F2) as (Hp & Hc & Hd & Ho & Hn). constructor; rewrite ?X1, ?Hp, ?Hc, ?Hd, ?X3; auto.
  - intros k v I. apply (in_value _ _ _ X2) in I. destruct (in_dec (list_eq_dec ascii_dec) k (map fst (cell_data m))) as [J | J].
    + apply in_map_iff in J as ((k', vals) & <- & J). cbn [fst] in *. destruct (Hn k' vals J) as (out & Eo & L & _). rewrite I in Eo. now injection Eo as ->.
    + rewrite Ho in I by exact J. apply (D k). now apply value_in.
  - intros k v [].
  - split; [exact X2|]. split; [constructor|exact F3].
Qed.
Lemma to_cells_consistent (m m' : mesh Qc Qc) : consistent m -> point_data_to_cell_data m = Ok m' -> consistent m'.
Proof.
  intros [A B C D E (F1 & F2 & F3)] H. assert (X : dim m' = dim m /\ NoDup (map fst (cell_data m')) /\ field_data m' = field_data m).
  { unfold point_data_to_cell_data in H. destruct (mapM _ (point_data m)); cbn [bind] in H; [|discriminate]. injection H as <-. cbn [dim cell_data field_data].
    split; [reflexivity|]. split; [now apply update_once|reflexivity]. }
  destruct X as (X1 & X2 & X3). destruct (to_cells m m' H F1) as (Hp & Hc & Hd & Ho & Hn). constructor; rewrite ?X1, ?Hp, ?Hc, ?Hd, ?X3; auto.
  - intros k v [].
  - intros k v I. apply (in_value _ _ _ X2) in I. destruct (in_dec (list_eq_dec ascii_dec) k (map fst (point_data m))) as [J | J].
    + apply in_map_iff in J as ((k', vals) & <- & J). cbn [fst] in *. destruct (Hn k' vals J) as (out & Eo & L & _). rewrite I in Eo. now injection Eo as ->.
    + rewrite Ho in I by exact J. apply (E k). now apply value_in.
  - split; [constructor|]. split; [exact X2|exact F3].
Qed.
Lemma step_consistent m o m' : consistent m -> match o with Extrude _ _ => plane (cells m) | _ => True end -> step m o = Ok m' -> consistent m'.
Proof.
  intros K P H. destruct o; cbn [step] in H; eauto using add_point_ok, add_cell_ok, assign_ok, extrude_consistent, prune_consistent, to_points_consistent, to_cells_consistent.
Qed.
Theorem run_consistent ops : forall m, consistent m -> allowed m ops -> consistent (run m ops).
Proof.
  induction ops as [|o ops IH]; intros m K A; [exact K|]. destruct A as (A1 & A2). unfold run. cbn [fold_left]. apply IH; [|exact A2].
  unfold after. destruct (step m o) as [m'|] eqn:E; [|exact K]. exact (step_consistent m o m' K A1 E).
Qed.

(** ** What succeeds *)
Lemma consistent_sound m : consistent m -> sound (dim m) (points m) (cells m).
Proof.
  intros [A B C D E F]. split; [exact B|]. intros (t, c) I. destruct (C t c I) as (HN & HB). split; [|exact HB]. intros N. cbn [snd] in N. rewrite N in HN. inversion HN.
Qed.
Theorem always_prune m : consistent m -> exists m', step m Prune = Ok m'.
Proof.
  intros [A B C D E F]. apply (prune_total qleb qleb_order); auto.
  - apply Forall_forall. intros (t, rows) I. apply Forall_forall. intros c J. apply Forall_forall. intros n N. apply (C t c); [|exact N]. apply typed_in. now exists rows.
  - apply Forall_forall. intros (k, v) I. now apply (D k).
  - apply Forall_forall. intros (k, v) I. cbn [snd]. rewrite n_cells_typed. now apply (E k).
Qed.
Theorem always_to_cells m : consistent m -> exists m', step m PointsToCells = Ok m'.
Proof. intros K. apply (to_cells_total m (dim m)); [now apply consistent_sound|]. destruct K as [A B C D E F]. exact D. Qed.
Theorem always_extrude m hs axis : consistent m -> dim m = 2 -> axis < 3 -> exists m', step m (Extrude hs axis) = Ok m'.
Proof.
  intros [A B C D E F] H L. apply extrude_total; auto. apply Forall_forall. intros (k, v) I. cbn [snd]. rewrite n_cells_typed. now apply (E k).
Qed.
Theorem added_cells m k v : (exists m', step m (AddCellData k v) = Ok m') <-> List.length v = List.length (typed_cells (cells m)).
Proof.
  cbn [step]. unfold add_cell_data. rewrite <- n_cells_typed. destruct (List.length v =? n_cells (cells m)) eqn:L; cbn [guard bind].
  - apply Nat.eqb_eq in L. split; [auto|eauto].
  - apply Nat.eqb_neq in L. split; [intros (m' & H); discriminate|contradiction].
Qed.
Theorem added_points m k v : (exists m', step m (AddPointData k v) = Ok m') <-> List.length v = List.length (points m).
Proof.
  cbn [step]. unfold add_point_data. destruct (List.length v =? List.length (points m)) eqn:L; cbn [guard bind].
  - apply Nat.eqb_eq in L. split; [auto|eauto].
  - apply Nat.eqb_neq in L. split; [intros (m' & H); discriminate|contradiction].
Qed.

(** ** Where cells and points come from *)
Definition traced (co po : list nat) (m m' : mesh Qc Qc) (wc wp : str -> Prop) : Prop :=
  types_follow co m m' /\ List.length po = List.length (points m') /\ Forall (fun i => i < List.length (points m)) po /\
  (forall k vals, ~ wc k -> value k (cell_data m) = Some vals -> exists out, value k (cell_data m') = Some out /\ picked vals co out) /\
  (forall k vals, ~ wp k -> value k (point_data m) = Some vals -> exists out, value k (point_data m') = Some out /\ picked vals po out).
Lemma picked_total {A} (l : list A) is : Forall (fun i => i < List.length l) is -> exists out, picked l is out.
Proof. induction 1 as [|i is L F (out & IH)]; [exists []; constructor|]. destruct (nth_some l i L) as (x & E). exists (x :: out). now constructor. Qed.
Lemma picked_comp {A} (l : list A) is m js n ks : picked l is m -> picked m js n -> picked is js ks -> picked l ks n.
Proof.
  intros P Q. revert ks. induction Q as [|j x js n E Q IH]; intros ks R; inversion R as [|? k ? ks' Ek R']; subst; constructor; [|now apply IH].
  rewrite <- (picked_nth l is m j k P Ek). exact E.
Qed.
Lemma picked_bound {A} (l : list A) is out : picked l is out -> Forall (fun i => i < List.length l) is.
Proof. induction 1 as [|i x is out E P IH]; constructor; [apply nth_error_Some; congruence|exact IH]. Qed.
Lemma becomes_trans a b c : becomes a b -> becomes b c -> becomes a c.
Proof. intros [-> | P] [-> | Q]; [now left|now right|now right|]. inversion P; subst; inversion Q. Qed.
Lemma picked_in {A} (l : list A) is out x : picked l is out -> In x out -> In x l.
Proof. intros P I. destruct (F2_in_r _ _ _ _ P I) as (i & _ & E). exact (nth_error_In _ _ E). Qed.
Lemma traced_trans co po co' po' m m1 m2 wc wp wc' wp' : traced co po m m1 wc wp -> traced co' po' m1 m2 wc' wp' ->
  exists co'' po'', traced co'' po'' m m2 (fun k => wc k \/ wc' k) (fun k => wp k \/ wp' k).
Proof.
  intros (T & L & B & C & P) (T' & L' & B' & C' & P').
  assert (Lc : List.length co = List.length (typed_cells (cells m1))) by (eapply Forall2_length; exact T).
  assert (Bc : Forall (fun i => i < List.length co) co').
  { rewrite Lc. clear - T'. unfold types_follow in T'. induction T' as [|i tc co' l (tc0 & E & _) F IH]; constructor; [apply nth_error_Some; congruence|exact IH]. }
  destruct (picked_total co co' Bc) as (co'' & Pc). rewrite <- L in B'. destruct (picked_total po po' B') as (po'' & Pp). exists co'', po''.
  split; [|split; [|split; [|split]]].
  - unfold types_follow in *. clear - T T' Pc. revert co'' Pc. induction T' as [|j tc co' l (tc1 & E & Q) F IH]; intros co'' Pc; inversion Pc as [|? k ? ks Ek Pc']; subst; constructor; [|now apply IH].
    clear - T E Q Ek. revert j tc1 E Q Ek. induction T as [|i tc0 co l (tc2 & E2 & Q2) F IH]; intros [|j] tc1 E Q Ek; cbn [nth_error] in *; try discriminate.
    + injection E as ->. injection Ek as ->. exists tc2. split; [exact E2|]. exact (becomes_trans _ _ _ Q2 Q).
    + exact (IH j tc1 E Q Ek).
  - now rewrite (picked_len _ _ _ Pp).
  - apply Forall_forall. intros i I. rewrite Forall_forall in B. apply B. exact (picked_in _ _ _ _ Pp I).
  - intros k vals N E. destruct (C k vals) as (out & Eo & Po); [tauto|exact E|]. destruct (C' k out) as (out' & Eo' & Po'); [tauto|exact Eo|].
    exists out'. split; [exact Eo'|]. exact (picked_comp _ _ _ _ _ _ Po Po' Pc).
  - intros k vals N E. destruct (P k vals) as (out & Eo & Po); [tauto|exact E|]. destruct (P' k out) as (out' & Eo' & Po'); [tauto|exact Eo|].
    exists out'. split; [exact Eo'|]. exact (picked_comp _ _ _ _ _ _ Po Po' Pp).
Qed.
Lemma follow_same (m : mesh Qc Qc) : Forall2 (fun i tc => exists tc0, nth_error (typed_cells (cells m)) i = Some tc0 /\ becomes (fst tc0) (fst tc))
  (seq 0 (List.length (typed_cells (cells m)))) (typed_cells (cells m)).
Proof. eapply Forall2_impl; [|apply picked_seq]. intros i tc E. exists tc. split; [exact E|now left]. Qed.
Lemma seq_bound n : Forall (fun i => i < n) (seq 0 n).
Proof. apply Forall_forall. intros i I. apply in_seq in I. lia. Qed.
(** Calls which leave cells and points. *)
Lemma traced_data m m' (wc wp : str -> Prop) : consistent m -> cells m' = cells m -> points m' = points m ->
  (forall k, ~ wc k -> value k (cell_data m') = value k (cell_data m)) -> (forall k, ~ wp k -> value k (point_data m') = value k (point_data m)) ->
  traced (seq 0 (List.length (typed_cells (cells m)))) (seq 0 (List.length (points m))) m m' wc wp.
Proof.
  intros K Hc Hp C P. split; [unfold types_follow; rewrite Hc; apply follow_same|]. split; [now rewrite seq_length, Hp|]. split; [apply seq_bound|]. split.
  - intros k vals N E. exists vals. rewrite C by exact N. split; [exact E|]. rewrite <- (right_cell_data m K k vals (value_in _ _ _ E)). apply picked_seq.
  - intros k vals N E. exists vals. rewrite P by exact N. split; [exact E|]. rewrite <- (right_point_data m K k vals (value_in _ _ _ E)). apply picked_seq.
Qed.
(** Positions in blocks put one after the other. *)
Fixpoint spread (off : nat) (szs : list nat) (os : list (list nat)) : list nat :=
  match szs, os with s :: szs, o :: os => map (Nat.add off) o ++ spread (off + s) szs os | _, _ => [] end.
Lemma picked_app {A} (l : list A) is is' a b : picked l is a -> picked l is' b -> picked l (is ++ is') (a ++ b).
Proof. intros P Q. induction P; cbn [app]; [exact Q|constructor; auto]. Qed.
Lemma picked_shift {A} (pre l post : list A) is out : picked l is out -> picked (pre ++ l ++ post) (map (Nat.add (List.length pre)) is) out.
Proof.
  intros P. unfold picked in *. induction P as [|i x is out E P IH]; cbn [map]; constructor; [|exact IH]. rewrite nth_error_app2 by lia.
  replace (List.length pre + i - List.length pre) with i by lia. rewrite nth_error_app1; [exact E|apply nth_error_Some; congruence].
Qed.
Lemma spread_picked {A} ps os ps' : Forall3 (@picked A) ps os ps' -> forall pre,
  picked (pre ++ concat ps) (spread (List.length pre) (map (@List.length A) ps) os) (concat ps').
Proof.
  induction 1 as [|p o p' ps os ps' H F IH]; intros pre; cbn [concat map spread]; [constructor|]. apply picked_app; [now apply picked_shift|].
  specialize (IH (pre ++ p)). rewrite <- app_assoc, app_length in IH. exact IH.
Qed.

(** Extruded. *)
Lemma repeats_tile {A} n (l out : list A) : repeats n l out -> picked l (tile n (seq 0 (List.length l))) out.
Proof.
  intros (L & H). assert (E : out = tile n l).
  { pose proof (tile_repeats n l) as (L' & H'). apply ReorderProof.nth_error_ext. intros j. destruct (Nat.lt_ge_cases j (n * List.length l)) as [B | B].
    - apply pieces_index in B as (i & r & Hi & Hr & ->). destruct (nth_some l r Hr) as (x & Ex). now rewrite (H i r x Hi Ex), (H' i r x Hi Ex).
    - transitivity (@None A); [|symmetry]; apply nth_error_None; lia. }
  rewrite E. unfold tile. clear. induction n as [|n IH]; cbn [repeat concat]; [constructor|]. apply picked_app; [apply picked_seq|exact IH].
Qed.
Definition layered (nh : nat) (szs : list nat) : list nat := spread 0 szs (map (fun s => tile nh (seq 0 s)) szs).
Lemma layered_picked {A} nh (ps ps' : list (list A)) : Forall2 (repeats nh) ps ps' -> picked (concat ps) (layered nh (map (@List.length A) ps)) (concat ps').
Proof.
  intros F. assert (G : Forall3 (@picked A) ps (map (fun s => tile nh (seq 0 s)) (map (@List.length A) ps)) ps').
  { induction F as [|p p' ps ps' H F IH]; cbn [map]; constructor; [now apply repeats_tile|exact IH]. }
  exact (spread_picked _ _ _ G []).
Qed.
(** The types of the cells, as an array of values. *)
Definition types (cs : list cellblock) : list (list str) := map (fun b => map (fun _ => fst b) (snd b)) cs.
Lemma types_concat cs : concat (types cs) = map fst (typed_cells cs).
Proof.
  unfold types, typed_cells. induction cs as [|b cs IH]; [reflexivity|]. cbn [map concat flat_map]. rewrite map_app, map_map, IH. reflexivity.
Qed.
Lemma types_sizes cs : map (@List.length str) (types cs) = sizes cs.
Proof. unfold types, sizes. rewrite map_map. apply map_ext. intros b. apply map_length. Qed.
Lemma types_from {B} (R : str -> str -> Prop) origin (l : list (str * B)) (l' : list (str * B)) ts : picked (map fst l) origin ts -> Forall2 R ts (map fst l') ->
  Forall2 (fun i tc => exists tc0, nth_error l i = Some tc0 /\ R (fst tc0) (fst tc)) origin l'.
Proof.
  intros P. revert l'. induction P as [|i t origin ts E P IH]; intros l' F; destruct l' as [|tc l']; inversion F as [|? ? ? ? H F']; subst; constructor; [|now apply IH].
  rewrite nth_error_map in E. destruct (nth_error l i) as [tc0|]; [|discriminate]. injection E as <-. now exists tc0.
Qed.
Lemma F2_concat {A B} (R : A -> B -> Prop) l l' : Forall2 (Forall2 R) l l' -> Forall2 R (concat l) (concat l').
Proof. induction 1 as [|a b l l' H F IH]; cbn [concat]; [constructor|]. now apply Forall2_app. Qed.
Lemma constant_map {A B C} (R : B -> C -> Prop) (b : B) (c : C) (l : list A) (l' : list A) : R b c -> List.length l = List.length l' ->
  Forall2 R (map (fun _ => b) l) (map (fun _ => c) l').
Proof. intros H. revert l'. induction l as [|x l IH]; intros [|y l'] L; try discriminate; cbn [map]; constructor; [exact H|]. apply IH. now injection L. Qed.
Lemma tile_constant {A B} n (b : B) (l : list A) : tile n (map (fun _ => b) l) = map (fun _ => b) (tile n l).
Proof. unfold tile. induction n as [|n IH]; [reflexivity|]. cbn [repeat concat]. now rewrite map_app, IH. Qed.
Lemma extrude_types npts nh cs cs' : Forall2 (prisms_over npts nh) cs cs' ->
  Forall2 (fun i tc => exists tc0, nth_error (typed_cells cs) i = Some tc0 /\ becomes (fst tc0) (fst tc)) (layered nh (sizes cs)) (typed_cells cs').
Proof.
  intros F. apply (types_from becomes) with (ts := concat (map (tile nh) (types cs))).
  - rewrite <- types_concat, <- types_sizes. apply layered_picked. generalize (types cs). clear. intros l. induction l as [|x l IH]; constructor; [apply tile_repeats|exact IH].
  - rewrite <- types_concat. apply F2_concat. induction F as [|b b' cs cs' (H1 & H2 & _) F IH]; cbn [types map]; constructor; [|exact IH].
    rewrite tile_constant. apply constant_map; [now right|]. rewrite H2. exact (proj1 (tile_repeats nh (snd b))).
Qed.
Lemma extrude_traced hs axis m m' : consistent m -> plane (cells m) -> extrude Qcplus Qc_eq_bool 0%Qc hs axis m = Ok m' ->
  exists co po, traced co po m m' (fun _ => False) (fun _ => False).
Proof.
  intros [A B C D E (F1 & F2 & F3)] P H. apply extrude_ok in H as (Ax & Dm & Lp & Pt & Cs & Pd & Cd & Fd); auto; [|apply Forall_forall; exact B].
  set (npts := List.length (points m)) in *. set (nh := List.length hs) in *.
  exists (layered nh (sizes (cells m))), (tile (nh + 1) (seq 0 npts)). split; [|split; [|split; [|split]]].
  - exact (extrude_types npts nh _ _ Cs).
  - rewrite (proj1 (tile_repeats _ _)), seq_length. now rewrite Lp.
  - apply Forall_forall. intros i I. unfold tile in I. apply in_concat in I as (l & I & J). apply repeat_spec in I. subst l. apply in_seq in J. fold npts. lia.
  - intros k vals _ V. destruct (value_F2 (fun v v' => exists ps ps', concat ps = v /\ map (@List.length Qc) ps = sizes (cells m) /\
      concat ps' = v' /\ map (@List.length Qc) ps' = sizes (cells m') /\ Forall2 (repeats nh) ps ps') _ _ k vals Cd V) as (out & Eo & ps & ps' & <- & Es & <- & _ & R).
    exists (concat ps'). split; [exact Eo|]. rewrite <- Es. now apply layered_picked.
  - intros k vals _ V. destruct (value_F2 (repeats (nh + 1)) _ _ k vals Pd V) as (out & Eo & R). exists out. split; [exact Eo|].
    replace npts with (List.length vals) by (apply (D k); now apply value_in). now apply repeats_tile.
Qed.
Lemma prune_types {C} (pts pts' : list (list C)) cs orders cs' :
  Forall3 (fun b is b' => fst b' = fst b /\ kept_cells pts pts' (snd b) is (snd b')) cs orders cs' ->
  Forall2 (fun i tc => exists tc0, nth_error (typed_cells cs) i = Some tc0 /\ becomes (fst tc0) (fst tc)) (spread 0 (sizes cs) orders) (typed_cells cs').
Proof.
  intros F. apply (types_from becomes) with (ts := map fst (typed_cells cs')).
  - rewrite <- !types_concat, <- types_sizes.
    assert (G : Forall3 (@picked str) (types cs) orders (types cs')).
    { induction F as [|b is b' cs orders cs' (H1 & (_ & _ & H2 & _)) F IH]; cbn [types map]; constructor; [|exact IH].
      rewrite H1. generalize (fst b). intros t. clear - H2. unfold picked. induction H2 as [|i c' is l (c & E & _) F IH]; cbn [map]; constructor; [|exact IH].
      rewrite nth_error_map, E. reflexivity. }
    exact (spread_picked _ _ _ G []).
  - generalize (map fst (typed_cells cs')). clear. intros l. induction l; constructor; [now left|assumption].
Qed.
Lemma prune_traced (m m' : mesh Qc Qc) : consistent m -> prune qleb m = Ok m' -> exists co po, traced co po m m' (fun _ => False) (fun _ => False).
Proof.
  intros [A B C D E (F1 & F2 & F3)] H. apply (prune_ok qleb qleb_order) in H as (Nd & Ip & (js & Pj & Pd) & orders & Cs & Cd & Fd); auto.
  assert (Q : Forall (fun kv : str * list Qc => List.length (snd kv) = List.length (points m)) (point_data m)) by (apply Forall_forall; intros (k, v) I; exact (D k v I)).
  pose proof (Pd Q) as Pd'. clear Pd Q. exists (spread 0 (sizes (cells m)) orders), js. split; [|split; [|split; [|split]]].
  - exact (prune_types _ _ _ _ _ Cs).
  - symmetry. exact (picked_len _ _ _ Pj).
  - exact (picked_bound _ _ _ Pj).
  - intros k vals _ V. destruct (value_F2 (fun v v' => exists ps ps', concat ps = v /\ map (@List.length Qc) ps = sizes (cells m) /\
      concat ps' = v' /\ map (@List.length Qc) ps' = sizes (cells m') /\ Forall3 picked ps orders ps') _ _ k vals Cd V) as (out & Eo & ps & ps' & <- & Es & <- & _ & R).
    exists (concat ps'). split; [exact Eo|]. rewrite <- Es. exact (spread_picked _ _ _ R []).
  - intros k vals _ V. destruct (value_F2 (fun v v' => picked v js v') _ _ k vals Pd' V) as (out & Eo & R). now exists out.
Qed.
Lemma step_traced m o m' : consistent m -> match o with Extrude _ _ => plane (cells m) | _ => True end -> step m o = Ok m' ->
  exists co po, traced co po m m' (writes_cells o) (writes_points o).
Proof.
  intros K A H. destruct o as [k v|k v|name s|hs axis| | |]; cbn [step writes_cells writes_points] in *.
  - unfold add_point_data in H. destruct (_ =? _); cbn [guard bind] in H; [|discriminate]. injection H as <-. eexists _, _. apply traced_data; auto.
    cbn [point_data]. intros j N. rewrite value_put. destruct (streqb j k) eqn:X; [|reflexivity]. apply streqb_eq in X. contradiction.
  - unfold add_cell_data in H. destruct (_ =? _); cbn [guard bind] in H; [|discriminate]. injection H as <-. eexists _, _. apply traced_data; auto.
    cbn [cell_data]. intros j N. rewrite value_put. destruct (streqb j k) eqn:X; [|reflexivity]. apply streqb_eq in X. contradiction.
  - apply assign_inv in H as [-> | (v & i & _ & ->)]; eexists _, _; apply traced_data; auto.
    cbn [cell_data]. intros j N. rewrite value_put. destruct (streqb j $"material") eqn:X; [|reflexivity]. apply streqb_eq in X. contradiction.
  - exact (extrude_traced hs axis m m' K A H).
  - exact (prune_traced m m' K H).
  - destruct (to_points m m' H) as (Hp & Hc & _); [apply (names_once m K)|]. eexists _, _. apply traced_data; auto; intros k N; exfalso; now apply N.
  - destruct (to_cells m m' H) as (Hp & Hc & _); [apply (names_once m K)|]. eexists _, _. apply traced_data; auto; intros k N; exfalso; now apply N.
Qed.
Lemma run_traced ops : forall m, consistent m -> allowed m ops -> exists co po,
  traced co po m (run m ops) (fun k => Exists (fun o => writes_cells o k) ops) (fun k => Exists (fun o => writes_points o k) ops).
Proof.
  induction ops as [|o ops IH]; intros m K A.
  - eexists _, _. apply traced_data; auto.
  - destruct A as (A1 & A2). assert (S : consistent (after m o) /\ exists co po, traced co po m (after m o) (writes_cells o) (writes_points o)).
    { unfold after. destruct (step m o) as [m'|] eqn:E; [split; [exact (step_consistent m o m' K A1 E)|exact (step_traced m o m' K A1 E)]|].
      split; [exact K|]. eexists _, _. apply traced_data; auto. }
    destruct S as (K1 & co & po & T). destruct (IH (after m o) K1 A2) as (co' & po' & T'). destruct (traced_trans _ _ _ _ _ _ _ _ _ _ _ T T') as (co'' & po'' & (U1 & U2 & U3 & U4 & U5)).
    exists co'', po''. unfold run in *. cbn [fold_left]. split; [exact U1|]. split; [exact U2|]. split; [exact U3|]. split.
    + intros k vals N. apply U4. intros [W | W]; apply N; [now left|now right].
    + intros k vals N. apply U5. intros [W | W]; apply N; [now left|now right].
Qed.
Theorem run_follows ops m : consistent m -> allowed m ops -> exists co po,
  types_follow co m (run m ops) /\ List.length po = List.length (points (run m ops)) /\ Forall (fun i => i < List.length (points m)) po /\
  (forall k vals, value k (cell_data m) = Some vals -> Forall (fun o => ~ writes_cells o k) ops ->
     exists out, value k (cell_data (run m ops)) = Some out /\ picked vals co out) /\
  (forall k vals, value k (point_data m) = Some vals -> Forall (fun o => ~ writes_points o k) ops ->
     exists out, value k (point_data (run m ops)) = Some out /\ picked vals po out).
Proof.
  intros K A. destruct (run_traced ops m K A) as (co & po & (U1 & U2 & U3 & U4 & U5)). exists co, po. split; [exact U1|]. split; [exact U2|]. split; [exact U3|]. split.
  - intros k vals V F. apply U4; [|exact V]. intros X. rewrite Forall_forall in F. apply Exists_exists in X as (o & I & W). exact (F o I W).
  - intros k vals V F. apply U5; [|exact V]. intros X. rewrite Forall_forall in F. apply Exists_exists in X as (o & I & W). exact (F o I W).
Qed.

(** ** Materials after assignments *)
Lemma integer_of z : integer (of_integer z) = Ok z.
Proof.
  unfold integer, of_integer. assert (E : this (Q2Qc (inject_Z z)) = inject_Z z).
  { change (Qred (inject_Z z) = inject_Z z). apply Qred_identity. unfold inject_Z. cbn [Qnum Qden]. apply Z.gcd_1_r. }
  rewrite E. reflexivity.
Qed.
Lemma integers_of zs : mapM integer (map of_integer zs) = Ok zs.
Proof. induction zs as [|z zs IH]; [reflexivity|]. cbn [map mapM]. rewrite integer_of. cbn [bind]. rewrite IH. reflexivity. Qed.
Lemma of_integers data zs : mapM integer data = Ok zs -> data = map of_integer zs.
Proof.
  revert zs. induction data as [|x data IH]; intros zs H; cbn [mapM] in H; [injection H as <-; reflexivity|].
  destruct (integer x) as [z|] eqn:E; cbn [bind] in H; [|discriminate]. destruct (mapM integer data) as [zs'|]; cbn [bind] in H; [|discriminate].
  injection H as <-. cbn [map]. rewrite <- (IH zs' eq_refl). f_equal. unfold integer in E. destruct (Pos.eqb (Qden (this x)) 1) eqn:D; [|discriminate].
  injection E as <-. apply Pos.eqb_eq in D. apply Qc_is_canon. unfold of_integer. change (this (Q2Qc (inject_Z (Qnum (this x))))) with (Qred (inject_Z (Qnum (this x)))). rewrite Qred_correct. destruct x as ((a, b), c). cbn [this Qnum Qden] in *. now subst b.
Qed.
Definition numbers (f : list (str * (Z * Z))) : list (str * Z) := map (fun kv => (fst kv, fst (snd kv))) f.
Lemma numbers_put name i f : numbers (put name (i, 3%Z) f) = field_set name i (numbers f).
Proof.
  unfold numbers. induction f as [|(k, v) f IH]; [reflexivity|]. cbn [put map fst snd field_set]. destruct (streqb name k) eqn:E; cbn [map fst snd].
  - apply streqb_eq in E. now subst k.
  - now rewrite IH.
Qed.
Lemma assoc_field_set name i f : assoc name (field_set name i f) = Ok i.
Proof. induction f as [|(k, v) f IH]; cbn [field_set assoc]; [now rewrite streqb_refl|]. destruct (streqb name k) eqn:E; cbn [assoc]; now rewrite E. Qed.
Lemma assoc_value {B} k (d : list (str * B)) x : value k d = Some x -> assoc k d = Ok x.
Proof. induction d as [|(k', y) d IH]; cbn [value assoc]; [discriminate|]. destruct (streqb k k'); [intros E; now injection E as ->|exact IH]. Qed.
Lemma value_assoc {B} k (d : list (str * B)) x : assoc k d = Ok x -> value k d = Some x.
Proof. induction d as [|(k', y) d IH]; cbn [value assoc]; [discriminate|]. destruct (streqb k k'); [intros E; now injection E as ->|exact IH]. Qed.
Lemma assign_refines name s m zs st : value $"material" (cell_data m) = Some (map of_integer zs) -> List.length zs = n_cells (cells m) ->
  set_material name s (zs, numbers (field_data m)) = Ok st ->
  exists m', assign name s m = Ok m' /\ value $"material" (cell_data m') = Some (map of_integer (fst st)) /\ cells m' = cells m /\ numbers (field_data m') = snd st.
Proof.
  intros V L S. pose proof (set_material_length _ _ _ _ S) as Ls. cbn [fst] in Ls. pose proof S as S0. unfold set_material in S0.
  unfold assign. cbv zeta. rewrite <- L. destruct (selected (List.length zs) s) as [is|] eqn:SE; cbn [bind] in S0 |- *; [|discriminate].
  assert (G : (let* data := assoc $"material" (cell_data m) in
      let* _ := guard (List.length data =? List.length zs) Unmodelled in
      let* data := mapM integer data in
      let* st := set_material name s (data, map (fun kv => (fst kv, fst (snd kv))) (field_data m)) in
      let* imat := assoc name (snd st) in
      let* m := add_cell_data $"material" (map of_integer (fst st)) m in
      Ok (Mesh (dim m) (points m) (cells m) (point_data m) (cell_data m) (put name (imat, 3%Z) (field_data m)))) =
    (let* imat := assoc name (snd st) in
     Ok (Mesh (dim m) (points m) (cells m) (point_data m) (put $"material" (map of_integer (fst st)) (cell_data m)) (put name (imat, 3%Z) (field_data m))))).
  { rewrite (assoc_value _ _ _ V). cbn [bind]. rewrite map_length, Nat.eqb_refl. cbn [guard bind]. rewrite integers_of. cbn [bind]. fold (numbers (field_data m)). rewrite S. cbn [bind].
    destruct (assoc name (snd st)) as [i|]; cbn [bind]; [|reflexivity]. unfold add_cell_data. rewrite map_length, Ls, L, Nat.eqb_refl. reflexivity. }
  assert (W : (match s, is with NpBools _, [] => False | _, _ => True end) \/ (st = (zs, numbers (field_data m)) /\ match s, is with NpBools _, [] => True | _, _ => False end)).
  { destruct s as [l|l|l]; auto. destruct is; auto. right. split; [congruence|exact I]. }
  destruct W as [W | (-> & W)].
  - assert (S1 : exists i, snd st = field_set name i (numbers (field_data m))).
    { destruct s as [l|l|l]; [| |destruct is as [|a is]; [destruct W|]]; injection S0 as <-; cbn [snd]; eauto. }
    destruct S1 as (i & S1). rewrite S1, assoc_field_set in G. cbn [bind] in G.
    exists (Mesh (dim m) (points m) (cells m) (point_data m) (put $"material" (map of_integer (fst st)) (cell_data m)) (put name (i, 3%Z) (field_data m))).
    split; [|cbn [cell_data cells field_data]; split; [now rewrite value_put, streqb_refl|split; [reflexivity|now rewrite numbers_put]]].
    destruct s as [l|l|l]; [exact G|exact G|]. destruct is; [destruct W|exact G].
  - exists m. destruct s as [l|l|l]; try destruct W. destruct is; [|destruct W]. auto.
Qed.
Theorem run_materials m before calls after : consistent m -> typed_cells (cells m) <> [] -> NoDup (map (fun kv => fst (snd kv)) (field_data m)) ->
  value $"material" (cell_data m) <> None ->
  mesh_materials m = Ok (Names before) -> history (map fst (field_data m)) before calls after ->
  mesh_materials (run m (map (fun c => SetMaterial (fst c) (snd c)) calls)) = Ok (Names after).
Proof.
  intros K NE N2 V M H. unfold mesh_materials in M. destruct (value $"material" (cell_data m)) as [data|] eqn:E; [|congruence]. rewrite (assoc_value _ _ _ E) in M.
  destruct (mapM integer data) as [zs|] eqn:Z; cbn [bind] in M; [|discriminate]. apply of_integers in Z. subst data. fold (numbers (field_data m)) in M. injection M as M.
  assert (L : List.length zs = n_cells (cells m)).
  { rewrite n_cells_typed, <- (right_cell_data m K _ _ (value_in _ _ _ E)). symmetry. apply map_length. }
  destruct (materials_follow zs (numbers (field_data m)) before calls after) as (st & R & S); auto.
  - unfold numbers. rewrite map_map. cbn [fst]. apply (names_once m K).
  - unfold numbers. rewrite map_map. exact N2.
  - intros ->. apply NE. apply length_zero_iff_nil. rewrite <- n_cells_typed, <- L. reflexivity.
  - unfold numbers. rewrite map_map. exact H.
  - clear M H K NE N2 V. revert m zs E L R. induction calls as [|(name, s) calls IH]; intros m zs E L R.
    + cbn [foldM] in R. injection R as <-. unfold run. cbn [map fold_left]. unfold mesh_materials. rewrite (assoc_value _ _ _ E), integers_of. cbn [bind]. fold (numbers (field_data m)). now rewrite S.
    + cbn [foldM fst snd] in R. destruct (set_material name s (zs, numbers (field_data m))) as [st1|] eqn:S1; cbn [bind] in R; [|discriminate].
      destruct (assign_refines name s m zs st1 E L S1) as (m1 & A1 & A2 & A3 & A4). unfold run. cbn [map fold_left fst snd].
      assert (F : Session.after m (SetMaterial name s) = m1) by (unfold Session.after; cbn [step]; now rewrite A1). rewrite F.
      apply (IH m1 (fst st1)); [exact A2| |].
      * rewrite A3, <- L. exact (set_material_length _ _ _ _ S1).
      * rewrite A4. destruct st1. exact R.
Qed.
Theorem stored m k v m' :
  (step m (AddCellData k v) = Ok m' -> value k (cell_data m') = Some v /\ (forall j, j <> k -> value j (cell_data m') = value j (cell_data m)) /\
     cells m' = cells m /\ points m' = points m /\ point_data m' = point_data m) /\
  (step m (AddPointData k v) = Ok m' -> value k (point_data m') = Some v /\ (forall j, j <> k -> value j (point_data m') = value j (point_data m)) /\
     cells m' = cells m /\ points m' = points m /\ cell_data m' = cell_data m).
Proof.
  assert (G : forall (d : list (str * list Qc)) j, j <> k -> value j (put k v d) = value j d).
  { intros d j N. rewrite value_put. destruct (streqb j k) eqn:X; [|reflexivity]. apply streqb_eq in X. contradiction. }
  cbn [step]. unfold add_cell_data, add_point_data. split; intros H; (destruct (_ =? _); cbn [guard bind] in H; [|discriminate]); injection H as <-; cbn [cell_data point_data cells points];
    (split; [now rewrite value_put, streqb_refl|]); auto.
Qed.
Theorem no_materials m : value $"material" (cell_data m) = None -> exists l, mesh_materials m = Ok (Numbers l) /\
  List.length l = list_sum (map (fun b => List.length (snd b)) (cells m)) /\ Forall (fun z => z = 1%Z) l.
Proof.
  intros N. unfold mesh_materials. exists (repeat 1%Z (n_cells (cells m))). split; [|split].
  - destruct (assoc $"material" (cell_data m)) eqn:E; [|reflexivity]. exfalso. apply value_assoc in E. congruence.
  - rewrite repeat_length. unfold n_cells. reflexivity.
  - apply Forall_forall. intros z I. now apply repeat_spec in I.
Qed.
