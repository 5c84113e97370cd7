(** Structured grids. *)
From Coq Require Import String Ascii Arith ZArith Bool Lia List.
From Verif Require Import Base.Str Model.Py Model.Numpy Model.Mesh Model.MeshOps Model.Grid Spec.Extrude Spec.Grid
  Proofs.ExtrudeProof Proofs.PruneProof.
Import ListNotations.
Local Open Scope nat_scope.

Lemma mapM_eq {A B} (f : A -> res B) (g : A -> B) l : (forall x, In x l -> f x = Ok (g x)) -> mapM f l = Ok (map g l).
Proof. induction l as [|a l IH]; intros H; [reflexivity|]. cbn [mapM map]. rewrite (H a (or_introl eq_refl)). cbn [bind]. rewrite IH; [reflexivity|]. intros x I. apply H. now right. Qed.

(** ** Lists of lists of one length *)
Lemma flat_nth {A B} n (f : A -> list B) xs i r : (forall x, In x xs -> List.length (f x) = n) -> r < n ->
  nth_error (flat_map f xs) (i * n + r) = match nth_error xs i with Some x => nth_error (f x) r | None => None end.
Proof.
  intros L R. rewrite flat_map_concat_map, (concat_nth n); [|rewrite Forall_map; now apply Forall_forall|exact R].
  rewrite nth_error_map. destruct (nth_error xs i); reflexivity.
Qed.
Lemma flat_len {A B} n (f : A -> list B) xs : (forall x, In x xs -> List.length (f x) = n) -> List.length (flat_map f xs) = List.length xs * n.
Proof. induction xs as [|x xs IH]; intros L; [reflexivity|]. cbn [flat_map List.length Nat.mul]. rewrite app_length, L, IH; [reflexivity| |now left]. intros y I. apply L. now right. Qed.
Lemma flat_flat {A B C} (g : A -> B -> list C) xs ys : flat_map (fun x => flat_map (g x) ys) xs = concat (flat_map (fun x => map (g x) ys) xs).
Proof. induction xs as [|x xs IH]; [reflexivity|]. cbn [flat_map]. rewrite concat_app, <- IH, flat_map_concat_map. reflexivity. Qed.
Lemma map_flat {A B C} (h : B -> C) (f : A -> list B) xs : map h (flat_map f xs) = flat_map (fun x => map h (f x)) xs.
Proof. induction xs as [|x xs IH]; [reflexivity|]. cbn [flat_map]. now rewrite map_app, IH. Qed.
Lemma rev_concat {A} (bs : list (list A)) : rev (concat bs) = concat (map (@rev A) (rev bs)).
Proof. induction bs as [|b bs IH]; [reflexivity|]. cbn [concat rev]. rewrite rev_app_distr, IH, map_app, concat_app. cbn. now rewrite app_nil_r. Qed.

(** ** Reversing slices *)
Lemma reverse_slice_blocks {A} n (done todo : list (list A)) b : Forall (fun l => List.length l = n) done -> List.length b = n ->
  reverse_slice n (concat (done ++ b :: todo)) (List.length done) = concat ((done ++ [rev b]) ++ todo).
Proof.
  intros D B. unfold reverse_slice. rewrite !concat_app. cbn [concat]. rewrite app_nil_r, <- app_assoc.
  assert (LD : List.length (concat done) = List.length done * n). { clear -D. induction D; [reflexivity|]. cbn [concat List.length Nat.mul]. rewrite app_length. lia. }
  f_equal; [|f_equal].
  - rewrite firstn_app, <- LD, firstn_all, Nat.sub_diag. cbn [firstn]. apply app_nil_r.
  - f_equal. rewrite skipn_app, <- LD, skipn_all, Nat.sub_diag. cbn [skipn app]. rewrite firstn_app, <- B, firstn_all, Nat.sub_diag. cbn [firstn]. apply app_nil_r.
  - rewrite app_assoc, skipn_app. rewrite skipn_all2 by (rewrite app_length; lia). cbn [app]. rewrite app_length. replace (_ - _) with 0 by lia. reflexivity.
Qed.
Lemma reverse_slices_blocks {A} n (bs : list (list A)) : Forall (fun l => List.length l = n) bs ->
  reverse_slices (List.length bs) n (concat bs) = concat (map (@rev A) bs).
Proof.
  intros H. unfold reverse_slices.
  assert (G : forall todo done, Forall (fun l => List.length l = n) done -> Forall (fun l => List.length l = n) todo ->
    fold_left (reverse_slice n) (seq (List.length done) (List.length todo)) (concat (done ++ todo)) = concat (done ++ map (@rev A) todo)).
  { induction todo as [|b todo IH]; intros done D T; [now rewrite !app_nil_r|]. inversion T as [|? ? B T']; subst. cbn [List.length seq fold_left map].
    rewrite (reverse_slice_blocks (List.length b)); auto. specialize (IH (done ++ [rev b])). rewrite app_length in IH. cbn [List.length] in IH.
    replace (List.length done + 1) with (S (List.length done)) in IH by lia. rewrite IH; auto.
    - now rewrite <- app_assoc.
    - apply Forall_app. split; [exact D|]. constructor; [apply rev_length|constructor]. }
  apply (G bs []); [constructor|exact H].
Qed.

(** ** Nodes *)
Definition node3 (layer : bool) (a b c i j k : nat) : nat := if layer then (k * b + j) * a + i else (i * b + j) * c + k.
Lemma ravel3 layer a b c i j k : i < a -> j < b -> k < c -> ravel layer [i; j; k] [a; b; c] = Ok (node3 layer a b c i j k).
Proof.
  intros A B C. unfold ravel, node3. destruct layer; cbn [rev app ravel_C Nat.mul Nat.add];
    repeat (match goal with |- context [?x <? ?y] => replace (x <? y) with true by (symmetry; apply Nat.ltb_lt; assumption) end; cbn [guard bind]); f_equal; lia.
Qed.
Lemma triples_nth {A} layer (xs ys zs : list A) i j k x y z : nth_error xs i = Some x -> nth_error ys j = Some y -> nth_error zs k = Some z ->
  nth_error (triples layer xs ys zs) (node3 layer (List.length xs) (List.length ys) (List.length zs) i j k) = Some [x; y; z].
Proof.
  intros X Y Z. unfold triples, node3. pose proof (nth_lt _ _ _ X). pose proof (nth_lt _ _ _ Y). pose proof (nth_lt _ _ _ Z). destruct layer.
  - replace ((k * List.length ys + j) * List.length xs + i) with (k * (List.length ys * List.length xs) + (j * List.length xs + i)) by lia.
    rewrite (flat_nth (List.length ys * List.length xs)); [|intros; rewrite (flat_len (List.length xs)); [reflexivity|intros; apply map_length]|nia].
    rewrite Z, (flat_nth (List.length xs)); [|intros; apply map_length|assumption]. rewrite Y, nth_error_map, X. reflexivity.
  - replace ((i * List.length ys + j) * List.length zs + k) with (i * (List.length ys * List.length zs) + (j * List.length zs + k)) by lia.
    rewrite (flat_nth (List.length ys * List.length zs)); [|intros; rewrite (flat_len (List.length zs)); [reflexivity|intros; apply map_length]|nia].
    rewrite X, (flat_nth (List.length zs)); [|intros; apply map_length|assumption]. rewrite Y, nth_error_map, Z. reflexivity.
Qed.
Lemma triples_In {A} layer (xs ys zs : list A) p : In p (triples layer xs ys zs) -> exists x y z, p = [x; y; z] /\ In x xs /\ In y ys /\ In z zs.
Proof.
  unfold triples. destruct layer; intros I; apply in_flat_map in I as (a & IA & I); apply in_flat_map in I as (b & IB & I); apply in_map_iff in I as (c & <- & IC); eauto 8.
Qed.
Definition cell3 (layer : bool) (nx ny nz i j k : nat) : list nat :=
  map (fun v => match v with [a; b; c] => node3 layer (nx + 1) (ny + 1) (nz + 1) a b c | _ => 0 end) (vertices3 i j k).
Definition cell3l (layer : bool) (nx ny nz : nat) (ijk : list nat) : list nat := match ijk with [i; j; k] => cell3 layer nx ny nz i j k | _ => [] end.
Lemma seq_nth_error n i : i < n -> nth_error (seq 0 n) i = Some i.
Proof. intros H. rewrite nth_error_nth' with (d := 0) by (rewrite seq_length; exact H). now rewrite seq_nth. Qed.
Lemma rev_nth_error {A} (l : list A) k x : nth_error l k = Some x -> nth_error (rev l) (List.length l - 1 - k) = Some x.
Proof.
  intros E. pose proof (nth_lt _ _ _ E) as L. rewrite (nth_error_nth' _ x) by (rewrite rev_length; lia). rewrite rev_nth by lia.
  replace (List.length l - S (List.length l - 1 - k)) with k by lia. now rewrite (nth_error_nth _ _ _ E).
Qed.
Lemma grid_cells3_ok layer nx ny nz : exists cs, grid_cells3 layer nx ny nz = Ok cs /\ List.length cs = nx * ny * nz /\
  forall i j k, i < nx -> j < ny -> k < nz -> nth_error cs (rank3 layer nx ny nz i j k) = Some (cell3 layer nx ny nz i j k).
Proof.
  unfold grid_cells3. rewrite (mapM_eq _ (cell3l layer nx ny nz)).
  2: { intros p I. apply triples_In in I as (i & j & k & -> & I & J & K). apply in_seq in I, J, K. cbn [cell3l]. unfold cell3.
       apply mapM_eq. intros v V. unfold vertices3 in V. repeat (destruct V as [<- | V]; [apply ravel3; lia|]). destruct V. }
  cbn [bind]. eexists. split; [reflexivity|]. unfold triples. destruct layer; unfold rank3.
  - (* by layers *)
    rewrite map_flat. set (f := fun z => map (cell3l true nx ny nz) (flat_map (fun y => map (fun x => [x; y; z]) (seq 0 nx)) (seq 0 ny))).
    assert (LF : forall z, List.length (f z) = nx * ny).
    { intros z. unfold f. rewrite map_length, (flat_len nx), seq_length; [lia|]. intros. now rewrite map_length, seq_length. }
    rewrite flat_map_concat_map, rev_concat.
    assert (E : reverse_slices nz (nx * ny) (concat (map (@rev _) (rev (map f (seq 0 nz))))) = concat (map (@rev _) (map (@rev _) (rev (map f (seq 0 nz)))))).
    { pose proof (reverse_slices_blocks (nx * ny) (map (@rev _) (rev (map f (seq 0 nz))))) as Q. rewrite map_length, rev_length, map_length, seq_length in Q. apply Q. clear Q.
      apply Forall_forall. intros l I. apply in_map_iff in I as (l' & <- & I). rewrite rev_length. apply in_rev, in_map_iff in I as (z & <- & _). apply LF. }
    rewrite E. rewrite map_map, (map_ext _ (fun l => l)), map_id by (intros; apply rev_involutive). split.
    + rewrite <- map_rev, <- flat_map_concat_map, (flat_len (nx * ny)), rev_length, seq_length by (intros; apply LF). lia.
    + intros i j k I J K. rewrite <- map_rev, <- flat_map_concat_map. replace (((nz - 1 - k) * ny + j) * nx + i) with ((nz - 1 - k) * (nx * ny) + (j * nx + i)) by nia.
      rewrite (flat_nth (nx * ny)) by (intros; first [apply LF | nia]).
      replace (nz - 1 - k) with (List.length (seq 0 nz) - 1 - k) by (now rewrite seq_length). rewrite (rev_nth_error _ k k) by (now apply seq_nth_error).
      unfold f. rewrite nth_error_map, (flat_nth nx); [|intros; now rewrite map_length, seq_length|exact I]. rewrite seq_nth_error, nth_error_map, seq_nth_error by assumption. reflexivity.
  - (* by columns *)
    rewrite flat_flat, concat_map, map_flat. set (f := fun x => map (map (cell3l false nx ny nz)) (map (fun y => map (fun z => [x; y; z]) (seq 0 nz)) (seq 0 ny))).
    assert (LF : forall x, List.length (f x) = ny) by (intros x; unfold f; now rewrite !map_length, seq_length).
    assert (LB : forall x b, In b (f x) -> List.length b = nz). { intros x b I. unfold f in I. rewrite map_map in I. apply in_map_iff in I as (y & <- & _). now rewrite !map_length, seq_length. }
    assert (LT : List.length (flat_map f (seq 0 nx)) = nx * ny) by (rewrite (flat_len ny), seq_length; auto).
    assert (E : reverse_slices (nx * ny) nz (concat (flat_map f (seq 0 nx))) = concat (map (@rev _) (flat_map f (seq 0 nx)))).
    { rewrite <- LT. apply reverse_slices_blocks. apply Forall_forall. intros b I. apply in_flat_map in I as (x & _ & I). eapply LB, I. }
    rewrite E, map_flat. set (g := fun x => map (@rev _) (f x)). assert (LG : forall x, List.length (g x) = ny) by (intros; unfold g; now rewrite map_length).
    assert (LR : Forall (fun b => List.length b = nz) (flat_map g (seq 0 nx))).
    { apply Forall_forall. intros b I. apply in_flat_map in I as (x & _ & I). unfold g in I. apply in_map_iff in I as (b' & <- & I). rewrite rev_length. eapply LB, I. }
    split.
    + assert (X : forall bs : list (list (list nat)), Forall (fun b => List.length b = nz) bs -> List.length (concat bs) = List.length bs * nz).
      { clear. induction 1; [reflexivity|]. cbn [concat List.length Nat.mul]. rewrite app_length. lia. }
      rewrite (X _ LR), (flat_len ny), seq_length by (intros; apply LG). reflexivity.
    + intros i j k I J K. cbv beta iota. rewrite (concat_nth nz); [|exact LR|lia]. rewrite (flat_nth ny); [|intros; apply LG|exact J]. rewrite seq_nth_error by exact I. unfold g, f.
      rewrite map_map, map_map, nth_error_map, seq_nth_error by exact J. cbn [option_map]. rewrite map_map.
      replace (nz - 1 - k) with (List.length (map (fun z => cell3l false nx ny nz [i; j; z]) (seq 0 nz)) - 1 - k) by (now rewrite map_length, seq_length).
      apply rev_nth_error. rewrite nth_error_map, seq_nth_error by exact K. reflexivity.
Qed.

(** ** Ranks *)
Lemma rank3_onto layer nx ny nz n : n < nx * ny * nz -> exists i j k, i < nx /\ j < ny /\ k < nz /\ n = rank3 layer nx ny nz i j k.
Proof.
  intros H. assert (nx <> 0 /\ ny <> 0 /\ nz <> 0) as (X & Y & Z) by (repeat split; intros ->; lia). unfold rank3. destruct layer.
  - exists (n mod nx), ((n / nx) mod ny), (nz - 1 - n / nx / ny). pose proof (Nat.mod_upper_bound n nx X). pose proof (Nat.mod_upper_bound (n / nx) ny Y).
    assert (B : n / nx / ny < nz). { rewrite Nat.div_div by lia. apply Nat.div_lt_upper_bound; lia. }
    repeat split; try lia. replace (nz - 1 - (nz - 1 - n / nx / ny)) with (n / nx / ny) by lia.
    pose proof (Nat.div_mod n nx X). pose proof (Nat.div_mod (n / nx) ny Y). nia.
  - exists (n / nz / ny), ((n / nz) mod ny), (nz - 1 - n mod nz). pose proof (Nat.mod_upper_bound n nz Z). pose proof (Nat.mod_upper_bound (n / nz) ny Y).
    assert (B : n / nz / ny < nx). { rewrite Nat.div_div by lia. apply Nat.div_lt_upper_bound; lia. }
    repeat split; try lia. replace (nz - 1 - (nz - 1 - n mod nz)) with (n mod nz) by lia.
    pose proof (Nat.div_mod n nz Z). pose proof (Nat.div_mod (n / nz) ny Y). nia.
Qed.
Lemma pair_inj n a b c d : b < n -> d < n -> a * n + b = c * n + d -> a = c /\ b = d.
Proof. intros B D E. assert (a = c) by nia. subst. split; lia. Qed.
Lemma rank3_inj layer nx ny nz i j k i' j' k' : i < nx -> j < ny -> k < nz -> i' < nx -> j' < ny -> k' < nz ->
  rank3 layer nx ny nz i j k = rank3 layer nx ny nz i' j' k' -> i = i' /\ j = j' /\ k = k'.
Proof.
  intros. unfold rank3 in *. destruct layer.
  - apply pair_inj in H5 as [E1 ->]; [|lia..]. apply pair_inj in E1 as [E1 ->]; lia.
  - apply pair_inj in H5 as [E1 E2]; [|lia..]. apply pair_inj in E1 as [-> ->]; lia.
Qed.
Lemma rank3_bound layer nx ny nz i j k : i < nx -> j < ny -> k < nz -> rank3 layer nx ny nz i j k < nx * ny * nz.
Proof.
  intros. unfold rank3. destruct layer.
  - assert ((nz - 1 - k) * ny + j < nz * ny) by nia. nia.
  - assert (i * ny + j < nx * ny) by nia. nia.
Qed.

(** ** Plane grids *)
Definition node2 (layer : bool) (a b i j : nat) : nat := if layer then j * a + i else i * b + j.
Lemma ravel2 layer a b i j : i < a -> j < b -> ravel layer [i; j] [a; b] = Ok (node2 layer a b i j).
Proof.
  intros A B. unfold ravel, node2. destruct layer; cbn [rev app ravel_C Nat.mul Nat.add];
    repeat (match goal with |- context [?x <? ?y] => replace (x <? y) with true by (symmetry; apply Nat.ltb_lt; assumption) end; cbn [guard bind]); f_equal; lia.
Qed.
Lemma pairs_nth {A} layer (xs ys : list A) i j x y : nth_error xs i = Some x -> nth_error ys j = Some y ->
  nth_error (pairs layer xs ys) (node2 layer (List.length xs) (List.length ys) i j) = Some [x; y].
Proof.
  intros X Y. unfold pairs, node2. pose proof (nth_lt _ _ _ X). pose proof (nth_lt _ _ _ Y). destruct layer.
  - rewrite (flat_nth (List.length xs)); [|intros; apply map_length|assumption]. rewrite Y, nth_error_map, X. reflexivity.
  - rewrite (flat_nth (List.length ys)); [|intros; apply map_length|assumption]. rewrite X, nth_error_map, Y. reflexivity.
Qed.
Lemma pairs_In {A} layer (xs ys : list A) p : In p (pairs layer xs ys) -> exists x y, p = [x; y] /\ In x xs /\ In y ys.
Proof. unfold pairs. destruct layer; intros I; apply in_flat_map in I as (a & IA & I); apply in_map_iff in I as (c & <- & IC); eauto 8. Qed.
Lemma pairs_length {A} layer (xs ys : list A) : List.length (pairs layer xs ys) = List.length xs * List.length ys.
Proof. unfold pairs. destruct layer; [rewrite (flat_len (List.length xs))|rewrite (flat_len (List.length ys))]; intros; rewrite ?map_length; lia. Qed.
Definition cell2 (layer : bool) (nx ny i j : nat) : list nat :=
  map (fun v => match v with [a; b] => node2 layer (nx + 1) (ny + 1) a b | _ => 0 end) (vertices2 i j).
Definition cell2l (layer : bool) (nx ny : nat) (ij : list nat) : list nat := match ij with [i; j] => cell2 layer nx ny i j | _ => [] end.
Lemma grid_cells2_ok layer nx ny : exists cs, grid_cells2 layer nx ny = Ok cs /\ List.length cs = nx * ny /\
  forall i j, i < nx -> j < ny -> nth_error cs (rank2 layer nx ny i j) = Some (cell2 layer nx ny i j).
Proof.
  unfold grid_cells2. rewrite (mapM_eq _ (cell2l layer nx ny)).
  2: { intros p I. apply pairs_In in I as (i & j & -> & I & J). apply in_seq in I, J. cbn [cell2l]. unfold cell2.
       apply mapM_eq. intros v V. unfold vertices2 in V. repeat (destruct V as [<- | V]; [apply ravel2; lia|]). destruct V. }
  eexists. split; [reflexivity|]. split.
  - now rewrite map_length, pairs_length, !seq_length.
  - intros i j I J. pose proof (pairs_nth layer (seq 0 nx) (seq 0 ny) i j i j (seq_nth_error _ _ I) (seq_nth_error _ _ J)) as E. rewrite !seq_length in E.
    unfold rank2. unfold node2 in E. rewrite nth_error_map. rewrite E. reflexivity.
Qed.

(** ** Coordinates *)
Section coordinates.
Context {C : Type} (add : C -> C -> C) (opp : C -> C) (zero : C).
Lemma running_nth l : forall acc i, i <= List.length l -> nth_error (running add acc l) i = Some (level add acc l i).
Proof.
  induction l as [|d l IH]; intros acc i L; cbn [running].
  - cbn in L. assert (i = 0) by lia. now subst.
  - destruct i as [|i]; [reflexivity|]. cbn [nth_error List.length] in *. rewrite IH by lia. reflexivity.
Qed.
Lemma running_length l : forall acc, List.length (running add acc l) = List.length l + 1.
Proof. induction l as [|d l IH]; intros acc; cbn [running List.length]; [reflexivity|]. now rewrite IH. Qed.

Theorem grid3 dx dy dz origin layer material ox oy oz :
  dx <> [] -> dy <> [] -> dz <> [] ->
  origin = Some [ox; oy; oz] \/ (origin = None /\ ox = zero /\ oy = zero /\ oz = opp (total add zero dz)) ->
  let nx := List.length dx in let ny := List.length dy in let nz := List.length dz in
  let X i := add (level add zero dx i) ox in let Y j := add (level add zero dy j) oy in let Z k := add (level add zero dz k) oz in
  exists m cs, structured_grid add opp zero dx dy (Some dz) origin layer material = Ok m /\ dim m = 3 /\ cells m = [($"hexahedron", cs)] /\
    List.length cs = nx * ny * nz /\
    cell_data m = [($"material", repeat 1%Z (nx * ny * nz))] /\ field_data m = [(material, (1, 3)%Z)] /\
    forall i j k, i < nx -> j < ny -> k < nz -> exists vs, nth_error cs (rank3 layer nx ny nz i j k) = Some vs /\
      map (nth_error (points m)) vs = map Some (box (X i) (X (i + 1)) (Y j) (Y (j + 1)) (Z k) (Z (k + 1))).
Proof.
  intros NX NY NZ HO nx ny nz X Y Z. unfold structured_grid. fold nx ny nz.
  assert (PX : nx <> 0) by (unfold nx; destruct dx; [contradiction|discriminate]). assert (PY : ny <> 0) by (unfold ny; destruct dy; [contradiction|discriminate]). assert (PZ : nz <> 0) by (unfold nz; destruct dz; [contradiction|discriminate]).
  replace (nx =? 0) with false by (symmetry; now apply Nat.eqb_neq). replace (ny =? 0) with false by (symmetry; now apply Nat.eqb_neq). replace (nz =? 0) with false by (symmetry; now apply Nat.eqb_neq).
  cbn [orb negb guard bind]. destruct (grid_cells3_ok layer nx ny nz) as (cs & -> & LC & HC). cbn [bind].
  assert (EO : guard (match origin with Some o => List.length o =? 3 | None => true end) ValueError = Ok tt) by (destruct HO as [-> | [-> _]]; reflexivity).
  rewrite EO. cbn [bind].
  assert (EO2 : match origin with Some o => o | None => [zero; zero; opp (total add zero dz)] end = [ox; oy; oz]) by (destruct HO as [-> | (-> & -> & -> & ->)]; reflexivity).
  rewrite EO2. do 2 eexists. split; [reflexivity|]. cbn [dim cells cell_data field_data points]. split; [reflexivity|]. split; [reflexivity|]. split; [exact LC|].
  split; [unfold n_cells; cbn [map snd list_sum fold_right]; now rewrite LC, Nat.add_0_r|]. split; [reflexivity|].
  intros i j k I J K. eexists. split; [apply HC; assumption|]. unfold cell3. rewrite map_map.
  assert (P : forall a b c, a <= nx -> b <= ny -> c <= nz ->
    nth_error (map (shifted add [ox; oy; oz]) (triples layer (running add zero dx) (running add zero dy) (running add zero dz))) (node3 layer (nx + 1) (ny + 1) (nz + 1) a b c) = Some [X a; Y b; Z c]).
  { intros a b c A B D. pose proof (triples_nth layer _ _ _ _ _ _ _ _ _ (running_nth dx zero a A) (running_nth dy zero b B) (running_nth dz zero c D)) as T.
    rewrite !running_length in T. fold nx ny nz in T. rewrite nth_error_map, T. reflexivity. }
  unfold vertices3, box. cbn [map]. rewrite !P by lia. reflexivity.
Qed.
Theorem grid2 dx dy origin layer material ox oy : dx <> [] -> dy <> [] ->
  origin = Some [ox; oy] \/ (origin = None /\ ox = zero /\ oy = zero) ->
  let nx := List.length dx in let ny := List.length dy in
  let X i := add (level add zero dx i) ox in let Y j := add (level add zero dy j) oy in
  exists m cs, structured_grid add opp zero dx dy None origin layer material = Ok m /\ dim m = 3 /\ cells m = [($"quad", cs)] /\
    List.length cs = nx * ny /\
    cell_data m = [($"material", repeat 1%Z (nx * ny))] /\ field_data m = [(material, (1, 3)%Z)] /\
    forall i j, i < nx -> j < ny -> exists vs, nth_error cs (rank2 layer nx ny i j) = Some vs /\
      map (nth_error (points m)) vs = map Some (rectangle (X i) (X (i + 1)) (Y j) (Y (j + 1)) zero).
Proof.
  intros NX NY HO nx ny X Y. unfold structured_grid. fold nx ny.
  assert (PX : nx <> 0) by (unfold nx; destruct dx; [contradiction|discriminate]). assert (PY : ny <> 0) by (unfold ny; destruct dy; [contradiction|discriminate]).
  replace (nx =? 0) with false by (symmetry; now apply Nat.eqb_neq). replace (ny =? 0) with false by (symmetry; now apply Nat.eqb_neq).
  cbn [orb negb guard bind]. destruct (grid_cells2_ok layer nx ny) as (cs & -> & LC & HC). cbn [bind].
  assert (EO : guard (match origin with Some o => List.length o =? 2 | None => true end) ValueError = Ok tt) by (destruct HO as [-> | [-> _]]; reflexivity).
  rewrite EO. cbn [bind].
  assert (EO2 : match origin with Some o => o | None => [zero; zero] end = [ox; oy]) by (destruct HO as [-> | (-> & -> & ->)]; reflexivity).
  rewrite EO2. do 2 eexists. split; [reflexivity|]. cbn [dim cells cell_data field_data points]. split; [reflexivity|]. split; [reflexivity|]. split; [exact LC|].
  split; [unfold n_cells; cbn [map snd list_sum fold_right]; now rewrite LC, Nat.add_0_r|]. split; [reflexivity|].
  intros i j I J. eexists. split; [apply HC; assumption|]. unfold cell2. rewrite map_map.
  assert (P : forall a b, a <= nx -> b <= ny ->
    nth_error (map (fun p => p ++ [zero]) (map (shifted add [ox; oy]) (pairs layer (running add zero dx) (running add zero dy)))) (node2 layer (nx + 1) (ny + 1) a b) = Some [X a; Y b; zero]).
  { intros a b A B. pose proof (pairs_nth layer _ _ _ _ _ _ (running_nth dx zero a A) (running_nth dy zero b B)) as T.
    rewrite !running_length in T. fold nx ny in T. rewrite !nth_error_map, T. reflexivity. }
  unfold vertices2, rectangle. cbn [map]. rewrite !P by lia. reflexivity.
Qed.
End coordinates.
