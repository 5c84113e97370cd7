(** Conversion to and from grids of pyvista. *)
From Coq Require Import String Ascii Arith ZArith Bool Lia List.
From Verif Require Import Base.Str Base.Digits Model.Py Model.Numpy Model.Mesh Model.MeshOps Model.Pyvista Spec.MeshCells Spec.Pyvista Proofs.DictLemmas Proofs.BlocksProof Proofs.GridProof.
Import ListNotations.
Local Open Scope nat_scope.

(** ** From a grid *)
Lemma convert t name n nodes : vtk_cell t = Some (name, n) -> List.length nodes = n ->
  (let* cell := (if t =? 8 then take nodes [0; 1; 3; 2] else if t =? 11 then take nodes [0; 1; 3; 2; 4; 5; 7; 6] else Ok nodes) in
   let t' := if (t =? 8) || (t =? 11) then t + 1 else t in
   if t' =? 7 then Ok ($"polygon" ++ print_Z (Z.of_nat n), cell)
   else let* s := lookup t' vtk_types in Ok (s, cell)) = Ok (name, in_mesh t nodes).
Proof.
  intros E L. do 36 (destruct t as [|t]; [first [discriminate E|injection E as <- <-; first [reflexivity|
    destruct nodes as [|a [|b [|c [|d nodes]]]]; try discriminate L; destruct nodes as [|e nodes]; [first [discriminate L|reflexivity]|]; destruct nodes as [|f [|g [|h [|? ?]]]]; try discriminate L; reflexivity]]|]). discriminate E.
Qed.
Lemma one_cell pre nodes post c t name n : vtk_cell t = Some (name, n) -> List.length nodes = n ->
  get_cell false (pre ++ (n :: nodes) ++ post) c (List.length pre) t = Ok (name, in_mesh t nodes).
Proof.
  intros E L. unfold get_cell, item. rewrite nth_error_app2, Nat.sub_diag by lia. cbn [app nth_error bind].
  replace (List.length pre + 1) with (List.length (pre ++ [n])) by (rewrite app_length; cbn; lia). replace (pre ++ n :: nodes ++ post) with ((pre ++ [n]) ++ nodes ++ post) by (rewrite <- app_assoc; reflexivity).
  rewrite skipn_app, skipn_all, Nat.sub_diag. cbn [skipn app]. rewrite firstn_app, L, Nat.sub_diag. cbn [firstn]. rewrite app_nil_r. rewrite (firstn_all2 nodes) by lia. now apply convert.
Qed.
Definition named (c : nat * list nat) : str * list nat := (vtk_names (fst c), in_mesh (fst c) (snd c)).
Lemma all_cells_read l : vtk_ok l -> forall pre k, mapM (fun cot => get_cell false (pre ++ packed l) (fst cot) (fst (snd cot)) (snd (snd cot)))
  (combine (seq k (List.length l)) (combine (starts (List.length pre) l) (map fst l))) = Ok (map named l).
Proof.
  induction 1 as [|[t nodes] l (name & n & E & L) V IH]; intros pre k; [reflexivity|]. cbn [fst snd] in *. cbn [List.length seq starts map combine mapM packed flat_map fst snd].
  rewrite L. change ((n :: nodes) ++ ?x) with ((n :: nodes) ++ x). rewrite (one_cell pre nodes (flat_map _ l) k t name n E L). cbn [bind].
  specialize (IH (pre ++ n :: nodes) (S k)). rewrite <- app_assoc in IH. unfold packed in IH.
  replace (List.length (pre ++ n :: nodes)) with (List.length pre + 1 + n) in IH by (rewrite app_length; cbn; lia). rewrite IH. cbn [bind]. unfold named at 2. cbn [fst snd]. unfold vtk_names. now rewrite E.
Qed.
Lemma starts_length l k : List.length (starts k l) = List.length l.
Proof. revert k. induction l; intros; cbn; auto. Qed.
Lemma types_known l : vtk_ok l -> forallb (fun t => existsb (Nat.eqb t) (map fst vtk_types) || (t =? 8) || (t =? 11)) (map fst l) = true.
Proof.
  intros V. rewrite forallb_forall. intros t I. apply in_map_iff in I as ([t' nodes] & <- & I). unfold vtk_ok in V. rewrite Forall_forall in V. destruct (V _ I) as (name & n & E & _). cbn [fst] in *. clear - E.
  do 36 (destruct t' as [|t']; [try discriminate E; reflexivity|]). discriminate E.
Qed.

(** ** Blocks *)
Definition flat_rev (done : list cellblock) : list (str * list nat) := flat (rev done).
Lemma flat_app a b : flat (a ++ b) = flat a ++ flat b.
Proof. unfold flat. apply flat_map_app. Qed.
Lemma append_flat done tc : flat (rev (append_cell done tc)) = flat (rev done) ++ [tc].
Proof.
  destruct tc as [t c], done as [|[t' rows] r]; cbn [append_cell fst snd]; [reflexivity|]. destruct (streqb t' t) eqn:E.
  - apply streqb_eq in E. subst t'. cbn [rev]. rewrite !flat_app. rewrite <- app_assoc. f_equal. unfold flat. cbn [flat_map fst snd]. rewrite !app_nil_r, map_app. reflexivity.
  - cbn [rev]. rewrite !flat_app. reflexivity.
Qed.
Lemma blocks_flat_gen l : forall done, flat (rev (fold_left append_cell l done)) = flat (rev done) ++ l.
Proof.
  induction l as [|tc l IH]; intros done; cbn [fold_left]; [now rewrite app_nil_r|]. rewrite IH, append_flat, <- app_assoc. reflexivity.
Qed.
Lemma blocks_flat l : flat (blocks_of l) = l.
Proof. unfold blocks_of. apply (blocks_flat_gen l []). Qed.
(** The blocks before, last first. *)
Fixpoint alternate_rev (d : list cellblock) : Prop := match d with b :: ((b' :: _) as r) => fst b <> fst b' /\ alternate_rev r | _ => True end.
Lemma append_alternate done tc : alternate_rev done -> alternate_rev (append_cell done tc).
Proof.
  destruct done as [|[t rows] r]; cbn [append_cell]; [auto|]. intros A. destruct (streqb t (fst tc)) eqn:E.
  - destruct r as [|b r]; [exact I|]. exact A.
  - split; [|exact A]. cbn [fst]. intros X. rewrite X, streqb_refl in E. discriminate E.
Qed.
Lemma alternate_snoc d b : alternate d -> (match rev d with x :: _ => fst x <> fst b | [] => True end) -> alternate (d ++ [b]).
Proof.
  induction d as [|x d IH]; intros A B; [exact I|]. destruct d as [|y d]; [cbn in *; auto|]. destruct A as [A1 A2]. cbn [app]. split; [exact A1|]. apply IH; [exact A2|].
  cbn [rev] in B |- *. destruct (rev d) as [|z w]; cbn [app] in B |- *; auto.
Qed.
Lemma alternate_rev_ok d : alternate_rev d -> alternate (rev d).
Proof.
  induction d as [|b d IH]; intros A; [exact I|]. cbn [rev]. apply alternate_snoc; [destruct d; [exact I|apply IH; apply A]|]. rewrite rev_involutive. destruct d as [|x d]; [exact I|].
  destruct A as [A _]. now apply not_eq_sym.
Qed.
Lemma blocks_alternate l : alternate (blocks_of l).
Proof.
  unfold blocks_of. apply alternate_rev_ok. assert (G : forall l d, alternate_rev d -> alternate_rev (fold_left append_cell l d)); [|apply G; exact I].
  clear. induction l as [|tc l IH]; intros d A; cbn [fold_left]; [exact A|]. apply IH. now apply append_alternate.
Qed.
Lemma append_row t rows r c : append_cell ((t, rows) :: r) (t, c) = (t, rows ++ [c]) :: r.
Proof. cbn [append_cell fst snd]. now rewrite streqb_refl. Qed.
Lemma append_rows t cs : forall rows r, fold_left append_cell (map (pair t) cs) ((t, rows) :: r) = (t, rows ++ cs) :: r.
Proof.
  induction cs as [|c cs IH]; intros rows r; cbn [map fold_left]; [now rewrite app_nil_r|]. rewrite append_row, IH, <- app_assoc. reflexivity.
Qed.
Lemma blocks_same b : Forall (fun x => snd x <> []) b -> alternate b -> blocks_of (flat b) = b.
Proof.
  unfold blocks_of. assert (G : forall b d, Forall (fun x : cellblock => snd x <> []) b -> alternate b -> (match d, b with x :: _, y :: _ => fst x <> fst y | _, _ => True end) ->
    fold_left append_cell (flat b) d = rev b ++ d).
  { clear. induction b as [|[t rows] b IH]; intros d NE A D; [reflexivity|]. apply Forall_cons_iff in NE as [N NE]. cbn [snd] in N. destruct rows as [|c rows]; [contradiction|].
    unfold flat. cbn [flat_map fst snd map app fold_left]. rewrite fold_left_app. assert (E : append_cell d (t, c) = (t, [c]) :: d).
    { destruct d as [|[t' r'] d]; [reflexivity|]. cbn [append_cell fst snd]. destruct (streqb t' t) eqn:E; [|reflexivity]. apply streqb_eq in E. cbn in D. contradiction. }
    rewrite E, append_rows. cbn [app]. change (flat_map _ b) with (flat b). rewrite IH; [|exact NE|destruct b; [exact I|apply A]|destruct b; [exact I|apply A]].
    cbn [rev]. now rewrite <- app_assoc. }
  intros NE A. rewrite G; auto. rewrite app_nil_r. apply rev_involutive.
Qed.
Lemma flat_all_rows b : forall (P : str -> list nat -> Prop), Forall (fun tc => P (fst tc) (snd tc)) (flat b) -> forall x c, In x b -> In c (snd x) -> P (fst x) c.
Proof.
  intros P F x c I J. rewrite Forall_forall in F. apply (F (fst x, c)). unfold flat. apply in_flat_map. exists x. split; [exact I|]. now apply in_map.
Qed.
Lemma one_name t t' name n n' : vtk_cell t = Some (name, n) -> vtk_cell t' = Some (name, n') -> n = n'.
Proof.
  intros E F. do 36 (destruct t as [|t]; [try discriminate E; injection E as <- <-; do 36 (destruct t' as [|t']; [try discriminate F; injection F as <-; reflexivity|]); discriminate F|]). discriminate E.
Qed.
Lemma in_mesh_length t name n nodes : vtk_cell t = Some (name, n) -> List.length nodes = n -> List.length (in_mesh t nodes) = n.
Proof.
  intros E L. unfold in_mesh. destruct (t =? 8) eqn:E8; [apply Nat.eqb_eq in E8; subst t; injection E as _ <-; reflexivity|].
  destruct (t =? 11) eqn:E11; [apply Nat.eqb_eq in E11; subst t; injection E as _ <-; reflexivity|exact L].
Qed.
Lemma even_blocks l : vtk_ok l -> forallb same_lengths (blocks_of (map named l)) = true.
Proof.
  intros V. rewrite forallb_forall. intros [t rows] I. unfold same_lengths. cbn [snd]. destruct rows as [|r rows]; [reflexivity|]. rewrite forallb_forall. intros x J.
  assert (F : Forall (fun tc => exists u n, vtk_cell u = Some (fst tc, n) /\ List.length (snd tc) = n) (flat (blocks_of (map named l)))).
  { rewrite blocks_flat, Forall_map. unfold vtk_ok in V. eapply Forall_impl; [|exact V]. intros [u nodes] (name & n & E & L). unfold named, vtk_names. cbn [fst snd] in *. exists u, n. rewrite E. split; [reflexivity|].
    eapply in_mesh_length; eauto. }
  destruct (flat_all_rows _ (fun a c => exists u n, vtk_cell u = Some (a, n) /\ List.length c = n) F _ r I (or_introl eq_refl)) as (u & n & E & L).
  destruct (flat_all_rows _ (fun a c => exists u n, vtk_cell u = Some (a, n) /\ List.length c = n) F _ x I (or_intror J)) as (u' & n' & E' & L'). cbn [fst] in *.
  apply Nat.eqb_eq. rewrite L, L'. eapply one_name; eauto.
Qed.

(** ** Names *)
Lemma underscored_plain k : forallb (fun c => negb (Ascii.eqb c " ")) k = true -> underscored k = k.
Proof.
  unfold underscored. intros H. rewrite <- (map_id k) at 2. apply map_ext_in. intros c I. rewrite forallb_forall in H. specialize (H c I). now destruct (Ascii.eqb c " ").
Qed.
Lemma put_new {B} k (x : B) d : ~ In k (map fst d) -> put k x d = d ++ [(k, x)].
Proof.
  induction d as [|[k' y] d IH]; intros N; [reflexivity|]. cbn [put app]. cbn [map fst] in N. destruct (streqb k k') eqn:E; [apply streqb_eq in E; subst; exfalso; apply N; now left|].
  rewrite IH; [reflexivity|]. intros I. apply N. now right.
Qed.
Lemma renamed_plain {B} (d : list (str * B)) : plain_names d -> renamed d = d.
Proof.
  intros [N F]. unfold renamed. assert (G : forall (d acc : list (str * B)), NoDup (map fst (acc ++ d)) -> Forall (fun kv => forallb (fun c => negb (Ascii.eqb c " ")) (fst kv) = true) d ->
    fold_left (fun acc kv => put (underscored (fst kv)) (snd kv) acc) d acc = acc ++ d); [|apply (G d []); auto].
  clear. induction d as [|[k x] d IH]; intros acc N F; cbn [fold_left]; [now rewrite app_nil_r|]. apply Forall_cons_iff in F as [P F]. cbn [fst snd] in *. rewrite underscored_plain by exact P.
  rewrite put_new. - rewrite IH; [now rewrite <- app_assoc| |exact F]. now rewrite <- app_assoc.
  - rewrite map_app in N. cbn [map fst] in N. apply NoDup_remove_2 in N. intros I. apply N. apply in_or_app. now left.
Qed.

Theorem from_grid {C V} (num : Z -> V) material (g : grid C V) l : vtk_ok l -> g_types g = map fst l -> g_cells g = packed l -> g_offset g = starts 0 l ->
  plain_names (g_point_arrays g) -> plain_names (g_cell_arrays g) ->
  exists m, from_pyvista num false material g = Ok m /\ cells m = blocks_of (map named l) /\ dim m = 3 /\ points m = g_points g /\ point_data m = g_point_arrays g /\
    cell_data m = with_material num (n_cells (cells m)) (g_cell_arrays g) /\
    field_data m = (if has_material (g_cell_arrays g) then [] else [(material, (1%Z, 3%Z))]).
Proof.
  intros V0 T PK ST P1 P2. unfold from_pyvista. rewrite T, types_known by exact V0. cbn [guard bind]. rewrite ST, PK.
  rewrite combine_length, starts_length, map_length, Nat.min_id. pose proof (all_cells_read l V0 [] 0) as R. cbn [app List.length] in R. rewrite R. cbn [bind]. rewrite even_blocks by exact V0. cbn [guard bind].
  rewrite !renamed_plain by assumption. unfold has_key, with_material, has_material. destruct (existsb _ (g_cell_arrays g)); eexists; split; try reflexivity; repeat split.
Qed.

(** ** To a grid *)
Definition vtk_of (t : str) : nat := match type_vtk t with Ok v => v | Err _ => 0 end.
Definition vtk_list (blocks : list cellblock) : list (nat * list nat) := map (fun tc => (vtk_of (fst tc), snd tc)) (flat blocks).
Lemma type_known t name n : t <> 8 -> t <> 11 -> vtk_cell t = Some (name, n) -> type_vtk name = Ok t /\ lookup t vtk_numnodes = Ok n.
Proof.
  intros N8 N11 E. do 36 (destruct t as [|t]; [try discriminate E; try (exfalso; congruence); injection E as <- <-; split; vm_compute; reflexivity|]). discriminate E.
Qed.
Lemma packed_app a b : packed (a ++ b) = packed a ++ packed b.
Proof. apply flat_map_app. Qed.
Lemma starts_app a b k : starts k (a ++ b) = starts k a ++ starts (k + List.length (packed a)) b.
Proof.
  revert k. induction a as [|[t c] a IH]; intros k; cbn [app starts packed flat_map List.length snd]; [now rewrite Nat.add_0_r|]. f_equal. rewrite IH. f_equal. f_equal. fold (packed a). rewrite app_length. lia.
Qed.
Lemma block_packed t n rows : Forall (fun c => List.length c = n) rows -> packed (map (pair t) rows) = concat (map (cons n) rows) /\ List.length (packed (map (pair t) rows)) = List.length rows * (n + 1) /\
  forall k, starts k (map (pair t) rows) = map (fun i => k + i * (n + 1)) (seq 0 (List.length rows)).
Proof.
  induction 1 as [|c rows L F (IH1 & IH2 & IH3)]; [auto|]. assert (E : packed (map (pair t) (c :: rows)) = (n :: c) ++ packed (map (pair t) rows)) by (unfold packed; cbn [map flat_map snd]; now rewrite L).
  rewrite E. cbn [map concat]. split; [now rewrite IH1|]. split.
  - rewrite app_length, IH2. cbn [List.length]. rewrite L. lia.
  - intros k. cbn [List.length starts snd seq map]. f_equal; [lia|]. rewrite L, IH3, <- seq_shift, map_map. apply map_ext. intros i. lia.
Qed.
Lemma add_block_ok done t n rows : type_vtk (fst (t, rows)) = Ok (vtk_of t) -> lookup (vtk_of t) vtk_numnodes = Ok n -> rows <> [] -> Forall (fun c => List.length c = n) rows ->
  add_block false (starts 0 (vtk_list done), packed (vtk_list done), map fst (vtk_list done), List.length (packed (vtk_list done))) (t, rows) =
  Ok (starts 0 (vtk_list (done ++ [(t, rows)])), packed (vtk_list (done ++ [(t, rows)])), map fst (vtk_list (done ++ [(t, rows)])), List.length (packed (vtk_list (done ++ [(t, rows)])))).
Proof.
  intros E N NE F. unfold add_block. rewrite E. cbn [bind fst snd]. rewrite N. cbn [bind].
  assert (VL : vtk_list (done ++ [(t, rows)]) = vtk_list done ++ map (pair (vtk_of t)) rows).
  { unfold vtk_list. rewrite flat_app, map_app. f_equal. unfold flat. cbn [flat_map fst snd]. rewrite app_nil_r, map_map. reflexivity. }
  destruct (block_packed (vtk_of t) n rows F) as (B1 & B2 & B3). rewrite VL, packed_app, starts_app, map_app, B1, B3, map_map. cbn [fst Nat.add].
  assert (R : exists init, map (fun i => List.length (packed (vtk_list done)) + i * (n + 1)) (seq 0 (List.length rows)) =
                           init ++ [List.length (packed (vtk_list done)) + (List.length rows - 1) * (n + 1)]).
  { destruct (List.length rows) as [|k] eqn:L; [destruct rows; [contradiction|discriminate L]|]. rewrite seq_S, map_app. cbn [map]. eexists. do 3 f_equal. lia. }
  destruct R as (init & R). rewrite R. rewrite rev_app_distr, rev_app_distr. cbn [rev app]. do 2 f_equal; [f_equal; f_equal|].
  - clear. induction rows; cbn; f_equal; auto.
  - rewrite app_length, <- B1, B2. destruct rows as [|r rows]; [contradiction|]. cbn [List.length]. lia.
Qed.
Lemma add_blocks blocks : Forall (fun b => snd b <> [] /\ exists t n, t <> 8 /\ t <> 11 /\ vtk_cell t = Some (fst b, n) /\ Forall (fun c => List.length c = n) (snd b)) blocks ->
  forall done, foldM (add_block false) (starts 0 (vtk_list done), packed (vtk_list done), map fst (vtk_list done), List.length (packed (vtk_list done))) blocks =
    Ok (starts 0 (vtk_list (done ++ blocks)), packed (vtk_list (done ++ blocks)), map fst (vtk_list (done ++ blocks)), List.length (packed (vtk_list (done ++ blocks)))).
Proof.
  induction 1 as [|[t rows] blocks (NE & u & n & N8 & N11 & E & F) _ IH]; intros done; cbn [foldM]; [now rewrite app_nil_r|]. cbn [fst snd] in *.
  destruct (type_known _ _ _ N8 N11 E) as (T & N). assert (U : vtk_of t = u) by (unfold vtk_of; now rewrite T).
  rewrite (add_block_ok done t n rows); cbn [fst]; rewrite ?U; auto. cbn [bind]. rewrite IH, <- app_assoc. reflexivity.
Qed.
Lemma vtk_list_ok blocks : filled blocks -> vtk_ok (vtk_list blocks) /\ map named (vtk_list blocks) = flat blocks.
Proof.
  intros [_ F]. assert (G : Forall (fun tc => exists u n, u <> 8 /\ u <> 11 /\ vtk_cell u = Some (fst tc, n) /\ List.length (snd tc) = n) (flat blocks)).
  { unfold flat. apply Forall_flat_map. eapply Forall_impl; [|exact F]. intros [t rows] (_ & u & n & N8 & N11 & E & L). cbn [fst snd] in *. rewrite Forall_map. eapply Forall_impl; [|exact L].
    intros c Lc. exists u, n. auto. }
  unfold vtk_list. split.
  - unfold vtk_ok. rewrite Forall_map. eapply Forall_impl; [|exact G]. intros [t c] (u & n & N8 & N11 & E & L). cbn [fst snd] in *. destruct (type_known _ _ _ N8 N11 E) as (T & _). unfold vtk_of. rewrite T. eauto.
  - rewrite map_map. rewrite <- (map_id (flat blocks)) at 2. apply map_ext_in. intros [t c] I. rewrite Forall_forall in G. destruct (G _ I) as (u & n & N8 & N11 & E & L). cbn [fst snd] in *.
    destruct (type_known _ _ _ N8 N11 E) as (T & _). unfold named, vtk_of, vtk_names, in_mesh. cbn [fst snd]. rewrite T, E. destruct (Nat.eqb_spec u 8); [contradiction|]. destruct (Nat.eqb_spec u 11); [contradiction|]. reflexivity.
Qed.
Theorem to_grid {C V} (zero : C) (m : mesh C V) : filled (cells m) ->
  to_pyvista zero false m = Ok (Grid (starts 0 (vtk_list (cells m))) (packed (vtk_list (cells m))) (map fst (vtk_list (cells m)))
    (if dim m =? 2 then map (fun p => p ++ [zero]) (points m) else points m) (point_data m) (cell_data m)).
Proof.
  intros [NE F]. unfold to_pyvista. change (@nil nat, @nil nat, @nil nat, 0) with (starts 0 (vtk_list []), packed (vtk_list []), map fst (vtk_list []), List.length (packed (vtk_list []))).
  rewrite (add_blocks _ F []). cbn [bind app]. destruct (cells m); [contradiction|]. reflexivity.
Qed.

Lemma n_cells_flat (b : list cellblock) : n_cells b = List.length (flat b).
Proof. unfold n_cells, flat. induction b as [|x b IH]; [reflexivity|]. cbn [map list_sum fold_right flat_map]. rewrite app_length, map_length. unfold list_sum in IH. now rewrite IH. Qed.
(** A grid of the cells [l]. *)
Theorem grid_cells {C V} (num : Z -> V) material (g : grid C V) l : vtk_ok l -> g_types g = map fst l -> g_cells g = packed l -> g_offset g = starts 0 l ->
  plain_names (g_point_arrays g) -> plain_names (g_cell_arrays g) ->
  exists m, from_pyvista num false material g = Ok m /\ flat (cells m) = map (fun c => (vtk_names (fst c), in_mesh (fst c) (snd c))) l /\ alternate (cells m) /\
    dim m = 3 /\ points m = g_points g /\ point_data m = g_point_arrays g /\ cell_data m = with_material num (List.length l) (g_cell_arrays g) /\
    field_data m = (if has_material (g_cell_arrays g) then [] else [(material, (1%Z, 3%Z))]).
Proof.
  intros V0 T PK ST P1 P2. destruct (from_grid num material g l V0 T PK ST P1 P2) as (m & E & CE & D & P & PD & CD & FD). exists m. rewrite n_cells_flat, CE, blocks_flat, map_length in CD.
  rewrite CE, blocks_flat. repeat split; auto. apply blocks_alternate.
Qed.
(** There and back. *)
Theorem grid_back {C V} (num : Z -> V) (zero : C) material (m : mesh C V) : filled (cells m) -> plain_names (point_data m) -> plain_names (cell_data m) ->
  exists g m', to_pyvista zero false m = Ok g /\ from_pyvista num false material g = Ok m' /\ flat (cells m') = flat (cells m) /\ (alternate (cells m) -> cells m' = cells m) /\
    points m' = (if dim m =? 2 then map (fun p => p ++ [zero]) (points m) else points m) /\ point_data m' = point_data m /\
    cell_data m' = with_material num (List.length (flat (cells m))) (cell_data m).
Proof.
  intros F P1 P2. rewrite (to_grid zero m F). destruct (vtk_list_ok _ F) as (VO & VN). eexists.
  destruct (from_grid num material (Grid (starts 0 (vtk_list (cells m))) (packed (vtk_list (cells m))) (map fst (vtk_list (cells m)))
    (if dim m =? 2 then map (fun p => p ++ [zero]) (points m) else points m) (point_data m) (cell_data m)) _ VO eq_refl eq_refl eq_refl P1 P2) as (m' & E & CE & _ & P & PD & CD & _).
  exists m'. split; [reflexivity|]. split; [exact E|]. rewrite VN in CE. rewrite n_cells_flat, CE, blocks_flat in CD. rewrite CE, blocks_flat. repeat split; auto.
  intros A. apply blocks_same; [|exact A]. destruct F as [_ F]. eapply Forall_impl; [|exact F]. now intros b [? _].
Qed.
