(** Any file of results: the shape of what is read, and files which are never read to the end. *)
From Coq Require Import String Ascii Arith ZArith Bool Lia List.
From Verif Require Import Base.Str Base.Digits Base.Flt Model.Py Model.Records Model.Dispatch Model.Output Spec.Output Proofs.DictLemmas Proofs.CellText Proofs.Ending Spec.ResultFile.
Import ListNotations.
Local Open Scope nat_scope.

Notation fine := Ending.ends.

(** ** Tables *)
Lemma tset_names {A} k (v : A) t : incl (map fst (tset k v t)) (k :: map fst t) /\ (NoDup (map fst t) -> NoDup (map fst (tset k v t))) /\ forall k' v', In (k', v') (tset k v t) -> v' = v \/ In (k', v') t.
Proof.
  induction t as [|[k0 v0] t (IH1 & IH2 & IH3)].
  - cbn. split; [apply incl_refl|]. split; [intros _; constructor; [easy|constructor]|]. intros k' v' [E|[]]. left. congruence.
  - cbn [tset map fst]. destruct (streqb k k0) eqn:N; [apply streqb_eq in N; subst k0|apply streqb_neq in N]; cbn [map fst].
    + split; [now apply incl_tl, incl_refl|]. split; [auto|]. intros k' v' [E|I]; [left; congruence|right; now right].
    + split; [intros x [<-|I]; [right; now left|destruct (IH1 x I) as [<-|I']; [now left|right; now right]]|]. split.
      * intros ND. inversion_clear ND as [|? ? NI ND']. constructor; [|auto]. intros I. destruct (IH1 _ I) as [E|I']; [congruence|contradiction].
      * intros k' v' [E|I]; [right; now left|]. destruct (IH3 k' v' I); [now left|right; now right].
Qed.
Lemma to_table_shape {A} headers (cols : list A) : NoDup (map fst (to_table headers cols)) /\ forall k v, In (k, v) (to_table headers cols) -> In v cols.
Proof.
  unfold to_table. assert (G : forall (l : list (str * A)) acc, NoDup (map fst acc) -> NoDup (map fst (fold_left (fun acc kv => tset (fst kv) (snd kv) acc) l acc)) /\
    forall k v, In (k, v) (fold_left (fun acc kv => tset (fst kv) (snd kv) acc) l acc) -> In v (map snd l) \/ In (k, v) acc).
  { induction l as [|[k0 v0] l IH]; intros acc ND; cbn [fold_left map snd]; [auto|]. destruct (tset_names k0 v0 acc) as (_ & N & I). destruct (IH (tset k0 v0 acc) (N ND)) as (A1 & A2). split; [exact A1|].
    intros k v K. destruct (A2 k v K) as [K'|K']; [left; now right|]. destruct (I k v K') as [->|K'']; [left; now left|now right]. }
  destruct (G (combine headers cols) [] (NoDup_nil _)) as (A1 & A2). split; [exact A1|]. intros k v I. destruct (A2 k v I) as [I'|[]].
  apply in_map_iff in I' as ([a b] & <- & I'). now apply in_combine_r in I'.
Qed.
Lemma flat_length {A} (rows : list (list A)) j n : Forall (fun q => List.length q = n) rows -> j < n -> List.length (flat_map (fun q => match nth_error q j with Some x => [x] | None => [] end) rows) = List.length rows.
Proof.
  intros F L. induction F as [|q rows E _ IH]; [reflexivity|]. cbn [flat_map]. rewrite app_length, IH. destruct (nth_error q j) eqn:N; [reflexivity|]. apply nth_error_None in N. lia.
Qed.
Lemma transpose_shape {A} (rows : list (list A)) : fine (Forall (fun c => List.length c = List.length rows)) (transpose rows).
Proof.
  unfold transpose. destruct rows as [|r rows]; [constructor|]. destruct (forallb _ _) eqn:F; [|discriminate]. cbn [fine]. apply Forall_map, Forall_forall. intros j I. apply in_seq in I.
  apply (flat_length (r :: rows) j (List.length r)); [|lia]. apply Forall_forall. intros q Q. rewrite forallb_forall in F. now apply Nat.eqb_eq, F.
Qed.

(** ** From steps to outputs *)
Lemma step_shape t fmt headers s : (forall l, snd (fst s) = Some l -> List.length l = List.length (snd s)) -> fine well_shaped (step_output t fmt headers s).
Proof.
  destruct s as [[time labels] rows]. cbn [fst snd]. intros L. unfold step_output. eapply ends_bind; [apply transpose_shape|]. cbn. intros cols F.
  destruct (to_table_shape headers cols) as (ND & I). split; [exact ND|]. exists (List.length rows). split; [|exact L]. intros k c K. rewrite Forall_forall in F. apply F. now apply I in K.
Qed.
Lemma mapM_fine {A B} (P : A -> Prop) (Q : B -> Prop) (f : A -> res B) l : Forall P l -> (forall a, P a -> fine Q (f a)) -> fine (Forall Q) (mapM f l).
Proof.
  intros F H. induction F as [|a l Pa _ IH]; cbn [mapM]; [constructor|]. eapply ends_bind; [apply H, Pa|]. intros b Qb. eapply ends_bind; [apply IH|]. intros r Qr. now constructor.
Qed.
Lemma pick_fine {A} idx (x : list A) : fine (fun y => List.length y = List.length idx) (pick idx x).
Proof.
  unfold pick. induction idx as [|i idx IH]; [reflexivity|]. cbn [mapM]. destruct (nth_error x i); [|discriminate]. cbn [bind]. eapply ends_bind; [exact IH|]. cbn. intros y E. now rewrite E.
Qed.
Lemma reorder_shape o labels : well_shaped o -> fine well_shaped (reorder_labels o labels).
Proof.
  intros (ND & n & C & L). unfold reorder_labels. destruct (o_labels o) as [own|]; [|discriminate]. unfold guard. destruct (Nat.eqb _ _); [|discriminate]. cbn [bind].
  eapply ends_bind with (P := fun _ => True); [apply (mapM_ends element_label); now intros [|a [|b l]]|]. intros keys _.
  eapply ends_bind with (P := fun _ => True); [apply mapM_ends; intros a; now destruct (last_index a keys)|]. intros idx _. eapply ends_bind; [apply pick_fine|]. intros own' LO.
  assert (D : forall d : table (list flt), fine (fun d' => map fst d' = map fst d /\ Forall (fun kv => List.length (snd kv) = List.length idx) d') (mapM (fun kv => let* v := pick idx (snd kv) in Ok (fst kv, v)) d)).
  { induction d as [|[k c] d IH]; cbn [mapM]; [split; [reflexivity|constructor]|]. cbn [fst snd]. destruct (pick idx c) eqn:P; cbn [bind]; [|pose proof (pick_fine idx c) as X; rewrite P in X; exact X].
    eapply ends_bind; [exact IH|]. cbn. intros d' (M & F). split; [now rewrite M|]. constructor; [|exact F]. pose proof (pick_fine idx c) as X. rewrite P in X. exact X. }
  eapply ends_bind; [apply D|]. cbn. intros d' (M & F). split; [unfold names; cbn; unfold table in *; rewrite M; exact ND|]. exists (List.length idx). cbn. split; [|congruence]. intros k c I. rewrite Forall_forall in F. exact (F _ I).
Qed.
Lemma to_output_shape t fmt order headers steps : Forall (fun s => forall l, snd (fst s) = Some l -> List.length l = List.length (snd s)) steps -> fine (Forall well_shaped) (to_output t fmt order headers steps).
Proof.
  intros F. unfold to_output. eapply ends_bind; [eapply mapM_fine; [exact F|apply step_shape]|]. intros outs W. destruct order as [l|]; [|exact W]. destruct (is_element t); [|exact W].
  eapply mapM_fine; [exact W|]. intros o Wo. now apply reorder_shape.
Qed.

(** ** Each format *)
Lemma to_float_fine s : fine any (to_float s).
Proof. unfold to_float. now destruct (parse_float s). Qed.
Lemma csv_line_fine n st line : fine any (csv_line n st line).
Proof.
  unfold csv_line. destruct (startswith _ _).
  - destruct (split_ws _); [discriminate|]. eapply ends_bind; [apply to_float_fine|easy].
  - eapply ends_bind; [apply mapM_ends; intros; apply to_float_fine|]. intros xs _. now destruct st as [|[? ?] ?].
Qed.
Lemma csv_loop_fine n ls : forall st, fine any (csv_loop n st ls).
Proof. induction ls as [|l ls IH]; intros st; [exact I|]. cbn [csv_loop]. destruct (unquote (strip l)); [exact I|]. eapply ends_bind; [apply csv_line_fine|]. intros st' _. apply IH. Qed.
Lemma read_csv_fine t ls : fine any (read_csv t ls).
Proof.
  unfold read_csv. destruct (readline ls) as [l1 ls1]. destruct (readline ls1) as [l2 ls2]. destruct (readline ls2) as [l3 ls3]. apply ends_bind with (P := any); [|easy].
  destruct (strip (unquote l3)); [exact I|]. eapply ends_bind; [apply csv_line_fine|]. intros st _. apply csv_loop_fine.
Qed.
Lemma csv_shape t fmt order ls : fine (Forall well_shaped) (csv_read t fmt order ls).
Proof.
  unfold csv_read. eapply ends_bind; [apply read_csv_fine|]. intros [headers steps] _. destruct (same_shape steps); [|discriminate]. apply to_output_shape. apply Forall_map, Forall_forall. intros s _. cbn. intros l [= <-]. now rewrite !map_length.
Qed.
Lemma petrasim_rows_fine ls : fine any (petrasim_rows ls).
Proof.
  induction ls as [|l ls IH]; [exact I|]. cbn [petrasim_rows]. destruct (strip l) as [|c s]; [exact I|]. apply ends_bind with (P := any).
  - unfold petrasim_line. eapply ends_bind; [apply to_float_fine|]. intros x _. destruct (nth_error _ 1); [|discriminate]. eapply ends_bind; [apply mapM_ends; intros; apply to_float_fine|easy].
  - intros x _. eapply ends_bind; [exact IH|easy].
Qed.
Lemma petrasim_shape t fmt order ls : fine (Forall well_shaped) (petrasim_read t fmt order ls).
Proof.
  unfold petrasim_read. destruct (readline ls) as [l1 ls1]. eapply ends_bind; [apply petrasim_rows_fine|]. intros rows _. destruct (existsb _ _); [discriminate|]. destruct (rectangular _); [|discriminate].
  apply to_output_shape. apply Forall_map, Forall_forall. intros time _. cbn. intros l [= <-]. now rewrite !map_length.
Qed.
Lemma listing_row_fine t k line : fine any (listing_row t k line).
Proof.
  unfold listing_row. destruct (nonempty _ && _); [|exact I]. match goal with |- context [k_iend ?x] => set (q := x) end. destruct (k_iend q), (k_length q); try discriminate. now destruct (k_steps q) as [|[? ?] ?].
Qed.
Lemma listing_loop_fine t ls : forall p k, fine any (listing_loop t p k ls).
Proof.
  induction ls as [|l ls IH]; intros p k; [now destruct p|]. cbn [listing_loop]. apply ends_bind with (P := any); [|intros pk _; apply IH].
  destruct p; cbn [listing_line].
  - exact I.
  - destruct (split_ws (strip l)); [discriminate|]. eapply ends_bind; [apply to_float_fine|easy].
  - now destruct (startswith _ _).
  - destruct (nonempty _); [|exact I]. eapply ends_bind; [apply listing_row_fine|easy].
  - destruct (startswith _ _); [exact I|]. eapply ends_bind; [apply listing_row_fine|easy].
Qed.
Lemma listing_shape t fmt order ll ls : fine (Forall well_shaped) (listing_read t fmt order ll ls).
Proof.
  unfold listing_read. eapply ends_bind; [apply listing_loop_fine|]. intros k _. destruct (k_headers k); [|discriminate]. destruct (same_shape _); [|discriminate].
  apply to_output_shape. apply Forall_map, Forall_forall. intros s _. cbn. intros l0 [= <-]. now rewrite !map_length.
Qed.
(** Tecplot *)
Lemma var_names_fine n : forall ws, List.length ws <= n -> fine any (var_names ws).
Proof.
  induction n as [|n IH]; intros [|w ws] L; try exact I; cbn [List.length] in L; [lia|]. cbn [var_names]. destruct (_ && _).
  - destruct ws as [|w' ws]; [discriminate|]. cbn [List.length] in L. eapply ends_bind; [apply IH; lia|easy].
  - eapply ends_bind; [apply IH; lia|easy].
Qed.
Lemma read_variables_fine line : fine any (read_variables line).
Proof.
  unfold read_variables. destruct (nth_error _ 1); [|discriminate]. eapply ends_bind; [eapply var_names_fine; reflexivity|]. intros vs _. unfold guard. destruct (_ || _); [|discriminate]. cbn [bind]. now destruct (_ || _).
Qed.
Lemma zone_value_fine k v : fine any (zone_value k v).
Proof. unfold zone_value. destruct (smem _ _); [now destruct (parse_int v)|]. now destruct (smem _ _). Qed.
Lemma zone_pairs_fine n : forall z ws, List.length ws <= n -> fine any (zone_pairs z ws).
Proof.
  induction n as [|n IH]; intros z [|w ws] L; try exact I; cbn [List.length] in L; [lia|]. cbn [zone_pairs]. destruct ws as [|w' ws]; [exact I|]. cbn [List.length] in L. destruct (contains _ _).
  - destruct (negb _).
    + destruct (split_on _ _) as [|k [|v [|? ?]]]; try discriminate. eapply ends_bind; [apply zone_value_fine|]. intros x _. apply IH. cbn [List.length]. lia.
    + eapply ends_bind; [apply zone_value_fine|]. intros x _. apply IH. lia.
  - eapply ends_bind; [apply zone_value_fine|]. intros x _. apply IH. lia.
Qed.
Lemma output_zone_fine line : fine any (output_zone line).
Proof.
  unfold output_zone. apply ends_bind with (P := any).
  - unfold read_zone. apply ends_bind with (P := any); [unfold zone_title; destruct (find_sub _ _) as [[? ?]|]; [|exact I]; now destruct (find_sub _ _) as [[? ?]|]|]. intros [title line1] _.
    apply ends_bind with (P := any); [unfold zone_varlocation; destruct (find_sub _ _) as [[? ?]|]; [|exact I]; destruct (find_sub _ _) as [[? ?]|]; [|discriminate]; now destruct (find_sub _ _) as [[? ?]|]|]. intros [z line2] _.
    eapply ends_bind; [eapply zone_pairs_fine; reflexivity|]. intros z' _. now destruct title as [[|c s]|].
  - intros z _. apply ends_bind with (P := any).
    + destruct (tget _ z) as [[|s]|]; [discriminate| |exact I]. destruct (split_ws s); [discriminate|]. eapply ends_bind; [apply to_float_fine|easy].
    + intros t _. now destruct (tget _ z) as [[|]|].
Qed.
Lemma tecplot_rows_fine n : forall ls, fine (fun q => List.length (snd q) <= List.length ls) (tecplot_rows n ls).
Proof.
  induction n as [|n IH]; intros ls; [cbn; lia|]. cbn [tecplot_rows]. destruct (readline ls) as [l ls1] eqn:R. assert (L : List.length ls1 <= List.length ls) by (destruct ls; injection R as <- <-; cbn; lia).
  eapply ends_bind; [apply mapM_ends; intros; apply to_float_fine|]. intros row _. eapply ends_bind; [apply IH|]. cbn. intros q Q. lia.
Qed.
Lemma tecplot_loop_fine fuel : forall zone line ls, List.length ls < fuel -> fine any (tecplot_loop fuel zone line ls).
Proof.
  induction fuel as [|fuel IH]; intros zone line ls L; [lia|]. cbn [tecplot_loop]. apply ends_bind with (P := any); [destruct (startswith _ _); [|exact I]; eapply ends_bind; [apply output_zone_fine|easy]|].
  intros [[t n]|] _; [|discriminate]. eapply ends_bind; [apply tecplot_rows_fine|]. intros [rows ls1] L1. cbn [snd] in L1. unfold guard. destruct (rectangular rows); [|discriminate]. cbn [bind].
  destruct ls1 as [|l ls2]; cbn [readline].
  - change (strip (upper [])) with (@nil ascii). exact I.
  - destruct (strip (upper l)) as [|c s]; [exact I|]. eapply ends_bind; [apply IH; cbn [List.length] in L1; lia|easy].
Qed.
Definition opens_variables (l : str) : bool := startswith $"VARIABLES" (upper (strip l)).
Lemma find_variables_fine ls : existsb opens_variables ls = true -> fine any (find_variables ls).
Proof. induction ls as [|l ls IH]; [discriminate|]. cbn [existsb find_variables]. fold (opens_variables l). destruct (opens_variables l); [intros _; exact I|exact IH]. Qed.
Lemma find_variables_none ls : existsb opens_variables ls = false -> find_variables ls = Err Diverge.
Proof. induction ls as [|l ls IH]; [reflexivity|]. cbn [existsb find_variables]. fold (opens_variables l). destruct (opens_variables l); [discriminate|exact IH]. Qed.
Lemma tecplot_shape t fmt order ls : existsb opens_variables ls = true -> fine (Forall well_shaped) (tecplot_read t fmt order ls).
Proof.
  intros V. unfold tecplot_read. eapply ends_bind; [now apply find_variables_fine|]. intros [line ls1] _. eapply ends_bind; [apply read_variables_fine|]. intros headers _. destruct (readline ls1) as [l ls2].
  eapply ends_bind; [apply tecplot_loop_fine; lia|]. intros steps _. apply to_output_shape. apply Forall_map, Forall_forall. intros s _. cbn. discriminate.
Qed.
Lemma output_type_fine ls : fine any (get_output_type ls).
Proof.
  unfold get_output_type. destruct (readline ls) as [l ls1]. destruct (strip l) as [|c s].
  - destruct (readline ls1) as [l' ?]. now destruct (startswith _ _).
  - repeat match goal with |- context [if ?b then _ else _] => destruct b; [exact I|] end. discriminate.
Qed.

Theorem output_shape order connection ll ls outs : read_output order connection ll ls = Ok outs -> Forall well_shaped outs.
Proof.
  intros R. unfold read_output in R. destruct (get_output_type ls) as [[t f]|]; [|discriminate R]. cbn [bind] in R. destruct f.
  - pose proof (listing_shape (if connection then Connection else t) $"tough" order ll ls) as F. now rewrite R in F.
  - discriminate R.
  - destruct (existsb opens_variables ls) eqn:V; [|unfold tecplot_read in R; rewrite (find_variables_none ls V) in R; discriminate R]. pose proof (tecplot_shape t $"tecplot" order ls V) as F. now rewrite R in F.
  - pose proof (petrasim_shape t $"petrasim" order ls) as F. now rewrite R in F.
  - pose proof (csv_shape t $"csv" order ls) as F. now rewrite R in F.
Qed.
(** Which files are never read to the end. *)
Theorem output_ends order connection ll ls : read_output order connection ll ls = Err Diverge <-> (exists t, get_output_type ls = Ok (t, FTecplot)) /\ Forall (fun l => startswith $"VARIABLES" (upper (strip l)) = false) ls.
Proof.
  assert (V : Forall (fun l => startswith $"VARIABLES" (upper (strip l)) = false) ls <-> existsb opens_variables ls = false).
  { split; intros H.
    - apply not_true_iff_false. intros X. apply existsb_exists in X as (l & I & X). rewrite Forall_forall in H. specialize (H l I). unfold opens_variables in X. congruence.
    - apply Forall_forall. intros l I. apply not_true_iff_false. intros X. apply not_true_iff_false in H. apply H. apply existsb_exists. now exists l. }
  rewrite V. clear V. unfold read_output. pose proof (output_type_fine ls) as OT. destruct (get_output_type ls) as [[t f]|e]; cbn [bind].
  - destruct f; (split; [intros R|intros ((t' & T) & N); try discriminate T]).
    + pose proof (listing_shape (if connection then Connection else t) $"tough" order ll ls) as F. rewrite R in F. now contradiction F.
    + discriminate R.
    + split; [now exists t|]. apply not_true_iff_false. intros V. pose proof (tecplot_shape t $"tecplot" order ls V) as F. rewrite R in F. now contradiction F.
    + unfold tecplot_read. now rewrite (find_variables_none ls N).
    + pose proof (petrasim_shape t $"petrasim" order ls) as F. rewrite R in F. now contradiction F.
    + pose proof (csv_shape t $"csv" order ls) as F. rewrite R in F. now contradiction F.
  - split; [intros R; exfalso; apply OT; congruence|intros ((t & T) & _); discriminate T].
Qed.
