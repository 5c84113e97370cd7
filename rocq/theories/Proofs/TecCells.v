(** The cells of Tecplot files. *)
From Coq Require Import String Ascii Arith ZArith Bool Lia List.
From Verif Require Import Base.Str Base.Digits Base.Flt Model.Py Model.Numpy Model.Mesh Model.F3grid Model.Avsucd Model.TecMesh
  Spec.MeshCells Spec.TecMesh Proofs.NumpyProof Proofs.BlocksProof Proofs.MaterialProof Proofs.AvsucdProof.
From Verif Require Proofs.F3Order Proofs.F3Groups Proofs.GridProof.
Import ListNotations.
Local Open Scope nat_scope.

Lemma kind_cases t : (exists k, In k kinds /\ t = $(k_name k) /\ kind_of t = Some k) \/
  (kind_of t = None /\ known zone_type t = false /\ known dimension t = false).
Proof.
  unfold kind_of, kinds, known, zone_type, dimension. cbn [find k_name assoc].
  rewrite (streqb_sym $"triangle" t), (streqb_sym $"quad" t), (streqb_sym $"tetra" t), (streqb_sym $"pyramid" t), (streqb_sym $"wedge" t), (streqb_sym $"hexahedron" t).
  destruct (streqb t $"triangle") eqn:E1; [left; apply streqb_eq in E1; eexists; split; [|split; [|reflexivity]]; [cbn; tauto|exact E1]|].
  destruct (streqb t $"quad") eqn:E2; [left; apply streqb_eq in E2; eexists; split; [|split; [|reflexivity]]; [cbn; tauto|exact E2]|].
  destruct (streqb t $"tetra") eqn:E3; [left; apply streqb_eq in E3; eexists; split; [|split; [|reflexivity]]; [cbn; tauto|exact E3]|].
  destruct (streqb t $"pyramid") eqn:E4; [left; apply streqb_eq in E4; eexists; split; [|split; [|reflexivity]]; [cbn; tauto|exact E4]|].
  destruct (streqb t $"wedge") eqn:E5; [left; apply streqb_eq in E5; eexists; split; [|split; [|reflexivity]]; [cbn; tauto|exact E5]|].
  destruct (streqb t $"hexahedron") eqn:E6; [left; apply streqb_eq in E6; eexists; split; [|split; [|reflexivity]]; [cbn; tauto|exact E6]|].
  right. auto.
Qed.
Lemma kind_known t : known zone_type t = match kind_of t with Some _ => true | None => false end.
Proof.
  destruct (kind_cases t) as [(k & I & -> & E)|(-> & -> & _)]; [|reflexivity]. rewrite E.
  cbn in I. destruct I as [<-|[<-|[<-|[<-|[<-|[<-|[]]]]]]]; reflexivity.
Qed.
Lemma kind_dim t k : kind_of t = Some k -> assoc t dimension = Ok (k_dim k) /\ (k_dim k = 2 \/ k_dim k = 3).
Proof.
  destruct (kind_cases t) as [(k' & I & -> & E)|(E & _)]; rewrite E; [|discriminate]. intros X. assert (k' = k) as -> by congruence.
  cbn in I. destruct I as [<-|[<-|[<-|[<-|[<-|[<-|[]]]]]]]; cbn; auto.
Qed.

(** ** Edges *)
Definition pair_eqb (p q : nat * nat) : bool := (fst p =? fst q) && (snd p =? snd q).
Definition listed (p : nat * nat) (l : list (nat * nat)) : bool := existsb (pair_eqb p) l || existsb (pair_eqb (snd p, fst p)) l.
Definition at_ (o : list nat) (i : nat) : nat := nth i o 99.
Definition check (k : kind) (o : list nat) (k' : kind) : bool :=
  (List.length o =? k_nodes k') && forallb (fun e => (fst e <? List.length o) && (snd e <? List.length o) &&
    ((at_ o (fst e) =? at_ o (snd e)) || listed (at_ o (fst e), at_ o (snd e)) (k_edges k))) (k_edges k') &&
  forallb (fun e => existsb (fun e' => (fst e' <? List.length o) && (snd e' <? List.length o) && listed e [(at_ o (fst e'), at_ o (snd e'))]) (k_edges k')) (k_edges k).
Lemma pair_eqb_eq p q : pair_eqb p q = true <-> p = q.
Proof.
  destruct p as [a b], q as [c d]. unfold pair_eqb. cbn [fst snd]. rewrite andb_true_iff, !Nat.eqb_eq. split; [intros []; congruence|].
  intros X. split; congruence.
Qed.
Lemma listed_ok i j l : listed (i, j) l = true <-> In (i, j) l \/ In (j, i) l.
Proof.
  unfold listed. rewrite orb_true_iff, !existsb_exists. cbn [fst snd]. split.
  - intros [(x & I & E)|(x & I & E)]; apply pair_eqb_eq in E; subst x; auto.
  - intros [I|I]; [left|right]; eexists; (split; [exact I|]); now apply pair_eqb_eq.
Qed.
Lemma take_at (row : list nat) o row' i : take row o = Ok row' -> i < List.length o -> nth_error row' i = nth_error row (at_ o i).
Proof.
  intros T. apply take_ok in T. revert i. induction T as [|j x o row' E T IH]; intros i L; [cbn in L; lia|].
  destruct i as [|i]; cbn [nth_error]; [unfold at_; cbn [nth]; auto|]. cbn [List.length] in L. rewrite IH by lia. reflexivity.
Qed.
Lemma edges_kept t k t' k' o row row' : kind_of t = Some k -> kind_of t' = Some k' -> check k o k' = true -> take row o = Ok row' ->
  same_edges t' (t, row) row'.
Proof.
  intros K K' C T a b. apply andb_true_iff in C as [C C2]. apply andb_true_iff in C as [_ C1]. rewrite forallb_forall in C1, C2. cbn [fst snd]. unfold edge. rewrite K, K'. split.
  - intros [N (k0 & i & j & E & I & A & B)]. assert (k0 = k) as -> by congruence. split; [exact N|].
    assert (W : exists i' j', (In (i', j') (k_edges k') \/ In (j', i') (k_edges k')) /\ i' < List.length o /\ j' < List.length o /\ at_ o i' = i /\ at_ o j' = j).
    { destruct I as [I|I]; apply C2 in I; apply existsb_exists in I as ([p q] & I & W); cbn [fst snd] in W; rewrite !andb_true_iff, !Nat.ltb_lt in W;
        destruct W as [[L1 L2] W]; apply listed_ok in W; cbn [In] in W; destruct W as [[W|[]]|[W|[]]].
      - exists p, q. split; [tauto|]. assert (at_ o p = i /\ at_ o q = j) by (split; congruence). tauto.
      - exists q, p. split; [tauto|]. assert (at_ o p = j /\ at_ o q = i) by (split; congruence). tauto.
      - exists q, p. split; [tauto|]. assert (at_ o p = j /\ at_ o q = i) by (split; congruence). tauto.
      - exists p, q. split; [tauto|]. assert (at_ o p = i /\ at_ o q = j) by (split; congruence). tauto. }
    destruct W as (i' & j' & I' & L1 & L2 & <- & <-). exists k', i', j'. split; [reflexivity|]. split; [exact I'|].
    now rewrite !(take_at _ _ _ _ T) by assumption.
  - intros [N (k0 & i & j & E & I & A & B)]. assert (k0 = k') as -> by congruence. split; [exact N|].
    exists k, (at_ o i), (at_ o j). split; [reflexivity|].
    assert (W : i < List.length o /\ j < List.length o /\ (at_ o i = at_ o j \/ (In (at_ o i, at_ o j) (k_edges k) \/ In (at_ o j, at_ o i) (k_edges k)))).
    { destruct I as [I|I]; apply C1 in I; cbn [fst snd] in I; rewrite !andb_true_iff, orb_true_iff, !Nat.ltb_lt, Nat.eqb_eq, listed_ok in I; intuition. }
    destruct W as (L1 & L2 & W). rewrite (take_at _ _ _ _ T L1) in A. rewrite (take_at _ _ _ _ T L2) in B. split; [|split; assumption].
    destruct W as [W|W]; [|exact W]. rewrite W in A. congruence.
Qed.

Lemma check_nodes k o k' (row row' : list nat) : check k o k' = true -> take row o = Ok row' -> List.length row' = k_nodes k'.
Proof.
  intros C T. apply andb_true_iff in C as [C _]. apply andb_true_iff in C as [C _]. apply Nat.eqb_eq in C. apply F3Order.take_length in T. congruence.
Qed.

(** ** The blocks written *)
Definition sup (b : cellblock) : bool := match kind_of (fst b) with Some _ => true | None => false end.
Lemma sup_kind b : sup b = true -> exists k, kind_of (fst b) = Some k.
Proof. unfold sup. destruct (kind_of (fst b)); [eauto|discriminate]. Qed.
Lemma written_kind cells b : written cells b = true -> exists k, kind_of (fst b) = Some k.
Proof. unfold written. destruct (kind_of (fst b)); [eauto|discriminate]. Qed.
Lemma candidates_sup cells : candidates cells = filter (fun ib => sup (snd ib)) (numbered cells).
Proof. unfold candidates. apply filter_ext. intros [i b]. cbn [fst snd]. apply kind_known. Qed.
Lemma filter_numbered {A} (p : A -> bool) l : map snd (filter (fun ib => p (snd ib)) (numbered l)) = filter p l.
Proof.
  unfold numbered. generalize 0. induction l as [|x l IH]; intros a; [reflexivity|]. cbn [List.length seq combine filter snd].
  destruct (p x); cbn [map snd]; now rewrite IH.
Qed.
Lemma dims_sup cells : mapM (fun b => assoc (fst (snd b)) dimension) (candidates cells) = Ok (dims cells).
Proof.
  rewrite candidates_sup. unfold numbered. generalize 0. induction cells as [|b cells IH]; intros a; [reflexivity|].
  cbn [List.length seq combine filter snd]. unfold sup at 1, dims. cbn [flat_map]. fold (dims cells).
  destruct (kind_of (fst b)) as [k|] eqn:K; [|apply IH]. cbn [mapM fst snd]. rewrite (proj1 (kind_dim _ _ K)). cbn [bind]. rewrite IH. reflexivity.
Qed.
Lemma dims_In cells b k : In b cells -> kind_of (fst b) = Some k -> In (k_dim k) (dims cells).
Proof. intros I K. unfold dims. apply in_flat_map. exists b. split; [exact I|]. rewrite K. now left. Qed.
Lemma In_dims cells d : In d (dims cells) -> exists b k, In b cells /\ kind_of (fst b) = Some k /\ d = k_dim k.
Proof.
  unfold dims. rewrite in_flat_map. intros (b & I & J). destruct (kind_of (fst b)) as [k|] eqn:K; [|destruct J]. destruct J as [<-|[]]. eauto.
Qed.
Lemma dims_23 cells d : In d (dims cells) -> d = 2 \/ d = 3.
Proof. intros I. apply In_dims in I as (b & k & _ & K & ->). now apply (kind_dim (fst b)). Qed.
Lemma has_3 cells : existsb (Nat.eqb 3) (dims cells) = true <-> In 3 (dims cells).
Proof. rewrite existsb_exists. split; [intros (x & I & E); apply Nat.eqb_eq in E; now subst x|]. intros I. exists 3. auto. Qed.
Lemma written_all cells : ~ (In 2 (dims cells) /\ In 3 (dims cells)) -> filter (fun ib => written cells (snd ib)) (numbered cells) = candidates cells.
Proof.
  intros H. rewrite candidates_sup. apply filter_ext_in. intros [i b] I. cbn [snd]. apply in_combine_r in I. unfold written, sup.
  destruct (kind_of (fst b)) as [k|] eqn:K; [|reflexivity]. pose proof (dims_In _ _ _ I K) as D. destruct (proj2 (kind_dim _ _ K)) as [E|E]; rewrite E in *; [|reflexivity].
  change (2 =? 3) with false. cbn [orb]. destruct (existsb (Nat.eqb 3) (dims cells)) eqn:X; [|reflexivity]. apply has_3 in X. tauto.
Qed.
Lemma written_solid cells : In 3 (dims cells) ->
  filter (fun ib => written cells (snd ib)) (numbered cells) = map fst (filter (fun bd => snd bd =? 3) (combine (candidates cells) (dims cells))).
Proof.
  intros H. apply has_3 in H. rewrite candidates_sup. unfold written. rewrite H. cbn [negb]. clear H. remember 3 as three.
  unfold numbered. generalize 0. clear Heqthree. induction cells as [|b cells IH]; intros a; [reflexivity|].
  cbn [List.length seq combine filter snd]. unfold sup at 1, dims. cbn [flat_map]. fold (dims cells).
  destruct (kind_of (fst b)) as [k|] eqn:K; [|apply IH]. cbn [app combine filter snd]. rewrite orb_false_r. destruct (k_dim k =? three); cbn [map fst]; now rewrite IH.
Qed.
Lemma unique_2 l : (forall d, In d l -> d = 2 \/ d = 3) -> (List.length (unique Nat.leb l) =? 2) = true <-> In 2 l /\ In 3 l.
Proof.
  intros H. rewrite Nat.eqb_eq. pose proof (unique_nodup _ nat_order l) as N. pose proof (fun d => unique_In _ nat_order d l) as U.
  assert (H' : forall d, In d (unique Nat.leb l) -> d = 2 \/ d = 3) by (intros d I; apply H; now apply U).
  rewrite <- !U. destruct (unique Nat.leb l) as [|a [|b [|c r]]]; cbn [List.length].
  - split; [discriminate|intros [[] _]].
  - split; [discriminate|]. cbn [In]. intros [[A|[]] [B|[]]]. congruence.
  - split; [|reflexivity]. intros _. inversion_clear N as [|? ? N1 N2]. cbn [In] in *.
    destruct (H' a) as [->| ->]; [auto| |]; (destruct (H' b) as [->| ->]; [auto| |]); tauto.
  - exfalso. inversion_clear N as [|? ? N1 N2]. inversion_clear N2 as [|? ? N3 N4]. cbn [In] in *.
    destruct (H' a) as [->| ->]; [auto| |]; (destruct (H' b) as [->| ->]; [auto| |]); (destruct (H' c) as [->| ->]; [auto| |]); tauto.
Qed.

(** ** Their cells *)
Lemma connectivity_ok orders blocks conn (R : str * list nat -> list nat -> Prop) : connectivity orders blocks = Ok conn ->
  (forall b o, In b blocks -> assoc (fst b) orders = Ok o -> forall row row', In row (snd b) -> take row o = Ok row' -> R (fst b, row) row') ->
  Forall2 R (flat blocks) conn.
Proof.
  unfold connectivity. match goal with |- context [bind ?x _] => destruct x as [ls|e] eqn:E end; cbn [bind]; [|discriminate]. intros X. assert (conn = concat ls) as -> by congruence. clear X.
  apply mapM_F2 in E. induction E as [|b l blocks ls E F IH]; intros H; [constructor|]. unfold flat. cbn [flat_map concat]. fold (flat blocks).
  apply Forall2_app; [|apply IH; intros b' o I; apply H; now right].
  destruct (assoc (fst b) orders) as [o|] eqn:O; cbn [bind] in E; [|discriminate]. specialize (H b o (or_introl eq_refl) O). apply mapM_F2 in E.
  clear -E H. induction E as [|row row' l l' T E IH]; [constructor|]. cbn [map]. constructor; [apply H; [now left|exact T]|].
  apply IH. intros r r' I. apply H. now right.
Qed.
Lemma connectivity_same orders blocks conn : connectivity orders blocks = Ok conn ->
  (forall b o, In b blocks -> assoc (fst b) orders = Ok o -> forall row row', In row (snd b) -> take row o = Ok row' -> row' = row) ->
  conn = map snd (flat blocks).
Proof.
  unfold connectivity. match goal with |- context [bind ?x _] => destruct x as [ls|e] eqn:E end; cbn [bind]; [|discriminate]. intros X. assert (conn = concat ls) as -> by congruence. clear X.
  apply mapM_F2 in E. induction E as [|b l blocks ls E F IH]; intros H; [reflexivity|]. unfold flat. cbn [flat_map concat]. fold (flat blocks).
  rewrite map_app, <- IH by (intros b' o I; apply H; now right). f_equal.
  destruct (assoc (fst b) orders) as [o|] eqn:O; cbn [bind] in E; [|discriminate]. specialize (H b o (or_introl eq_refl) O). apply mapM_F2 in E.
  clear -E H. induction E as [|row row' l l' T E IH]; [reflexivity|]. cbn [map snd]. f_equal; [apply H; [now left|exact T]|].
  apply IH. intros r r' I. apply H. now right.
Qed.
Definition zones : list str := [$"FETRIANGLE"; $"FEQUADRILATERAL"; $"FETETRAHEDRON"; $"FEBRICK"].
Lemma alone_ok t k zone : kind_of t = Some k -> assoc t zone_type = Ok zone -> In zone zones /\ exists t' k' o, assoc zone type_of_zone = Ok t' /\ kind_of t' = Some k' /\
  assoc t order_alone = Ok o /\ check k o k' = true /\ (plain_type t -> t' = t /\ o = seq 0 (k_nodes k)).
Proof.
  destruct (kind_cases t) as [(k0 & I & -> & E)|(E & _)]; rewrite E; [|discriminate]. intros X. assert (k0 = k) as -> by congruence. clear X.
  cbn in I. destruct I as [<-|[<-|[<-|[<-|[<-|[<-|[]]]]]]]; intros X; cbn in X.
  all: match type of X with Ok ?z = Ok _ => assert (zone = z) as -> by congruence end; split; [cbn; tauto|]; do 3 eexists; (split; [reflexivity|]); (split; [reflexivity|]); (split; [reflexivity|]); (split; [reflexivity|]).
  all: try (intros _; split; reflexivity).
  all: intros (s & I & E'); cbn in I; destruct I as [<-|[<-|[<-|[<-|[]]]]]; discriminate E'.
Qed.
Lemma mixed_ok t k o (flat_ : bool) : kind_of t = Some k -> k_dim k = (if flat_ then 2 else 3) -> assoc t order_mixed = Ok o ->
  exists k', kind_of (if flat_ then $"quad" else $"hexahedron") = Some k' /\ check k o k' = true /\ (t = (if flat_ then $"quad" else $"hexahedron") -> o = seq 0 (k_nodes k)).
Proof.
  destruct (kind_cases t) as [(k0 & I & -> & E)|(E & _)]; rewrite E; [|discriminate]. intros X. assert (k0 = k) as -> by congruence. clear X.
  cbn in I. destruct I as [<-|[<-|[<-|[<-|[<-|[<-|[]]]]]]], flat_; intros D X; cbn in D; try discriminate D; cbn in X;
    match type of X with Ok ?z = Ok _ => assert (o = z) as -> by congruence end; eexists; (split; [reflexivity|]); (split; [reflexivity|]).
  all: try (intros _; reflexivity). all: intros E'; discriminate E'.
Qed.
Lemma take_all_nodes (row row' : list nat) n : List.length row = n -> take row (seq 0 n) = Ok row' -> row' = row.
Proof. intros L T. apply F3Order.take_seq_self in T. rewrite T, <- L. apply firstn_all. Qed.
Lemma written_flat cells : flat (map snd (filter (fun ib => written cells (snd ib)) (numbered cells))) = written_cells cells.
Proof. unfold written_cells. now rewrite filter_numbered. Qed.
Lemma hd_dims cells : dims cells <> [] -> In (hd 3 (dims cells)) (dims cells).
Proof. destruct (dims cells); [congruence|now left]. Qed.
Lemma chosen_ok cells ics zone conn : chosen cells = Ok (ics, zone, conn) -> complete cells -> (In 3 (dims cells) -> hd 3 (dims cells) = 3) ->
  ics = map fst (filter (fun ib => written cells (snd ib)) (numbered cells)) /\ In zone zones /\
  exists t k', assoc zone type_of_zone = Ok t /\ kind_of t = Some k' /\ Forall2 (fun c r => same_edges t c r /\ List.length r = k_nodes k') (written_cells cells) conn /\
    (forall t0, plain_type t0 -> (forall b, In b cells -> kind_of (fst b) <> None -> fst b = t0) -> t = t0 /\ conn = map snd (written_cells cells)).
Proof.
  intros C W H. unfold chosen in C. pose proof (fun x => unique_In _ str_order x (map (fun b => fst (snd b)) (candidates cells))) as U.
  pose proof (unique_nodup _ str_order (map (fun b => fst (snd b)) (candidates cells))) as N.
  assert (CI : forall ib, In ib (candidates cells) <-> In ib (numbered cells) /\ sup (snd ib) = true) by (intros ib; rewrite candidates_sup; apply filter_In).
  assert (IB : forall (ib : nat * cellblock), In ib (numbered cells) -> In (snd ib) cells).
  { intros [i b] I. now apply in_combine_r in I. }
  destruct (unique str_leb (map (fun b => fst (snd b)) (candidates cells))) as [|t [|t2 ts]] eqn:EU; [discriminate C| |].
  - destruct (assoc t zone_type) as [z|] eqn:Z; cbn [bind] in C; [|discriminate].
    destruct (connectivity order_alone (map snd (candidates cells))) as [cn|] eqn:CN; cbn [bind] in C; [|discriminate].
    assert (ics = map fst (candidates cells)) as -> by congruence. assert (zone = z) as -> by congruence. assert (conn = cn) as -> by congruence. clear C.
    assert (ST : forall ib, In ib (candidates cells) -> fst (snd ib) = t).
    { intros ib I. assert (J : In (fst (snd ib)) [t]) by (apply U; apply in_map_iff; eauto). destruct J as [<-|[]]. reflexivity. }
    assert (K : exists k, kind_of t = Some k).
    { assert (J : In t (map (fun b => fst (snd b)) (candidates cells))) by (apply U; now left). apply in_map_iff in J as (ib & E & J). apply CI in J as [_ S].
      rewrite <- E. exact (sup_kind _ S). }
    destruct K as [k K]. destruct (alone_ok t k z K Z) as (ZZ & t' & k' & o & TZ & K' & O & CH & PL).
    assert (D1 : forall d, In d (dims cells) -> d = k_dim k).
    { intros d I. apply In_dims in I as (b & kb & I & KB & ->). assert (fst b = t) as X.
      { apply In_nth_error in I as (i & I). assert (J : In (i, b) (numbered cells)) by now apply F3Groups.numbered_In.
        change b with (snd (i, b)). apply ST. apply CI. split; [exact J|]. unfold sup. cbn [snd]. now rewrite KB. }
      rewrite X in KB. congruence. }
    assert (A2 : ~ (In 2 (dims cells) /\ In 3 (dims cells))) by (intros [A B]; apply D1 in A, B; congruence).
    pose proof (written_all cells A2) as WA. assert (EF : flat (map snd (candidates cells)) = written_cells cells).
    { rewrite <- written_flat. apply (f_equal (fun l => flat (map snd l))). symmetry. exact WA. }
    rewrite <- EF. split; [apply (f_equal (map fst)); symmetry; exact WA|]. split; [exact ZZ|]. exists t', k'. split; [exact TZ|]. split; [exact K'|]. split.
    + apply (connectivity_ok _ _ _ _ CN). intros b o' I O' row row' _ T. apply in_map_iff in I as (ib & <- & I). rewrite (ST _ I) in *.
      assert (o' = o) as -> by congruence. split; [now apply (edges_kept t k t' k' o)|now apply (check_nodes k o k' row)].
    + intros t0 P A. assert (t0 = t) as ->.
      { assert (J : In t (map (fun b => fst (snd b)) (candidates cells))) by (apply U; now left). apply in_map_iff in J as (ib & E & J). apply CI in J as [J S].
        rewrite <- E. symmetry. apply A; [now apply IB|]. destruct (sup_kind _ S) as [k0 X0]. intros X'. assert (Some k0 = None) by (rewrite <- X0; exact X'). discriminate. }
      destruct (PL P) as [-> ->]. split; [reflexivity|]. apply (connectivity_same _ _ _ CN). intros b o' I O' row row' R T. apply in_map_iff in I as (ib & <- & I).
      pose proof (ST _ I) as X. rewrite X in O'. assert (o' = seq 0 (k_nodes k)) as -> by congruence.
      apply (take_all_nodes row row' (k_nodes k)); [|exact T]. apply CI in I as [I _]. apply IB in I.
      pose proof (W (snd ib) k I) as L. rewrite X in L. specialize (L K). rewrite Forall_forall in L. now apply L.
  - rewrite dims_sup in C. cbn [bind] in C.
    set (blocks := if List.length (unique Nat.leb (dims cells)) =? 2 then map fst (filter (fun bd => snd bd =? 3) (combine (candidates cells) (dims cells))) else candidates cells) in C.
    assert (EB : blocks = filter (fun ib => written cells (snd ib)) (numbered cells)).
    { unfold blocks. destruct (List.length (unique Nat.leb (dims cells)) =? 2) eqn:E2.
      - symmetry. apply written_solid. apply (unique_2 (dims cells) (dims_23 cells)) in E2. tauto.
      - symmetry. apply written_all. intros B. apply (unique_2 (dims cells) (dims_23 cells)) in B. congruence. }
    destruct (connectivity order_mixed (map snd blocks)) as [cn|] eqn:CN; cbn [bind] in C; [|discriminate].
    assert (ics = map fst blocks) as -> by congruence. assert (conn = cn) as -> by congruence.
    assert (zone = if hd 3 (dims cells) =? 2 then $"FEQUADRILATERAL" else $"FEBRICK") as -> by congruence. clear C.
    rewrite EB in *. clear EB blocks. split; [reflexivity|].
    set (fl := hd 3 (dims cells) =? 2).
    assert (DB : forall ib k, In ib (filter (fun ib => written cells (snd ib)) (numbered cells)) -> kind_of (fst (snd ib)) = Some k -> k_dim k = if fl then 2 else 3).
    { intros ib k I K. apply filter_In in I as [I Wr]. unfold written in Wr. rewrite K in Wr. pose proof (dims_In _ _ _ (IB _ I) K) as D.
      unfold fl. destruct (Nat.eqb_spec (hd 3 (dims cells)) 2) as [E|E].
      - destruct (proj2 (kind_dim _ _ K)) as [E3|E3]; [exact E3|]. rewrite E3 in D. specialize (H D). congruence.
      - destruct (proj2 (kind_dim _ _ K)) as [E3|E3]; [|exact E3]. rewrite E3 in Wr. change (2 =? 3) with false in Wr. cbn [orb] in Wr.
        assert (J : In (hd 3 (dims cells)) (dims cells)) by (apply hd_dims; intros X; rewrite X in D; destruct D).
        pose proof (dims_23 _ _ J) as [X|X]; [congruence|]. rewrite X in J. apply has_3 in J. rewrite J in Wr. discriminate. }
    split; [destruct fl; cbn; tauto|]. destruct (kind_cases (if fl then $"quad" else $"hexahedron")) as [(k1 & _ & _ & K1)|(X & _)]; [|destruct fl; discriminate X].
    exists (if fl then $"quad" else $"hexahedron"), k1. split; [destruct fl; reflexivity|]. split; [exact K1|]. split.
    + rewrite <- written_flat. apply (connectivity_ok _ _ _ _ CN). intros b o I O row row' _ T. apply in_map_iff in I as (ib & <- & I).
      assert (K : exists k, kind_of (fst (snd ib)) = Some k).
      { apply filter_In in I as [_ I]. exact (written_kind _ _ I). }
      destruct K as [k K]. destruct (mixed_ok _ _ _ fl K (DB _ _ I K) O) as (k' & K' & CH & _). assert (k1 = k') as -> by congruence.
      split; [exact (edges_kept _ _ _ _ _ _ _ K K' CH T)|exact (check_nodes _ _ _ _ _ CH T)].
    + intros t0 P A. exfalso. assert (X : forall x, In x (t :: t2 :: ts) -> x = t0).
      { intros x I. apply U in I. apply in_map_iff in I as (ib & E & J). apply CI in J as [J S]. rewrite <- E. apply A; [now apply IB|].
        destruct (sup_kind _ S) as [k0 X0]. intros X'. assert (Some k0 = None) by (rewrite <- X0; exact X'). discriminate. }
      inversion_clear N as [|? ? N1 N2]. apply N1. rewrite (X t), (X t2) by (cbn; tauto). now left.
Qed.
