(** Time series. *)
From Coq Require Import String Ascii Arith ZArith Bool Lia Permutation Sorted List.
From Verif Require Import Base.Str Model.Py Model.Numpy Model.Mesh Model.TimeSeries Spec.Order Spec.MeshCells Spec.TimeSeries
  Proofs.NumpyProof Proofs.ConnectProof Proofs.MaterialProof Proofs.BlocksProof Proofs.ReorderProof Proofs.VolumeProof.
Import ListNotations.
Local Open Scope nat_scope.

Lemma split_concat {V} at_ : forall b (arr : list V), concat (split_from b at_ arr) = arr.
Proof. induction at_ as [|i r IH]; intros b arr; cbn [split_from concat]; [apply app_nil_r|]. rewrite IH. apply firstn_skipn. Qed.
Lemma cumsum_removelast (l : list nat) : forall b, cumsum b (removelast l) = removelast (cumsum b l).
Proof.
  induction l as [|n l IH]; intros b; [reflexivity|]. destruct l as [|m l]; [reflexivity|]. change (removelast (n :: m :: l)) with (n :: removelast (m :: l)). cbn [cumsum] in *. rewrite IH. reflexivity.
Qed.
Lemma map_removelast {A B} (f : A -> B) l : map f (removelast l) = removelast (map f l).
Proof. induction l as [|x l IH]; [reflexivity|]. destruct l as [|y l]; [reflexivity|]. change (removelast (x :: y :: l)) with (x :: removelast (y :: l)). cbn [map] in *. rewrite IH. reflexivity. Qed.
Lemma triples_nth {A B C} (a : list A) : forall (b : list B) (c : list C) i x y z,
  nth_error a i = Some x -> nth_error b i = Some y -> nth_error c i = Some z -> nth_error (triples a b c) i = Some (x, y, z).
Proof.
  induction a as [|x0 a IH]; intros [|y0 b] [|z0 c] [|i] x y z Na Nb Nc; try discriminate; cbn [triples nth_error] in *.
  - injection Na as ->. injection Nb as ->. now injection Nc as ->.
  - now apply IH.
Qed.
Lemma combine_triples {A B C} (a : list A) : forall (b : list B) (c : list C), combine (combine a b) c = triples a b c.
Proof. induction a as [|x a IH]; intros [|y b] [|z c]; try reflexivity. cbn [combine triples]. now rewrite IH. Qed.
Lemma triples_length {A B C} (a : list A) : forall (b : list B) (c : list C), List.length b = List.length a -> List.length c = List.length a -> List.length (triples a b c) = List.length a.
Proof. induction a as [|x a IH]; intros [|y b] [|z c] L1 L2; try discriminate; [reflexivity|]. cbn [triples List.length] in *. rewrite IH; lia. Qed.
Lemma triples_take {A B C} (a : list A) (b : list B) (c : list C) is : forall a' b' c', take a is = Ok a' -> take b is = Ok b' -> take c is = Ok c' ->
  take (triples a b c) is = Ok (triples a' b' c').
Proof.
  unfold take. induction is as [|i is IH]; intros a' b' c' Ea Eb Ec; cbn [mapM] in *.
  - injection Ea as <-. reflexivity.
  - unfold item at 1 in Ea. unfold item at 1 in Eb. unfold item at 1 in Ec. unfold item at 1.
    destruct (nth_error a i) as [x|] eqn:Na; [|discriminate]. destruct (nth_error b i) as [y|] eqn:Nb; [|discriminate]. destruct (nth_error c i) as [z|] eqn:Nc; [|discriminate]. cbn [bind] in *.
    destruct (mapM (item a) is) as [a2|]; [|discriminate]. destruct (mapM (item b) is) as [b2|]; [|discriminate]. destruct (mapM (item c) is) as [c2|]; [|discriminate].
    injection Ea as <-. injection Eb as <-. injection Ec as <-. rewrite (triples_nth a b c i x y z Na Nb Nc). cbn [bind triples]. rewrite (IH a2 b2 c2 eq_refl eq_refl eq_refl). reflexivity.
Qed.
Lemma take_seq {A} (l : list A) : take l (seq 0 (List.length l)) = Ok l.
Proof.
  assert (G : forall (pre l : list A), take (pre ++ l) (seq (List.length pre) (List.length l)) = Ok l).
  { intros pre k. revert pre. induction k as [|x k IH]; intros pre; [reflexivity|]. cbn [List.length seq]. unfold take. cbn [mapM]. unfold item at 1.
    rewrite nth_error_app2 by lia. rewrite Nat.sub_diag. cbn [nth_error bind]. specialize (IH (pre ++ [x])). rewrite <- app_assoc in IH. cbn [app] in IH.
    rewrite app_length, Nat.add_1_r in IH. unfold take in IH. rewrite IH. reflexivity. }
  exact (G [] l).
Qed.
Lemma take_permutation {A} (l : list A) is js k : Permutation is js -> take l js = Ok k -> exists k', take l is = Ok k' /\ Permutation k' k.
Proof.
  intros P. apply Permutation_sym in P. revert k. unfold take. induction P as [|x a b P IH|x y a|a b c P1 IH1 P2 IH2]; intros k E.
  - exists k. split; [exact E|reflexivity].
  - cbn [mapM] in *. destruct (item l x) as [v|]; [|discriminate]. cbn [bind] in *. destruct (mapM (item l) a) as [r|]; [|discriminate]. injection E as <-. destruct (IH r eq_refl) as (k' & E' & P').
    rewrite E'. exists (v :: k'). split; [reflexivity|now constructor].
  - cbn [mapM] in *. destruct (item l y) as [v|]; [|discriminate]. cbn [bind] in *. destruct (item l x) as [w|]; [|discriminate]. cbn [bind] in *. destruct (mapM (item l) a) as [r|]; [|discriminate].
    injection E as <-. exists (w :: v :: r). split; [reflexivity|apply perm_swap].
  - destruct (IH1 k E) as (k1 & E1 & Q1). destruct (IH2 k1 E1) as (k2 & E2 & Q2). exists k2. split; [exact E2|now transitivity k1].
Qed.
Lemma triples_map {A B C D} (f : C -> D) (a : list A) : forall (b : list B) c, triples a b (map f c) = map (fun s => (fst s, f (snd s))) (triples a b c).
Proof. induction a as [|x a IH]; intros [|y b] [|z c]; try reflexivity. cbn [triples map fst snd]. now rewrite IH. Qed.
Lemma sorted_nth {A} (R : A -> A -> Prop) l : (forall i j x y, i < j -> nth_error l i = Some x -> nth_error l j = Some y -> R x y) -> StronglySorted R l.
Proof.
  induction l as [|a l IH]; intros H; constructor.
  - apply IH. intros i j x y L. apply (H (S i) (S j)). lia.
  - apply Forall_forall. intros y I. apply In_nth_error in I as (j & N). apply (H 0 (S j)); [lia|reflexivity|exact N].
Qed.
Lemma take_nth_both {A} (l : list A) is k i x : take l is = Ok k -> nth_error k i = Some x -> exists a, nth_error is i = Some a /\ nth_error l a = Some x.
Proof.
  intros T. unfold take in T. apply mapM_F2 in T. revert i. induction T as [|a y is k R T IH]; intros [|i] N; try discriminate.
  - injection N as ->. exists a. split; [reflexivity|]. unfold item in R. destruct (nth_error l a); [|discriminate]. now injection R as ->.
  - exact (IH i N).
Qed.
Lemma or_empty_length {A} (x : option (list (list A))) nt : (given x = true -> size x = nt) -> List.length (or_empty x nt) = nt.
Proof. intros H. destruct x as [[|a l]|]; cbn [or_empty]; [apply repeat_length|apply H; reflexivity|apply repeat_length]. Qed.

Section Steps.
Context {T P V : Type} (leb : T -> T -> bool) (argsort : list T -> list nat) (of_nat : nat -> T).
Hypothesis Hsort : sorts leb argsort.
Variable cells : list cellblock.
Theorem write_steps (pd : list (list (str * P))) (cd : list (list (str * list V))) (ts : list T) :
  pd <> [] -> cd <> [] -> List.length cd = List.length pd -> List.length ts = List.length pd ->
  exists out, write_time_series argsort of_nat cells (Some pd) (Some cd) (Some ts) = Ok out /\
    StronglySorted (fun s s' => leb (fst (fst s)) (fst (fst s')) = true) out /\
    Permutation (map read_step out) (triples ts pd cd).
Proof.
  intros NP NC LC LT. unfold write_time_series. destruct pd as [|p0 pd']; [contradiction|]. destruct cd as [|c0 cd']; [contradiction|]. set (pd := p0 :: pd') in *. set (cd := c0 :: cd') in *.
  change (given (Some pd)) with true. change (given (Some cd)) with true. change (size (Some pd)) with (List.length pd). change (size (Some cd)) with (List.length cd).
  cbn [orb negb guard bind]. rewrite LC, LT, Nat.eqb_refl. cbn [guard bind].
  change (or_empty (Some pd) (List.length pd)) with pd. change (or_empty (Some cd) (List.length pd)) with cd. destruct (Hsort ts) as (Pm & So).
  match goal with |- context [take (map ?f cd) (argsort ts)] => set (scd := map f cd) end.
  assert (Lscd : List.length scd = List.length pd) by (unfold scd; rewrite map_length; exact LC).
  rewrite LT in Pm. 
  destruct (take_permutation pd _ _ _ Pm (take_seq pd)) as (pd2 & Tp & _). rewrite <- Lscd in Pm.
  destruct (take_permutation scd _ _ _ Pm (take_seq scd)) as (cd2 & Tc & _). rewrite Lscd, <- LT in Pm.
  destruct (take_permutation ts _ _ _ Pm (take_seq ts)) as (ts2 & Tt & _).
  rewrite Tp. cbn [bind]. rewrite Tc. cbn [bind]. rewrite Tt. cbn [bind]. eexists. split; [reflexivity|]. rewrite combine_triples.
  pose proof (triples_take ts pd scd (argsort ts) ts2 pd2 cd2 Tt Tp Tc) as Tall. split.
  - apply sorted_nth. intros i j x y L Ni Nj. destruct (take_nth_both _ _ _ _ _ Tall Ni) as (a & Na & Nx). destruct (take_nth_both _ _ _ _ _ Tall Nj) as (b & Nb & Ny).
    assert (G : forall a t, nth_error (triples ts pd scd) a = Some t -> nth_error ts a = Some (fst (fst t))).
    { clear. generalize pd scd. intros u w. revert u w. induction ts as [|t0 l IH]; intros [|u0 u] [|w0 w] [|a] t N; try discriminate; cbn [triples nth_error] in *; [now injection N as <-|eapply IH; exact N]. }
    exact (So i j a b _ _ L Na Nb (G a x Nx) (G b y Ny)).
  - assert (Ltr : List.length (triples ts pd scd) = List.length ts) by (apply triples_length; congruence). rewrite <- Ltr in Pm.
    destruct (take_permutation _ _ _ _ Pm (take_seq (triples ts pd scd))) as (k & Ek & Pk). rewrite Tall in Ek. injection Ek as <-.
    rewrite (Permutation_map read_step Pk). unfold scd. rewrite triples_map, map_map. unfold read_step. cbn [fst snd].
    rewrite (map_ext _ (fun s => s)); [rewrite map_id; reflexivity|]. intros ((t & p) & c). cbn [fst snd]. f_equal. rewrite map_map. rewrite (map_ext _ (fun kv => kv)); [apply map_id|].
    intros (k & v). cbn [fst snd]. f_equal. apply split_concat.
Qed.
(** The pieces of each array are those of the blocks. *)
Theorem write_blocks (pd : option (list (list (str * P)))) (cd : list (list (str * list V))) ts out : cells <> [] ->
  (forall d k v, In d cd -> In (k, v) d -> List.length v = n_cells cells) ->
  write_time_series argsort of_nat cells pd (Some cd) ts = Ok out ->
  forall s k pieces, In s out -> In (k, pieces) (snd s) -> map (@List.length V) pieces = sizes cells.
Proof.
  intros NE L E s k pieces Is Ik. unfold write_time_series in E. repeat (destruct (guard _ _); [|discriminate]; cbn [bind] in E).
  match type of E with context [take (or_empty pd ?n) ?i] => destruct (take (or_empty pd n) i) as [pd2|]; [|discriminate] end. cbn [bind] in E.
  match type of E with context [take (map ?f ?c) ?i] => set (scd := map f c) in E; destruct (take scd i) as [cd2|] eqn:Tc; [|discriminate] end. cbn [bind] in E.
  match type of E with context [take ?c ?i] => destruct (take c i) as [ts2|]; [|discriminate] end. injection E as <-.
  destruct s as ((t & p) & c). cbn [snd] in Ik. apply in_combine_r in Is. unfold take in Tc. destruct (mapM_In _ _ _ _ Tc Is) as (i & _ & Ei). unfold item in Ei. destruct (nth_error scd i) as [c'|] eqn:Ni; [|discriminate].
  injection Ei as ->. apply nth_error_In in Ni. unfold scd in Ni. apply in_map_iff in Ni as (d & <- & Id). apply in_map_iff in Ik as ((k' & v) & Ek & Iv). cbn [fst snd] in Ek. injection Ek as <- <-.
  assert (Lv : List.length v = n_cells cells).
  { destruct cd as [|c0 cd']; [cbn [or_empty] in Id; apply repeat_spec in Id; subst d; destruct Iv|]. eapply L; [exact Id|exact Iv]. }
  destruct (split_ok cells v NE Lv) as (ps & Es & _ & S). unfold split in Es. rewrite Lv, Nat.eqb_refl in Es. cbn [guard bind] in Es. injection Es as <-. rewrite map_removelast, cumsum_removelast. exact S.
Qed.
(** Missing data are empty, missing times are step numbers. *)
Theorem write_defaults_points (pd : list (list (str * P))) ts :
  pd <> [] -> @write_time_series T P V argsort of_nat cells (Some pd) None ts = write_time_series argsort of_nat cells (Some pd) (Some (map (fun _ => []) pd)) ts.
Proof.
  intros N. destruct pd as [|p pd]; [contradiction|]. unfold write_time_series. cbn [given size orb negb or_empty map List.length guard bind]. rewrite map_length, !Nat.eqb_refl. cbn [guard bind].
  replace (map (fun _ : list (str * P) => []) pd) with (repeat (@nil (str * list V)) (List.length pd)); [reflexivity|]. clear. induction pd as [|q pd IH]; [reflexivity|]. cbn [repeat List.length map]. now rewrite IH.
Qed.
Theorem write_defaults_times (pd : option (list (list (str * P)))) (cd : option (list (list (str * list V)))) out : write_time_series argsort of_nat cells pd cd None = Ok out ->
  exists nt, write_time_series argsort of_nat cells pd cd (Some (map of_nat (seq 0 nt))) = Ok out.
Proof.
  intros E. exists (if given pd then size pd else size cd). revert E. unfold write_time_series. destruct (guard (given pd || given cd) ValueError); [|discriminate]. cbn [bind].
  destruct (guard (negb (given pd) || _) ValueError); [|discriminate]. cbn [bind]. destruct (guard (negb (given cd) || _) ValueError); [|discriminate]. cbn [bind guard].
  rewrite map_length, seq_length, Nat.eqb_refl. cbn [guard bind]. exact (fun x => x).
Qed.
Theorem write_refused (pd : option (list (list (str * P)))) (cd : option (list (list (str * list V)))) ts out : write_time_series argsort of_nat cells pd cd ts = Ok out ->
  (given pd = true \/ given cd = true) /\ (given pd = true -> given cd = true -> size cd = size pd) /\
  (forall t, ts = Some t -> (given pd = true -> List.length t = size pd) /\ (given cd = true -> List.length t = size cd)).
Proof.
  unfold write_time_series. destruct (given pd) eqn:Gp, (given cd) eqn:Gc; cbn [orb negb guard bind]; try discriminate.
  - rewrite Nat.eqb_refl. cbn [guard bind]. destruct (size cd =? size pd) eqn:Q; [|discriminate]. cbn [guard bind]. apply Nat.eqb_eq in Q. destruct ts as [t|].
    + destruct (List.length t =? size pd) eqn:Q2; [|discriminate]. apply Nat.eqb_eq in Q2. intros _. split; [now left|]. split; [intros _ _; exact Q|]. intros t' E. injection E as <-. split; intros _; congruence.
    + intros _. split; [now left|]. split; [intros _ _; exact Q|]. discriminate.
  - rewrite Nat.eqb_refl. cbn [guard bind]. destruct ts as [t|].
    + destruct (List.length t =? size pd) eqn:Q2; [|discriminate]. apply Nat.eqb_eq in Q2. intros _. split; [now left|]. split; [discriminate|]. intros t' E. injection E as <-. split; [intros _; exact Q2|discriminate].
    + intros _. split; [now left|]. split; discriminate.
  - rewrite Nat.eqb_refl. cbn [guard bind]. destruct ts as [t|].
    + destruct (List.length t =? size cd) eqn:Q2; [|discriminate]. apply Nat.eqb_eq in Q2. intros _. split; [now right|]. split; [discriminate|]. intros t' E. injection E as <-. split; [discriminate|intros _; exact Q2].
    + intros _. split; [now right|]. split; discriminate.
Qed.
End Steps.
