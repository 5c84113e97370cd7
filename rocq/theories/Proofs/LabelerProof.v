(** Generated labels. *)
From Coq Require Import String Ascii ZArith Bool Lia FinFun List.
From Verif Require Import Base.Str Base.Digits Model.Py Model.Records Model.Labeler Spec.Labeler Proofs.DictLemmas Proofs.LabelProof.
Import ListNotations.
Local Open Scope Z_scope.

Lemma zpad_zeros j m n : 0 <= n < 10 ^ Z.of_nat m -> zpad (j + m) n = repeat "0"%char j ++ zpad m n.
Proof.
  revert n. induction m as [|m IH]; intros n H.
  - change (10 ^ Z.of_nat 0) with 1 in H. assert (n = 0) by lia. subst n. rewrite Nat.add_0_r, app_nil_r.
    induction j as [|j IHj]; [reflexivity|]. cbn [zpad]. change (0 / 10) with 0. change (0 mod 10) with 0. rewrite IHj.
    change (digit_char 0) with "0"%char. change (["0"%char]) with (repeat "0"%char 1). rewrite <- repeat_app. now rewrite Nat.add_1_r.
  - rewrite Nat.add_succ_r. cbn [zpad]. rewrite Nat2Z.inj_succ, Z.pow_succ_r in H by lia.
    rewrite IH; [now rewrite app_assoc|]. split; [apply Z.div_pos; lia|apply Z.div_lt_upper_bound; lia].
Qed.
Lemma numer_zpad n i : (1 <= n)%nat -> 0 <= i < 10 ^ Z.of_nat n -> numer n i = zpad n i.
Proof.
  intros N H. unfold numer. assert (P : print_Z i = digits i) by (unfold print_Z; destruct (Z.ltb_spec i 0); [lia|reflexivity]).
  rewrite P, digits_length. unfold digits. pose proof (ndigits_le i n H N). pose proof (ndigits_bound i (proj1 H)).
  rewrite <- zpad_zeros by lia. f_equal. lia.
Qed.

Lemma pick_ok a i : 0 <= i < Z.of_nat (List.length a) -> exists c, pick a i = Ok c /\ In c a.
Proof.
  intros H. unfold pick. destruct (nth_error a (Z.to_nat i)) as [c|] eqn:E.
  - exists c. split; auto. eapply nth_error_In; eauto.
  - apply nth_error_None in E. lia.
Qed.
Lemma pick_inj a i j c : NoDup a -> 0 <= i -> 0 <= j -> pick a i = Ok c -> pick a j = Ok c -> i = j.
Proof.
  intros ND I J. unfold pick. destruct (nth_error a (Z.to_nat i)) as [x|] eqn:E; [|discriminate].
  destruct (nth_error a (Z.to_nat j)) as [y|] eqn:F; [|discriminate]. intros X Y. injection X as ->. injection Y as ->.
  rewrite NoDup_nth_error in ND. assert (Z.to_nat i = Z.to_nat j); [|lia]. apply ND; [apply nth_error_Some; congruence|congruence].
Qed.
Lemma pick_bad a i : Z.of_nat (List.length a) <= i -> pick a i = Err IndexError.
Proof. intros H. unfold pick. destruct (nth_error a (Z.to_nat i)) eqn:E; auto. assert (X : nth_error a (Z.to_nat i) <> None) by congruence. apply nth_error_Some in X. lia. Qed.
Lemma nodup_alpha : NoDup alpha.
Proof. apply (NoDup_map_inv (fun c => Z.of_N (N_of_ascii c))). vm_compute. repeat constructor; cbn; intuition discriminate. Qed.
Lemma nodup_nomen : NoDup nomen.
Proof. apply (NoDup_map_inv (fun c => Z.of_N (N_of_ascii c))). vm_compute. repeat constructor; cbn; intuition discriminate. Qed.
Lemma alpha_upper c : In c alpha -> is_upper c = true.
Proof. revert c. apply Forall_forall. vm_compute. repeat constructor. Qed.
Lemma nomen_good c : In c nomen -> (is_upper c || is_digit c && negb (Ascii.eqb c "0"))%bool = true.
Proof. revert c. apply Forall_forall. vm_compute. repeat constructor. Qed.

Lemma div_div_lt i n : 0 <= i -> i < capacity (Z.of_nat n + 3) -> i / 10 ^ Z.of_nat n / 35 / 35 < 26.
Proof.
  intros I H. unfold capacity in H. replace (Z.of_nat n + 3 - 3) with (Z.of_nat n) in H by lia.
  pose proof (Z.pow_pos_nonneg 10 (Z.of_nat n)). repeat (apply Z.div_lt_upper_bound; [lia|]). lia.
Qed.
Lemma label_of_ok n i : (1 <= n)%nat -> 0 <= i < capacity (Z.of_nat n + 3) ->
  exists s, label_of n i = Ok s /\ good_label (Z.of_nat n + 3) s.
Proof.
  intros N H. pose proof (div_div_lt i n (proj1 H) (proj2 H)) as L. unfold label_of.
  change (Z.of_nat (List.length nomen)) with 35. cbv zeta.
  assert (P : 0 < 10 ^ Z.of_nat n) by (apply Z.pow_pos_nonneg; lia).
  set (q1 := i / 10 ^ Z.of_nat n) in *. assert (Q1 : 0 <= q1) by (apply Z.div_pos; lia).
  assert (Q2 : 0 <= q1 / 35) by (apply Z.div_pos; lia). assert (Q3 : 0 <= q1 / 35 / 35) by (apply Z.div_pos; lia).
  rewrite (Z.mod_small (q1 / 35 / 35)) by lia.
  destruct (pick_ok alpha (q1 / 35 / 35)) as (a & A & AI); [change (Z.of_nat (List.length alpha)) with 26; lia|].
  destruct (pick_ok nomen ((q1 / 35) mod 35)) as (b & B & BI); [change (Z.of_nat (List.length nomen)) with 35; apply Z.mod_pos_bound; lia|].
  destruct (pick_ok nomen (q1 mod 35)) as (c & C & CI); [change (Z.of_nat (List.length nomen)) with 35; apply Z.mod_pos_bound; lia|].
  rewrite A, B, C. cbn [bind]. eexists. split; [reflexivity|].
  rewrite numer_zpad by (auto; apply Z.mod_pos_bound; lia).
  exists a, b, c. eexists. split; [reflexivity|]. split; [cbn [List.length]; rewrite zpad_length; lia|].
  split; [now apply alpha_upper|]. split; [now apply nomen_good|]. split; [now apply nomen_good|]. apply zpad_digits.
Qed.
Lemma label_of_inj n i j s : (1 <= n)%nat -> 0 <= i < capacity (Z.of_nat n + 3) -> 0 <= j < capacity (Z.of_nat n + 3) ->
  label_of n i = Ok s -> label_of n j = Ok s -> i = j.
Proof.
  intros N HI HJ. pose proof (div_div_lt i n (proj1 HI) (proj2 HI)) as LI. pose proof (div_div_lt j n (proj1 HJ) (proj2 HJ)) as LJ.
  unfold label_of. change (Z.of_nat (List.length nomen)) with 35. cbv zeta.
  assert (P : 0 < 10 ^ Z.of_nat n) by (apply Z.pow_pos_nonneg; lia).
  pose proof (Z.div_mod i (10 ^ Z.of_nat n)) as EI. pose proof (Z.div_mod j (10 ^ Z.of_nat n)) as EJ.
  pose proof (Z.mod_pos_bound i (10 ^ Z.of_nat n) P) as MI. pose proof (Z.mod_pos_bound j (10 ^ Z.of_nat n) P) as MJ.
  assert (QI : 0 <= i / 10 ^ Z.of_nat n) by (apply Z.div_pos; lia). assert (QJ : 0 <= j / 10 ^ Z.of_nat n) by (apply Z.div_pos; lia).
  rewrite (numer_zpad n (i mod _)), (numer_zpad n (j mod _)) by auto.
  set (q := i / 10 ^ Z.of_nat n) in *. set (p := j / 10 ^ Z.of_nat n) in *.
  set (r := i mod 10 ^ Z.of_nat n) in *. set (t := j mod 10 ^ Z.of_nat n) in *.
  pose proof (Z.div_mod q 35). pose proof (Z.div_mod (q / 35) 35). pose proof (Z.div_mod p 35). pose proof (Z.div_mod (p / 35) 35).
  pose proof (Z.mod_pos_bound q 35). pose proof (Z.mod_pos_bound (q / 35) 35). pose proof (Z.mod_pos_bound p 35). pose proof (Z.mod_pos_bound (p / 35) 35).
  assert (Q3 : 0 <= q / 35 / 35) by (repeat (apply Z.div_pos; try lia)). assert (P3 : 0 <= p / 35 / 35) by (repeat (apply Z.div_pos; try lia)).
  rewrite (Z.mod_small (q / 35 / 35)), (Z.mod_small (p / 35 / 35)) by lia.
  destruct (pick alpha (q / 35 / 35)) as [a|] eqn:A; [|discriminate]. destruct (pick nomen ((q / 35) mod 35)) as [b|] eqn:B; [|discriminate].
  destruct (pick nomen (q mod 35)) as [c|] eqn:C; [|discriminate]. cbn [bind]. intros E; injection E as <-.
  destruct (pick alpha (p / 35 / 35)) as [a'|] eqn:A'; [|discriminate]. destruct (pick nomen ((p / 35) mod 35)) as [b'|] eqn:B'; [|discriminate].
  destruct (pick nomen (p mod 35)) as [c'|] eqn:C'; [|discriminate]. cbn [bind]. intros E; injection E as -> -> -> Z0.
  apply (f_equal of_digits) in Z0. rewrite !of_digits_zpad in Z0 by lia. rewrite !Z.mod_small in Z0 by lia.
  pose proof (pick_inj _ _ _ _ nodup_alpha Q3 P3 A A') as E1.
  assert (E2 : (q / 35) mod 35 = (p / 35) mod 35) by (eapply (pick_inj nomen); eauto using nodup_nomen; lia).
  assert (E3 : q mod 35 = p mod 35) by (eapply (pick_inj nomen); eauto using nodup_nomen; lia).
  assert (q = p) by lia. rewrite EI, EJ by lia. congruence.
Qed.

Definition label_at (n : nat) (i : Z) : str := match label_of n i with Ok s => s | Err _ => [] end.
Lemma labels_ok n m : (1 <= n)%nat -> Z.of_nat m <= capacity (Z.of_nat n + 3) ->
  mapM (label_of n) (map Z.of_nat (seq 0 m)) = Ok (map (label_at n) (map Z.of_nat (seq 0 m))).
Proof.
  intros N H. apply mapM_ok. intros i I. apply in_map_iff in I as (k & <- & K). apply in_seq in K.
  unfold label_at. destruct (label_of_ok n (Z.of_nat k) N) as (s & -> & _); [lia|reflexivity].
Qed.
Lemma mapM_bad {A B} (f : A -> res B) l x e : In x l -> f x = Err e -> exists e', mapM f l = Err e'.
Proof.
  intros I F. induction l as [|y l IH]; [destruct I|]. cbn [mapM]. destruct (f y) as [b|] eqn:E; cbn [bind]; [|eauto].
  destruct I as [-> | I]; [congruence|]. destruct (IH I) as [e' ->]. cbn [bind]. eauto.
Qed.
Lemma mapM_same_err {A B} (f : A -> res B) l e : (forall x e', f x = Err e' -> e' = e) -> forall e', mapM f l = Err e' -> e' = e.
Proof.
  intros H. induction l as [|y l IH]; cbn [mapM]; [discriminate|]. intros e'. destruct (f y) eqn:E; cbn [bind].
  - destruct (mapM f l); cbn [bind]; [discriminate|]. auto.
  - intros X; injection X as <-. eauto.
Qed.
Lemma label_of_err n i e : label_of n i = Err e -> e = IndexError.
Proof.
  unfold label_of, pick. cbv zeta. repeat match goal with |- context [nth_error ?a ?b] => destruct (nth_error a b) end; cbn [bind]; congruence.
Qed.

(** the length in force *)
Definition length_of (n_cells : Z) (ll : option Z) : Z :=
  match ll with Some l => if l =? 0 then auto_length n_cells else l | None => auto_length n_cells end.
Lemma labeler_at n_cells ll : 4 <= length_of n_cells ll ->
  labeler n_cells ll = mapM (label_of (Z.to_nat (length_of n_cells ll - 3))) (map Z.of_nat (seq 0 (Z.to_nat n_cells))).
Proof.
  intros H. unfold labeler. fold (length_of n_cells ll). destruct (Z.leb_spec 0 (length_of n_cells ll - 3)); [|lia]. reflexivity.
Qed.
Lemma capacity_at l : 4 <= l -> capacity (Z.of_nat (Z.to_nat (l - 3)) + 3) = capacity l.
Proof. intros H. f_equal. lia. Qed.
Lemma labeler_good_at n_cells ll : let l := length_of n_cells ll in 4 <= l -> 0 <= n_cells <= capacity l ->
  exists ls, labeler n_cells ll = Ok ls /\ Z.of_nat (List.length ls) = n_cells /\ NoDup ls /\ Forall (good_label l) ls.
Proof.
  intros l L H. rewrite labeler_at by exact L. fold l. set (n := Z.to_nat (l - 3)). assert (N : (1 <= n)%nat) by (unfold n; lia).
  assert (C : Z.of_nat (Z.to_nat n_cells) <= capacity (Z.of_nat n + 3)) by (unfold n; rewrite capacity_at by auto; lia).
  rewrite labels_ok by auto. eexists. split; [reflexivity|]. split; [rewrite !map_length, seq_length; lia|]. split.
  - rewrite map_map. apply NoDup_nth_error. intros i j LI E. rewrite map_length, seq_length in LI.
    assert (LJ : (j < Z.to_nat n_cells)%nat).
    { assert (X : nth_error (map (fun x => label_at n (Z.of_nat x)) (seq 0 (Z.to_nat n_cells))) j <> None).
      - rewrite <- E. apply nth_error_Some. now rewrite map_length, seq_length.
      - apply nth_error_Some in X. now rewrite map_length, seq_length in X. }
    assert (X : forall k, (k < Z.to_nat n_cells)%nat ->
      nth_error (map (fun x => label_at n (Z.of_nat x)) (seq 0 (Z.to_nat n_cells))) k = Some (label_at n (Z.of_nat k))).
    { intros k K. erewrite map_nth_error; [reflexivity|]. rewrite (nth_error_nth' _ 0%nat) by now rewrite seq_length. now rewrite seq_nth. }
    rewrite !X in E by auto. injection E as E. unfold label_at in E.
    destruct (label_of_ok n (Z.of_nat i) N) as (s & S1 & _); [lia|]. destruct (label_of_ok n (Z.of_nat j) N) as (t & S2 & _); [lia|].
    rewrite S1, S2 in E. subst t. assert (Z.of_nat i = Z.of_nat j); [|lia]. eapply (label_of_inj n); eauto; lia.
  - apply Forall_forall. intros s I. apply in_map_iff in I as (i & <- & I). apply in_map_iff in I as (k & <- & K). apply in_seq in K.
    unfold label_at. destruct (label_of_ok n (Z.of_nat k) N) as (s & -> & G); [lia|]. unfold n in G. now replace (Z.of_nat (Z.to_nat (l - 3)) + 3) with l in G by lia.
Qed.
Theorem labeler_good n_cells l : 4 <= l -> 0 <= n_cells <= capacity l ->
  exists ls, labeler n_cells (Some l) = Ok ls /\ Z.of_nat (List.length ls) = n_cells /\ NoDup ls /\ Forall (good_label l) ls.
Proof.
  intros L H. assert (E : length_of n_cells (Some l) = l) by (unfold length_of; destruct (Z.eqb_spec l 0); [lia|reflexivity]).
  pose proof (labeler_good_at n_cells (Some l)) as G. cbv zeta in G. rewrite E in G. auto.
Qed.
Lemma labeler_over n_cells ll : let l := length_of n_cells ll in 4 <= l -> capacity l < n_cells -> labeler n_cells ll = Err IndexError.
Proof.
  intros l L H. rewrite labeler_at by exact L. fold l. set (n := Z.to_nat (l - 3)).
  assert (CP : 0 < capacity l) by (unfold capacity; pose proof (Z.pow_pos_nonneg 10 (l - 3)); lia).
  destruct (mapM_bad (label_of n) (map Z.of_nat (seq 0 (Z.to_nat n_cells))) (capacity l) IndexError) as [e E].
  - replace (capacity l) with (Z.of_nat (Z.to_nat (capacity l))) by lia. apply in_map. apply in_seq. lia.
  - unfold label_of. change (Z.of_nat (List.length nomen)) with 35. cbv zeta. unfold capacity.
    replace (Z.of_nat n) with (l - 3) by (unfold n; lia). assert (P : 0 < 10 ^ (l - 3)) by (apply Z.pow_pos_nonneg; lia).
    rewrite Z.div_mul by lia. change (26 * 35 * 35) with 31850. change (31850 / 35 / 35) with 26. rewrite pick_bad; [reflexivity|]. vm_compute. discriminate.
  - rewrite E. f_equal. eapply mapM_same_err; [|exact E]. intros x e' X. eapply label_of_err; eauto.
Qed.
Theorem labeler_full n_cells l : 4 <= l -> capacity l < n_cells -> labeler n_cells (Some l) = Err IndexError.
Proof.
  intros L H. assert (E : length_of n_cells (Some l) = l) by (unfold length_of; destruct (Z.eqb_spec l 0); [lia|reflexivity]).
  pose proof (labeler_over n_cells (Some l)) as G. cbv zeta in G. rewrite E in G. auto.
Qed.

Lemma auto_length_spec n_cells :
  5 <= auto_length n_cells <= 10 /\ (n_cells <= capacity 10 -> n_cells <= capacity (auto_length n_cells)) /\
  (forall l, 5 <= l < auto_length n_cells -> capacity l < n_cells).
Proof.
  unfold auto_length, bins. cbn [map]. change (10 ^ 0) with 1. change (10 ^ 1) with 10. change (10 ^ 2) with 100. change (10 ^ 3) with 1000. change (10 ^ 4) with 10000.
  assert (C : capacity 5 = 3185000 /\ capacity 6 = 31850000 /\ capacity 7 = 318500000 /\ capacity 8 = 3185000000 /\ capacity 9 = 31850000000 /\ capacity 10 = 318500000000) by (vm_compute; repeat split).
  destruct C as (C5 & C6 & C7 & C8 & C9 & C10). cbn [filter].
  repeat match goal with |- context [?a <=? n_cells] => destruct (Z.leb_spec a n_cells) end; try lia; cbn [List.length];
  match goal with |- context [Z.of_nat ?k + 5] => let v := eval compute in (Z.of_nat k + 5) in change (Z.of_nat k + 5) with v end;
  (split; [lia|]; split; [lia|]; intros l LL; assert (LC : l = 5 \/ l = 6 \/ l = 7 \/ l = 8 \/ l = 9) by lia;
   destruct LC as [-> | [-> | [-> | [-> | ->]]]]; lia).
Qed.
Theorem labeler_auto n_cells ll : ll = None \/ ll = Some 0 -> 0 <= n_cells <= capacity 10 ->
  exists l ls, 5 <= l <= 10 /\ (forall l', 5 <= l' < l -> capacity l' < n_cells) /\
    labeler n_cells ll = Ok ls /\ Z.of_nat (List.length ls) = n_cells /\ NoDup ls /\ Forall (good_label l) ls.
Proof.
  intros LL H. destruct (auto_length_spec n_cells) as (B & C & M).
  assert (E : length_of n_cells ll = auto_length n_cells) by (destruct LL; subst ll; reflexivity).
  pose proof (labeler_good_at n_cells ll) as G. cbv zeta in G. rewrite E in G.
  destruct G as (ls & G); [lia|lia|]. exists (auto_length n_cells), ls. auto.
Qed.
Theorem labeler_auto_over n_cells ll : ll = None \/ ll = Some 0 -> capacity 10 < n_cells -> labeler n_cells ll = Err IndexError.
Proof.
  intros LL H. assert (E : length_of n_cells ll = auto_length n_cells) by (destruct LL; subst ll; reflexivity).
  pose proof (labeler_over n_cells ll) as G. cbv zeta in G. rewrite E in G.
  destruct (auto_length_spec n_cells) as (B & _). apply G; [lia|].
  eapply Z.le_lt_trans; [|exact H]. unfold capacity. apply Z.mul_le_mono_nonneg_l; [lia|]. apply Z.pow_le_mono_r; lia.
Qed.
Theorem labeler_prefix n m l ls ls' : l <> 0 -> 0 <= n <= m -> labeler n (Some l) = Ok ls -> labeler m (Some l) = Ok ls' ->
  firstn (Z.to_nat n) ls' = ls.
Proof.
  intros L H. unfold labeler. destruct (Z.eqb_spec l 0); [contradiction|]. destruct (0 <=? l - 3); cbn [guard bind]; [|discriminate].
  set (f := label_of (Z.to_nat (l - 3))). replace (Z.to_nat m) with (Z.to_nat n + (Z.to_nat m - Z.to_nat n))%nat by lia.
  rewrite seq_app, map_app. intros E1 E2.
  assert (G : forall (a b : list Z) (x y : list str), mapM f a = Ok x -> mapM f (a ++ b) = Ok y -> firstn (List.length a) y = x).
  { clear. induction a as [|z a IH]; intros b x y; cbn [mapM app List.length firstn].
    - intros E; injection E as <-. reflexivity.
    - destruct (f z); cbn [bind]; [|discriminate]. destruct (mapM f a) as [x'|] eqn:E; cbn [bind]; [|discriminate]. intros X; injection X as <-.
      destruct (mapM f (a ++ b)) as [y'|] eqn:F; cbn [bind]; [|discriminate]. intros Y; injection Y as <-. f_equal. eapply IH; eauto. }
  specialize (G _ _ _ _ E1 E2). now rewrite map_length, seq_length in G.
Qed.
Lemma count_digits_app a b : forallb is_digit a = true -> count_digits (a ++ b) = (List.length a + count_digits b)%nat.
Proof.
  induction a as [|c a IH]; cbn [forallb app count_digits List.length]; auto. intros H. apply andb_true_iff in H as [-> H2].
  rewrite IH by auto. reflexivity.
Qed.
Theorem good_label_recognised l s r : 5 <= l <= 9 -> good_label l s -> (forall c r', r = c :: r' -> is_digit c = false) ->
  Z.of_nat (get_label_length (s ++ r)) = l.
Proof.
  intros L (a & b & c & ds & -> & LN & _ & _ & _ & D) R. unfold get_label_length.
  cbn [List.length] in LN. destruct ds as [|d [|e ds]]; cbn [List.length] in LN; [lia|lia|].
  cbn [app skipn]. cbn [forallb] in D. apply andb_true_iff in D as [_ D]. apply andb_true_iff in D as [_ D].
  rewrite count_digits_app by auto. assert (Z0 : count_digits r = O).
  { destruct r as [|x r]; [reflexivity|]. cbn [count_digits]. now rewrite (R x r). }
  rewrite Z0. cbn [List.length] in LN. lia.
Qed.
