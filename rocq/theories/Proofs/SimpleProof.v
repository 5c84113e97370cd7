(** The short blocks: what is written is what is read. *)
From Coq Require Import String Ascii ZArith Bool Lia FinFun List.
From Verif Require Import Base.Str Base.Digits Base.Flt Base.FltText Base.FltInt.
From Verif Require Import Model.Py Model.Records Model.Write Model.Read.
From Verif Require Import Spec.Fields Spec.Values Spec.Types Spec.Layouts Spec.Rocks Spec.Simple.
From Verif Require Import Proofs.RecordLemmas Proofs.DictLemmas Proofs.Layouts Proofs.Types Proofs.BlockTools Proofs.RocksProof.
Import ListNotations.
Local Open Scope Z_scope.

(** Go to the branch of a block. *)
Ltac at_block := unfold read_block;
  repeat match goal with |- context [startswith ?a (head ?b)] =>
    let v := eval vm_compute in (startswith a (head b)) in
    change (startswith a (head b)) with v; cbv iota end.

Lemma dgetE_or dflt k s d : keys_unique s -> dget k d = Some dflt -> dgetE k (dupdate d s) = Ok (val_or dflt k s).
Proof. intros U G. unfold dgetE, val_or. rewrite dget_dupdate by auto. destruct (dget k s); auto. now rewrite G. Qed.

(** ** SOLVR *)
Definition solvr_vals (s : dict) : list pyval :=
  [val #"method" s; PNone; solver_z s; PNone; solver_o s; solver_rel s; solver_eps s].
Lemma SOLVR_block p : SOLVR_ok p ->
  write_solvr p = Ok (head ($"SOLVR") :: [rec_line cols_SOLVR (solvr_vals (solver_of p))]) /\
  Forall good_line [rec_line cols_SOLVR (solvr_vals (solver_of p))] /\
  reads_as (head ($"SOLVR")) [rec_line cols_SOLVR (solvr_vals (solver_of p))] (fun q => dupdate q (SOLVR_back p)).
Proof.
  intros (G & U & T & M & C1 & C2 & C3 & C4 & C5).
  assert (R : rec_ok cols_SOLVR (solvr_vals (solver_of p)) = true).
  { unfold cols_SOLVR, solvr_vals. rewrite !rec_ok_cons. rewrite C1, C2, C3. unfold fits in *. now rewrite C4, C5. }
  repeat split.
  - unfold write_solvr. rewrite (check_at_ok dt_SOLVR kinds_SOLVR #"solver" p (solver_of p) st_SOLVR) by auto.
    cbn [bind]. unfold block, get_dict, dgetE at 1. rewrite G. cbn [bind as_dict].
    assert (ME : dgetE #"method" (dupdate d_solver (solver_of p)) = Ok (val #"method" (solver_of p))).
    { unfold dgetE. rewrite dget_dupdate by auto. rewrite (dget_val _ _ M). reflexivity. }
    rewrite ME. cbn [bind].
    rewrite (dgetE_or (PStr ($"Z0")) #"z_precond" (solver_of p)) by (auto; reflexivity). cbn [bind].
    rewrite (dgetE_or (PStr ($"O0")) #"o_precond" (solver_of p)) by (auto; reflexivity). cbn [bind].
    rewrite (dgetE_or (PFloat (flt_of_dec false 1 (-1))) #"rel_iter_max" (solver_of p)) by (auto; vm_compute; reflexivity). cbn [bind].
    rewrite (dgetE_or (PFloat (flt_of_dec false 1 (-6))) #"eps" (solver_of p)) by (auto; vm_compute; reflexivity). cbn [bind].
    rewrite (write_record_ok fmt_SOLVR cols_SOLVR _ f_SOLVR) by exact R. reflexivity.
  - constructor; auto. now apply rec_line_good.
  - intros ll q rest. at_block. unfold read_solvr. cbn [app next bind].
    rewrite (read_record_ok fmt_SOLVR cols_SOLVR _ f_SOLVR) by exact R. cbn [bind]. reflexivity.
Qed.

(** ** MULTI *)
Lemma eos_get_find s : eos_get s d_eos =
  option_map (fun cf => [fst cf; (if streqb s ($"eos7") || streqb s ($"eos8") || streqb s ($"eos9") then fst cf else fst cf + 1); snd cf; 6])
    (eos_find s eos_table).
Proof.
  unfold d_eos, eos_table. cbn [eos_get eos_find].
  repeat match goal with |- context [streqb s ?t] =>
    let E := fresh in destruct (streqb s t) eqn:E;
    [apply streqb_eq in E; subst s; reflexivity|] end.
  reflexivity.
Qed.

Definition chosen (given : pyval) (table : Z) : pyval :=
  match int_of given with
  | Some z => if Z.eqb z 0 then PInt table else given
  | None => PInt table
  end.
Definition multi_base (p : dict) : Z * Z :=
  match eos_counts (val #"eos" p) with Some c => c | None => (0, 0) end.
Definition multi_vals (p : dict) : list pyval :=
  let v0 := chosen (val #"n_component" p) (fst (multi_base p)) in
  let v2 := chosen (val #"n_phase" p) (snd (multi_base p)) in
  [v0; (if is_isothermal p then v0 else match add1 v0 with Ok v => v | Err _ => PNone end); v2;
   PInt (match val #"diffusion" p with PSeq _ (_ :: _) => 8 | _ => 6 end)]
  ++ match int_of (val #"n_component_mass" p) with
     | Some z => if Z.eqb z 0 then [] else [val #"n_component_mass" p]
     | None => []
     end.

Lemma opt_int_truthy v : opt_int v = true ->
  truthy v = Ok (match int_of v with Some z => negb (Z.eqb z 0) | None => false end).
Proof. destruct v as [|[]| | | | | |]; try discriminate; reflexivity. Qed.
Lemma chosen_int v t : int_of (chosen v t) = Some (override v t).
Proof. unfold chosen, override. destruct (int_of v) as [z|] eqn:E; auto. destruct (z =? 0) eqn:Z0; auto. Qed.
Lemma chosen_truthy v t : opt_int v = true ->
  (if match int_of v with Some z => negb (Z.eqb z 0) | None => false end then v else PInt t) = chosen v t.
Proof. intros _. unfold chosen. destruct (int_of v) as [z|]; auto. now destruct (z =? 0). Qed.
Lemma add1_int v z : int_of v = Some z -> exists w, add1 v = Ok w /\ int_of w = Some (z + 1).
Proof. destruct v as [|[]| | | | | |]; try discriminate; cbn [int_of add1]; intros [= <-]; eexists; split; reflexivity. Qed.
Lemma col_ok_int w v z : int_of v = Some z -> int_fits w z = true -> col_ok (CInt w) v = true.
Proof. unfold int_fits. cbn [col_ok absent orb int_of]. intros -> H. now rewrite H, orb_true_r. Qed.
Lemma col_val_int w v z : int_of v = Some z -> col_val (CInt w) v = PInt z.
Proof. cbn [col_val]. now intros ->. Qed.

Lemma MULTI_block p : MULTI_ok p ->
  write_multi p = Ok (head ($"MULTI") :: [rec_line cols_MULTI (multi_vals p)]) /\
  Forall good_line [rec_line cols_MULTI (multi_vals p)] /\
  reads_as (head ($"MULTI")) [rec_line cols_MULTI (multi_vals p)] (fun q => dupdate q (MULTI_back p)).
Proof.
  intros (K & E & I & (iso & ISO) & D & F1 & F2 & F3 & F4).
  cbn [forallb] in K, I. repeat rewrite andb_true_iff in K. repeat rewrite andb_true_iff in I.
  destruct K as (K1 & K2 & K3 & K4 & K5 & K6 & _). destruct I as (I1 & I2 & I3 & _).
  assert (CO : counts_of p = (override (val #"n_component" p) (fst (multi_base p)), override (val #"n_phase" p) (snd (multi_base p)))).
  { unfold counts_of, multi_base. destruct (eos_counts (val #"eos" p)) as [[c f]|]; [reflexivity|now elim E]. }
  rewrite CO in *. cbn [fst snd] in *.
  set (v0 := chosen (val #"n_component" p) (fst (multi_base p))) in *.
  set (v2 := chosen (val #"n_phase" p) (snd (multi_base p))) in *.
  assert (V0 : int_of v0 = Some (override (val #"n_component" p) (fst (multi_base p)))) by apply chosen_int.
  assert (V2 : int_of v2 = Some (override (val #"n_phase" p) (snd (multi_base p)))) by apply chosen_int.
  destruct (add1_int v0 _ V0) as (v1 & A1 & V1).
  assert (II : is_isothermal p = iso) by (unfold is_isothermal; now rewrite ISO).
  assert (MV : multi_vals p = [v0; if iso then v0 else v1; v2;
     PInt (match val #"diffusion" p with PSeq _ (_ :: _) => 8 | _ => 6 end)]
    ++ match int_of (val #"n_component_mass" p) with
       | Some z => if Z.eqb z 0 then [] else [val #"n_component_mass" p] | None => [] end).
  { unfold multi_vals. rewrite II. fold v0 v2. now rewrite A1. }
  assert (R : rec_ok cols_MULTI (multi_vals p) = true).
  { rewrite MV. unfold cols_MULTI. cbn [repeat app]. rewrite !rec_ok_cons.
    rewrite (col_ok_int 5 v0 _ V0 F1), (col_ok_int 5 v2 _ V2 F3).
    assert (X : col_ok (CInt 5) (if iso then v0 else v1) = true)
      by (destruct iso; [now apply (col_ok_int 5 v0 _ V0 F1)|now apply (col_ok_int 5 v1 _ V1 F2)]).
    rewrite X. cbn [andb].
    replace (col_ok (CInt 5) (PInt match val #"diffusion" p with PSeq _ (_ :: _) => 8 | _ => 6 end)) with true
      by (destruct (val #"diffusion" p) as [| | | | | |? [|]|]; reflexivity).
    cbn [andb]. destruct (int_of (val #"n_component_mass" p)) as [z|]; [destruct (z =? 0)|]; try reflexivity.
    rewrite rec_ok_cons, F4. reflexivity. }
  split; [|split].
  - unfold write_multi, block. rewrite !dgetE_val by auto. cbn [bind].
    assert (B : (let* te := truthy (val #"eos" p) in
                 (if te then match val #"eos" p with
                     | PStr s => match eos_get s d_eos with Some l => Ok l | None => Err KeyError end
                     | _ => Err KeyError end else Ok [0; 0; 0; 6]))
            = Ok (match val #"eos" p with
                  | PStr (c :: s) => match eos_get (c :: s) d_eos with Some l => l | None => [] end
                  | _ => [0;0;0;6] end)).
    { destruct (val #"eos" p) as [| | | | |[|c s]| |]; try reflexivity; try (now elim E).
      cbn [truthy nonempty bind]. unfold eos_counts in E. rewrite eos_get_find.
      destruct (eos_find (c :: s) eos_table); [reflexivity|now elim E]. }
    destruct (truthy (val #"eos" p)) as [te|]; cbn [bind] in B |- *; [|discriminate]. rewrite B. cbn [bind].
    assert (BB : exists x, (match val #"eos" p with
                  | PStr (c :: s) => match eos_get (c :: s) d_eos with Some l => l | None => [] end
                  | _ => [0;0;0;6] end) = [fst (multi_base p); x; snd (multi_base p); 6]).
    { unfold multi_base. destruct (val #"eos" p) as [| | | | |[|c s]| |]; try (now elim E); try (exists 0; reflexivity).
      unfold eos_counts in *. rewrite eos_get_find. destruct (eos_find (c :: s) eos_table) as [[a b]|]; [|now elim E].
      cbn [option_map fst snd]. eexists; reflexivity. }
    destruct BB as (x & ->). cbn [map]. rewrite opt_int_truthy by auto. cbn [bind].
    rewrite chosen_truthy by auto. fold v0. rewrite ISO. cbn [truthy bind].
    replace (if iso then Ok v0 else add1 v0) with (Ok (if iso then v0 else v1)) by (destruct iso; auto).
    cbn [bind]. rewrite !opt_int_truthy by auto. cbn [bind].
    rewrite chosen_truthy by auto. fold v2.
    assert (T : truthy (val #"diffusion" p) = Ok (match val #"diffusion" p with PSeq _ (_ :: _) => true | _ => false end)).
    { destruct (val #"diffusion" p) as [| | | | | |[] [|]|]; try tauto; reflexivity. }
    rewrite T. cbn [bind]. rewrite opt_int_truthy by auto. cbn [bind].
    assert (RL : write_record (multi_vals p) (str2format fmt_MULTI []) = Ok [rec_line cols_MULTI (multi_vals p)])
      by now apply (write_record_ok fmt_MULTI cols_MULTI _ f_MULTI).
    rewrite MV in RL |- *. cbn [app] in *.
    destruct (val #"diffusion" p) as [| | | | | |[] [|]|]; try tauto;
      (destruct (int_of (val #"n_component_mass" p)) as [z|]; [destruct (z =? 0)|]; cbn [negb app] in *; rewrite RL; reflexivity).
  - constructor; auto. now apply rec_line_good.
  - intros ll q rest. at_block. unfold read_multi. cbn [app next bind].
    rewrite (read_record_ok fmt_MULTI cols_MULTI _ f_MULTI) by exact R. cbn [bind].
    unfold MULTI_back. rewrite CO. cbn [fst snd].
    rewrite MV. unfold cols_MULTI. cbn [repeat app]. rewrite !rec_val_cons. cbn [at_ nth].
    rewrite (col_val_int 5 v0 _ V0), (col_val_int 5 v2 _ V2), II.
    destruct iso.
    + rewrite (col_val_int 5 v0 _ V0). cbn [simple_eqb]. now rewrite Z.eqb_refl.
    + rewrite (col_val_int 5 v1 _ V1). cbn [simple_eqb].
      match goal with |- context [?a + 1 =? ?a] => replace (a + 1 =? a) with false by (symmetry; apply Z.eqb_neq; lia) end.
      reflexivity.
Qed.

(** ** One-digit options *)
Lemma dkeys_dupdate d u : (forall k, In k (dkeys u) -> In k (dkeys d)) -> dkeys (dupdate d u) = dkeys d.
Proof.
  unfold dupdate. revert d. induction u as [|[a w] u IH]; intros d H; auto. cbn [fold_left fst snd].
  rewrite IH.
  - apply dkeys_dset, H. now left.
  - intros k Hk. rewrite dkeys_dset by (apply H; now left). apply H. now right.
Qed.

Definition opt_text (v : pyval) : ascii :=
  match v with PInt z | PNpInt z => digit_char z | _ => " "%char end.
Lemma print_digit z : 0 <= z < 10 -> print_Z z = [digit_char z].
Proof.
  intros H. assert (C : z = 0 \/ z = 1 \/ z = 2 \/ z = 3 \/ z = 4 \/ z = 5 \/ z = 6 \/ z = 7 \/ z = 8 \/ z = 9) by lia.
  repeat (destruct C as [->|C]; [reflexivity|]). now subst.
Qed.
Lemma option_text v : digit_option v = true ->
  (if is_none v then Ok ($" ") else py_str v) = Ok [opt_text v].
Proof.
  destruct v as [| |z|z| | | |]; cbn [digit_option]; try discriminate; auto;
    rewrite andb_true_iff, Z.leb_le, Z.ltb_lt; intros H; cbn [is_none py_str opt_text]; now rewrite print_digit.
Qed.
Lemma option_space c v : digit_option v = true -> c = opt_text v ->
  is_digit c = negb (is_none (col_val (CInt 1) v)) /\
  (is_digit c = true -> PInt (char_digit c) = col_val (CInt 1) v) /\ Ascii.eqb c nl = false.
Proof.
  intros H ->. destruct v as [| |z|z| | | |]; cbn [digit_option] in H; try discriminate;
    [cbn; repeat split; discriminate| |];
    apply andb_true_iff in H as [H1 H2]; apply Z.leb_le in H1; apply Z.ltb_lt in H2;
    cbn [opt_text col_val int_of is_none negb]; rewrite is_digit_digit_char, char_digit_digit_char by lia;
    (repeat split; auto;
     assert (C : z = 0 \/ z = 1 \/ z = 2 \/ z = 3 \/ z = 4 \/ z = 5 \/ z = 6 \/ z = 7 \/ z = 8 \/ z = 9) by lia;
     repeat (destruct C as [->|C]; [reflexivity|]); now subst).
Qed.
Lemma digit_entries_ok vs : forallb digit_option vs = true -> forall i,
  digit_entries i (map opt_text vs) =
  known (map (fun iv => (KI (fst iv), col_val (CInt 1) (snd iv)))
             (combine (map (fun j => i + Z.of_nat j) (seq 0 (List.length vs))) vs)).
Proof.
  induction vs as [|v vs IH]; intros H i; auto. cbn [forallb] in H. apply andb_true_iff in H as [H1 H2].
  cbn [map digit_entries List.length seq combine known fst snd]. rewrite IH by auto.
  destruct (option_space _ v H1 eq_refl) as (E1 & E2 & _). rewrite E1.
  replace (map (fun j => i + Z.of_nat j) (seq 1 (List.length vs)))
    with (map (fun j => i + 1 + Z.of_nat j) (seq 0 (List.length vs))).
  2:{ rewrite <- seq_shift, map_map. apply map_ext. intros. lia. }
  rewrite Z.add_0_r. destruct (is_none (col_val (CInt 1) v)) eqn:N; cbn [negb]; auto.
  rewrite E2 by now rewrite E1. reflexivity.
Qed.

Lemma insert_sorted n i : fold_right insert_Z [] (map Z.of_nat (seq i n)) = map Z.of_nat (seq i n).
Proof.
  revert i. induction n as [|n IH]; intros i; auto. cbn [seq map fold_right]. rewrite IH.
  destruct n; auto. cbn [seq map insert_Z]. replace (Z.of_nat i <=? Z.of_nat (S i)) with true; auto.
  symmetry. apply Z.leb_le. lia.
Qed.
Lemma sorted_int_keys n d : dkeys d = int_keys n -> sorted_keys d = Ok (option_nums n).
Proof.
  intros E. unfold sorted_keys. rewrite E. unfold int_keys.
  rewrite (mapM_ok _ (fun k => match k with KI z => z | _ => 0 end)).
  - cbn [bind]. rewrite map_map. now rewrite insert_sorted.
  - intros k Hk. apply in_map_iff in Hk as (j & <- & _). reflexivity.
Qed.
Lemma in_option_nums n z : In z (option_nums n) <-> 1 <= z <= Z.of_nat n.
Proof.
  unfold option_nums. rewrite in_map_iff. setoid_rewrite in_seq. split.
  - intros (x & <- & H). lia.
  - intros H. exists (Z.to_nat z). split; lia.
Qed.
Definition none_dict (n : nat) : dict := map (fun k => (k, PNone)) (int_keys n).
Lemma none_dict_keys n : dkeys (none_dict n) = int_keys n.
Proof. unfold none_dict, dkeys. rewrite map_map. apply map_id. Qed.
Lemma none_dict_get n k : dget k (none_dict n) = None \/ dget k (none_dict n) = Some PNone.
Proof.
  destruct (dget k (none_dict n)) as [v|] eqn:E; auto. right. apply dget_in in E.
  unfold none_dict in E. apply in_map_iff in E as (x & [= _ <-] & _). reflexivity.
Qed.
Lemma full_ints n d : int_indices n d -> dkeys (dupdate (none_dict n) d) = int_keys n /\
  forall i, 1 <= i <= Z.of_nat n -> dget (KI i) (dupdate (none_dict n) d) = Some (val (KI i) d).
Proof.
  intros (U & F). rewrite Forall_forall in F.
  assert (K : dkeys (dupdate (none_dict n) d) = int_keys n).
  { rewrite dkeys_dupdate, none_dict_keys; auto. intros k Hk. rewrite none_dict_keys.
    destruct (F k Hk) as (i & -> & Hi). unfold int_keys. apply in_map_iff.
    exists (Z.to_nat i). split; [f_equal; lia|apply in_seq; lia]. }
  split; auto. intros i Hi. unfold val.
  assert (M : dmem (KI i) (dupdate (none_dict n) d) = true).
  { apply dmem_in. rewrite K. unfold int_keys. apply in_map_iff. exists (Z.to_nat i). split; [f_equal; lia|apply in_seq; lia]. }
  unfold dmem in M. rewrite dget_dupdate in * by auto. destruct (dget (KI i) d); auto.
  destruct (none_dict_get n (KI i)) as [E|E]; rewrite E in *; [discriminate|auto].
Qed.
Lemma options_indices n d : options_ok n d -> int_indices n d.
Proof.
  intros (U & F). split; auto. rewrite Forall_forall in *. intros k Hk.
  unfold dkeys in Hk. apply in_map_iff in Hk as (kv & <- & Hkv). now destruct (F kv Hkv).
Qed.
Definition option_vals (n : nat) (d : dict) : list pyval := map (fun i => val (KI i) d) (option_nums n).
Lemma option_vals_digit n d : options_ok n d -> forallb digit_option (option_vals n d) = true.
Proof.
  intros (U & F). rewrite Forall_forall in F. apply forallb_forall. intros v Hv.
  unfold option_vals in Hv. apply in_map_iff in Hv as (i & <- & _). unfold val.
  destruct (dget (KI i) d) as [v|] eqn:E; auto. apply dget_in in E. now destruct (F _ E) as (_ & H).
Qed.
Lemma option_string_ok n d : options_ok n d ->
  option_string (dupdate (none_dict n) d) = Ok (map opt_text (option_vals n d)).
Proof.
  intros H. pose proof (full_ints n d (options_indices n d H)) as (K & G).
  pose proof (option_vals_digit n d H) as D. rewrite forallb_forall in D.
  unfold option_string. rewrite (sorted_int_keys n) by exact K. cbn [bind].
  rewrite (mapM_ok _ (fun z => [opt_text (val (KI z) d)])).
  - cbn [bind]. unfold option_vals. rewrite map_map. f_equal.
    generalize (option_nums n). clear. induction l as [|z l IH]; simpl; auto. now rewrite IH.
  - intros z Hz. apply in_option_nums in Hz. unfold dgetE. rewrite (G z Hz). cbn [bind].
    apply option_text, D. unfold option_vals. apply in_map_iff. exists z. split; auto. now apply in_option_nums.
Qed.
Lemma option_vals_length n d : List.length (option_vals n d) = n.
Proof. unfold option_vals, option_nums. now rewrite !map_length, seq_length. Qed.
Lemma option_digits_ok n d : options_ok n d ->
  digit_entries 1 (map opt_text (option_vals n d)) = options_back n d.
Proof.
  intros H. rewrite digit_entries_ok by now apply option_vals_digit. rewrite option_vals_length.
  unfold options_back, option_vals. f_equal.
  replace (map (fun j => 1 + Z.of_nat j) (seq 0 n)) with (option_nums n).
  2:{ unfold option_nums. rewrite <- seq_shift, map_map. apply map_ext. intros. lia. }
  generalize (option_nums n). clear. induction l as [|z l IH]; auto. cbn [map combine fst snd]. now rewrite IH.
Qed.
Lemma option_one_line n d : options_ok n d -> one_line (map opt_text (option_vals n d)) = true.
Proof.
  intros H. pose proof (option_vals_digit n d H) as D. rewrite forallb_forall in D. unfold one_line.
  apply forallb_forall. intros c Hc. apply in_map_iff in Hc as (v & <- & Hv).
  destruct (option_space _ v (D v Hv) eq_refl) as (_ & _ & E). now rewrite E.
Qed.
Lemma option_typed n d : options_ok n d -> well_typed (numbered n) d = true.
Proof.
  intros (U & F). rewrite Forall_forall in F. unfold well_typed. apply forallb_forall. intros [k v] H.
  destruct (F _ H) as (_ & D). cbn [snd] in D. unfold entry_typed. cbn [fst snd].
  destruct (kind_of k (numbered n)) as [kd|] eqn:E; auto. apply kind_of_in in E.
  unfold numbered in E. apply in_map_iff in E as (j & [= _ <-] & _). cbn [of_kind].
  destruct v; try discriminate D; reflexivity.
Qed.
Lemma option_raw n d : (0 < n)%nat -> options_ok n d ->
  col_ok (CRaw n) (PStr (map opt_text (option_vals n d))) = true /\
  col_val (CRaw n) (PStr (map opt_text (option_vals n d))) = PStr (map opt_text (option_vals n d)).
Proof.
  intros N H. cbn [col_ok col_val]. rewrite option_one_line by auto. rewrite map_length, option_vals_length, Nat.leb_refl.
  split; [now apply Nat.ltb_lt in N as ->|]. unfold ljust. rewrite map_length, option_vals_length, Nat.sub_diag. cbn.
  now rewrite app_nil_r.
Qed.

(** ** MOMOP *)
Definition momop_vals (p : dict) : list pyval := [PStr (map opt_text (option_vals 40 (momop_of p)))].
Lemma MOMOP_block p : MOMOP_ok p ->
  write_momop p = Ok (head ($"MOMOP") :: [rec_line cols_MOMOP (momop_vals p)]) /\
  Forall good_line [rec_line cols_MOMOP (momop_vals p)] /\
  reads_as (head ($"MOMOP")) [rec_line cols_MOMOP (momop_vals p)] (fun q => dupdate q (MOMOP_back p)).
Proof.
  intros (G & O). destruct (option_raw 40 (momop_of p)) as (R1 & R2); auto; [lia|].
  assert (R : rec_ok cols_MOMOP (momop_vals p) = true).
  { unfold cols_MOMOP, momop_vals. rewrite rec_ok_cons, R1. reflexivity. }
  repeat split.
  - unfold write_momop. rewrite (check_at_ok dt_MOMOP (numbered 40) _ p (momop_of p) st_MOMOP); auto using option_typed.
    cbn [bind]. unfold block, get_dict, dgetE at 1. rewrite G. cbn [bind as_dict].
    change d_more_options with (none_dict 40). rewrite option_string_ok by auto. cbn [bind].
    rewrite (write_record_ok fmt_MOMOP cols_MOMOP _ f_MOMOP) by exact R. reflexivity.
  - constructor; auto. now apply rec_line_good.
  - intros ll q rest. at_block. unfold read_momop. cbn [app next bind].
    rewrite (read_record_ok fmt_MOMOP cols_MOMOP _ f_MOMOP) by exact R. cbn [bind].
    unfold cols_MOMOP, momop_vals. rewrite rec_val_cons, R2. cbn [at_ nth option_digits bind].
    now rewrite option_digits_ok.
Qed.

(** ** TIMES *)
Definition times_lines (p : dict) : list str :=
  rec_line cols_TIMES_1 [PInt (Z.of_nat (List.length (times_of p)))]
  :: multi_lines (repeat (CSci 10 4) 8) (times_of p).
Lemma TIMES_block p : TIMES_ok p ->
  write_times p = Ok (head ($"TIMES") :: times_lines p) /\
  Forall good_line (times_lines p) /\
  reads_as (head ($"TIMES")) (times_lines p) (fun q => dupdate q (TIMES_back p)).
Proof.
  intros (M & F & N).
  assert (R : rec_ok cols_TIMES_1 [PInt (Z.of_nat (List.length (times_of p)))] = true).
  { unfold cols_TIMES_1. rewrite rec_ok_cons. unfold int_fits in N. rewrite N. reflexivity. }
  repeat split.
  - unfold write_times, block. rewrite dgetE_val by auto. cbn [bind].
    assert (L : (let* nd := py_ndim (val #"times" p) in
                 match nd with O => Ok [val #"times" p] | _ => py_seq (val #"times" p) end) = Ok (times_of p)).
    { unfold times_of, times_list, py_ndim in *.
      destruct (val #"times" p) as [| | | | | |k l|]; try reflexivity.
      rewrite flat_shape; [reflexivity|]. eapply Forall_impl; [|exact F]. intros a Ha. exact (num_fits_scalar _ _ _ Ha). }
    destruct (py_ndim (val #"times" p)) as [nd|]; [|discriminate]. cbn [bind] in *. rewrite L. cbn [bind].
    rewrite (write_record_ok fmt_TIMES_1 cols_TIMES_1 _ f_TIMES_1) by exact R. cbn [bind].
    rewrite (nums_write fmt_TIMES_2 10 4 8 _ f_TIMES_2) by (auto; lia). cbn [bind app]. now rewrite app_nil_r.
  - constructor; [now apply rec_line_good|]. apply multi_good; auto; lia.
  - intros ll q rest. at_block. unfold read_times, times_lines. cbn [app next bind].
    rewrite (read_record_ok fmt_TIMES_1 cols_TIMES_1 _ f_TIMES_1) by exact R. cbn [bind].
    unfold cols_TIMES_1. rewrite rec_val_cons. cbn [at_ nth col_val int_of].
    pose proof (read_table_ok fmt_TIMES_2 10 4 8 (times_of p) f_TIMES_2 ltac:(lia) F) as T.
    specialize (T (List.length (multi_lines (repeat (CSci 10 4) 8) (times_of p) ++ rest)) [] rest).
    cbn [List.length Nat.add app] in T. rewrite T by (rewrite app_length; lia). cbn [bind].
    assert (X : (if Z.of_nat (List.length (times_of p)) =? 1
                 then match map (sci 4) (times_of p) with x :: _ => Ok x | [] => Err IndexError end
                 else Ok (PSeq SList (map (sci 4) (times_of p)))) = Ok (one_or_list (map (sci 4) (times_of p)))).
    { destruct (times_of p) as [|a [|b l]]; cbn [List.length map one_or_list]; try reflexivity.
      replace (Z.of_nat (S (S (List.length l))) =? 1) with false by (symmetry; apply Z.eqb_neq; lia). reflexivity. }
    rewrite X. reflexivity.
Qed.

(** ** FOFT, COFT, GOFT *)
Lemma chunks_single {A} (l : list A) : chunks 1 l = map (fun x => [x]) l.
Proof.
  apply (chunks_ind 1 (fun l cl => cl = map (fun x => [x]) l)); auto.
  intros [|a l'] NE E; [congruence|]. cbn [firstn skipn map] in *. now rewrite E.
Qed.
Definition oft_line (w : nat) (x : pyval) : str := rec_line [CText w] [x].
Definition oft_lines (w : nat) (k : key) (p : dict) : list str :=
  map (oft_line w) (items (val k p)) ++ [[nl]].
Lemma forallb_spaces n : forallb is_space (spaces n) = true.
Proof. unfold spaces. induction n; simpl; auto. Qed.
Lemma lstrip_space_app a b : forallb is_space a = true -> lstrip (a ++ b) = lstrip b.
Proof. induction a as [|c a IH]; simpl; auto. intros H. apply andb_true_iff in H as [-> H]. auto. Qed.
Lemma rstrip_trimmed_spaces s t : nonempty s = true -> trimmed s = true -> forallb is_space t = true -> rstrip (s ++ t) = s.
Proof.
  intros N T F. rewrite <- (rstrip_trimmed_app s 0) at 2; [|destruct s; discriminate|auto].
  unfold rstrip. rewrite !rev_app_distr. f_equal. rewrite (lstrip_space_app (rev t)); auto.
  rewrite forallb_forall in *. intros x Hx. apply F. now apply in_rev.
Qed.
Lemma oft_rstrip w s : (w <= 80)%nat -> name_ok w s = true -> rstrip (oft_line w (PStr s)) = s.
Proof.
  intros W H. unfold name_ok in H. rewrite !andb_true_iff, Nat.leb_le in H. destruct H as (((N & T) & L) & O).
  unfold oft_line, rec_line, cols_text, col_text. rewrite spec_text.
  cbv [to_str no_ge py_format sp_t sp_right sp_w sp_p trunc]. rewrite firstn_all_le by auto.
  rewrite app_nil_r. unfold record80, ljust. rewrite <- !app_assoc. apply rstrip_trimmed_spaces; auto.
  rewrite !forallb_app, !forallb_spaces. reflexivity.
Qed.
Lemma write_oft_ok w kw k fmt p : fmt = toks [CText w] -> (w <= 80)%nat -> OFT_ok w k p ->
  write_oft kw k fmt p = Ok (head kw :: oft_lines w k p) /\ Forall good_line (oft_lines w k p) /\
  forall rest, read_oft k (oft_lines w k p ++ rest) = Ok (OFT_back k p, rest).
Proof.
  intros E W (sk & l & G & F). unfold oft_lines, OFT_back. rewrite (val_some _ _ _ G). cbn [items].
  assert (R : forall x, In x l -> rec_ok [CText w] [x] = true).
  { intros x Hx. rewrite Forall_forall in F. destruct (F x Hx) as (s & -> & H). rewrite rec_ok_cons.
    now destruct (name_ok_spec w s H) as (_ & _ & ->). }
  repeat split.
  - unfold write_oft, block, dgetE. rewrite G. cbn [bind py_iter].
    rewrite (write_multi_ok fmt [CText w]); auto.
    + cbn [bind]. unfold multi_lines. cbn [List.length]. rewrite chunks_single, map_map. reflexivity.
    + cbn [List.length]. rewrite chunks_single. intros c Hc. apply in_map_iff in Hc as (x & <- & Hx). auto.
  - apply Forall_app. split; [|constructor; auto using good_nl].
    apply Forall_forall. intros y Hy. apply in_map_iff in Hy as (x & <- & Hx). apply rec_line_good. auto.
  - intros rest. unfold read_oft. rewrite <- app_assoc. cbn [app].
    replace (map (oft_line w) l) with (concat (map (fun x => [oft_line w x]) l))
      by (clear; induction l; simpl; congruence).
    rewrite (iter_lines_spec read_oft_line (fun x => [oft_line w x]) (fun st x => st ++ [x]) l [nl] rest).
    + cbn [bind]. rewrite (fold_snoc (fun x => x)). now rewrite map_id.
    + intros st x r Hx. rewrite Forall_forall in F. destruct (F x Hx) as (s & -> & H).
      unfold read_oft_line. cbn [app next bind]. rewrite oft_rstrip by auto.
      unfold name_ok in H. destruct s; [discriminate|reflexivity].
    + intros st r. reflexivity.
    + pose proof (concat_len_ge (fun x => [oft_line w x]) l ltac:(discriminate)) as C.
      rewrite app_length. cbn [List.length]. lia.
Qed.
Lemma FOFT_block p : OFT_ok 5 #"element_history" p ->
  write_foft p = Ok (head ($"FOFT") :: oft_lines 5 #"element_history" p) /\
  Forall good_line (oft_lines 5 #"element_history" p) /\
  reads_as (head ($"FOFT")) (oft_lines 5 #"element_history" p) (fun q => dupdate q (OFT_back #"element_history" p)).
Proof.
  intros H. destruct (write_oft_ok 5 ($"FOFT") _ fmt_FOFT p f_FOFT ltac:(lia) H) as (A & B & C).
  repeat split; auto. intros ll q rest. at_block. now rewrite C.
Qed.
Lemma COFT_block p : OFT_ok 10 #"connection_history" p ->
  write_coft p = Ok (head ($"COFT") :: oft_lines 10 #"connection_history" p) /\
  Forall good_line (oft_lines 10 #"connection_history" p) /\
  reads_as (head ($"COFT")) (oft_lines 10 #"connection_history" p) (fun q => dupdate q (OFT_back #"connection_history" p)).
Proof.
  intros H. destruct (write_oft_ok 10 ($"COFT") _ fmt_COFT p f_COFT ltac:(lia) H) as (A & B & C).
  repeat split; auto. intros ll q rest. at_block. now rewrite C.
Qed.
Lemma GOFT_block p : OFT_ok 5 #"generator_history" p ->
  write_goft p = Ok (head ($"GOFT") :: oft_lines 5 #"generator_history" p) /\
  Forall good_line (oft_lines 5 #"generator_history" p) /\
  reads_as (head ($"GOFT")) (oft_lines 5 #"generator_history" p) (fun q => dupdate q (OFT_back #"generator_history" p)).
Proof.
  intros H. destruct (write_oft_ok 5 ($"GOFT") _ fmt_GOFT p f_GOFT ltac:(lia) H) as (A & B & C).
  repeat split; auto. intros ll q rest. at_block. now rewrite C.
Qed.

(** ** Lines that hold something are not blank *)
Lemma blank_all line : blank line = true -> forallb is_space line = true.
Proof.
  intros B. destruct (forallb is_space line) eqn:E; auto. exfalso.
  assert (X : existsb (fun c => negb (is_space c)) line = true).
  { clear B. induction line as [|c l IH]; simpl in *; [discriminate|]. destruct (is_space c); simpl in *; auto. }
  apply existsb_exists in X as (c & Hc & N). rewrite (not_blank line c) in B; auto; [discriminate|].
  now apply negb_true_iff in N.
Qed.
Lemma forallb_firstn {A} (f : A -> bool) n l : forallb f l = true -> forallb f (firstn n l) = true.
Proof. revert l. induction n; intros [|x l]; simpl; auto. intros H. apply andb_true_iff in H as [H1 H2]. now rewrite H1, IHn. Qed.
Lemma forallb_skipn {A} (f : A -> bool) n l : forallb f l = true -> forallb f (skipn n l) = true.
Proof. revert l. induction n; intros [|x l]; simpl; auto. intros H. apply andb_true_iff in H as [_ H]. auto. Qed.
Definition no_raw (cs : list col) : bool :=
  forallb (fun c => match c with CRaw _ => false | _ => true end) cs.
Lemma blank_record cs : no_raw cs = true -> forall line, forallb is_space line = true ->
  read_record line (toks cs) = Ok (repeat PNone (List.length cs)).
Proof.
  induction cs as [|c cs IH]; intros N line B; auto. unfold no_raw in N. cbn [forallb] in N. apply andb_true_iff in N as [N1 N2].
  cbn [toks map read_record List.length repeat].
  assert (E : read_field (col_tok c) (firstn (tok_w (col_tok c)) line) = Ok PNone).
  { unfold read_field. replace (Ascii.eqb (tok_t (col_tok c)) "S") with false by (destruct c; try discriminate; reflexivity).
    rewrite strip_all_space; auto. now apply forallb_firstn. }
  rewrite E. cbn [bind]. fold (toks cs). rewrite IH by (auto; now apply forallb_skipn). reflexivity.
Qed.
Lemma rec_line_present cs vs : no_raw cs = true -> rec_ok cs vs = true ->
  existsb not_none (rec_val cs vs) = true -> blank (rec_line cs vs) = false.
Proof.
  intros N R X. destruct (blank (rec_line cs vs)) eqn:B; auto. exfalso. apply blank_all in B.
  pose proof (read_record_ok (toks cs) cs vs eq_refl R) as E.
  rewrite (blank_record cs N _ B) in E. injection E as E. rewrite <- E in X.
  clear -X. induction cs; simpl in X; auto. discriminate.
Qed.
Lemma present_not_none w k v : col_ok (CSci w k) v = true -> absent v = false -> not_none (sci k v) = true.
Proof.
  intros H A. destruct (num_fits_sci w k v) as (x & _ & ->); auto. unfold num_fits. now rewrite H, A.
Qed.
Lemma row_present w k n l : (List.length l <= n)%nat -> forallb (col_ok (CSci w k)) l = true ->
  existsb (fun x => negb (absent x)) l = true -> existsb not_none (rec_val (repeat (CSci w k) n) l) = true.
Proof.
  intros L F X. rewrite rec_val_repeat, firstn_all2 by auto. rewrite existsb_app. apply orb_true_iff. left.
  apply existsb_exists in X as (x & Hx & A). apply existsb_exists. exists (sci k x). split; [now apply in_map|].
  rewrite forallb_forall in F. apply (present_not_none w); auto. now apply negb_true_iff in A.
Qed.

Lemma chunks_one {A} n (l : list A) : (0 < n)%nat -> l <> [] -> (List.length l <= n)%nat -> chunks n l = [l].
Proof.
  intros N NE L. rewrite chunks_step by auto. rewrite firstn_all2, skipn_all2 by auto. reflexivity.
Qed.

(** Loops that stop before a line they put back. *)
Lemma iter_lines_until {St X} (step : St -> list str -> res (bool * St * list str))
    (recs : X -> list str) (upd : St -> X -> St) (xs : list X) tail tail' :
  (forall st x r, In x xs -> step st (recs x ++ r) = Ok (true, upd st x, r)) ->
  (forall st, step st tail = Ok (false, st, tail')) ->
  forall fuel st, (List.length xs < fuel)%nat ->
  iter_lines fuel step st (concat (map recs xs) ++ tail) = Ok (fold_left upd xs st, tail').
Proof.
  intros Hs He. induction xs as [|x xs IH]; intros fuel st F.
  - destruct fuel; [simpl in F; lia|]. cbn [map concat app iter_lines]. rewrite He. reflexivity.
  - destruct fuel; [simpl in F; lia|]. cbn [map concat app iter_lines fold_left].
    rewrite <- app_assoc, Hs by (left; auto). cbn [bind].
    apply IH; [intros; apply Hs; now right|simpl in F; lia].
Qed.

(** Headers do not read as numbers. *)
Definition not_numbers (fmt : list token) (rest : list str) : Prop :=
  exists l r, rest = l :: r /\ blank l = false /\ read_record l fmt = Err ValueError.
Lemma header_not_numbers fmt rest : In fmt [fmt_DIFFU; fmt_PARAM_5] ->
  block_follows head head_noend rest -> not_numbers fmt rest.
Proof.
  intros HF (kw & r & Hk & H). 
  assert (X : forall kw, In kw block_names ->
     blank (head kw) = false /\ blank (head_noend kw) = false /\
     read_record (head kw) fmt = Err ValueError /\ read_record (head_noend kw) fmt = Err ValueError).
  { intros x Hx. unfold block_names in Hx. cbn [In] in HF, Hx.
    destruct HF as [<-|[<-|[]]];
    repeat (destruct Hx as [<-|Hx]; [vm_compute; repeat split; reflexivity|]); destruct Hx. }
  destruct (X kw Hk) as (B1 & B2 & R1 & R2). destruct H as [-> | ->]; eexists _, _; repeat split; eauto.
Qed.

(** What comes after the records of a block: a line that is no record of it, or a blank line,
    which is read. *)
Definition passed (fmt : list token) (rest rest' : list str) : Prop :=
  (not_numbers fmt rest /\ rest' = rest) \/ (exists b, rest = b :: rest' /\ forallb is_space b = true).
Lemma spaces_strip b : forallb is_space b = true -> strip b = [].
Proof.
  intros H. assert (L : lstrip b = []).
  { induction b as [|c b IH]; auto. cbn [forallb] in H. apply andb_true_iff in H as [H1 H2]. cbn [lstrip]. rewrite H1. auto. }
  unfold strip. rewrite L. reflexivity.
Qed.
Lemma spaces_blank b : forallb is_space b = true -> blank b = true.
Proof. intros H. unfold blank. now rewrite spaces_strip. Qed.

(** ** DIFFU *)
Definition row_line (v : pyval) : str := rec_line cols_DIFFU (items v).
Definition diffu_lines (p : dict) : list str := map row_line (items (val #"diffusion" p)).
Lemma row_rec_ok v : row_ok 3 v -> rec_ok (repeat (CSci 10 3) 8) (items v) = true.
Proof.
  intros (sk & l & -> & L & F). cbn [items]. rewrite rec_ok_repeat. now apply forallb_firstn.
Qed.
Lemma row_prune v : row_ok 3 v -> PSeq SList (prune_nones_list (rec_val (repeat (CSci 10 3) 8) (items v))) = row_back v.
Proof.
  intros (sk & l & -> & L & F). unfold row_back, sci_list. cbn [items].
  now rewrite prune_trim, trim_rec_val, firstn_all2.
Qed.
Lemma DIFFU_passed p ll q rest rest' : DIFFU_ok p -> passed fmt_DIFFU rest rest' ->
  read_block ll (head ($"DIFFU")) q (diffu_lines p ++ rest) = Ok (true, dupdate q (DIFFU_back p), rest').
Proof.
  intros (sk & rows & G & F) PA. rewrite Forall_forall in F.
  unfold diffu_lines, DIFFU_back. rewrite (val_some _ _ _ G). cbn [items].
  assert (RL : rest <> []) by (destruct PA as [((l & r & -> & _) & _)|(b & -> & _)]; discriminate).
  at_block. unfold read_diffu.
  replace (map row_line rows) with (concat (map (fun x => [row_line x]) rows)) by (clear; induction rows; simpl; congruence).
  rewrite (iter_lines_until read_diffu_row (fun x => [row_line x]) (fun st x => st ++ [row_back x]) rows rest rest').
  - cbn [bind]. rewrite (fold_snoc row_back). reflexivity.
  - intros st v t Hv. destruct (F v Hv) as (R & X). unfold read_diffu_row. cbn [app next bind].
    unfold row_line at 1. rewrite rec_line_present; [|reflexivity|now apply row_rec_ok|].
    + unfold row_line. rewrite (read_record_ok fmt_DIFFU cols_DIFFU _ f_DIFFU) by now apply row_rec_ok.
      now rewrite <- (row_prune v R).
    + destruct R as (k & l' & -> & L & FF). now apply row_present.
  - intros st. unfold read_diffu_row. destruct PA as [((l & r & -> & B & RR) & ->)|(b & -> & B)]; cbn [next bind].
    + now rewrite B, RR.
    + now rewrite spaces_blank.
  - pose proof (concat_len_ge (fun x => [row_line x]) rows ltac:(discriminate)) as C.
    rewrite app_length. destruct rest; [congruence|]. cbn [List.length]. lia.
Qed.
Lemma DIFFU_block p : DIFFU_ok p ->
  write_diffu p = Ok (head ($"DIFFU") :: diffu_lines p) /\ Forall good_line (diffu_lines p) /\
  reads_if (fun _ _ rest => not_numbers fmt_DIFFU rest) (head ($"DIFFU")) (diffu_lines p) (fun q => dupdate q (DIFFU_back p)).
Proof.
  intros (sk & rows & G & F). rewrite Forall_forall in F.
  unfold diffu_lines, DIFFU_back. rewrite (val_some _ _ _ G). cbn [items].
  repeat split.
  - unfold write_diffu, block, dgetE. rewrite G. cbn [bind py_iter].
    rewrite (concatM_ok _ (fun v => [row_line v])).
    + cbn [bind]. rewrite app_nil_r. do 2 f_equal. clear. induction rows; simpl; congruence.
    + intros v Hv. destruct (F v Hv) as (R & X). pose proof (row_rec_ok v R) as RO.
      destruct R as (k & l & -> & L & FF). cbn [py_seq bind items] in *.
      rewrite (write_multi_ok fmt_DIFFU cols_DIFFU _ f_DIFFU).
      * unfold multi_lines. rewrite chunks_one; auto; [cbn; lia|destruct l; [discriminate|congruence]].
      * rewrite chunks_one; auto; [|cbn; lia|destruct l; [discriminate|congruence]]. now intros c [<-|[]].
  - apply Forall_forall. intros y Hy. apply in_map_iff in Hy as (v & <- & Hv).
    apply rec_line_good. now apply row_rec_ok, F.
  - intros ll q rest N. pose proof (DIFFU_passed p ll q rest rest) as X. unfold DIFFU_back, diffu_lines in X.
    rewrite (val_some _ _ _ G) in X. cbn [items] in X. apply X; [|left; auto]. exists sk, rows. split; [exact G|now apply Forall_forall].
Qed.

(** ** SELEC *)
Definition selec_vals (p : dict) : list pyval := map (selec_int p) (option_nums 16).
Definition selec_lines (p : dict) : list str :=
  rec_line cols_SELEC_1 (selec_vals p) :: map row_line (float_rows (selec_floats p)).
Lemma rec_ok_ints w n vs : List.length vs = n ->
  rec_ok (repeat (CInt w) n) vs = forallb (col_ok (CInt w)) vs /\
  rec_val (repeat (CInt w) n) vs = map (col_val (CInt w)) vs.
Proof.
  revert vs. induction n as [|n IH]; intros [|v vs] L; try discriminate; auto.
  injection L as L. cbn [repeat]. rewrite rec_ok_cons, rec_val_cons. destruct (IH vs L) as [-> ->]. auto.
Qed.
Lemma selec_row_scalar v r : row_ok 3 (PSeq SList (v :: r)) -> is_seq v = false.
Proof.
  intros (k & l & [= <- <-] & L & F). cbn [forallb] in F. apply andb_true_iff in F as [F _].
  destruct v; try reflexivity. discriminate F.
Qed.
Lemma map_selec_none p : float_rows (selec_floats p) = [] ->
  selec_vals p = map (fun z => val (KI z) (selec_ints p)) (option_nums 16).
Proof. intros E. unfold selec_vals. apply map_ext. intros z. unfold selec_int. now rewrite E. Qed.

Lemma SELEC_write p : SELEC_ok p -> write_selec p = Ok (head ($"SELEC") :: selec_lines p).
Proof.
  intros (G & T & I & MI & MF & SF & II & CI & R & _).
  unfold write_selec. rewrite (check_at_ok dt_SELEC kinds_SELEC _ p (selec_of p) st_SELEC) by auto. cbn [bind].
  unfold block, get_dict, dgetE at 1. rewrite G. cbn [bind as_dict]. rewrite !dgetE_val by auto. cbn [bind].
  assert (X : (let* ti := truthy (val #"integers" (selec_of p)) in
      (if ti then let* d := as_dict (val #"integers" (selec_of p)) in Ok (dupdate d_integers d) else Ok d_integers))
      = Ok (dupdate (none_dict 16) (selec_ints p))).
  { unfold selec_ints. destruct I as [->|I]; [reflexivity|].
    destruct (val #"integers" (selec_of p)) as [| | | | | | |[|kv d]]; try discriminate; reflexivity. }
  destruct (truthy (val #"integers" (selec_of p))) as [ti|]; [|discriminate]. cbn [bind] in *. rewrite X. cbn [bind]. clear X.
  destruct (full_ints 16 _ II) as (KI1 & GI).
  set (ints := dupdate (none_dict 16) (selec_ints p)) in *.
  assert (SFl : exists k, val #"floats" (selec_of p) = PSeq k (selec_floats p)).
  { unfold selec_floats. destruct (val #"floats" (selec_of p)); try discriminate. eexists; reflexivity. }
  destruct SFl as (k & EF). rewrite EF. cbn [py_len bind].
  (* the integers actually written *)
  assert (W : forall d, dkeys d = int_keys 16 ->
     (forall i, 1 <= i <= 16 -> dget (KI i) d = Some (selec_int p i)) ->
     (let* ks := sorted_keys d in let* vs := mapM (fun z => dgetE (KI z) d) ks in
      write_record vs (str2format fmt_SELEC_1 [])) = Ok [rec_line cols_SELEC_1 (selec_vals p)]).
  { intros d K H. rewrite (sorted_int_keys 16) by auto. cbn [bind].
    rewrite (mapM_ok _ (selec_int p)).
    - cbn [bind]. fold (selec_vals p). apply (write_record_ok fmt_SELEC_1 cols_SELEC_1 _ f_SELEC_1).
      unfold cols_SELEC_1. destruct (rec_ok_ints 5 16 (selec_vals p)) as [-> _].
      + unfold selec_vals, option_nums. now rewrite !map_length, seq_length.
      + unfold selec_vals. apply forallb_forall. intros v Hv. apply in_map_iff in Hv as (i & <- & Hi).
        rewrite Forall_forall in CI. auto.
    - intros z Hz. apply in_option_nums in Hz. unfold dgetE. now rewrite H. }
  assert (IN1 : In (KI 1) (dkeys ints)) by (rewrite KI1; left; reflexivity).
  assert (SET : forall n, (forall i, selec_int p i = if i =? 1 then PInt n else val (KI i) (selec_ints p)) ->
      (let* ks := sorted_keys (dset (KI 1) (PInt n) ints) in
      let* vs := mapM (fun z => dgetE (KI z) (dset (KI 1) (PInt n) ints)) ks in
      write_record vs (str2format fmt_SELEC_1 [])) = Ok [rec_line cols_SELEC_1 (selec_vals p)]).
  { intros n H. apply W.
    - now rewrite dkeys_dset.
    - intros i Hi. rewrite H, dget_dset. cbn [key_eqb]. destruct (i =? 1); auto. }
  unfold selec_lines.
  destruct (selec_floats p) as [|f0 fl] eqn:FL.
  - cbn [List.length float_rows bind map].
    assert (E0 : float_rows (selec_floats p) = []) by now rewrite FL.
    assert (H : (let* ks := sorted_keys ints in let* vs := mapM (fun z => dgetE (KI z) ints) ks in
      write_record vs (str2format fmt_SELEC_1 [])) = Ok [rec_line cols_SELEC_1 (selec_vals p)]).
    { apply W; auto. intros i Hi. unfold selec_int. rewrite E0. apply GI. lia. }
    destruct (sorted_keys ints) as [ks|]; [|discriminate]. cbn [bind] in *.
    destruct (mapM _ ks) as [vs|]; [|discriminate]. cbn [bind] in *. rewrite H. reflexivity.
  - cbn [List.length index nth_error bind].
    destruct (is_seq f0) eqn:S0.
    + (* nested *)
      assert (ER : float_rows (f0 :: fl) = f0 :: fl) by (destruct f0; try discriminate; reflexivity).
      assert (NS : forall i, selec_int p i = if i =? 1 then PInt (Z.of_nat (S (List.length fl))) else val (KI i) (selec_ints p)).
      { intros i. unfold selec_int. rewrite FL, ER. reflexivity. }
      specialize (SET _ NS). rewrite ER in R. rewrite ER.
      assert (LE : mapM (fun x => let* n := py_len x in guard (Nat.leb n 8) ValueError) (f0 :: fl)
                   = Ok (map (fun _ => tt) (f0 :: fl))).
      { apply mapM_ok. intros x Hx. rewrite Forall_forall in R. destruct (R x Hx) as (k' & l & -> & L & _).
        cbn [py_len bind]. apply Nat.leb_le in L as ->. reflexivity. }
      assert (CO : concatM (fun x => let* r := py_iter x in write_record r (str2format fmt_SELEC_2 [])) (f0 :: fl)
              = Ok (map row_line (f0 :: fl))).
      { rewrite (concatM_ok _ (fun v => [row_line v])).
        - f_equal. generalize (f0 :: fl). clear. induction l; simpl; congruence.
        - intros x Hx. rewrite Forall_forall in R. pose proof (row_rec_ok x (R x Hx)) as RO.
          destruct (R x Hx) as (k' & l & -> & L & _). cbn [py_iter bind].
          now apply (write_record_ok fmt_SELEC_2 cols_SELEC_2 _ f_SELEC_2). }
      destruct f0 as [| | | | | |k0 l0|]; try discriminate. cbn [py_iter bind]. rewrite LE. cbn [bind].
      destruct (sorted_keys (dset _ _ ints)) as [ks|]; [|discriminate]. cbn [bind] in *.
      destruct (mapM _ ks) as [vs|]; [|discriminate]. cbn [bind] in *. rewrite SET. cbn [bind].
      rewrite CO. cbn [bind app]. now rewrite app_nil_r.
    + (* one row *)
      assert (ER : float_rows (f0 :: fl) = [PSeq SList (f0 :: fl)]) by (destruct f0; try discriminate; reflexivity).
      assert (NS : forall i, selec_int p i = if i =? 1 then PInt 1 else val (KI i) (selec_ints p)).
      { intros i. unfold selec_int. rewrite FL, ER. reflexivity. }
      specialize (SET _ NS). rewrite ER in R. rewrite ER.
      inversion_clear R as [|? ? R1 _]. pose proof (row_rec_ok _ R1) as RO.
      assert (L8 : Nat.leb (S (List.length fl)) 8 = true).
      { destruct R1 as (k' & l & [= <- <-] & L & _). now apply Nat.leb_le. }
      assert (FIN : (let* (ints0, ndim) := (let* _ := guard (Nat.leb (S (List.length fl)) 8) ValueError in
                Ok (dset (KI 1) (PInt 1) ints, 1%nat)) in
          let* ks := sorted_keys ints0 in
          let* vs := mapM (fun z => dgetE (KI z) ints0) ks in
          let* rec1 := write_record vs (str2format fmt_SELEC_1 []) in
          let* rec2 := match ndim with
            | 1%nat => let* l := py_iter (PSeq k (f0 :: fl)) in write_record l (str2format fmt_SELEC_2 [])
            | 2%nat => let* l := py_iter (PSeq k (f0 :: fl)) in
                   concatM (fun x => let* r := py_iter x in write_record r (str2format fmt_SELEC_2 [])) l
            | _ => Ok [] end in Ok (rec1 ++ rec2))
          = Ok (rec_line cols_SELEC_1 (selec_vals p) :: [row_line (PSeq SList (f0 :: fl))])).
      { rewrite L8. cbn [guard bind].
        destruct (sorted_keys (dset _ _ ints)) as [ks|]; [|discriminate]. cbn [bind] in *.
        destruct (mapM _ ks) as [vs|]; [|discriminate]. cbn [bind] in *. rewrite SET. cbn [bind py_iter].
        rewrite (write_record_ok fmt_SELEC_2 cols_SELEC_2 _ f_SELEC_2) by exact RO. reflexivity. }
      cbn [map]. destruct f0 as [| | | | | |k0 l0|]; try discriminate; rewrite FIN; reflexivity.
Qed.

Lemma SELEC_block p : SELEC_ok p ->
  write_selec p = Ok (head ($"SELEC") :: selec_lines p) /\ Forall good_line (selec_lines p) /\
  reads_as (head ($"SELEC")) (selec_lines p) (fun q => dupdate q (SELEC_back p)).
Proof.
  intros H. split; [now apply SELEC_write|].
  destruct H as (G & T & I & MI & MF & SF & II & CI & R & Z0).
  assert (LV : List.length (selec_vals p) = 16%nat) by (unfold selec_vals, option_nums; now rewrite !map_length, seq_length).
  destruct (rec_ok_ints 5 16 (selec_vals p) LV) as [RO RV].
  assert (RT : rec_ok cols_SELEC_1 (selec_vals p) = true).
  { unfold cols_SELEC_1. rewrite RO. unfold selec_vals. apply forallb_forall. intros v Hv.
    apply in_map_iff in Hv as (i & <- & Hi). rewrite Forall_forall in CI. auto. }
  split.
  - constructor; [now apply rec_line_good|]. apply Forall_forall. intros y Hy. apply in_map_iff in Hy as (v & <- & Hv).
    rewrite Forall_forall in R. apply rec_line_good. now apply row_rec_ok, R.
  - intros ll q rest. at_block. unfold read_selec, selec_lines. cbn [app next bind].
    rewrite (read_record_ok fmt_SELEC_1 cols_SELEC_1 _ f_SELEC_1) by exact RT. cbn [bind].
    unfold cols_SELEC_1. rewrite RV.
    assert (A0 : at_ (map (col_val (CInt 5)) (selec_vals p)) 0 = col_val (CInt 5) (selec_int p 1)) by reflexivity.
    rewrite A0. rewrite !map_length, LV.
    assert (CB : combine (int_keys 16) (map (col_val (CInt 5)) (selec_vals p))
        = map (fun i => (KI i, col_val (CInt 5) (selec_int p i))) (option_nums 16)) by reflexivity.
    rewrite CB, known_prune. clear CB A0.
    set (ib := known (map (fun i => (KI i, col_val (CInt 5) (selec_int p i))) (option_nums 16))).
    assert (G1 : forall z, int_of (selec_int p 1) = Some z -> dgetE (KI 1) ib = Ok (PInt z)).
    { intros z Hz. unfold ib. change (option_nums 16) with (1 :: map Z.of_nat (seq 2 15)). cbn [map known].
      rewrite (col_val_int 5 _ _ Hz). reflexivity. }
    destruct (float_rows (selec_floats p)) as [|r0 rs] eqn:FR.
    + assert (S1 : int_of (selec_int p 1) = Some 0) by (unfold selec_int; rewrite FR; auto).
      rewrite (col_val_int 5 _ _ S1). cbn [truthy Z.eqb negb bind map app]. rewrite (G1 0 S1). cbn [bind simple_eqb Z.eqb].
      unfold SELEC_back. rewrite FR. reflexivity.
    + assert (S1 : int_of (selec_int p 1) = Some (Z.of_nat (S (List.length rs)))).
      { unfold selec_int. rewrite FR. reflexivity. }
      rewrite (col_val_int 5 _ _ S1). unfold truthy.
      replace (Z.of_nat (S (List.length rs)) =? 0) with false by (symmetry; apply Z.eqb_neq; lia).
      cbn [negb bind]. rewrite Nat2Z.id.
      change (S (List.length rs)) with (List.length (r0 :: rs)).
      rewrite (repeat_lines_spec _ row_line (fun acc v => acc ++ [row_back v])).
      2:{ intros st v Hv. rewrite Forall_forall in R. unfold row_line.
          rewrite (read_record_ok fmt_SELEC_2 cols_SELEC_2 _ f_SELEC_2) by now apply row_rec_ok, R.
          cbn [bind]. now rewrite <- (row_prune v) by now apply R. }
      cbn [bind]. rewrite (fold_snoc row_back). cbn [app]. rewrite (G1 _ S1). cbn [bind].
      unfold SELEC_back. rewrite FR. fold ib. destruct rs as [|r1 rs].
      * reflexivity.
      * cbn [List.length simple_eqb].
        replace (Z.of_nat (S (S (List.length rs))) =? 1) with false by (symmetry; apply Z.eqb_neq; lia).
        reflexivity.
Qed.

(** ** START and NOVER *)
Lemma START_block ll q rest fuel :
  write_start = Ok [head ($"START"); start_line] /\ Forall good_line [head ($"START"); start_line] /\
  read_blocks (S (S fuel)) ll q (head ($"START") :: start_line :: rest) = read_blocks fuel ll (dset #"start" (PBool true) q) rest.
Proof.
  repeat split.
  constructor; [now apply good_head|]. constructor; auto. exists (removelast start_line). split; vm_compute; reflexivity.
Qed.
Lemma NOVER_block ll q rest fuel :
  write_nover = Ok [head ($"NOVER")] /\ Forall good_line [head ($"NOVER")] /\
  read_blocks (S fuel) ll q (head ($"NOVER") :: rest) = read_blocks fuel ll (dset #"nover" (PBool true) q) rest.
Proof. repeat split. constructor; auto. now apply good_head. Qed.
Lemma DIFFU_next p : DIFFU_ok p ->
  exists body, write_diffu p = Ok (head ($"DIFFU") :: body) /\
    Forall good_line body /\
    forall ll q rest, block_follows head head_noend rest ->
      read_block ll (head ($"DIFFU")) q (body ++ rest)
      = Ok (true, dupdate q (DIFFU_back p), rest).
Proof.
  intros H. destruct (DIFFU_block p H) as (W & G & R). eexists. split; [exact W|]. split; [exact G|].
  intros ll q rest F. apply R. apply header_not_numbers; [now left|exact F].
Qed.
