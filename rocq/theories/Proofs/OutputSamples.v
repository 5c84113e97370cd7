(** Sample outputs for the examples, and checks deciding the conditions on them. *)
From Coq Require Import String Ascii ZArith Bool Lia Permutation Sorted QArith List.
From Verif Require Import Base.Str Base.Flt Base.FltText Model.Py Model.Dispatch Model.Output Spec.Output Proofs.Samples.
Import ListNotations.
Local Open Scope nat_scope.

Definition real (d e : Z) : flt := flt_of_dec (d <? 0)%Z (Z.abs d) e.
Definition plainb (s : str) : bool :=
  trimmed s && forallb (fun c => negb (Ascii.eqb c nl || Ascii.eqb c ","%char || Ascii.eqb c quote)) s.
Lemma plainb_ok s : plainb s = true -> plain s.
Proof.
  unfold plainb, plain. rewrite andb_true_iff. intros [A B]. split; auto. rewrite forallb_forall in B. intros c I.
  apply B in I. apply negb_true_iff in I. apply orb_false_iff in I as [I I3]. apply orb_false_iff in I as [I1 I2].
  now rewrite Ascii.eqb_neq in *.
Qed.
Lemma no_equal_ok s : forallb (fun c => negb (Ascii.eqb c "=")) s = true -> ~ In "="%char s.
Proof. intros H I. rewrite forallb_forall in H. apply H in I. discriminate. Qed.
Definition tnameb (k : str) : bool :=
  nonempty k && Nat.ltb (List.length k) 18 &&
  forallb (fun c => negb (is_space c || Ascii.eqb c ","%char || Ascii.eqb c "="%char || Ascii.eqb c quote)) k.
Lemma tnameb_ok k : tnameb k = true -> tecplot_name k.
Proof.
  unfold tnameb, tecplot_name. rewrite !andb_true_iff, Nat.ltb_lt. intros [[A B] C]. split; [now destruct k|]. split; auto.
  rewrite forallb_forall in C. intros c I. apply C in I. apply negb_true_iff in I. apply orb_false_iff in I as [I I4].
  apply orb_false_iff in I as [I I3]. apply orb_false_iff in I as [I1 I2]. now rewrite Ascii.eqb_neq in *.
Qed.
Fixpoint nodupb (l : list str) : bool := match l with [] => true | x :: r => negb (existsb (streqb x) r) && nodupb r end.
Lemma nodupb_ok l : nodupb l = true -> NoDup l.
Proof.
  induction l as [|x r IH]; cbn [nodupb]; [constructor|]. rewrite andb_true_iff. intros [A B]. constructor; auto.
  intros I. apply negb_true_iff in A. rewrite <- not_true_iff_false in A. apply A. apply existsb_exists. exists x. split; auto. apply streqb_refl.
Qed.
Definition sheetb (lab : list str -> bool) (n : nat) (o : output) : bool :=
  match o_labels o, o_time o with
  | Some ls, Some t => Nat.eqb (List.length ls) n && forallb lab ls && is_f64 t && nodupb (names o) &&
                       forallb (fun kc => Nat.eqb (List.length (snd kc)) n && forallb is_f64 (snd kc)) (o_data o)
  | _, _ => false
  end.
Lemma sheetb_ok (P : list str -> Prop) lab n o : (forall l, lab l = true -> P l) -> sheetb lab n o = true -> sheet P n o.
Proof.
  intros HL. unfold sheetb. destruct (o_labels o) as [ls|] eqn:EL; [|discriminate]. destruct (o_time o) as [t|] eqn:ET; [|discriminate].
  rewrite !andb_true_iff. intros [[[[A B] C] D] E]. apply Nat.eqb_eq in A. constructor.
  - exists ls. split; auto. split; auto. rewrite forallb_forall in B. apply Forall_forall. intros. apply HL. auto.
  - eauto.
  - now apply nodupb_ok.
  - rewrite forallb_forall in E. intros k c I. specialize (E _ I). cbn [snd] in E. apply andb_true_iff in E as [E1 E2].
    apply Nat.eqb_eq in E1. split; auto. rewrite forallb_forall in E2. now apply Forall_forall.
Qed.
Definition csv_labelb (t : ftype) (l : list str) : bool :=
  match t, l with
  | Element, [a] => plainb a && negb (startswith $"TIME" a)
  | Connection, [a; b] => plainb a && negb (startswith $"TIME" a) && plainb b
  | _, _ => false
  end.
Lemma csv_labelb_ok t l : csv_labelb t l = true -> csv_label t l.
Proof.
  destruct t, l as [|a [|b [|c l]]]; cbn [csv_labelb csv_label]; try discriminate; rewrite ?andb_true_iff, negb_true_iff.
  - intros [A B]. split; [now apply plainb_ok|]. right. auto.
  - intros [[A B] C]. split; [now apply plainb_ok|]. split; [right; auto|now apply plainb_ok].
Qed.

(** Two time steps of two elements; the columns in different orders. *)
Definition sample1 : output :=
  Output Element $"tough" (Some (real 864 2)) (Some [[$"AAA10"]; [$"AAA11"]])
    [($"P", [real 101325 0; real 2 5]); ($"X", [real 5 (-1); real 15 (-1)]); ($"Y", [real 0 0; real (-1) 0]); ($"SAT_G", [real 1 (-9); real 1 0])].
Definition sample2 : output :=
  Output Element $"tough" (Some (real 1728 2)) (Some [[$"AAA10"]; [$"AAA11"]])
    [($"X", [real 5 (-1); real 15 (-1)]); ($"Y", [real 0 0; real (-1) 0]); ($"SAT_G", [real 25 (-2); real 1 (-300)]); ($"P", [real 1 7; real 2 7])].
Definition flow : output :=
  Output Connection $"tough" (Some (real 1 0)) (Some [[$"AAA10"; $"AAA11"]]) [($"HEAT", [real (-12) 3]); ($"FLOW", [real 314159 (-5)])].

Lemma sample_incl (outs : list output) :
  forallb (fun o => forallb (fun o' => forallb (fun k => existsb (streqb k) (names o')) (names o)) outs) outs = true ->
  forall o o', In o outs -> In o' outs -> incl (names o) (names o').
Proof.
  intros H o o' I I' k K. rewrite forallb_forall in H. specialize (H o I). rewrite forallb_forall in H. specialize (H o' I').
  rewrite forallb_forall in H. specialize (H k K). apply existsb_exists in H as (x & X & E). apply streqb_eq in E as ->. exact X.
Qed.
Lemma csv_sheets_check t n outs : outs <> [] -> n <> 0 ->
  forallb (fun o => sheetb (csv_labelb t) n o && (match o_type o, t with Element, Element | Connection, Connection => true | _, _ => false end)
     && forallb (fun k => plainb k && negb (startswith $"ELEM" k)) (names o)) outs = true ->
  forallb (fun o => forallb (fun o' => forallb (fun k => existsb (streqb k) (names o')) (names o)) outs) outs = true ->
  csv_sheets t n outs.
Proof.
  intros N Z H I. rewrite forallb_forall in H. split; auto. split; auto. split; [|split; [|now apply sample_incl]].
  - apply Forall_forall. intros o J. apply H in J. apply andb_true_iff in J as [J _]. apply andb_true_iff in J as [J _].
    apply (sheetb_ok _ (csv_labelb t)); auto. apply csv_labelb_ok.
  - apply Forall_forall. intros o J. apply H in J. apply andb_true_iff in J as [J C]. apply andb_true_iff in J as [_ J]. split.
    + destruct (o_type o), t; congruence.
    + rewrite forallb_forall in C. apply Forall_forall. intros k K. apply C in K. apply andb_true_iff in K as [K1 K2].
      split; [now apply plainb_ok|]. now apply negb_true_iff in K2.
Qed.
Lemma no_equal_check outs : forallb (fun o => forallb (fun k => forallb (fun c => negb (Ascii.eqb c "=")) k) (names o)) outs = true ->
  no_equal_sign outs.
Proof.
  intros H. rewrite forallb_forall in H. apply Forall_forall. intros o I. apply H in I. rewrite forallb_forall in I.
  apply Forall_forall. intros k K. apply no_equal_ok. now apply I.
Qed.
Lemma petrasim_check outs : outs <> [] ->
  forallb (fun o => match o_type o with Element => true | _ => false end && negb (Nat.eqb (List.length (names o)) 0) &&
     forallb plainb (names o) && match o_labels o with Some (l :: r) => sheetb (fun l => match l with [s] => plainb s | _ => false end) (S (List.length r)) o | _ => false end) outs = true ->
  forallb (fun o => forallb (fun o' => forallb (fun k => existsb (streqb k) (names o')) (names o)) outs) outs = true ->
  petrasim_sheets outs.
Proof.
  intros N H I. split; auto. split; [|now apply sample_incl]. rewrite forallb_forall in H. apply Forall_forall. intros o J. apply H in J.
  rewrite !andb_true_iff in J. destruct J as [[[A B] C] D]. split; [now destruct (o_type o)|]. split; [intros E; rewrite E in B; discriminate|].
  split; [rewrite forallb_forall in C; apply Forall_forall; intros k K; now apply plainb_ok, C|].
  destruct (o_labels o) as [[|l r]|]; try discriminate. exists (S (List.length r)). split; [discriminate|].
  eapply sheetb_ok; [|exact D]. intros [|s [|? ?]] L; try discriminate. exists s. split; auto. now apply plainb_ok.
Qed.
Lemma tecplot_check outs : outs <> [] ->
  forallb (fun o => match o_type o with Element => true | _ => false end &&
     match o_time o with Some t => is_f64 t | None => false end && nodupb (names o) &&
     existsb (streqb $"X") (names o) && existsb (streqb $"Y") (names o) && forallb tnameb (names o) &&
     match o_data o with (_, x) :: _ => negb (Nat.eqb (List.length x) 0) &&
        forallb (fun kc => Nat.eqb (List.length (snd kc)) (List.length x) && forallb (fun v => is_f64 v && Nat.ltb (List.length (fmt_e 12 v)) 20) (snd kc)) (o_data o)
      | [] => false end) outs = true ->
  forallb (fun o => forallb (fun o' => forallb (fun k => existsb (streqb k) (names o')) (names o)) outs) outs = true ->
  tecplot_sheets outs.
Proof.
  intros N H I. split; auto. split; [|now apply sample_incl]. rewrite forallb_forall in H. apply Forall_forall. intros o J. apply H in J.
  rewrite !andb_true_iff in J. destruct J as [[[[[[A B] C] D] E] F] G].
  assert (EX : forall k, existsb (streqb k) (names o) = true -> In k (names o)).
  { intros k X. apply existsb_exists in X as (x & X & Y). apply streqb_eq in Y as ->. exact X. }
  split; [now destruct (o_type o)|]. split; [destruct (o_time o) as [t|]; [eauto|discriminate]|]. split; [now apply nodupb_ok|].
  split; [now apply EX|]. split; [now apply EX|]. split; [rewrite forallb_forall in F; apply Forall_forall; intros k K; now apply tnameb_ok, F|].
  destruct (o_data o) as [|[k0 x0] r0]; [discriminate|]. apply andb_true_iff in G as [G1 G2]. apply negb_true_iff, Nat.eqb_neq in G1.
  exists (List.length x0). split; auto. rewrite forallb_forall in G2. intros k c K. specialize (G2 _ K). cbn [snd] in G2.
  apply andb_true_iff in G2 as [G2 G3]. apply Nat.eqb_eq in G2. split; auto. rewrite forallb_forall in G3. apply Forall_forall. intros v V.
  apply G3 in V. apply andb_true_iff in V as [V1 V2]. now apply Nat.ltb_lt in V2.
Qed.
