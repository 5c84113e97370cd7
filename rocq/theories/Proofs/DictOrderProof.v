(** The writer does not depend on the order of the entries of the dictionaries. *)
From Coq Require Import String Ascii ZArith Bool Lia List.
From Verif Require Import Base.Str Model.Py Model.Write.
From Verif Require Import Proofs.DictLemmas Proofs.KnownProof Spec.DictOrder Spec.Known.
Import ListNotations.

Lemma alike_known (R Q : key -> pyval -> pyval -> Prop) d d' : (forall k v w, R k v w -> Q k v w) -> entries_alike R d d' -> entries_known Q d d'.
Proof. intros I (A & B & C). split; [exact A|]. split; [exact B|]. intros k _. specialize (C k). destruct (dget k d), (dget k d'); auto. Qed.
Lemma mixed_known (R Q : key -> pyval -> pyval -> Prop) v w : (forall k v w, R k v w -> Q k v w) -> mixed R v w -> known_in Q v w.
Proof. intros I H. destruct v, w; try exact H. exact (alike_known R Q _ _ I H). Qed.
Lemma inside_weak k v w : inside k v w -> inside_known k v w.
Proof.
  unfold inside, inside_known. destruct (key_eqb k #"integers") eqn:E; [apply key_eqb_eq in E as ->; auto|].
  destruct (existsb _ _); [|auto]. apply mixed_known. auto.
Qed.
Lemma parameter_weak k v w : parameter k v w -> parameter_known k v w.
Proof.
  unfold parameter, parameter_known. destruct (existsb (key_eqb k) number_names) eqn:A.
  - assert (G : existsb (key_eqb k) group_names = true).
    { apply existsb_exists in A as (x & I & E). apply key_eqb_eq in E as ->. destruct I as [<-|[<-|[]]]; reflexivity. }
    now rewrite G.
  - destruct (existsb (key_eqb k) switch_names) eqn:B.
    + assert (G : existsb (key_eqb k) group_names = true).
      { apply existsb_exists in B as (x & I & E). apply key_eqb_eq in E as ->. destruct I as [<-|[<-|[<-|[]]]]; reflexivity. }
      rewrite G. intros H. split; [exact (mixed_known _ _ _ _ inside_weak H)|]. pose proof (truth_mixed _ _ _ H) as T.
      split; intros ->; cbn [truthy] in T; [destruct w|destruct v]; cbn [mixed] in H; try discriminate H; destruct d; try reflexivity; discriminate T.
    + destruct (existsb (key_eqb k) group_names); [exact (mixed_known _ _ _ _ inside_weak)|]. destruct (existsb (key_eqb k) table_names); [|auto].
      intros H. destruct v, w; try exact H. cbn [rows] in *. induction H as [|a b d d' (X & Y) H IH]; constructor; [split; [exact X|exact (mixed_known _ _ _ _ inside_weak Y)]|exact IH].
Qed.
Theorem any_order u u' blk : entries_alike parameter u u' -> write_text u blk = write_text u' blk.
Proof. intros H. apply text_same. exact (alike_known _ _ _ _ parameter_weak H). Qed.

(** Showing that two dictionaries have the same entries. *)
Lemma alike_intro (R : key -> pyval -> pyval -> Prop) d d' : no_dup_keys (dkeys d) = true -> no_dup_keys (dkeys d') = true ->
  Forall (fun kv => match dget (fst kv) d' with Some w => R (fst kv) (snd kv) w | None => False end) d ->
  forallb (fun k => dmem k d) (dkeys d') = true -> entries_alike R d d'.
Proof.
  intros N N' F G. apply no_dup_keys_ok in N, N'. split; [exact N|]. split; [exact N'|]. intros k. rewrite Forall_forall in F. rewrite forallb_forall in G.
  destruct (dget k d) as [v|] eqn:E.
  - apply dget_in in E. exact (F _ E).
  - destruct (dget k d') as [w|] eqn:E'; auto. apply dget_in in E'. specialize (G k (in_map fst _ _ E')). unfold dmem in G. rewrite E in G. discriminate.
Qed.
Lemma known_intro (R : key -> pyval -> pyval -> Prop) d d' : no_dup_keys (dkeys d) = true -> no_dup_keys (dkeys d') = true ->
  Forall (fun kv => known (fst kv) = true -> match dget (fst kv) d' with Some w => R (fst kv) (snd kv) w | None => False end) d ->
  forallb (fun k => negb (known k) || dmem k d) (dkeys d') = true -> entries_known R d d'.
Proof.
  intros N N' F G. apply no_dup_keys_ok in N, N'. split; [exact N|]. split; [exact N'|]. intros k K. rewrite Forall_forall in F. rewrite forallb_forall in G.
  destruct (dget k d) as [v|] eqn:E.
  - apply dget_in in E. exact (F _ E K).
  - destruct (dget k d') as [w|] eqn:E'; auto. apply dget_in in E'. specialize (G k (in_map fst _ _ E')). unfold dmem in G. rewrite E, K in G. discriminate.
Qed.
Theorem one_more u k v blk : entries_known parameter_known u u -> known k = false -> write_text (dset k v u) blk = write_text u blk.
Proof.
  intros (A & B & C) K. apply text_same. split; [now apply nodup_dset|]. split; [exact A|]. intros a X. rewrite dget_dset.
  destruct (key_eqb a k) eqn:E; [apply key_eqb_eq in E as ->; congruence|]. exact (C a X).
Qed.
