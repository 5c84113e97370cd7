(** The INDOM block. *)
From Coq Require Import String Ascii ZArith Bool Lia List.
From Verif Require Import Base.Str Base.Digits Base.Flt Base.FltText.
From Verif Require Import Model.Py Model.Records Model.Write Model.Read.
From Verif Require Import Spec.Fields Spec.Values Spec.Types Spec.Layouts Spec.Rocks Spec.Flac Spec.Simple Spec.Indom.
From Verif Require Import Proofs.RecordLemmas Proofs.DictLemmas Proofs.Layouts Proofs.BlockTools Proofs.RocksProof Proofs.FlacProof Proofs.SimpleProof Proofs.TwoLines.
Import ListNotations.
Local Open Scope Z_scope.

Lemma read_not_number l : not_number (strip (firstn 20 l)) = true -> strip (firstn 20 l) <> [] ->
  read_record l fmt_INDOM_0 = Err ValueError.
Proof.
  intros H N. apply str2float_no in H.
  change fmt_INDOM_0 with (col_tok (CSci 20 13) :: toks (repeat (CSci 20 13) 3)). cbn [read_record].
  change (tok_w (col_tok (CSci 20 13))) with 20%nat.
  assert (E : read_field (col_tok (CSci 20 13)) (firstn 20 l) = Err ValueError); [|now rewrite E].
  unfold read_field. change (Ascii.eqb (tok_t (col_tok (CSci 20 13))) "S") with false. cbv iota zeta.
  destruct (strip (firstn 20 l)) as [|c s] eqn:E; [congruence|].
  change (convert (tok_t (col_tok (CSci 20 13))) (c :: s)) with (let* x := str2float (c :: s) in Ok (PFloat x)).
  now rewrite H.
Qed.

Definition rock_cond (p : dict) (x : pyval) : list pyval := condition_of (rock_named (rocks_of p) x).
Definition indom_head (x : pyval) : str := rec_line cols_INDOM_5 [x].
Definition indom_lines (p : dict) (x : pyval) : list str := entry_lines indom_head (rock_cond p) x.
Definition INDOM_body (p : dict) : list str := concat (map (indom_lines p) (indom_rocks p)) ++ [[nl]].
Definition indom_upd (p : dict) (d : dict) (x : pyval) : dict :=
  dset (name_key x) (PDict [(#"initial_condition", sci_list 13 (rock_cond p x))]) d.

Lemma INDOM_names p : INDOM_ok p -> all_names (dkeys (rocks_of p)).
Proof.
  intros (_ & _ & _ & _ & _ & F & _). unfold all_names. apply Forall_forall. intros k Hk.
  unfold dkeys in Hk. apply in_map_iff in Hk as (kv & <- & Hkv).
  rewrite Forall_forall in F. destruct (F kv Hkv) as (s & r & -> & _). now exists s.
Qed.
Lemma INDOM_item p x : INDOM_ok p -> In x (rocks_order_of p) ->
  exists s r, x = PStr s /\ dget (KS s) (rocks_of p) = Some (PDict r) /\ rock_named (rocks_of p) x = r /\
    match dget #"initial_condition" r with None | Some (PSeq _ _) => True | _ => False end /\
    (has_condition r = true -> name_ok 5 s = true /\ not_number s = true /\ values_ok (condition_of r) = true).
Proof.
  intros H Hx. pose proof (INDOM_names p H) as A.
  destruct H as (_ & _ & O & _ & U & F & _).
  destruct (full_order_in _ _ _ A O Hx) as (s & -> & Hs).
  unfold dkeys in Hs. apply in_map_iff in Hs as (kv & E & Hkv).
  rewrite Forall_forall in F. destruct (F kv Hkv) as (s' & r & -> & N & R). cbn [fst] in E. injection E as ->.
  exists s, r. pose proof (in_dget _ _ _ U Hkv) as G. repeat split; auto; try now apply R.
  unfold rock_named. now rewrite (val_some _ _ _ G).
Qed.

Lemma name_head s : name_ok 5 s = true -> rec_ok cols_INDOM_5 [PStr s] = true.
Proof.
  intros H. apply name_ok_spec in H. unfold cols_INDOM_5. rewrite rec_ok_cons. cbn [rec_ok]. rewrite andb_true_r. intuition.
Qed.

Lemma write_indom_rock_ok rocks s r : dget (KS s) rocks = Some (PDict r) ->
  match dget #"initial_condition" r with None | Some (PSeq _ _) => True | _ => False end ->
  (has_condition r = true -> name_ok 5 s = true /\ not_number s = true /\ values_ok (condition_of r) = true) ->
  write_indom_rock rocks (PStr s) = Ok (if has_condition r then indom_head (PStr s) :: value_lines (condition_of r) else []).
Proof.
  intros G T V. unfold write_indom_rock, lookup, dgetE. cbn [val_key bind]. rewrite G. cbn [bind as_dict].
  unfold has_condition, condition_of, val in *.
  destruct (dget #"initial_condition" r) as [[| | | | | |k l|]|]; try contradiction; [|reflexivity].
  cbn [items py_iter bind] in *. destruct (existsb not_none l) eqn:E; [|reflexivity].
  destruct (V eq_refl) as (N & _ & V').
  rewrite (write_record_ok fmt_INDOM_5 cols_INDOM_5 _ f_INDOM_5) by now apply name_head. cbn [bind].
  pose proof (values_write l V') as W.
  destruct (write_record (firstn (Nat.min 4 (List.length l)) l) (str2format fmt_INDOM_0 [])) as [r2|]; [|discriminate].
  cbn [bind] in *. destruct (when _ _) as [r3|]; [|discriminate]. cbn [bind] in *. injection W as W. rewrite W. reflexivity.
Qed.

Lemma concat_filter {A B} (f : A -> bool) (g : A -> list B) l :
  concat (map (fun x => if f x then g x else []) l) = concat (map g (filter f l)).
Proof. induction l as [|x l IH]; auto. cbn [map concat filter]. rewrite IH. now destruct (f x). Qed.

Lemma INDOM_write p : INDOM_ok p -> write_indom p = Ok (head ($"INDOM") :: INDOM_body p).
Proof.
  intros H. pose proof H as (R & M & O & P & U & F & L).
  unfold write_indom, block, get_dict, dgetE. rewrite R. cbn [bind as_dict].
  rewrite rock_order_ok by auto using INDOM_names. cbn [bind].
  rewrite (concatM_ok _ (fun x => if has_condition (rock_named (rocks_of p) x) then indom_lines p x else [])).
  - cbn [bind]. rewrite concat_filter. reflexivity.
  - intros x Hx. destruct (INDOM_item p x H Hx) as (s & r & -> & G & E & T & V).
    rewrite (write_indom_rock_ok _ s r) by auto. unfold indom_lines, entry_lines, rock_cond. now rewrite E.
Qed.

Lemma INDOM_entry p x : INDOM_ok p -> In x (indom_rocks p) ->
  exists s, x = PStr s /\ name_ok 5 s = true /\ not_number s = true /\ values_ok (rock_cond p x) = true /\ In x (rocks_order_of p).
Proof.
  intros H Hx. unfold indom_rocks in Hx. apply filter_In in Hx as [Hx C].
  destruct (INDOM_item p x H Hx) as (s & r & -> & G & E & T & V). rewrite E in C. destruct (V C) as (N & M & W).
  exists s. unfold rock_cond. rewrite E. auto.
Qed.

Lemma INDOM_good p : INDOM_ok p -> Forall good_line (INDOM_body p).
Proof.
  intros H. unfold INDOM_body. apply Forall_app. split; [|constructor; auto using good_nl].
  apply Forall_concat. intros x Hx. destruct (INDOM_entry p x H Hx) as (s & -> & N & M & V & _).
  unfold indom_lines, entry_lines. constructor; [apply rec_line_good; now apply name_head|now apply value_lines_good].
Qed.

Lemma firstn_spaces n m : firstn n (spaces m) = spaces (Nat.min n m).
Proof. unfold spaces. revert m. induction n; destruct m; cbn [repeat firstn Nat.min]; auto. now rewrite IHn. Qed.
Lemma head_text s w : trimmed s = true -> (List.length s <= w)%nat -> (w <= 20)%nat ->
  strip (firstn 20 (rec_line [CText w] [PStr s])) = s.
Proof.
  intros T L W. unfold rec_line, record80. cbn [cols_text]. unfold col_text. rewrite spec_text.
  cbv [to_str no_ge py_format sp_t sp_right sp_w sp_p trunc]. rewrite (firstn_all_le w s) by auto. rewrite app_nil_r.
  unfold ljust. rewrite <- !app_assoc. rewrite firstn_app, (firstn_all_le 20 s) by lia.
  rewrite app_assoc, spaces_app.
  rewrite firstn_app, spaces_length.
  replace (20 - List.length s - _)%nat with 0%nat.
  2:{ rewrite app_length, spaces_length. lia. }
  cbn [firstn]. rewrite app_nil_r.
  rewrite (firstn_spaces). apply (strip_pad 0); auto.
Qed.

Lemma INDOM_entry_ok p x : INDOM_ok p -> In x (indom_rocks p) ->
  entry_ok read_indom_rock indom_head (rock_cond p) (indom_upd p) blank x.
Proof.
  intros H Hx. destruct (INDOM_entry p x H Hx) as (s & -> & N & M & V & _).
  pose proof (name_head s N) as HN. pose proof (name_ok_spec _ _ N) as (N1 & N2).
  split; [|split; [auto|split; [|split]]].
  - intros acc two tail vs two' tail' R T. unfold read_indom_rock. cbn [next bind].
    unfold indom_head at 1. unfold cols_INDOM_5. rewrite rec_line_not_blank by (intuition; fail).
    change (rec_line [CText 5] [PStr s]) with (indom_head (PStr s)). unfold indom_head.
    rewrite (read_record_ok fmt_INDOM_5 cols_INDOM_5 _ f_INDOM_5) by auto. cbn [bind fst snd].
    unfold cols_INDOM_5. rewrite rec_val_cons. cbn [rec_val at_ nth].
    replace (col_val (CText 5) (PStr s)) with (PStr s) by (destruct s; [discriminate|reflexivity]).
    cbn [val_key bind]. rewrite R. cbn [bind]. rewrite prune_trim, T. reflexivity.
  - intros L. pose proof (values_spec _ V) as (L8 & FF & P). now apply skipn_present_blank; auto.
  - unfold indom_head, cols_INDOM_5. apply rec_line_not_blank; intuition.
  - unfold indom_head, cols_INDOM_5. unfold name_ok in N. rewrite !andb_true_iff, Nat.leb_le in N.
    destruct N as (((NE & TR) & LE) & OL).
    apply read_not_number; rewrite head_text by (auto; lia); auto. destruct s; [discriminate|congruence].
Qed.

Lemma concat_len {X} (f : X -> list str) l : (forall x, f x <> []) -> (List.length l <= List.length (concat (map f l)))%nat.
Proof. intros H. induction l as [|x l IH]; auto. cbn [map concat List.length]. rewrite app_length. specialize (H x). destruct (f x); [congruence|]. cbn [List.length]. lia. Qed.

Lemma NoDup_map_filter {A B} (f : A -> bool) (g : A -> B) l : NoDup (map g l) -> NoDup (map g (filter f l)).
Proof.
  induction l as [|x l IH]; auto. cbn [map filter]. intros H. inversion_clear H as [|? ? H1 H2].
  destruct (f x); auto. cbn [map]. constructor; auto. intros X. apply H1. apply in_map_iff in X as (y & E & Hy).
  apply filter_In in Hy as [Hy _]. rewrite <- E. now apply in_map.
Qed.

Lemma INDOM_block p : INDOM_ok p ->
  write_indom p = Ok (head ($"INDOM") :: INDOM_body p) /\
  Forall good_line (INDOM_body p) /\
  forall ll q rest, has_rocks (rocks_order_of p) q ->
    read_block ll (head ($"INDOM")) q (INDOM_body p ++ rest) = Ok (true, with_rocks (indom_back p) q, rest).
Proof.
  intros H. split; [now apply INDOM_write|]. split; [now apply INDOM_good|].
  intros ll q rest (rq & RQ & KQ & DQ). at_block. unfold INDOM_body. rewrite <- app_assoc. cbn [app].
  pose proof (INDOM_names p H) as A. pose proof H as (_ & _ & O & _ & U & _ & L).
  pose proof (name_keys_nodup p A U O) as ND.
  destruct (entries_read (A := dict) read_indom_rock indom_head (rock_cond p) (indom_upd p) blank ([nl] :: rest) rest) with
    (xs := indom_rocks p) (fuel := Datatypes.S (List.length (concat (map (indom_lines p) (indom_rocks p)) ++ [nl] :: rest))) (acc := @nil (key * pyval)) (two := true)
    as (two' & E).
  - eexists _, _. split; [reflexivity|apply blank_nl].
  - intros st. reflexivity.
  - apply Forall_forall. intros x Hx. now apply INDOM_entry_ok.
  - rewrite app_length. pose proof (concat_len (indom_lines p) (indom_rocks p)) as C.
    cbn [List.length]. enough (List.length (indom_rocks p) <= List.length (concat (map (indom_lines p) (indom_rocks p))))%nat by lia.
    apply C. intros x. unfold indom_lines, entry_lines. congruence.
  - exact L.
  - change (map (entry_lines indom_head (rock_cond p)) (indom_rocks p)) with (map (indom_lines p) (indom_rocks p)) in E.
    apply (f_equal (fun r : res (dict * bool * list str) => let* (st, ls) := r in Ok (fst st, ls))) in E.
    match goal with |- context [read_indom ?x] =>
      change (read_indom x = Ok (fold_left (indom_upd p) (indom_rocks p) [], rest)) in E end.
    rewrite E. cbn [bind].
    unfold indom_upd. rewrite fold_dset_fresh; [|now apply NoDup_map_filter|reflexivity]. cbn [app].
    fold (indom_back p).
    rewrite (update_rocks_ok _ _ rq); auto.
    + unfold keys_unique. rewrite KQ. exact ND.
    + unfold keys_unique, indom_back, dkeys. rewrite map_map. cbn [fst]. now apply NoDup_map_filter.
    + rewrite KQ. apply Forall_forall. intros kv Hkv. unfold indom_back in Hkv. apply in_map_iff in Hkv as (x & <- & Hx).
      cbn [fst snd]. split; auto. apply in_map. unfold indom_rocks in Hx. now apply filter_In in Hx.
Qed.
