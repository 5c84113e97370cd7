(** The ELEME, COORD and CONNE blocks. *)
From Coq Require Import String Ascii ZArith Bool Lia List.
From Verif Require Import Base.Str Base.Digits Base.Flt Base.FltText.
From Verif Require Import Model.Py Model.Records Model.Write Model.Read.
From Verif Require Import Spec.Fields Spec.Values Spec.Types Spec.Layouts Spec.Rocks Spec.Simple Spec.Labels Spec.Mesh.
From Verif Require Import Proofs.RecordLemmas Proofs.DictLemmas Proofs.Layouts Proofs.Types Proofs.BlockTools Proofs.RocksProof Proofs.SimpleProof Proofs.LabelProof.
Import ListNotations.
Local Open Scope Z_scope.

Lemma dgetE_none k s d : keys_unique s -> dget k d = Some PNone -> dgetE k (dupdate d s) = Ok (val k s).
Proof. intros U G. rewrite (dgetE_or PNone) by auto. reflexivity. Qed.

(** ** ELEME *)
Definition cols_elem (n : nat) : list col :=
  [CText n; CInt (fst (eleme_ints n)); CInt (snd (eleme_ints n)); CLoose 5] ++ repeat (CSci 10 4) 3 ++ repeat (CSci 10 3) 3.
Lemma toks_elem n : toks (cols_ELEME n) = toks (cols_elem n).
Proof. unfold cols_ELEME, cols_elem. destruct (eleme_ints n). reflexivity. Qed.
Lemma eleme_ints_pos n : (0 < fst (eleme_ints n))%nat.
Proof. do 9 (destruct n as [|n]; [cbn; lia|]). cbn; lia. Qed.

Definition material_text (v : pyval) : str :=
  match v with PStr s => s | PInt z => rjust 5 (print_Z z) | _ => [] end.
Lemma digits_Z z : 0 <= z -> forallb is_digit (print_Z z) = true.
Proof. intros H. unfold print_Z. destruct (Z.ltb_spec z 0); [lia|]. apply digits_all. Qed.
Lemma print_Z_len5 z : 0 <= z < 100000 -> (List.length (print_Z z) <= 5)%nat.
Proof.
  intros H. unfold print_Z. destruct (Z.ltb_spec z 0); [lia|]. rewrite digits_length.
  destruct (Z.eq_dec z 0) as [->|]; [vm_compute; lia|].
  assert (L : ndigits z = S (Z.to_nat (ilog 10 z))) by reflexivity. 
  pose proof (ilog_spec 10 z ltac:(lia) ltac:(lia)) as I.
  destruct (Nat.le_gt_cases (ndigits z) 5); auto. exfalso.
  assert (5 <= ilog 10 z) by lia.
  assert (10 ^ 5 <= 10 ^ ilog 10 z) by (apply Z.pow_le_mono_r; lia). lia.
Qed.
Lemma material_spec v : material_ok v = true ->
  col_ok (CLoose 5) (PStr (material_text v)) = true /\
  exists s, col_val (CLoose 5) (PStr (material_text v)) = PStr s /\ strip s = s /\
    (if forallb is_digit s
     then match parse_int s with Some z => Ok (PInt z) | None => Err ValueError end
     else Ok (PStr s)) = Ok v.
Proof.
  destruct v as [| |z| | |s| |]; try discriminate; cbn [material_ok material_text].
  - rewrite andb_true_iff, Z.leb_le, Z.ltb_lt. intros H. pose proof (print_Z_len5 z H) as L.
    destruct (txt_rjust (print_Z z) 5 (print_Z_trimmed z)) as (L1 & L2 & L3); auto.
    { apply no_space_one_line, print_Z_no_space. }
    split.
    + cbn [col_ok]. rewrite L1, L2. now rewrite orb_true_r.
    + exists (print_Z z). cbn [col_val]. rewrite L3. pose proof (print_Z_nonempty z).
      split; [destruct (print_Z z); [congruence|reflexivity]|].
      split; [apply trimmed_strip, print_Z_trimmed|]. rewrite digits_Z by lia. now rewrite parse_print_Z.
  - rewrite andb_true_iff. intros [H D]. apply negb_true_iff in D.
    unfold name_ok in H. rewrite !andb_true_iff in H. destruct H as (((N & T) & L) & O). split.
    + cbn [col_ok]. rewrite L, O. now rewrite orb_true_r.
    + exists s. cbn [col_val]. rewrite trimmed_strip, N by auto. rewrite D. auto.
Qed.

Definition elem_vals (x : pyval) (e : dict) : list pyval :=
  [x; val #"nseq" e; val #"nadd" e; PStr (material_text (val #"material" e)); val #"volume" e;
   val #"heat_exchange_area" e; val #"permeability_modifier" e] ++ three (val #"center" e).
Definition elem_line (n : nat) (x : pyval) (e : dict) : str := rec_line (cols_elem n) (elem_vals x e).

Lemma center_spec v : center_ok v = true -> exists k a b c r, v = PSeq k (a :: b :: c :: r) /\ three v = [a; b; c] /\
  fits 3 a = true /\ fits 3 b = true /\ fits 3 c = true.
Proof.
  unfold center_ok, three. rewrite andb_true_iff, Nat.leb_le. destruct v; cbn [items List.length]; try lia.
  intros [L F]. destruct l as [|a [|b [|c r]]]; cbn [List.length] in L; try lia.
  cbn [firstn forallb] in F. rewrite !andb_true_iff in F. exists k, a, b, c, r. tauto.
Qed.

Lemma elem_rec_ok n s e : label_ok s = true -> (List.length s <= n)%nat -> element_ok n e -> rec_ok (cols_elem n) (elem_vals (PStr s) e) = true.
Proof.
  intros L W (U & T & S1 & S2 & M & F & C). destruct (center_spec _ C) as (k & a & b & c & r & E & E3 & Fa & Fb & Fc).
  unfold elem_vals, cols_elem. rewrite E3. cbn [repeat app]. rewrite !rec_ok_cons.
  rewrite (label_ok_col n s), S1, S2 by auto. destruct (material_spec _ M) as [-> _].
  cbn [forallb] in F. unfold fits in *. rewrite !andb_true_iff in F. destruct F as (F1 & F2 & F3 & _).
  rewrite F1, F2, F3, Fa, Fb, Fc. reflexivity.
Qed.

Lemma write_element_ok n d s e : dget (KS s) d = Some (PDict e) -> label_ok s = true -> (List.length s <= n)%nat ->
  element_ok n e -> write_element (toks (cols_elem n)) d (PStr s) = Ok [elem_line n (PStr s) e].
Proof.
  intros G L W H. pose proof (elem_rec_ok n s e L W H) as R. destruct H as (U & T & S1 & S2 & M & F & C).
  unfold write_element, lookup, dgetE at 1. cbn [val_key bind]. rewrite G. cbn [bind as_dict].
  assert (MM : dmem #"material" e = true).
  { unfold val in M. unfold dmem. destruct (dget #"material" e); [reflexivity|discriminate]. }
  rewrite (dgetE_or (PStr [])) by (auto; reflexivity). unfold val_or. rewrite dget_val by auto. cbn [bind].
  rewrite !dgetE_none by (auto; reflexivity). cbn [bind].
  destruct (center_spec _ C) as (k & a & b & c & r & E & E3 & _).
  unfold elem_line, elem_vals in *. rewrite E3 in *. rewrite E.
  destruct (val #"material" e); try discriminate; cbn [bind index nth_error material_text] in *;
    [change (py_format (Spec true 5 None None) (PInt z)) with (Ok (rjust 5 (print_Z z))); cbn [bind]|];
    now apply write_record_ok.
Qed.

Definition elem_dict (e : dict) : dict :=
  [(#"nseq", col_val (CInt 0) (val #"nseq" e)); (#"nadd", col_val (CInt 0) (val #"nadd" e));
   (#"material", val #"material" e); (#"volume", sci 4 (val #"volume" e));
   (#"heat_exchange_area", sci 4 (val #"heat_exchange_area" e));
   (#"permeability_modifier", sci 4 (val #"permeability_modifier" e));
   (#"center", PSeq SList (map (sci 3) (three (val #"center" e))))].

Lemma read_element_ok n fmt s e st r : fmt = Ok (toks (cols_elem n)) -> label_ok s = true -> (List.length s <= n)%nat ->
  element_ok n e ->
  read_element fmt st (elem_line n (PStr s) e :: r)
  = Ok (true, (dset (KS s) (PDict (elem_dict e)) (fst st), snd st ++ [PStr s]), r).
Proof.
  intros -> L W H. pose proof (elem_rec_ok n s e L W H) as R. destruct H as (U & T & S1 & S2 & M & F & C).
  unfold read_element. cbn [next bind].
  assert (B : blank (elem_line n (PStr s) e) = false).
  { apply rec_line_not_blank; [now apply label_ok_col|now apply label_ok_nonempty]. }
  rewrite B. unfold elem_line. rewrite (read_record_ok _ (cols_elem n)) by auto. cbn [bind].
  destruct (center_spec _ C) as (k & a & b & c & r' & E & E3 & _).
  destruct (material_spec _ M) as (_ & m & M1 & M2 & M3).
  unfold elem_vals, cols_elem, elem_dict. rewrite E3. cbn [repeat app]. rewrite !rec_val_cons. cbn [rec_val at_ nth skipn firstn].
  rewrite label_back by auto. cbn [val_key bind]. rewrite M1. cbn [bind]. rewrite M2, M3. reflexivity.
Qed.

Section Labelled.
(** Common facts about the labelled dictionaries. *)
Variable d : dict.
Variable o : pyval.
Variable good : str -> dict -> Prop.
Hypothesis U : keys_unique d.
Hypothesis O : subset_ok o d.
Hypothesis F : Forall (fun kv => exists s e, kv = (KS s, PDict e) /\ good s e) d.
Lemma labelled_names : all_names (dkeys d).
Proof.
  unfold all_names. apply Forall_forall. intros k Hk.
  unfold dkeys in Hk. apply in_map_iff in Hk as (kv & <- & Hkv).
  rewrite Forall_forall in F. destruct (F kv Hkv) as (s & r & -> & _). now exists s.
Qed.
Lemma labelled_item x : In x (order_list o d) ->
  exists s e, x = PStr s /\ dget (KS s) d = Some (PDict e) /\ rock_named d x = e /\ In (KS s) (dkeys d) /\ good s e.
Proof.
  intros Hx. destruct (order_list_in _ _ _ labelled_names O Hx) as (s & -> & Hs). pose proof Hs as Hs'.
  unfold dkeys in Hs. apply in_map_iff in Hs as (kv & E & Hkv).
  rewrite Forall_forall in F. destruct (F kv Hkv) as (s' & e & -> & R). cbn [fst] in E. injection E as ->.
  exists s, e. pose proof (in_dget _ _ _ U Hkv) as G. repeat split; auto.
  unfold rock_named. now rewrite (val_some _ _ _ G).
Qed.
End Labelled.

Definition ELEME_body (p : dict) : list str :=
  map (fun x => elem_line (label_width (elements_of p)) x (rock_named (elements_of p) x)) (elements_order_of p) ++ [[nl]].
Lemma concat_single {A B} (f : A -> B) l : concat (map (fun x => [f x]) l) = map f l.
Proof. induction l; cbn; congruence. Qed.

Lemma ELEME_item p x : ELEME_ok p -> In x (elements_order_of p) ->
  exists s e, x = PStr s /\ dget (KS s) (elements_of p) = Some (PDict e) /\ rock_named (elements_of p) x = e /\
    (List.length s <= label_width (elements_of p))%nat /\ label_ok s = true /\ element_ok (label_width (elements_of p)) e.
Proof.
  intros (_ & _ & _ & U & O & _ & F) Hx.
  destruct (labelled_item (elements_of p) _ (fun s e => label_ok s = true /\ element_ok (label_width (elements_of p)) e) U O F x Hx)
    as (s & e & -> & G & E & I & L & K).
  exists s, e. repeat (split; auto). now apply label_width_le.
Qed.

Lemma ELEME_write p : ELEME_ok p -> write_eleme p = Ok (head ($"ELEME") :: ELEME_body p).
Proof.
  intros H. pose proof H as (G & M & NE & U & O & W & F).
  unfold write_eleme. rewrite (check_list_ok dt_ELEME kinds_ELEME #"elements" p (elements_of p) st_ELEME); auto.
  2:{ intros k v Hk. rewrite Forall_forall in F. destruct (F _ Hk) as (s & e & E & _ & (_ & T & _)). injection E as -> ->. exists e. auto. }
  cbn [bind]. unfold block, get_dict, dgetE at 1. rewrite G. cbn [bind as_dict].
  rewrite order_of_ok by auto. cbn [bind].
  rewrite max_key_len_ok; auto.
  2:{ eapply (labelled_names _ (fun s e => label_ok s = true /\ element_ok (label_width (elements_of p)) e)). exact F. }
  cbn [bind]. rewrite f_ELEME by lia. cbn [bind]. rewrite toks_elem.
  rewrite (concatM_ok _ (fun x => [elem_line (label_width (elements_of p)) x (rock_named (elements_of p) x)])).
  - cbn [bind]. rewrite concat_single. reflexivity.
  - intros x Hx. destruct (ELEME_item p x H Hx) as (s & e & -> & Ge & E & Ls & L & K). rewrite E.
    now apply write_element_ok.
Qed.

Lemma ELEME_good p : ELEME_ok p -> Forall good_line (ELEME_body p).
Proof.
  intros H. unfold ELEME_body. apply Forall_app. split; [|constructor; auto using good_nl].
  apply Forall_forall. intros l Hl. apply in_map_iff in Hl as (x & <- & Hx).
  destruct (ELEME_item p x H Hx) as (s & e & -> & Ge & E & Ls & L & K). rewrite E.
  apply rec_line_good. now apply elem_rec_ok.
Qed.

Lemma ELEME_len p ll rest : ELEME_ok p -> ELEME_known ll p -> elements_order_of p <> [] ->
  label_len ll (ELEME_body p ++ rest) = Ok (label_width (elements_of p)).
Proof.
  intros H K NE. unfold ELEME_known, first_known in K. unfold ELEME_body.
  pose proof (ELEME_item p) as I. destruct (elements_order_of p) as [|x xs]; [congruence|].
  destruct (I x H (or_introl eq_refl)) as (s & e & -> & Ge & E & Ls & L & EO).
  cbn [map app]. cbn [name_key key_text] in K. rewrite E in K |- *.
  pose proof H as (_ & _ & _ & _ & _ & W & _).
  set (n := label_width (elements_of p)) in *.
  destruct (rec_line_label n (tl (cols_elem n)) s (tl (elem_vals (PStr s) e)) Ls) as [tail ET].
  change (rec_line (CText n :: tl (cols_elem n)) (PStr s :: tl (elem_vals (PStr s) e))) with (elem_line n (PStr s) e) in ET.
  apply (label_len_known ll n s _ _ (cols_text (tl (cols_elem n)) (tl (elem_vals (PStr s) e)) ++ tail) _ W K).
  - intros LE. rewrite ET, ljust_full by auto. reflexivity.
  - intros D. destruct EO as (_ & _ & S1 & _). cbn [cols_elem elem_vals app tl cols_text]. rewrite <- app_assoc.
    apply int_first; auto. apply eleme_ints_pos.
Qed.

Lemma ELEME_block p : ELEME_ok p ->
  write_eleme p = Ok (head ($"ELEME") :: ELEME_body p) /\ Forall good_line (ELEME_body p) /\
  forall ll q rest, ELEME_known ll p ->
    read_block ll (head ($"ELEME")) q (ELEME_body p ++ rest) = Ok (true, ELEME_upd p q, rest).
Proof.
  intros H. split; [now apply ELEME_write|]. split; [now apply ELEME_good|].
  intros ll q rest K. at_block. unfold read_eleme.
  assert (X : exists m, label_len ll (ELEME_body p ++ rest) = Ok m /\ (elements_order_of p <> [] -> m = label_width (elements_of p))).
  { destruct (elements_order_of p) eqn:E.
    - unfold ELEME_body. rewrite E. cbn [map app]. unfold label_len. cbn [next bind]. eexists. split; [reflexivity|congruence].
    - eexists. split; [apply ELEME_len; auto; rewrite E; congruence|auto]. }
  destruct X as (m & -> & Hm). cbn [bind].
  set (line := fun x => elem_line (label_width (elements_of p)) x (rock_named (elements_of p) x)).
  set (f := fun x => PDict (elem_dict (rock_named (elements_of p) x))).
  assert (IL : iter_lines (S (List.length (ELEME_body p ++ rest))) (read_element (fmt_ELEME m)) ([], []) (ELEME_body p ++ rest)
     = Ok (fold_left (add_named f) (elements_order_of p) ([], []), rest)).
  { unfold ELEME_body. rewrite <- app_assoc. cbn [app]. fold line.
    rewrite <- (concat_single line).
    apply (iter_lines_spec (read_element (fmt_ELEME m)) (fun x => [line x])).
    - intros st x r Hx. destruct (ELEME_item p x H Hx) as (s & e & -> & Ge & E & Ls & L & EO).
      unfold line, add_named, f. cbn [app name_key]. rewrite E.
      apply (read_element_ok (label_width (elements_of p))); auto. rewrite Hm by (intros X; rewrite X in Hx; contradiction).
      rewrite <- toks_elem. apply f_ELEME. destruct H as (_ & _ & _ & _ & _ & W & _). exact W.
    - intros st r. reflexivity.
    - rewrite app_length, concat_single, map_length. lia. }
  rewrite IL. cbn [bind]. pose proof H as (_ & _ & _ & U & O & _ & F).
  rewrite fold_named.
  2:{ apply order_list_nodup; auto. eapply (labelled_names _ (fun s e => label_ok s = true /\ element_ok (label_width (elements_of p)) e)). exact F. }
  cbn [fst snd]. unfold f. rewrite prune_values_map. unfold ELEME_upd, elements_back.
  do 8 f_equal. apply map_ext. intros x. now rewrite known_prune.
Qed.

(** ** COORD *)
Definition coord_of (p : dict) (x : pyval) : pyval := val #"center" (rock_named (elements_of p) x).
Definition coord_line (p : dict) (x : pyval) : str := rec_line cols_COORD (items (coord_of p x)).
Definition COORD_body (p : dict) : list str := map (coord_line p) (elements_order_of p) ++ [[nl]].

Lemma COORD_item p x : COORD_ok p -> In x (elements_order_of p) ->
  exists s e, x = PStr s /\ dget (KS s) (elements_of p) = Some (PDict e) /\ rock_named (elements_of p) x = e /\
    In (KS s) (dkeys (elements_of p)) /\ coord_ok (val #"center" e) = true.
Proof.
  intros (_ & _ & U & O & F) Hx.
  exact (labelled_item (elements_of p) _ (fun s e => coord_ok (val #"center" e) = true) U O F x Hx).
Qed.
Lemma COORD_names p : COORD_ok p -> all_names (dkeys (elements_of p)).
Proof. intros (_ & _ & _ & _ & F). exact (labelled_names _ (fun s e => coord_ok (val #"center" e) = true) F). Qed.
Lemma coord_spec v : coord_ok v = true ->
  exists k l, v = PSeq k l /\ rec_ok cols_COORD l = true /\ blank (rec_line cols_COORD l) = false /\
    PSeq SList (rec_val cols_COORD l) = coord_back v.
Proof.
  unfold coord_ok. rewrite !andb_true_iff. intros [[Q F] P]. destruct v; try discriminate. exists k, l.
  unfold three in *. cbn [items] in *.
  assert (R : rec_ok cols_COORD l = true) by (unfold cols_COORD; now rewrite rec_ok_repeat).
  repeat split; auto.
  - apply rec_line_present; auto. unfold cols_COORD. rewrite rec_val_repeat, existsb_app. apply orb_true_iff. left.
    apply existsb_exists in P as (x & Hx & Ax). apply existsb_exists. exists (sci 13 x). split; [now apply in_map|].
    apply negb_true_iff in Ax. apply (present_not_none 20); auto. rewrite forallb_forall in F. now apply F.
  - unfold coord_back, cols_COORD, three. cbn [items]. rewrite rec_val_repeat. f_equal.
    destruct l as [|a [|b [|c r]]]; reflexivity.
Qed.

Lemma COORD_write p : COORD_ok p -> write_coord p = Ok (head ($"COORD") :: COORD_body p).
Proof.
  intros H. pose proof H as (G & M & U & O & F).
  unfold write_coord, block, get_dict, dgetE at 1. rewrite G. cbn [bind as_dict].
  rewrite order_of_ok by auto. cbn [bind].
  rewrite (concatM_ok _ (fun x => [coord_line p x])).
  - cbn [bind]. rewrite concat_single. reflexivity.
  - intros x Hx. destruct (COORD_item p x H Hx) as (s & e & -> & Ge & E & _ & K).
    unfold lookup, dgetE. cbn [val_key bind]. rewrite Ge. cbn [bind subscript].
    unfold coord_line, coord_of. rewrite E.
    destruct (coord_spec _ K) as (k & l & V & R & _). unfold val in V. unfold dgetE, val.
    destruct (dget #"center" e); [|discriminate]. subst p0. cbn [bind py_iter items].
    now apply (write_record_ok fmt_COORD cols_COORD _ f_COORD).
Qed.
Lemma COORD_good p : COORD_ok p -> Forall good_line (COORD_body p).
Proof.
  intros H. unfold COORD_body. apply Forall_app. split; [|constructor; auto using good_nl].
  apply Forall_forall. intros l Hl. apply in_map_iff in Hl as (x & <- & Hx).
  destruct (COORD_item p x H Hx) as (s & e & -> & Ge & E & _ & K).
  unfold coord_line, coord_of. rewrite E. destruct (coord_spec _ K) as (k & l & V & R & _). rewrite V.
  now apply rec_line_good.
Qed.

Definition set_center (g : pyval -> pyval) (els : dict) (x : pyval) : dict :=
  dset (name_key x) (PDict (dset #"center" (g x) (rock_named els x))) els.
Lemma dset_dicts k d els : Forall (fun kv => is_dict (snd kv) = true) els ->
  Forall (fun kv => is_dict (snd kv) = true) (dset k (PDict d) els).
Proof.
  induction els as [|[a w] els IH]; cbn [dset]; intros D; [constructor; auto|].
  apply Forall_cons_iff in D as [D1 D2]. destruct (key_eqb k a); constructor; auto.
Qed.
Lemma update_fold g : forall xs q els, dget #"elements" q = Some (PDict els) ->
  Forall (fun kv => is_dict (snd kv) = true) els ->
  (forall x, In x xs -> exists s, x = PStr s /\ In (KS s) (dkeys els)) ->
  foldM (fun p kc =>
           let* v := dgetE #"elements" p in
           let* els := as_dict v in
           let* k := val_key (fst kc) in
           let* e := dgetE k els in
           let* e := as_dict e in
           Ok (dset #"elements" (PDict (dset k (PDict (dset #"center" (snd kc) e)) els)) p))
        q (combine xs (map g xs))
  = Ok (dset #"elements" (PDict (fold_left (set_center g) xs els)) q).
Proof.
  induction xs as [|x xs IH]; intros q els G D I; cbn [map combine foldM fold_left].
  - rewrite dset_same by auto. reflexivity.
  - destruct (I x (or_introl eq_refl)) as (s & -> & Hs). cbn [fst snd val_key].
    unfold dgetE at 1. rewrite G. cbn [bind as_dict].
    assert (M : exists e, dget (KS s) els = Some (PDict e)).
    { apply dmem_in in Hs. unfold dmem in Hs. destruct (dget (KS s) els) as [v|] eqn:E; [|discriminate].
      apply dget_in in E. rewrite Forall_forall in D. apply D in E. cbn [snd] in E. destruct v; try discriminate. eauto. }
    destruct M as [e Ge]. unfold dgetE at 1. rewrite Ge. cbn [bind as_dict].
    assert (R : rock_named els (PStr s) = e) by (unfold rock_named; now rewrite (val_some _ _ _ Ge)).
    rewrite IH with (els := set_center g els (PStr s)).
    + rewrite dset_dset. reflexivity.
    + unfold set_center. cbn [name_key]. rewrite R. now rewrite dget_dset_same.
    + unfold set_center. apply dset_dicts; auto.
    + intros y Hy. unfold set_center. cbn [name_key]. rewrite dkeys_dset by auto. apply I. now right.
Qed.

Lemma set_centers g : forall xs els, keys_unique els -> Forall (fun kv => is_dict (snd kv) = true) els ->
  NoDup (map name_key xs) -> (forall x, In x xs -> In (name_key x) (dkeys els) /\ exists s, x = PStr s) ->
  fold_left (set_center g) xs els =
  map (fun kv => if existsb (key_eqb (fst kv)) (map name_key xs)
                 then (fst kv, PDict (dset #"center" (g (key_val (fst kv))) (entries (snd kv)))) else kv) els.
Proof.
  induction xs as [|x xs IH]; intros els U D N I; cbn [fold_left map existsb].
  - now rewrite map_id.
  - inversion_clear N as [|? ? N1 N2]. destruct (I x (or_introl eq_refl)) as (Hx & s & ->). cbn [name_key] in *.
    assert (E : set_center g els (PStr s) = map (fun kv => if key_eqb (KS s) (fst kv)
              then (fst kv, PDict (dset #"center" (g (PStr s)) (entries (snd kv)))) else kv) els).
    { unfold set_center. cbn [name_key]. rewrite dset_map by auto. apply map_ext_in. intros [k v] Hkv. cbn [fst snd].
      destruct (key_eqb (KS s) k) eqn:E; auto. apply key_eqb_eq in E. subst k.
      do 2 f_equal. f_equal. unfold rock_named. pose proof (in_dget _ _ _ U Hkv) as G. rewrite (val_some _ _ _ G). reflexivity. }
    assert (K : dkeys (set_center g els (PStr s)) = dkeys els) by (unfold set_center; cbn [name_key]; now rewrite dkeys_dset).
    rewrite IH.
    + rewrite E, map_map. apply map_ext_in. intros [k v] Hkv. cbn [fst snd].
      rewrite (key_eqb_sym k (KS s)). destruct (key_eqb (KS s) k) eqn:Ek; cbn [fst snd orb]; auto.
      apply key_eqb_eq in Ek. subst k. rewrite existsb_false; auto.
      intros z Hz. apply key_eqb_neq. intros Ez. rewrite Ez in N1. contradiction.
    + unfold keys_unique. now rewrite K.
    + unfold set_center. now apply dset_dicts.
    + exact N2.
    + intros y Hy. rewrite K. apply I. now right.
Qed.

(** Reading lines, however written, that hold the coordinates. *)
Lemma COORD_read p (line : pyval -> str) : COORD_ok p ->
  (forall x, In x (elements_order_of p) -> blank (line x) = false /\
     exists l, read_record (line x) fmt_COORD = Ok l /\ PSeq SList l = coord_back (coord_of p x)) ->
  forall ll q rest, COORD_pre p q ->
    read_block ll (head ($"COORD")) q ((map line (elements_order_of p) ++ [[nl]]) ++ rest) = Ok (true, COORD_upd p q, rest).
Proof.
  intros H LI ll q rest (QO & els & QE & QK & QD). at_block.
  assert (R : read_coord ((map line (elements_order_of p) ++ [[nl]]) ++ rest) = Ok (map (fun x => coord_back (coord_of p x)) (elements_order_of p), rest)).
  { unfold read_coord. rewrite <- app_assoc. cbn [app]. rewrite <- (concat_single line).
    rewrite (iter_lines_spec read_coord_line (fun x => [line x]) (fun st x => st ++ [coord_back (coord_of p x)])).
    - now rewrite fold_snoc.
    - intros st x r Hx. destruct (LI x Hx) as (B & l & RR & E).
      unfold read_coord_line. cbn [app next bind]. rewrite B, RR. cbn [bind]. now rewrite E.
    - intros st r. reflexivity.
    - rewrite app_length, concat_single, map_length. cbn [List.length]. lia. }
  rewrite R. cbn [bind]. unfold update_centers, dgetE at 1. rewrite QO. cbn [bind py_iter].
  pose proof (COORD_names p H) as A. pose proof H as (_ & _ & U & O & _).
  pose proof (order_list_nodup _ _ A U O) as N. fold (elements_order_of p) in N.
  assert (I : forall x, In x (elements_order_of p) -> exists s, x = PStr s /\ In (KS s) (dkeys els)).
  { intros x Hx. destruct (order_list_in _ _ _ A O Hx) as (s & -> & _). exists s. split; auto. rewrite QK.
    now apply (in_map name_key) in Hx. }
  rewrite (update_fold (fun x => coord_back (coord_of p x)) _ _ els) by auto. cbn [bind].
  unfold COORD_upd. rewrite (val_some _ _ _ QE). cbn [entries]. do 5 f_equal. f_equal.
  rewrite set_centers; auto.
  - unfold with_centers. apply map_ext_in. intros kv Hkv.
    apply (in_map fst) in Hkv. change (In (fst kv) (dkeys els)) in Hkv. rewrite QK in Hkv.
    assert (X : existsb (key_eqb (fst kv)) (map name_key (elements_order_of p)) = true).
    { apply existsb_exists. exists (fst kv). split; auto. apply key_eqb_refl. }
    rewrite X. reflexivity.
  - unfold keys_unique. now rewrite QK.
  - intros x Hx. destruct (I x Hx) as (s & -> & Hs). eauto.
Qed.

Lemma COORD_block p : COORD_ok p ->
  write_coord p = Ok (head ($"COORD") :: COORD_body p) /\ Forall good_line (COORD_body p) /\
  forall ll q rest, COORD_pre p q ->
    read_block ll (head ($"COORD")) q (COORD_body p ++ rest) = Ok (true, COORD_upd p q, rest).
Proof.
  intros H. split; [now apply COORD_write|]. split; [now apply COORD_good|].
  unfold COORD_body. apply COORD_read; [exact H|]. intros x Hx. destruct (COORD_item p x H Hx) as (s & e & -> & Ge & E & _ & K).
  unfold coord_line, coord_of. rewrite E. destruct (coord_spec _ K) as (k & l & V & Ro & B & CB). rewrite V. cbn [items]. split; [exact B|].
  exists (rec_val cols_COORD l). rewrite (read_record_ok fmt_COORD cols_COORD _ f_COORD) by auto. split; [reflexivity|]. now rewrite CB, V.
Qed.

(** ** CONNE *)
Definition cols_conn (n : nat) : list col :=
  [CText (2 * n); CInt (fst (conne_ints n)); CInt (snd (conne_ints n)); CInt (snd (conne_ints n)); CInt 5]
  ++ repeat (CSci 10 4) 3 ++ repeat (CSci 10 3) 2.
Lemma toks_conn n : toks (cols_CONNE n) = toks (cols_conn n).
Proof. unfold cols_CONNE, cols_conn. destruct (conne_ints n). reflexivity. Qed.
Lemma conne_ints_pos n : (0 < fst (conne_ints n))%nat.
Proof. do 9 (destruct n as [|n]; [cbn; lia|]). cbn; lia. Qed.

Definition conn_vals (x : pyval) (e : dict) : list pyval :=
  [x; val #"nseq" e] ++ two (val #"nadd" e) ++ [val #"permeability_direction" e] ++ two (val #"nodal_distances" e)
  ++ [val #"interface_area" e; val #"gravity_cosine_angle" e; val #"radiant_emittance_factor" e].
Definition conn_line (n : nat) (x : pyval) (e : dict) : str := rec_line (cols_conn n) (conn_vals x e).

Lemma two_spec v : exists a b, two v = [a; b].
Proof. unfold two. destruct (items v) as [|a [|b r]]; cbn; eauto. Qed.
Lemma two_index v a b : two v = [a; b] -> (2 <= List.length (items v))%nat -> index v 0 = Ok a /\ index v 1 = Ok b.
Proof.
  unfold two. destruct v; cbn [items List.length]; try lia. destruct l as [|x [|y r]]; cbn [List.length]; try lia.
  intros [= -> ->] _. auto.
Qed.
Lemma two_none v : is_none v = true -> two v = [PNone; PNone].
Proof. destruct v; try discriminate. reflexivity. Qed.

Lemma conn_rec_ok n s e : pair_ok n s = true -> connection_ok n e -> rec_ok (cols_conn n) (conn_vals (PStr s) e) = true.
Proof.
  intros L (U & T & S1 & S2 & SN & SD & ND & F1 & F2 & F3). unfold conn_vals, cols_conn.
  destruct (two_spec (val #"nadd" e)) as (a & b & E). destruct (two_spec (val #"nodal_distances" e)) as (a' & b' & E').
  rewrite E, E' in *. cbn [repeat app]. rewrite !rec_ok_cons. unfold pair_ok in L. rewrite !andb_true_iff, Nat.leb_le in L.
  destruct L as ((L1 & L2) & L3). rewrite label_ok_col, S1, SD by auto.
  cbn [forallb] in *. unfold fits in *. rewrite !andb_true_iff in S2, F1, F3.
  destruct S2 as (X1 & X2 & _), F1 as (X3 & X4 & _), F3 as (X5 & X6 & _).
  rewrite X1, X2, X3, X4, F2, X5, X6. reflexivity.
Qed.

Lemma write_connection_ok n d s e : dget (KS s) d = Some (PDict e) -> pair_ok n s = true ->
  connection_ok n e -> write_connection (toks (cols_conn n)) d (PStr s) = Ok [conn_line n (PStr s) e].
Proof.
  intros G L H. pose proof (conn_rec_ok n s e L H) as R. destruct H as (U & T & S1 & S2 & SN & SD & ND & F1 & F2 & F3).
  unfold write_connection, lookup, dgetE at 1. cbn [val_key bind]. rewrite G. cbn [bind as_dict].
  rewrite !dgetE_none by (auto; reflexivity). cbn [bind].
  unfold conn_line, conn_vals in *.
  destruct (two_spec (val #"nadd" e)) as (a & b & E). destruct (two_spec (val #"nodal_distances" e)) as (a' & b' & E').
  rewrite E, E' in *. destruct (two_index _ _ _ E' ND) as [-> ->].
  destruct (is_none (val #"nadd" e)) eqn:NN.
  - rewrite (two_none _ NN) in E. injection E as <- <-. cbn [bind app] in *. now apply write_record_ok.
  - destruct SN as [SN|SN]; [congruence|]. destruct (two_index _ _ _ E SN) as [-> ->]. cbn [bind app] in *. now apply write_record_ok.
Qed.

Definition conn_dict (e : dict) : dict :=
  [(#"nseq", col_val (CInt 0) (val #"nseq" e));
   (#"nadd", PSeq SList (map (col_val (CInt 0)) (two (val #"nadd" e))));
   (#"permeability_direction", col_val (CInt 0) (val #"permeability_direction" e));
   (#"nodal_distances", PSeq SList (map (sci 4) (two (val #"nodal_distances" e))));
   (#"interface_area", sci 4 (val #"interface_area" e));
   (#"gravity_cosine_angle", sci 3 (val #"gravity_cosine_angle" e));
   (#"radiant_emittance_factor", sci 3 (val #"radiant_emittance_factor" e))].

Lemma plus_label s w t : (3 <= w)%nat -> nonempty s = true -> startswith ($"+++") s = false ->
  startswith ($"+++") (ljust w s ++ t) = false.
Proof.
  intros W N H. unfold ljust. rewrite <- app_assoc.
  change ($"+++") with ["+"; "+"; "+"]%char in *.
  destruct s as [|a [|b [|c s]]]; [discriminate| | |exact H].
  - cbn [List.length app]. destruct w as [|[|[|w]]]; try lia. cbn [Nat.sub spaces repeat app startswith].
    change (Ascii.eqb "+" sp) with false. now rewrite andb_false_r.
  - cbn [List.length app]. destruct w as [|[|[|w]]]; try lia. cbn [Nat.sub spaces repeat app startswith].
    change (Ascii.eqb "+" sp) with false. cbn [andb]. now rewrite !andb_false_r.
Qed.

Lemma conn_starts n s e : (5 <= n)%nat -> pair_ok n s = true ->
  blank (conn_line n (PStr s) e) || plus3 (conn_line n (PStr s) e) = false.
Proof.
  intros W L. unfold pair_ok in L. rewrite !andb_true_iff, Nat.leb_le, negb_true_iff in L.
  destruct L as ((L1 & L2) & L3). apply orb_false_iff. split.
  - apply rec_line_not_blank; [now apply label_ok_col|now apply label_ok_nonempty].
  - unfold plus3, conn_line.
    destruct (rec_line_label (2 * n) (tl (cols_conn n)) s (tl (conn_vals (PStr s) e)) L2) as [tail ET].
    change (rec_line (CText (2 * n) :: tl (cols_conn n)) (PStr s :: tl (conn_vals (PStr s) e)))
      with (rec_line (cols_conn n) (conn_vals (PStr s) e)) in ET. rewrite ET.
    apply plus_label; [lia|now apply label_ok_nonempty|auto].
Qed.

Lemma read_connection_ok n fmt s e st r : fmt = Ok (toks (cols_conn n)) -> (5 <= n)%nat -> pair_ok n s = true ->
  connection_ok n e ->
  read_connection fmt st (conn_line n (PStr s) e :: r)
  = Ok (true, (dset (KS s) (PDict (conn_dict e)) (fst st), snd st ++ [PStr s]), r).
Proof.
  intros -> W L H. pose proof (conn_rec_ok n s e L H) as R. destruct H as (U & T & S1 & S2 & SN & SD & ND & F1 & F2 & F3).
  unfold read_connection. cbn [next bind]. rewrite conn_starts by auto.
  unfold conn_line. rewrite (read_record_ok _ (cols_conn n)) by auto. cbn [bind].
  unfold pair_ok in L. rewrite !andb_true_iff in L. destruct L as ((L1 & L2) & L3).
  unfold conn_vals, cols_conn, conn_dict.
  destruct (two_spec (val #"nadd" e)) as (a & b & E). destruct (two_spec (val #"nodal_distances" e)) as (a' & b' & E').
  rewrite E, E'. cbn [repeat app]. rewrite !rec_val_cons. cbn [rec_val at_ nth skipn firstn].
  rewrite label_back by auto. cbn [val_key bind]. reflexivity.
Qed.

Definition CONNE_body (p : dict) : list str :=
  map (fun x => conn_line (half_width (connections_of p)) x (rock_named (connections_of p) x)) (connections_order_of p) ++ [[nl]].
Definition conn_good (p : dict) (s : str) (e : dict) : Prop :=
  pair_ok (half_width (connections_of p)) s = true /\ connection_ok (half_width (connections_of p)) e.
Lemma CONNE_item p x : CONNE_ok p -> In x (connections_order_of p) ->
  exists s e, x = PStr s /\ dget (KS s) (connections_of p) = Some (PDict e) /\ rock_named (connections_of p) x = e /\
    pair_ok (half_width (connections_of p)) s = true /\ connection_ok (half_width (connections_of p)) e.
Proof.
  intros (_ & _ & _ & U & O & _ & F) Hx.
  destruct (labelled_item (connections_of p) _ (conn_good p) U O F x Hx) as (s & e & -> & G & E & I & L & K).
  exists s, e. auto.
Qed.

Lemma CONNE_write p : CONNE_ok p -> write_conne p = Ok (head ($"CONNE") :: CONNE_body p).
Proof.
  intros H. pose proof H as (G & M & NE & U & O & W & F).
  unfold write_conne. rewrite (check_list_ok dt_CONNE kinds_CONNE #"connections" p (connections_of p) st_CONNE); auto.
  2:{ intros k v Hk. rewrite Forall_forall in F. destruct (F _ Hk) as (s & e & E & _ & (_ & T & _)). injection E as -> ->. exists e. auto. }
  cbn [bind]. unfold block, get_dict, dgetE at 1. rewrite G. cbn [bind as_dict].
  rewrite order_of_ok by auto. cbn [bind].
  rewrite max_key_len_ok; auto.
  2:{ exact (labelled_names _ (conn_good p) F). }
  cbn [bind]. fold (half_width (connections_of p)). rewrite f_CONNE by lia. cbn [bind]. rewrite toks_conn.
  rewrite (concatM_ok _ (fun x => [conn_line (half_width (connections_of p)) x (rock_named (connections_of p) x)])).
  - cbn [bind]. rewrite concat_single. reflexivity.
  - intros x Hx. destruct (CONNE_item p x H Hx) as (s & e & -> & Ge & E & L & K). rewrite E.
    now apply write_connection_ok.
Qed.

Lemma CONNE_good p : CONNE_ok p -> Forall good_line (CONNE_body p).
Proof.
  intros H. unfold CONNE_body. apply Forall_app. split; [|constructor; auto using good_nl].
  apply Forall_forall. intros l Hl. apply in_map_iff in Hl as (x & <- & Hx).
  destruct (CONNE_item p x H Hx) as (s & e & -> & Ge & E & L & K). rewrite E.
  apply rec_line_good. now apply conn_rec_ok.
Qed.

Lemma CONNE_len p ll rest : CONNE_ok p -> CONNE_known ll p -> connections_order_of p <> [] ->
  label_len ll (CONNE_body p ++ rest) = Ok (half_width (connections_of p)).
Proof.
  intros H K NE. unfold CONNE_known in K. unfold CONNE_body.
  pose proof (CONNE_item p) as I. destruct (connections_order_of p) as [|x xs]; [congruence|].
  destruct (I x H (or_introl eq_refl)) as (s & e & -> & Ge & E & L & EO).
  cbn [map app]. cbn [name_key key_text] in K. cbv zeta in K. rewrite E.
  pose proof H as (_ & _ & _ & _ & _ & W & _).
  set (n := half_width (connections_of p)) in *.
  unfold pair_ok in L. rewrite !andb_true_iff, Nat.leb_le in L. destruct L as ((L1 & L2) & L3).
  destruct (rec_line_label (2 * n) (tl (cols_conn n)) s (tl (conn_vals (PStr s) e)) L2) as [tail ET].
  change (rec_line (CText (2 * n) :: tl (cols_conn n)) (PStr s :: tl (conn_vals (PStr s) e))) with (conn_line n (PStr s) e) in ET.
  apply (label_len_known ll n (firstn n s) _ _
    (skipn n s ++ spaces (2 * n - List.length s) ++ cols_text (tl (cols_conn n)) (tl (conn_vals (PStr s) e)) ++ tail) _ W K).
  - intros LE. rewrite ET. unfold ljust. rewrite <- !app_assoc. rewrite (app_assoc (firstn n s)), firstn_skipn. reflexivity.
  - destruct (skipn n s) as [|c t] eqn:SK; [|auto]. intros _. cbn [app].
    assert (List.length s <= n)%nat.
    { apply (f_equal (@List.length _)) in SK. rewrite skipn_length in SK. cbn [List.length] in SK. lia. }
    destruct (2 * n - List.length s)%nat eqn:Z; [lia|]. reflexivity.
Qed.

Lemma CONNE_block p : CONNE_ok p ->
  write_conne p = Ok (head ($"CONNE") :: CONNE_body p) /\ Forall good_line (CONNE_body p) /\
  forall ll q rest, CONNE_known ll p ->
    read_block ll (head ($"CONNE")) q (CONNE_body p ++ rest) = Ok (true, dupdate q (CONNE_back p), rest).
Proof.
  intros H. split; [now apply CONNE_write|]. split; [now apply CONNE_good|].
  intros ll q rest K. at_block. unfold read_conne.
  assert (X : exists m, label_len ll (CONNE_body p ++ rest) = Ok m /\ (connections_order_of p <> [] -> m = half_width (connections_of p))).
  { destruct (connections_order_of p) eqn:E.
    - unfold CONNE_body. rewrite E. cbn [map app]. unfold label_len. cbn [next bind]. eexists. split; [reflexivity|congruence].
    - eexists. split; [apply CONNE_len; auto; rewrite E; congruence|auto]. }
  destruct X as (m & -> & Hm). cbn [bind].
  set (line := fun x => conn_line (half_width (connections_of p)) x (rock_named (connections_of p) x)).
  set (f := fun x => PDict (conn_dict (rock_named (connections_of p) x))).
  assert (IL : iter_lines (S (List.length (CONNE_body p ++ rest))) (read_connection (fmt_CONNE m)) ([], []) (CONNE_body p ++ rest)
     = Ok (fold_left (add_named f) (connections_order_of p) ([], []), rest)).
  { unfold CONNE_body. rewrite <- app_assoc. cbn [app]. fold line.
    rewrite <- (concat_single line).
    apply (iter_lines_spec (read_connection (fmt_CONNE m)) (fun x => [line x])).
    - intros st x r Hx. destruct (CONNE_item p x H Hx) as (s & e & -> & Ge & E & L & EO).
      unfold line, add_named, f. cbn [app name_key]. rewrite E.
      destruct H as (_ & _ & _ & _ & _ & W & _).
      apply (read_connection_ok (half_width (connections_of p))); auto; [|lia].
      rewrite Hm by (intros X; rewrite X in Hx; contradiction).
      rewrite <- toks_conn. apply f_CONNE. exact W.
    - intros st r. reflexivity.
    - rewrite app_length, concat_single, map_length. lia. }
  rewrite IL. cbn [bind]. pose proof H as (_ & _ & _ & U & O & _ & F).
  rewrite fold_named.
  2:{ apply order_list_nodup; auto. exact (labelled_names _ (conn_good p) F). }
  cbn [fst snd]. unfold f. rewrite prune_values_map. unfold CONNE_back, connections_back.
  do 6 f_equal. f_equal. apply map_ext. intros x. now rewrite known_prune.
Qed.
