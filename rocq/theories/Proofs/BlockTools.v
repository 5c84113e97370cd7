(** Shared lemmas for the block proofs. *)
From Coq Require Import String Ascii ZArith Bool Lia List.
From Verif Require Import Base.Str Base.Digits Base.Flt Base.FltText Base.FltInt.
From Verif Require Import Model.Py Model.Records Model.Write Model.Read.
From Verif Require Import Spec.Fields Spec.Values Spec.Types Spec.Layouts.
From Verif Require Import Proofs.RecordLemmas Proofs.DictLemmas Proofs.Layouts Proofs.Types.
Import ListNotations.
Local Open Scope Z_scope.

(** What a block theorem says: after its header line [h], the records [body]
    are consumed exactly, whatever follows, and the parameters change by [upd]. *)
Definition reads_as (h : str) (body : list str) (upd : dict -> dict) : Prop :=
  forall ll q rest, read_block ll h q (body ++ rest) = Ok (true, upd q, rest).

(** The same, under conditions on the given label length, the parameters read
    so far and the lines that follow. *)
Definition reads_if (P : option nat -> dict -> list str -> Prop) (h : str) (body : list str)
    (upd : dict -> dict) : Prop :=
  forall ll q rest, P ll q rest -> read_block ll h q (body ++ rest) = Ok (true, upd q, rest).

(** Runs of equal scientific columns. *)
Lemma rec_ok_repeat w k n l :
  rec_ok (repeat (CSci w k) n) l = forallb (col_ok (CSci w k)) (firstn n l).
Proof.
  revert l. induction n as [|n IH]; intros [|v l]; cbn [repeat firstn forallb]; auto.
  - cbn [rec_ok]. now rewrite IH, firstn_nil.
  - cbn [rec_ok]. now rewrite IH.
Qed.
Lemma rec_val_repeat w k n l :
  rec_val (repeat (CSci w k) n) l = map (sci k) (firstn n l) ++ repeat PNone (n - List.length l).
Proof.
  revert l. induction n as [|n IH]; intros [|v l]; cbn [repeat firstn map rec_val app List.length]; auto.
  - rewrite IH, firstn_nil, Nat.sub_0_r. reflexivity.
  - rewrite IH. reflexivity.
Qed.
Lemma trim_rec_val w k n l :
  trim (rec_val (repeat (CSci w k) n) l) = trim (map (sci k) (firstn n l)).
Proof. rewrite rec_val_repeat. apply trim_app_none. Qed.

Lemma rec_ok_app cs1 cs2 vs1 vs2 : List.length vs1 = List.length cs1 ->
  rec_ok (cs1 ++ cs2) (vs1 ++ vs2) = rec_ok cs1 vs1 && rec_ok cs2 vs2.
Proof.
  revert vs1. induction cs1 as [|c cs IH]; intros [|v vs] L; try discriminate; auto.
  cbn [app]. rewrite !rec_ok_cons. injection L as L. rewrite IH by auto. now rewrite andb_assoc.
Qed.
Lemma rec_val_app cs1 cs2 vs1 vs2 : List.length vs1 = List.length cs1 ->
  rec_val (cs1 ++ cs2) (vs1 ++ vs2) = rec_val cs1 vs1 ++ rec_val cs2 vs2.
Proof.
  revert vs1. induction cs1 as [|c cs IH]; intros [|v vs] L; try discriminate; auto.
  cbn [app]. rewrite !rec_val_cons. injection L as L. rewrite IH by auto. reflexivity.
Qed.
Lemma rec_val_length cs vs : List.length (rec_val cs vs) = List.length cs.
Proof.
  revert vs. induction cs as [|c cs IH]; intros [|v vs]; auto.
  - destruct c; cbn [rec_val List.length]; now rewrite IH.
  - rewrite rec_val_cons. cbn [List.length]. now rewrite IH.
Qed.

(** A record that starts with a name is not blank. *)
Lemma trimmed_no_space_head s : nonempty s = true -> trimmed s = true ->
  exists c r, s = c :: r /\ is_space c = false.
Proof.
  destruct s as [|c r]; [discriminate|]. intros _ T. exists c, r. split; auto.
  unfold trimmed in T. destruct (is_space c) eqn:E; auto.
Qed.
Lemma rec_line_not_blank w cs s vs :
  col_ok (CText w) (PStr s) = true -> nonempty s = true ->
  blank (rec_line (CText w :: cs) (PStr s :: vs)) = false.
Proof.
  intros H N. cbn [col_ok absent] in H. destruct s as [|c s]; [discriminate|]. cbn [orb] in H.
  rewrite !andb_true_iff, Nat.leb_le in H. destruct H as [[H1 H2] H3].
  destruct (trimmed_no_space_head (c :: s)) as (c' & r & E & Hc); auto. injection E as -> ->.
  apply (not_blank _ c'); auto.
  unfold rec_line, record80, ljust. cbn [cols_text].
  unfold col_text. rewrite spec_text. cbv [to_str no_ge py_format sp_t sp_right sp_w sp_p trunc].
  rewrite firstn_all_le by auto. unfold ljust. simpl. now left.
Qed.

Lemma str2format_toks cs : str2format (toks cs) [] = specs cs. Proof. reflexivity. Qed.

Lemma write_record_ok fmt cs vs : fmt = toks cs -> rec_ok cs vs = true ->
  write_record vs (str2format fmt []) = Ok [rec_line cs vs].
Proof. intros ->. apply write_record_cols. Qed.
Lemma read_record_ok fmt cs vs : fmt = toks cs -> rec_ok cs vs = true ->
  read_record (rec_line cs vs) fmt = Ok (rec_val cs vs).
Proof. intros ->. apply read_record_cols. Qed.

Lemma write_blank cs : write_record [] [] = Ok [rec_line cs []].
Proof. unfold write_record, rec_line. destruct cs; reflexivity. Qed.

(** Values that pass for numbers. *)
Lemma sci_width w k v : col_val (CSci w k) v = sci k v. Proof. reflexivity. Qed.
Lemma sci_none k : sci k PNone = PNone. Proof. reflexivity. Qed.

Lemma good_nl : good_line [nl]. Proof. now exists []. Qed.
Lemma good_head kw : one_line kw = true -> good_line (head kw).
Proof.
  intros H. exists (ljust 5 kw ++ header). unfold head. split; [now rewrite app_assoc|].
  unfold ljust. rewrite !one_line_app, H, one_line_spaces. reflexivity.
Qed.

Lemma existsb_false {A} (f : A -> bool) l : (forall x, In x l -> f x = false) -> existsb f l = false.
Proof.
  intros H. apply not_true_iff_false. intros X. apply existsb_exists in X as (x & Hx & E).
  rewrite H in E; auto. discriminate.
Qed.
Lemma Forall_concat {A B} (P : B -> Prop) (f : A -> list B) l :
  (forall x, In x l -> Forall P (f x)) -> Forall P (concat (map f l)).
Proof.
  induction l as [|x l IH]; intros H; simpl; auto. apply Forall_app. split; [apply H; now left|].
  apply IH. intros. apply H. now right.
Qed.

(** ** Lists of values over several records *)
Lemma chunks_fuel_step {A} f n (l : list A) : (0 < n)%nat -> (List.length l <= f)%nat -> l <> [] ->
  chunks_fuel f n l = firstn n l :: chunks_fuel (List.length (skipn n l)) n (skipn n l).
Proof.
  intros N. revert l.
  assert (G : forall f g (l : list A), (List.length l <= f)%nat -> (List.length l <= g)%nat -> chunks_fuel f n l = chunks_fuel g n l).
  { clear f. induction f as [|f IH]; intros g l H1 H2.
    - destruct l; [destruct g; reflexivity|simpl in H1; lia].
    - destruct g; [destruct l; [reflexivity|simpl in H2; lia]|]. cbn [chunks_fuel].
      destruct l as [|a l]; auto. f_equal. apply IH; rewrite skipn_length; cbn [List.length] in *; lia. }
  intros l H E. destruct f; [destruct l; [congruence|simpl in H; lia]|].
  cbn [chunks_fuel]. destruct l as [|a l]; [congruence|]. f_equal.
  apply G; rewrite ?skipn_length; cbn [List.length] in *; lia.
Qed.
Lemma chunks_step {A} n (l : list A) : (0 < n)%nat -> l <> [] ->
  chunks n l = firstn n l :: chunks n (skipn n l).
Proof. intros. unfold chunks. now apply chunks_fuel_step. Qed.
Lemma chunks_ind {A} n (P : list A -> list (list A) -> Prop) : (0 < n)%nat ->
  P [] [] ->
  (forall l, l <> [] -> P (skipn n l) (chunks n (skipn n l)) -> P l (firstn n l :: chunks n (skipn n l))) ->
  forall l, P l (chunks n l).
Proof.
  intros N P0 PS l. remember (List.length l) as m eqn:E.
  assert (L : (List.length l <= m)%nat) by lia. clear E. revert l L.
  induction m as [|m IH]; intros l L.
  - destruct l; [exact P0|simpl in L; lia].
  - destruct l as [|a l]; [exact P0|]. rewrite chunks_step by (auto; discriminate).
    apply PS; [discriminate|]. apply IH. rewrite skipn_length. cbn [List.length] in *. lia.
Qed.

Lemma specs_length cs : List.length (str2format (toks cs) []) = List.length cs.
Proof. rewrite str2format_nil. unfold toks. now rewrite !map_length. Qed.

Definition multi_lines (cs : list col) (l : list pyval) : list str :=
  map (rec_line cs) (chunks (List.length cs) l).
Lemma write_multi_ok fmt cs l : fmt = toks cs -> (forall c, In c (chunks (List.length cs) l) -> rec_ok cs c = true) ->
  write_record_multi l (str2format fmt []) = Ok (multi_lines cs l).
Proof.
  intros -> H. unfold write_record_multi, multi_lines. rewrite specs_length.
  rewrite (mapM_ok _ (fun c => [rec_line cs c])) by (intros; now apply write_record_cols, H).
  cbn [bind]. f_equal. generalize (chunks (List.length cs) l). clear.
  induction l as [|x l IH]; simpl; auto. now rewrite IH.
Qed.
Lemma chunks_forall {A} n (P : A -> Prop) l : (0 < n)%nat -> Forall P l ->
  forall c, In c (chunks n l) -> Forall P c.
Proof.
  intros N. revert l. apply (chunks_ind n (fun l cl => Forall P l -> forall c, In c cl -> Forall P c)); auto.
  - intros _ c [].
  - intros l _ IH F c [<-|H].
    + rewrite <- (firstn_skipn n l) in F. apply Forall_app in F. tauto.
    + apply IH; auto. rewrite <- (firstn_skipn n l) in F. apply Forall_app in F. tauto.
Qed.

(** Numbers that are present. *)
Lemma num_fits_sci w k v : num_fits w k v = true -> exists x, num_of v = Some x /\ sci k v = PFloat (rnd_e k x).
Proof.
  unfold num_fits. rewrite andb_true_iff. intros [H1 H2]. apply negb_true_iff in H2.
  unfold sci, col_val. destruct (num_of v) as [x|] eqn:E; [eauto|]. exfalso.
  cbn [col_ok] in H1. rewrite H2 in H1. cbn [orb] in H1. unfold num_of in E.
  destruct v; cbn [int_of] in *; discriminate.
Qed.
Lemma sci_present w k l : Forall (fun v => num_fits w k v = true) l -> trim (map (sci k) l) = map (sci k) l.
Proof.
  induction l as [|v l IH]; intros F; auto. inversion_clear F as [|? ? F1 F2]. cbn [map trim].
  rewrite IH by auto. destruct (num_fits_sci _ _ _ F1) as (x & _ & E).
  destruct (map (sci k) l); auto. now rewrite E.
Qed.
Lemma nums_rec_ok w k n l : Forall (fun v => num_fits w k v = true) l -> rec_ok (repeat (CSci w k) n) l = true.
Proof.
  intros F. rewrite rec_ok_repeat. apply forallb_forall. intros x Hx. rewrite Forall_forall in F.
  assert (I : In x l) by (rewrite <- (firstn_skipn n l); apply in_or_app; now left).
  specialize (F x I). unfold num_fits in F. now apply andb_true_iff in F as [F _].
Qed.
Lemma nums_write fmt w k n l : fmt = toks (repeat (CSci w k) n) -> (0 < n)%nat ->
  Forall (fun v => num_fits w k v = true) l ->
  write_record_multi l (str2format fmt []) = Ok (multi_lines (repeat (CSci w k) n) l).
Proof.
  intros E N F. apply write_multi_ok; auto. rewrite repeat_length. intros c Hc.
  apply nums_rec_ok. eapply chunks_forall; eauto.
Qed.
Lemma multi_good w k n l : (0 < n)%nat -> Forall (fun v => num_fits w k v = true) l ->
  Forall good_line (multi_lines (repeat (CSci w k) n) l).
Proof.
  intros N F. apply Forall_forall. intros x Hx. unfold multi_lines in Hx. apply in_map_iff in Hx as (c & <- & Hc).
  apply rec_line_good, nums_rec_ok. rewrite repeat_length in Hc. eapply chunks_forall; eauto.
Qed.
Lemma nums_prune w k n c : Forall (fun v => num_fits w k v = true) c -> (List.length c <= n)%nat ->
  prune_nones_list (rec_val (repeat (CSci w k) n) c) = map (sci k) c.
Proof.
  intros F L. rewrite prune_trim, trim_rec_val, firstn_all2 by auto. eapply sci_present; eauto.
Qed.

Lemma read_table_ok fmt w k n l : fmt = toks (repeat (CSci w k) n) -> (0 < n)%nat ->
  Forall (fun v => num_fits w k v = true) l ->
  forall fuel acc rest, (List.length (multi_lines (repeat (CSci w k) n) l) <= fuel)%nat ->
  read_table fuel fmt (Z.of_nat (List.length acc + List.length l)) acc (multi_lines (repeat (CSci w k) n) l ++ rest)
  = Ok (acc ++ map (sci k) l, rest).
Proof.
  intros E N. unfold multi_lines. rewrite repeat_length. 
  apply (chunks_ind n (fun l cl => Forall (fun v => num_fits w k v = true) l ->
    forall fuel acc rest, (List.length (map (rec_line (repeat (CSci w k) n)) cl) <= fuel)%nat ->
    read_table fuel fmt (Z.of_nat (List.length acc + List.length l)) acc (map (rec_line (repeat (CSci w k) n)) cl ++ rest)
    = Ok (acc ++ map (sci k) l, rest))); auto; clear l.
  - intros _ fuel acc rest _. cbn [map app List.length]. rewrite app_nil_r, Nat.add_0_r.
    destruct fuel; cbn [read_table]; rewrite Z.ltb_irrefl; reflexivity.
  - intros l NE IH F fuel acc rest L.
    assert (SL : List.length l = (List.length (firstn n l) + List.length (skipn n l))%nat)
      by (rewrite <- (firstn_skipn n l) at 1; apply app_length).
    assert (P : (0 < List.length (firstn n l))%nat) by (destruct l; [congruence|destruct n; [lia|simpl; lia]]).
    assert (FF : Forall (fun v => num_fits w k v = true) (firstn n l) /\ Forall (fun v => num_fits w k v = true) (skipn n l)).
    { apply Forall_app. now rewrite firstn_skipn. }
    destruct FF as [F1 F2].
    cbn [map List.length] in L. destruct fuel as [|fuel]; [lia|]. cbn [read_table map app].
    replace (Z.of_nat (List.length acc) <? Z.of_nat (List.length acc + List.length l)) with true
      by (symmetry; apply Z.ltb_lt; lia).
    cbn [next bind]. rewrite (read_record_ok fmt _ _ E) by now apply nums_rec_ok. cbn [bind].
    rewrite nums_prune; auto; [|rewrite firstn_length; lia].
    replace (List.length acc + List.length l)%nat
      with (List.length (acc ++ map (sci k) (firstn n l)) + List.length (skipn n l))%nat
      by (rewrite app_length, map_length; lia).
    rewrite IH; auto; [|lia]. rewrite <- app_assoc, <- map_app, firstn_skipn. reflexivity.
Qed.

(** Shapes of flat sequences. *)
Definition scalar (v : pyval) : Prop := match v with PSeq _ _ => False | _ => True end.
Lemma scalar_shape v : scalar v -> py_shape v = Ok []. Proof. destruct v; simpl; tauto. Qed.
Lemma num_fits_scalar w k v : num_fits w k v = true -> scalar v.
Proof. destruct v; simpl; auto. unfold num_fits. simpl. discriminate. Qed.
Fixpoint shape_go (l : list pyval) : res (option (list nat)) :=
  match l with
  | [] => Ok None
  | x :: r => let* sx := py_shape x in
              let* sr := shape_go r in
              match sr with
              | None => Ok (Some sx)
              | Some s => if list_eq_dec Nat.eq_dec s sx then Ok (Some s) else Err Unmodelled
              end
  end.
Lemma shape_seq k l : py_shape (PSeq k l) =
  let* s := shape_go l in match s with None => Ok [O] | Some s => Ok (List.length l :: s) end.
Proof. reflexivity. Qed.
Lemma shape_go_same l s : l <> [] -> (forall x, In x l -> py_shape x = Ok s) -> shape_go l = Ok (Some s).
Proof.
  induction l as [|x l IH]; [congruence|]. intros _ H. cbn [shape_go]. rewrite H by now left. cbn [bind].
  destruct l as [|y l]; [reflexivity|]. rewrite IH; [|discriminate|intros; apply H; now right].
  cbn [bind]. destruct (list_eq_dec Nat.eq_dec s s); congruence.
Qed.
Lemma flat_shape k l : Forall scalar l -> py_shape (PSeq k l) = Ok [List.length l].
Proof.
  intros F. rewrite shape_seq. destruct l as [|x l]; [reflexivity|].
  rewrite (shape_go_same (x :: l) []); [reflexivity|discriminate|].
  intros y Hy. rewrite Forall_forall in F. now apply scalar_shape, F.
Qed.
