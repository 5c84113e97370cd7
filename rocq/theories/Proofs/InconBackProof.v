(** Reading back the INCON file of a mesh. *)
From Coq Require Import String Ascii Arith ZArith QArith Bool Lia Permutation List.
From Verif Require Import Base.Str Base.Digits Base.Flt Base.FltText Base.FltRound Base.FltArith Model.Py Model.Records Model.Numpy Model.MeshFile Model.Read
  Spec.Fields Spec.Values Spec.Types Spec.Layouts Spec.Rocks Spec.Labels Spec.Indom Spec.Incon Spec.MeshFile Spec.MeshBack Spec.InconBack
  Proofs.RecordLemmas Proofs.DictLemmas Proofs.Layouts Proofs.BlockTools Proofs.SimpleProof Proofs.TwoLines Proofs.LabelProof Proofs.MeshFileProof Proofs.FileProof Proofs.SelectProof Proofs.InconProof Proofs.MeshBackProof.
Import ListNotations.
Local Open Scope nat_scope.

(** ** Lines that differ by blanks at their end *)
Definition alike (a b : str) : Prop := exists w x y, a = w ++ x /\ b = w ++ y /\ forallb is_space x = true /\ forallb is_space y = true.
Lemma space_firstn x k : forallb is_space x = true -> forallb is_space (firstn k x) = true.
Proof. apply forallb_firstn. Qed.
Lemma space_skipn x k : forallb is_space x = true -> forallb is_space (skipn k x) = true.
Proof. apply forallb_skipn. Qed.
Lemma alike_strip a b : alike a b -> strip a = strip b.
Proof. intros (w & x & y & -> & -> & X & Y). now rewrite !strip_app_space. Qed.
Lemma alike_firstn a b k : alike a b -> alike (firstn k a) (firstn k b).
Proof.
  intros (w & x & y & -> & -> & X & Y). rewrite !firstn_app. exists (firstn k w), (firstn (k - List.length w) x), (firstn (k - List.length w) y).
  repeat split; now apply space_firstn.
Qed.
Lemma alike_skipn a b k : alike a b -> alike (skipn k a) (skipn k b).
Proof.
  intros (w & x & y & -> & -> & X & Y). rewrite !skipn_app. exists (skipn k w), (skipn (k - List.length w) x), (skipn (k - List.length w) y).
  repeat split; now apply space_skipn.
Qed.
Lemma alike_refl a : alike a a.
Proof. exists a, [], []. now rewrite app_nil_r. Qed.
Definition no_raw (fmt : list token) : bool := forallb (fun t => negb (Ascii.eqb (tok_t t) "S")) fmt.
Lemma alike_record fmt : no_raw fmt = true -> forall a b, alike a b -> read_record a fmt = read_record b fmt.
Proof.
  induction fmt as [|t fmt IH]; intros N a b A; [reflexivity|]. cbn [no_raw forallb] in N. apply andb_true_iff in N as [N N']. apply negb_true_iff in N.
  cbn [read_record]. unfold read_field. rewrite N, (alike_strip _ _ (alike_firstn _ _ (tok_w t) A)), (IH N' _ _ (alike_skipn _ _ (tok_w t) A)). reflexivity.
Qed.
Lemma alike_blank a b : alike a b -> blank a = blank b.
Proof. intros A. unfold blank. now rewrite (alike_strip _ _ A). Qed.
Lemma plus3_end w x : forallb is_space x = true -> plus3 (w ++ x) = plus3 w.
Proof.
  intros X. assert (H : forall p, forallb (fun c => Ascii.eqb c "+") p = true -> forall w, startswith p (w ++ x) = startswith p w).
  { induction p as [|c p IH]; intros P u; [destruct (u ++ x), u; reflexivity|]. cbn [forallb] in P. apply andb_true_iff in P as [C P]. apply Ascii.eqb_eq in C. subst c. destruct u as [|d u]; cbn [app startswith].
    - destruct x as [|d x]; [reflexivity|]. cbn [forallb] in X. apply andb_true_iff in X as [D _]. destruct (Ascii.eqb_spec "+" d); [|reflexivity]. subst d. discriminate D.
    - now rewrite (IH P). }
  now apply H.
Qed.
Lemma alike_plus3 a b : alike a b -> plus3 a = plus3 b.
Proof. intros (w & x & y & -> & -> & X & Y). now rewrite !plus3_end. Qed.
Lemma count_end w x : forallb is_space x = true -> count_digits (w ++ x) = count_digits w.
Proof.
  intros X. induction w as [|c w IH]; cbn [app count_digits]; [|now rewrite IH]. destruct x as [|d x]; [reflexivity|]. cbn [forallb] in X. apply andb_true_iff in X as [D _].
  cbn [count_digits]. destruct (is_digit d) eqn:E; [|reflexivity]. exfalso. destruct d as [[] [] [] [] [] [] [] []]; vm_compute in D, E; discriminate.
Qed.
Lemma alike_length a b : alike a b -> get_label_length a = get_label_length b.
Proof. intros A. unfold get_label_length. destruct (alike_skipn _ _ 5 A) as (w & x & y & -> & -> & X & Y). now rewrite !count_end. Qed.

Definition same_res {A} (r r' : res (A * list str)) : Prop :=
  match r, r' with Ok (x, l), Ok (x', l') => x = x' /\ Forall2 alike l l' | Err e, Err e' => e = e' | _, _ => False end.
Lemma alike_next ls ls' : Forall2 alike ls ls' -> match next ls, next ls' with Ok (a, l), Ok (a', l') => alike a a' /\ Forall2 alike l l' | Err e, Err e' => e = e' | _, _ => False end.
Proof. intros H. destruct H; cbn; auto. Qed.
Lemma alike_two fmt two ls ls' : no_raw fmt = true -> Forall2 alike ls ls' ->
  same_res (read_two fmt (fun l => blank l || plus3 l) two ls) (read_two fmt (fun l => blank l || plus3 l) two ls').
Proof.
  intros N H. unfold read_two. destruct H as [|a b ls ls' A H]; [reflexivity|]. cbn [next bind]. rewrite (alike_record fmt N a b A). destruct (read_record b fmt) as [d|e]; [|reflexivity]. cbn [bind].
  destruct two; [|cbn; auto]. destruct H as [|c d' ls ls' C H]; [reflexivity|]. cbn [next bind]. rewrite (alike_blank c d' C), (alike_plus3 c d' C), (alike_record fmt N c d' C).
  destruct (blank d' || plus3 d'); [cbn; auto|]. destruct (read_record d' fmt) as [m|[]]; cbn; auto.
Qed.
Lemma alike_initial fmt st ls ls' : (forall f, fmt = Ok f -> no_raw f = true) -> Forall2 alike ls ls' -> same_res (read_initial fmt st ls) (read_initial fmt st ls').
Proof.
  intros N H. unfold read_initial. destruct st as [[d o] two]. destruct H as [|a b ls ls' A H]; [reflexivity|]. cbn [next bind].
  rewrite (alike_blank a b A), (alike_plus3 a b A). destruct (blank b || plus3 b); [cbn; auto|]. destruct fmt as [f|e]; [|reflexivity]. cbn [bind].
  rewrite (alike_record f (N f eq_refl) a b A). destruct (read_record b f) as [data|e]; [|reflexivity]. cbn [bind]. destruct (val_key (at_ data 0)) as [k|e]; [|reflexivity]. cbn [bind].
  assert (T := alike_two fmt_INCON_0 two ls ls' eq_refl H).
  destruct (read_two fmt_INCON_0 _ two ls) as [[[v t] l]|e], (read_two fmt_INCON_0 _ two ls') as [[[v' t'] l']|e']; cbn in T; try contradiction; [|now subst e'].
  destruct T as [E L]. injection E as -> ->. cbn [bind same_res]. auto.
Qed.
Lemma alike_iter fmt fuel : (forall f, fmt = Ok f -> no_raw f = true) -> forall st ls ls', Forall2 alike ls ls' ->
  same_res (iter_lines fuel (read_initial fmt) st ls) (iter_lines fuel (read_initial fmt) st ls').
Proof.
  intros N. induction fuel as [|fuel IH]; intros st ls ls' H; [reflexivity|]. cbn [iter_lines]. pose proof (alike_initial fmt st ls ls' N H) as T.
  destruct (read_initial fmt st ls) as [[[c s] l]|e], (read_initial fmt st ls') as [[[c' s'] l']|e']; cbn in T; try contradiction; [|now subst e'].
  destruct T as [E L]. injection E as -> ->. cbn [bind]. destruct c'; [now apply IH|cbn; auto].
Qed.
Lemma fmt_INCON_raw n f : fmt_INCON n = Ok f -> no_raw f = true.
Proof.
  assert (H : match fmt_INCON n with Ok f => no_raw f = true | Err _ => True end).
  { do 10 (destruct n as [|n]; [vm_compute; first [exact I | reflexivity]|]). exact I. }
  intros E. now rewrite E in H.
Qed.
Lemma forall2_len {A B} (R : A -> B -> Prop) l l' : Forall2 R l l' -> List.length l = List.length l'.
Proof. induction 1; cbn; congruence. Qed.
Lemma alike_incon ll ls ls' : Forall2 alike ls ls' -> same_res (read_incon ll ls) (read_incon ll ls').
Proof.
  intros H. unfold read_incon. rewrite <- (forall2_len _ _ _ H). assert (L : label_len ll ls = label_len ll ls').
  { unfold label_len. destruct H as [|a b l l' A _]; [reflexivity|]. cbn [next bind]. destruct ll as [[|n]|]; try reflexivity; now rewrite (alike_length _ _ (alike_firstn _ _ 9 A)). }
  rewrite L. destruct (label_len ll ls') as [n|e]; [|reflexivity]. cbn [bind].
  pose proof (alike_iter (fmt_INCON n) (S (List.length ls)) (fmt_INCON_raw n) ([], [], true) ls ls' H) as T.
  destruct (iter_lines _ _ _ ls) as [[[[d o] t] l]|e], (iter_lines _ _ _ ls') as [[[[d' o'] t'] l']|e']; cbn in T; try contradiction; [|now subst e'].
  destruct T as [E F]. injection E as -> -> ->. cbn [bind same_res]. auto.
Qed.

(** ** Values *)
Lemma given_known v : is_finite v = true -> given v = MeshFileProof.known v.
Proof.
  intros F. unfold given, MeshFileProof.known. pose proof (defined_known v F) as D. unfold defined in D. destruct (Qle_bool (fval v) (- Qmake 1000000000 1)) eqn:E.
  - apply Qle_bool_iff in E. destruct (fgtb v m1e9); [|reflexivity]. exfalso. apply (Qlt_not_le _ _ (proj1 D eq_refl) E).
  - destruct (fgtb v m1e9); [reflexivity|]. exfalso. assert (X : ~ (fval v <= - Qmake 1000000000 1)%Q) by (intros X; apply Qle_bool_iff in X; congruence).
    apply Qnot_le_lt in X. apply D in X. discriminate.
Qed.
Lemma given_defined v : is_given v = true <-> defined v.
Proof.
  unfold is_given, given, defined. destruct (Qle_bool (fval v) (- Qmake 1000000000 1)) eqn:E.
  - apply Qle_bool_iff in E. split; [discriminate|]. intros X. exfalso. apply (Qlt_not_le _ _ X E).
  - split; [intros _|reflexivity]. apply Qnot_le_lt. intros X. apply Qle_bool_iff in X. congruence.
Qed.
Definition opt (x : option flt) : pyval := match x with Some v => PFloat v | None => PNone end.
Lemma opt_col w k x : col_text (CSci w k) (opt x) = number_or_blank w k x.
Proof. destruct x; [apply sci_col|apply blank_sci_col]. Qed.
Lemma opt_cols w k m l : List.length l <= m -> cols_text (repeat (CSci w k) m) (map opt l) = concat (map (number_or_blank w k) l).
Proof.
  revert l. induction m as [|m IH]; intros [|x l] L; cbn [repeat map cols_text concat List.length] in *; try reflexivity; try lia.
  rewrite opt_col, IH by lia. reflexivity.
Qed.
Lemma opt_ok w k x : col_ok (CSci w k) (opt x) = fits_if w k x.
Proof. destruct x; reflexivity. Qed.
Lemma opt_sci k x : sci k (opt x) = e_value_if k x.
Proof. destruct x; reflexivity. Qed.
Lemma record_alike s : alike (record80 s) (s ++ [nl]).
Proof.
  unfold record80, ljust. rewrite <- app_assoc. exists s, (spaces (80 - List.length s) ++ [nl]), [nl]. repeat split; try reflexivity.
  rewrite forallb_app. unfold spaces. now rewrite spaces_all_space.
Qed.
Lemma alike_sym a b : alike a b -> alike b a.
Proof. intros (w & x & y & -> & -> & X & Y). now exists w, y, x. Qed.
Lemma alike_values l : List.length l <= 4 -> alike (rec_line cols4 (map opt l)) (concat (map (number_or_blank 20 13) l) ++ [nl]).
Proof. intros L. unfold rec_line. fold (record80 (cols_text cols4 (map opt l))). unfold cols4. rewrite opt_cols by exact L. apply record_alike. Qed.

(** ** The parameters that would give the same block *)
Definition e_cond (c : icell) : dict :=
  (match ic_porosity c with Some p => [(#"porosity", PFloat p)] | None => [] end) ++
  (match ic_userx c with Some u => [(#"userx", PSeq SList (map PFloat u))] | None => [] end) ++
  [(#"values", PSeq SList (map (fun v => opt (given v)) (ic_values c)))].
Definition u_conditions (cs : list icell) : dict := map (fun c => (KS (ic_label c), PDict (e_cond c))) cs.
Definition u_incon (cs : list icell) : dict := [(#"initial_conditions", PDict (u_conditions cs)); (#"initial_conditions_order", PNone)].
Definition m_head (c : icell) : str :=
  ljust 15 (ic_label c) ++ number_or_blank 15 9 (ic_porosity c) ++
  match ic_userx c with Some u => concat (map (fun v => rjust 10 (fmt_e 3 v)) u) | None => spaces 30 end ++ [nl].
Definition m_lines (c : icell) : list str :=
  let vs := map given (ic_values c) in
  m_head c :: (concat (map (number_or_blank 20 13) (firstn 4 vs)) ++ [nl]) ::
  (if 4 <? List.length vs then [concat (map (number_or_blank 20 13) (firstn 4 (skipn 4 vs))) ++ [nl]] else []).
Lemma m_text c : Spec.MeshFile.incon_lines (ic_label c) (ic_porosity c) (ic_userx c) (map given (ic_values c)) = concat (m_lines c).
Proof.
  unfold Spec.MeshFile.incon_lines, m_lines, m_head. cbn [concat]. rewrite <- !app_assoc. do 3 f_equal. destruct (4 <? _); cbn [concat]; rewrite ?app_nil_r, <- ?app_assoc; reflexivity.
Qed.
Lemma cond_val c : val #"porosity" (e_cond c) = opt (ic_porosity c) /\ values_w (e_cond c) = map opt (map given (ic_values c)) /\ values_of (e_cond c) = map opt (map given (ic_values c)) /\
  userx_w (e_cond c) = match ic_userx c with Some u => map PFloat u | None => repeat PNone 5 end /\ userx_of (e_cond c) = match ic_userx c with Some u => firstn 5 (map PFloat u) | None => [] end.
Proof.
  unfold e_cond, values_w, values_of, userx_w, userx_of. rewrite map_map. destruct (ic_porosity c), (ic_userx c); repeat split; reflexivity.
Qed.
Lemma cond_parts n k c : condition_fits n k c = true -> label_ok (ic_label c) = true /\ word (ic_label c) = true /\ List.length (ic_label c) = n /\
  fits_if 15 9 (ic_porosity c) = true /\ match ic_userx c with Some u => List.length u = 3 /\ forallb (sci_fits 10 3) u = true | None => True end /\
  List.length (ic_values c) = k /\ forallb (fun v => is_finite v && fits_if 20 13 (given v)) (ic_values c) = true.
Proof.
  unfold condition_fits. rewrite !andb_true_iff, !Nat.eqb_eq. intros ((((((A & B) & C) & D) & E) & F) & G). repeat split; auto.
  destruct (ic_userx c) as [u|]; [|exact I]. rewrite andb_true_iff, Nat.eqb_eq in E. exact E.
Qed.
Lemma forallb_map' {A B} (f : A -> B) p l : forallb p (map f l) = forallb (fun x => p (f x)) l.
Proof. induction l as [|x l IH]; cbn; [reflexivity|now rewrite IH]. Qed.
Lemma cond_ok n k c : condition_fits n k c = true -> long_filled k c = true -> incon_ok (e_cond c).
Proof.
  intros F G. destruct (cond_parts _ _ _ F) as (L & W & LN & P & U & K & V). destruct (cond_val c) as (E1 & _ & E2 & _ & E3).
  unfold incon_ok. rewrite E1, E2, E3. split; [|split; [|split; [|split; [|split; [|split]]]]].
  - unfold keys_unique, e_cond. destruct (ic_porosity c), (ic_userx c); cbn; repeat constructor; cbn; intuition discriminate.
  - unfold e_cond. destruct (ic_porosity c), (ic_userx c); reflexivity.
  - rewrite opt_ok. exact P.
  - unfold absent_or_seq, e_cond. destruct (ic_porosity c), (ic_userx c); exact I.
  - destruct (ic_userx c) as [u|]; [|reflexivity]. destruct U as [LU FU]. apply forallb_firstn. rewrite forallb_map'. exact FU.
  - unfold absent_or_seq, e_cond. destruct (ic_porosity c), (ic_userx c); exact I.
  - unfold values_ok, long. rewrite !map_length, K. unfold long_filled in G. apply andb_true_iff in G as [G8 G4]. rewrite G8. cbn [andb]. apply andb_true_iff. split.
    + rewrite !forallb_map'. rewrite forallb_forall in *. intros v I. rewrite opt_ok. specialize (V v I). apply andb_true_iff in V. tauto.
    + destruct (4 <? k) eqn:E4; [|reflexivity]. apply Nat.ltb_lt in E4. rewrite (proj2 (Nat.leb_gt k 4)) in G4 by lia. cbn [orb implb] in *.
      rewrite existsb_exists in *. destruct G4 as (v & I & X). exists (opt (given v)). split.
      * rewrite !skipn_map. apply in_map, in_map. exact I.
      * unfold is_given in X. destruct (given v); [reflexivity|discriminate].
Qed.
Lemma head_alike n k c : 5 <= n <= 9 -> condition_fits n k c = true -> alike (incon_head n (PStr (ic_label c)) (e_cond c)) (m_head c).
Proof.
  intros N F. destruct (cond_parts _ _ _ F) as (L & W & LN & P & U & _). destruct (cond_val c) as (E1 & _ & _ & E3 & _).
  unfold incon_head, incon_vals, rec_line. rewrite E1, E3.
  match goal with |- alike (record80 ?s) _ => set (t := s) end.
  assert (H : t = ljust 15 (ic_label c) ++ number_or_blank 15 9 (ic_porosity c) ++ cols_text (repeat (CSci 10 3) 5) (match ic_userx c with Some u => map PFloat u | None => repeat PNone 5 end)).
  { subst t. unfold cols_incon. cbn [app cols_text]. rewrite text_col, !blank_int_col, opt_col by lia. rewrite !app_assoc. do 2 f_equal. rewrite <- app_assoc.
    rewrite <- (ljust_pad n 15) by lia. f_equal. clear -N. do 5 (destruct n as [|n]; [lia|]). do 5 (destruct n as [|n]; [reflexivity|]). lia. }
  clearbody t. subst t. unfold m_head. destruct (ic_userx c) as [u|].
  - destruct U as [LU _]. replace (cols_text (repeat (CSci 10 3) 5) (map PFloat u)) with (concat (map (fun v => rjust 10 (fmt_e 3 v)) u)).
    + rewrite !app_assoc. apply record_alike.
    + change (map PFloat u) with (map (fun x => opt (Some x)) u). rewrite <- (map_map Some opt u), opt_cols by (rewrite map_length; lia). rewrite map_map. reflexivity.
  - set (a := ljust 15 (ic_label c) ++ number_or_blank 15 9 (ic_porosity c)).
    replace (cols_text (repeat (CSci 10 3) 5) (repeat PNone 5)) with (spaces 50) by reflexivity.
    unfold record80. rewrite !app_assoc. fold a. unfold ljust. rewrite <- !app_assoc. exists a. do 2 eexists. split; [reflexivity|]. split; [reflexivity|].
    rewrite !forallb_app. unfold spaces. rewrite !spaces_all_space. split; reflexivity.
Qed.
Lemma lines_alike n k c : 5 <= n <= 9 -> condition_fits n k c = true -> k <= 8 ->
  Forall2 alike (incon_head n (PStr (ic_label c)) (e_cond c) :: value_lines (values_w (e_cond c))) (m_lines c).
Proof.
  intros N F K8. unfold m_lines. destruct (cond_val c) as (_ & E2 & _). destruct (cond_parts _ _ _ F) as (_ & _ & _ & _ & _ & K & _).
  constructor; [now apply head_alike with (k := k)|]. unfold value_lines. rewrite E2. unfold long. rewrite !map_length, K. rewrite firstn_map, skipn_map. constructor.
  - apply alike_values. rewrite firstn_length. lia.
  - destruct (4 <? k); [|constructor]. constructor; [|constructor]. rewrite (firstn_all2 (skipn 4 (map given (ic_values c)))) by (rewrite skipn_length, map_length; lia).
    apply alike_values. rewrite skipn_length, map_length. lia.
Qed.

(** What is left is the end of the lines. *)
Lemma two_rest fmt stop two ls v ls' : read_two fmt stop two ls = Ok (v, ls') -> exists pre, ls = pre ++ ls'.
Proof.
  unfold read_two. destruct ls as [|a ls]; [discriminate|]. cbn [next bind]. destruct (read_record a fmt); [|discriminate]. cbn [bind].
  destruct two; [|intros E; injection E as _ <-; now exists [a]]. destruct ls as [|b ls]; [discriminate|]. cbn [next bind]. destruct (stop b).
  - intros E. injection E as _ <-. now exists [a].
  - destruct (read_record b fmt) as [m|[]]; intros E; try discriminate; injection E as _ <-; [now exists [a; b]|now exists [a]].
Qed.
Lemma initial_rest fmt st ls v ls' : read_initial fmt st ls = Ok (v, ls') -> exists pre, ls = pre ++ ls'.
Proof.
  unfold read_initial. destruct st as [[d o] two]. destruct ls as [|a ls]; [discriminate|]. cbn [next bind]. destruct (blank a || plus3 a).
  - intros E. injection E as _ <-. now exists [a].
  - destruct fmt as [f|]; [|discriminate]. cbn [bind]. destruct (read_record a f) as [data|]; [|discriminate]. cbn [bind]. destruct (val_key _); [|discriminate]. cbn [bind].
    destruct (read_two _ _ two ls) as [[w l]|] eqn:R; [|discriminate]. apply two_rest in R as (pre & ->). destruct w as [w t]. cbn [bind]. intros E. injection E as _ <-. now exists (a :: pre).
Qed.
Lemma iter_rest fmt fuel : forall st ls v ls', iter_lines fuel (read_initial fmt) st ls = Ok (v, ls') -> exists pre, ls = pre ++ ls'.
Proof.
  induction fuel as [|fuel IH]; intros st ls v ls' E; [discriminate E|]. cbn [iter_lines] in E. destruct (read_initial fmt st ls) as [[[c s] l]|] eqn:R; [|discriminate E]. cbn [bind] in E.
  apply initial_rest in R as (pre & ->). destruct c; [|injection E as _ <-; now exists pre]. apply IH in E as (pre' & ->). exists (pre ++ pre'). now rewrite app_assoc.
Qed.
Lemma incon_rest ll ls v ls' : read_incon ll ls = Ok (v, ls') -> exists pre, ls = pre ++ ls'.
Proof.
  unfold read_incon. destruct (label_len ll ls); [|discriminate]. cbn [bind]. destruct (iter_lines _ _ _ ls) as [[[[d o] t] l]|] eqn:R; [|discriminate]. cbn [bind].
  intros E. injection E as _ <-. eapply iter_rest, R.
Qed.

Section File.
Variables (n k : nat) (cs : list icell).
Hypothesis N : 5 <= n <= 9.
Hypothesis NE : cs <> [].
Hypothesis FC : forall c, In c cs -> condition_fits n k c = true /\ long_filled k c = true.
Hypothesis DC : NoDup (map ic_label cs).
Let u := u_incon cs.

Lemma u_inc : incons_of u = u_conditions cs.
Proof. reflexivity. Qed.
Lemma u_inc_order : incons_order_of u = map (fun c => PStr (ic_label c)) cs.
Proof. unfold incons_order_of. rewrite u_inc. change (val #"initial_conditions_order" u) with PNone. cbn [order_list]. unfold u_conditions, dkeys. rewrite !map_map. reflexivity. Qed.
Lemma u_inc_unique : keys_unique (u_conditions cs).
Proof.
  unfold keys_unique, dkeys, u_conditions. rewrite map_map. cbn [fst]. rewrite <- (map_map ic_label KS).
  apply FinFun.Injective_map_NoDup; [|exact DC]. intros a b E. now injection E.
Qed.
Lemma inc_width : label_width (u_conditions cs) = n.
Proof. unfold u_conditions. apply width_all; [exact NE|]. intros c I. eapply cond_parts, FC, I. Qed.
Lemma rock_inc c : In c cs -> rock_named (u_conditions cs) (PStr (ic_label c)) = e_cond c.
Proof.
  intros I. unfold rock_named. cbn [name_key]. rewrite (val_some _ _ (PDict (e_cond c))); [reflexivity|]. apply in_dget; [apply u_inc_unique|].
  unfold u_conditions. apply in_map_iff. exists c. auto.
Qed.
Lemma u_INCON : Spec.Incon.INCON_ok u.
Proof.
  unfold Spec.Incon.INCON_ok. rewrite u_inc, inc_width, u_inc_order. split; [reflexivity|]. split; [reflexivity|].
  split; [unfold u_conditions; destruct cs; [contradiction|discriminate]|]. split; [apply u_inc_unique|]. split; [exact I|]. split; [exact N|]. split.
  - unfold u_conditions. rewrite Forall_map. apply Forall_forall. intros c I. destruct (FC c I) as (F & G). destruct (cond_parts _ _ _ F) as (L & W & _).
    exists (ic_label c), (e_cond c). repeat split; auto; now apply (cond_ok n k c F G).
  - rewrite map_map. rewrite (map_ext_in _ (fun _ => 4 <? k)).
    + destruct (4 <? k); [|]; clear; induction cs as [|c l IH]; cbn; auto. clear IH. induction l; cbn; auto.
    + intros c I. rewrite rock_inc by exact I. destruct (cond_val c) as (_ & _ & -> & _). destruct (FC c I) as (F & _). destruct (cond_parts _ _ _ F) as (_ & _ & _ & _ & _ & K & _).
      unfold long. now rewrite !map_length, K.
Qed.
Definition m_body : list str := concat (map m_lines cs) ++ [[nl]].
Lemma body_alike : Forall2 alike (INCON_body u) m_body.
Proof.
  unfold INCON_body, m_body. apply Forall2_app; [|constructor; [apply alike_refl|constructor]]. rewrite u_inc_order, map_map.
  assert (X : forall l, (forall c, In c l -> In c cs) -> Forall2 alike (concat (map (fun c => InconProof.incon_lines u (PStr (ic_label c))) l)) (concat (map m_lines l))).
  { induction l as [|c l IH]; intros S; [constructor|]. cbn [map concat]. apply Forall2_app; [|apply IH; intros; apply S; now right].
    assert (I : In c cs) by (apply S; now left). destruct (FC c I) as (F & G). unfold InconProof.incon_lines, entry_lines, incon_headline, incon_values, incon_width. rewrite u_inc, inc_width, rock_inc by exact I.
    apply lines_alike with (k := k); auto. unfold long_filled in G. apply andb_true_iff in G as [G _]. now apply Nat.leb_le. }
  apply X. auto.
Qed.
Lemma INCON_back_u : INCON_back u = conditions_read cs.
Proof.
  unfold INCON_back, conditions_read, incons_back. rewrite u_inc, u_inc_order, map_map. do 3 f_equal. apply map_ext_in. intros c I. cbn [name_key]. rewrite rock_inc by exact I.
  do 2 f_equal. unfold incon_back, condition_read. destruct (cond_val c) as (E1 & _ & E2 & _ & E3). rewrite E1, E2, E3, opt_sci. unfold sci_list. rewrite !map_map.
  destruct (FC c I) as (F & _). destruct (cond_parts _ _ _ F) as (_ & _ & _ & _ & U & _). f_equal. f_equal. f_equal.
  - destruct (ic_userx c) as [w|]; [|reflexivity]. destruct U as [LU _]. destruct w as [|a [|b [|d [|? ?]]]]; try discriminate LU. reflexivity.
  - f_equal. do 3 f_equal. apply map_ext. intros v. apply opt_sci.
Qed.
Lemma u_inc_known ll : length_told ll n (map ic_label cs) -> label_choice ll /\ INCON_known (label_given ll) u.
Proof.
  intros H. split; [destruct H as [-> | [-> _]]; cbn [label_choice]; [lia|exact I]|]. unfold INCON_known. rewrite u_inc, u_inc_order, inc_width. destruct cs as [|c r]; [contradiction|].
  cbn [map first_known name_key key_text]. destruct H as [-> | [-> H]]; [left; cbn; f_equal; lia|right]. split; [now left|]. cbn [map] in H. apply Forall_cons_iff in H as [H _].
  unfold plain_label in H. apply andb_true_iff in H as [H _]. split; [|split; [exact H|auto]]. eapply cond_parts, FC. now left.
Qed.
Lemma numbers_one_line w d l : forallb (fits_if w d) l = true -> one_line (concat (map (number_or_blank w d) l)) = true.
Proof.
  induction l as [|x l IH]; intros F; [reflexivity|]. cbn [forallb map concat] in *. apply andb_true_iff in F as [F F']. rewrite one_line_app, (IH F').
  rewrite <- opt_col. destruct (col_text_ok (CSci w d) (opt x)) as (_ & _ & -> & _); [now rewrite opt_ok|reflexivity].
Qed.
Lemma m_good : Forall good_line m_body.
Proof.
  unfold m_body. apply Forall_app. split; [|constructor; auto using good_nl]. apply Forall_concat. intros c I. destruct (FC c I) as (F & _).
  destruct (cond_parts _ _ _ F) as (L & _ & _ & P & U & _ & V). unfold m_lines.
  assert (G : forallb (fits_if 20 13) (map given (ic_values c)) = true).
  { rewrite forallb_map'. rewrite forallb_forall in *. intros v J. specialize (V v J). apply andb_true_iff in V. tauto. }
  constructor; [|constructor].
  - unfold m_head. rewrite !app_assoc. eexists. split; [reflexivity|]. rewrite !one_line_app. unfold ljust. rewrite one_line_app, one_line_spaces. unfold label_ok in L. rewrite !andb_true_iff in L. destruct L as [_ ->].
    pose proof (numbers_one_line 15 9 [ic_porosity c]) as X. cbn [forallb map concat] in X. rewrite app_nil_r, andb_true_r in X. rewrite (X P). cbn [andb].
    destruct (ic_userx c) as [w|]; [|apply one_line_spaces]. destruct U as [_ U]. pose proof (numbers_one_line 10 3 (map Some w)) as Y. rewrite map_map, forallb_map' in Y. apply Y. exact U.
  - eexists. split; [reflexivity|]. apply numbers_one_line. now apply forallb_firstn.
  - destruct (4 <? _); [|constructor]. constructor; [|constructor]. eexists. split; [reflexivity|]. apply numbers_one_line. now apply forallb_firstn, forallb_skipn.
Qed.
Definition incon_text : str := block_text $"INCON" (map (fun c => Spec.MeshFile.incon_lines (ic_label c) (ic_porosity c) (ic_userx c) (map given (ic_values c))) cs).
Lemma incon_text_lines : incon_text = concat (head $"INCON" :: m_body).
Proof.
  unfold incon_text, m_body. rewrite block_lines by reflexivity. cbn [concat]. rewrite !concat_app. do 2 f_equal. rewrite (map_ext _ _ m_text). clear. induction cs as [|c l IH]; [reflexivity|].
  cbn [map concat]. rewrite concat_app. now rewrite IH.
Qed.
Theorem incon_block ll q rest : length_told ll n (map ic_label cs) ->
  read_block (label_given ll) (head $"INCON") q (m_body ++ rest) = Ok (true, dupdate q (conditions_read cs), rest).
Proof.
  intros H. destruct (u_inc_known ll H) as (LC & K). destruct (INCON_block u u_INCON) as (_ & _ & R).
  specialize (R (label_given ll) q rest K). rewrite INCON_back_u in R.
  revert R. at_block. assert (RA : Forall2 alike rest rest) by (clear; induction rest; constructor; auto using alike_refl).
  pose proof (alike_incon (label_given ll) _ _ (Forall2_app body_alike RA)) as T.
  destruct (read_incon _ (INCON_body u ++ rest)) as [[d l]|e], (read_incon _ (m_body ++ rest)) as [[d' l']|e'] eqn:E'; cbn in T; try contradiction; [|now subst e'].
  destruct T as [-> T]. cbn [bind]. intros R. injection R as E1 E2. subst l. rewrite E1. do 2 f_equal.
  apply forall2_len in T. apply incon_rest in E' as (pre & E'). clear - T E'.
  assert (L : List.length m_body = List.length pre).
  { apply (f_equal (@List.length str)) in E'. rewrite !app_length in E'. lia. }
  revert L E'. generalize m_body as a. intros a L E'. revert pre L E'. induction a as [|x a IH]; intros [|y pre] L E'; try discriminate; [now cbn in E'|].
  cbn [app] in E'. injection E' as -> E'. apply (IH pre); auto.
Qed.
End File.

Lemma listed_same c : Forall (fun v => is_finite v = true) (ic_values c) -> not_all_negative c -> ic_listed c = has_conditions c.
Proof.
  intros FI H. rewrite Forall_forall in FI. unfold ic_listed, has_conditions.
  assert (MV : is_finite m1em9 = true /\ (fval m1em9 < 0)%Q /\ (- Qmake 1000000000 1 < fval m1em9)%Q) by (repeat (split; [vm_compute; reflexivity|]); vm_compute; reflexivity).
  destruct MV as (MF & MV1 & MV2).
  assert (E : existsb (fun v => fgtb v m1em9) (ic_values c) = existsb is_given (ic_values c)).
  { apply eq_true_iff_eq. rewrite !existsb_exists. split.
    - intros (v & J & X). exists v. split; [exact J|]. unfold fgtb in X. apply (fltb_fin _ _ MF (FI _ J)) in X. unfold is_given, given.
      destruct (Qle_bool (fval v) _) eqn:Q; [|reflexivity]. apply Qle_bool_iff in Q. exfalso. apply (Qlt_irrefl (fval v)). eapply Qle_lt_trans; [exact Q|]. eapply Qlt_trans; eauto.
    - intros X. assert (Y : existsb is_given (ic_values c) = true) by now apply existsb_exists. destruct (H Y) as (v & J & Z). exists v. split; [exact J|]. unfold fgtb.
      apply (fltb_fin _ _ MF (FI _ J)). eapply Qlt_le_trans; eauto. }
  rewrite <- E. unfold is_some. reflexivity.
Qed.
Lemma filter_ext_in' {A} (f g : A -> bool) l : (forall x, In x l -> f x = g x) -> filter f l = filter g l.
Proof. induction l as [|a l IH]; intros H; [reflexivity|]. cbn [filter]. rewrite (H a), IH; auto; [intros; apply H; now right|now left]. Qed.
Lemma NoDup_map_filter {A B} (f : A -> B) p l : NoDup (map f l) -> NoDup (map f (filter p l)).
Proof.
  induction l as [|a l IH]; intros H; [constructor|]. cbn [map] in H. apply NoDup_cons_iff in H as [H1 H2]. cbn [filter]. destruct (p a); [|auto]. cbn [map]. constructor; [|auto].
  intros I. apply H1. apply in_map_iff in I as (x & E & I). apply filter_In in I as [I _]. apply in_map_iff. eauto.
Qed.

(** The file is written, and read back. *)
Theorem incon_back_lines n k cs : 5 <= n <= 9 -> cs <> [] -> (forall c, In c cs -> condition_fits n k c = true /\ not_all_negative c /\ (has_conditions c = true -> long_filled k c = true)) ->
  NoDup (map ic_label cs) -> exists body, write_incon cs = Ok (concat (head $"INCON" :: body)) /\ Forall good_line (head $"INCON" :: body) /\
    forall ll, length_told ll n (map ic_label cs) -> label_choice ll /\ forall q rest r,
      Run (label_given ll) (dupdate q (conditions_read (filter has_conditions cs))) rest r -> Run (label_given ll) q (head $"INCON" :: body ++ rest) r.
Proof.
  intros N NE FC DC. exists (m_body (filter has_conditions cs)).
  assert (S : forall x, In x (filter has_conditions cs) -> condition_fits n k x = true /\ long_filled k x = true).
  { intros x I. apply filter_In in I as [I J]. destruct (FC x I) as (F & _ & G). auto. }
  split; [|split].
  - rewrite <- incon_text_lines.
    assert (FI : forall c, In c cs -> Forall (fun v => is_finite v = true) (ic_values c)).
    { intros c I. destruct (FC c I) as (F & _). destruct (cond_parts _ _ _ F) as (_ & _ & _ & _ & _ & _ & V). rewrite forallb_forall in V. apply Forall_forall. intros v J. specialize (V v J).
      apply andb_true_iff in V. tauto. }
    rewrite <- (filter_ext_in' ic_listed has_conditions) by (intros c I; apply listed_same; [now apply FI|]; now destruct (FC c I) as (_ & ? & _)).
    unfold write_incon. destruct cs as [|c cs]; [contradiction|]. remember (c :: cs) as l eqn:EL.
    assert (FL : first_length (map ic_label l) = Ok n).
    { subst l. cbn. f_equal. destruct (FC c) as (F & _); [now left|]. now destruct (cond_parts _ _ _ F) as (_ & _ & ? & _). }
    rewrite FL. cbn [bind]. destruct (MeshFileProof.INCON_ok _ N) as (f & F). rewrite F. cbn [bind].
    rewrite mapM_eq with (g := fun c => Spec.MeshFile.incon_lines (ic_label c) (ic_porosity c) (ic_userx c) (map given (ic_values c))); [reflexivity|].
    intros x I. apply filter_In in I as [I _]. destruct (FC x I) as (G & _). destruct (cond_parts _ _ _ G) as (_ & _ & L & _ & U & _).
    rewrite (map_ext_in given MeshFileProof.known) by (intros v J; apply given_known; specialize (FI x I); rewrite Forall_forall in FI; auto).
    apply incon_record_text with (n := n); auto. destruct (ic_userx x); [tauto|exact Logic.I].
  - constructor; [now apply good_head|]. destruct (filter has_conditions cs) as [|c r] eqn:E; [constructor; auto using good_nl|]. rewrite <- E in *. now apply m_good with (n := n) (k := k).
  - intros ll H. split; [destruct H as [-> | [-> _]]; cbn [label_choice]; [lia|exact I]|]. intros q rest r R. eapply Run_block; [|exact R].
    destruct (filter has_conditions cs) as [|c l] eqn:E.
    + at_block. unfold read_incon. assert (LL : exists m, label_len (label_given ll) (m_body [] ++ rest) = Ok m).
      { destruct H as [-> | [-> _]]; [|vm_compute; eauto]. destruct N as [N1 N2]. do 5 (destruct n as [|n]; [lia|]). do 5 (destruct n as [|n]; [cbn; eauto|]). lia. }
      destruct LL as (m & ->). reflexivity.
    + rewrite <- E in *. apply incon_block with (n := n) (k := k); auto.
      * rewrite E. discriminate.
      * now apply NoDup_map_filter.
      * destruct H as [-> | [-> H]]; [now left|right]. split; [reflexivity|]. rewrite Forall_forall in *. intros x I. apply H. apply in_map_iff in I as (y & <- & I). apply filter_In in I as [I _]. now apply in_map.
Qed.
Theorem incon_back n k cs : 5 <= n <= 9 -> cs <> [] -> (forall c, In c cs -> condition_fits n k c = true /\ not_all_negative c /\ (has_conditions c = true -> long_filled k c = true)) ->
  NoDup (map ic_label cs) -> exists text, write_incon cs = Ok text /\
    forall ll fuel, length_told ll n (map ic_label cs) -> read_text fuel ll text = Ok (conditions_read (filter has_conditions cs)).
Proof.
  intros N NE FC DC. destruct (incon_back_lines n k cs N NE FC DC) as (body & W & G & R). eexists. split; [exact W|]. intros ll fuel H. destruct (R ll H) as (LC & RR).
  erewrite (read_first ($"INCON")); [reflexivity|cbn; tauto|exact G|reflexivity|exact LC|]. rewrite <- (app_nil_r body). apply RR. apply Run_over.
Qed.
