(** Every loop of the reader ends, except the one of the title. *)
From Coq Require Import String Ascii ZArith Bool Lia List.
From Verif Require Import Base.Str Base.Digits Base.Flt Base.FltInt.
From Verif Require Import Model.Py Model.Records Model.Read Spec.File.
Import ListNotations.
Local Open Scope Z_scope.

(** ** The result is not that of a loop without end *)
Definition ends {A} (P : A -> Prop) (r : res A) : Prop :=
  match r with Ok a => P a | Err e => e <> Diverge end.
Definition any {A} (a : A) : Prop := True.
(** At most [n] lines are left. *)
Definition left {A} (n : nat) (x : A * list str) : Prop := (List.length (snd x) <= n)%nat.

Lemma ends_bind {A B} (P : A -> Prop) (Q : B -> Prop) r f : ends P r -> (forall a, P a -> ends Q (f a)) -> ends Q (bind r f).
Proof. destruct r; cbn; auto. Qed.
Lemma ends_impl {A} (P Q : A -> Prop) r : ends P r -> (forall a, P a -> Q a) -> ends Q r.
Proof. destruct r; cbn; auto. Qed.
Lemma ends_next ls : ends (fun x => List.length ls = S (List.length (snd x))) (next ls).
Proof. destruct ls; cbn; [discriminate|reflexivity]. Qed.

Ltac ended :=
  match goal with
  | |- ends _ (Err _) => cbn; discriminate
  | |- ends any (Ok _) => exact I
  | |- ends (left _) (Ok _) => unfold left; cbn [ends snd] in *; lia
  | |- ends _ (Ok _) => cbn [ends fst snd] in *; try (split; [intros ?|]); lia
  end.
Ltac walk := repeat match goal with
  | |- ends _ (Ok _) => ended
  | |- ends _ (Err _) => ended
  | |- ends _ (let '(_, _) := ?x in _) => destruct x
  | |- ends _ (if ?b then _ else _) => destruct b
  | |- ends _ (match ?x with _ => _ end) => lazymatch x with read_record _ _ => fail | _ => destruct x end
  | |- ends _ (bind (next ?l) _) => eapply ends_bind; [apply ends_next|intros [? ?] ?; cbn [snd] in *]
  end.
Ltac calm := eapply ends_bind with (P := any); [|intros ? _].

Lemma read_record_ends fmt : forall line, ends any (read_record line fmt).
Proof.
  induction fmt as [|t r IH]; intros line; cbn [read_record]; [exact I|].
  calm.
  - unfold read_field, convert, str2float. walk; try discriminate; calm; walk.
  - eapply ends_bind; [apply IH|intros ? _; exact I].
Qed.
Lemma val_key_ends v : ends any (val_key v).
Proof. unfold val_key. walk. Qed.
Lemma dgetE_ends k d : ends any (dgetE k d).
Proof. unfold dgetE. walk. Qed.
Lemma as_dict_ends v : ends any (as_dict v).
Proof. unfold as_dict. walk. Qed.
Lemma py_iter_ends v : ends any (py_iter v).
Proof. unfold py_iter. walk. Qed.
Lemma truthy_ends v : ends any (truthy v).
Proof. unfold truthy. walk. Qed.
Lemma option_digits_ends v : ends any (option_digits v).
Proof. unfold option_digits. walk. Qed.
Lemma py_int_ends v : ends any (py_int v).
Proof. unfold py_int. walk. Qed.
Lemma fmt_GENER_ends n : ends any (fmt_GENER n).
Proof. unfold fmt_GENER. walk. Qed.
Lemma fmt_ELEME_ends n : ends any (fmt_ELEME n).
Proof. unfold fmt_ELEME. walk. Qed.
Lemma fmt_CONNE_ends n : ends any (fmt_CONNE n).
Proof. unfold fmt_CONNE. walk. Qed.
Lemma fmt_INCON_ends n : ends any (fmt_INCON n).
Proof. unfold fmt_INCON. walk. Qed.
Lemma label_len_ends ll ls : ends any (label_len ll ls).
Proof. unfold label_len. walk. Qed.
Lemma foldM_ends {A B} (f : A -> B -> res A) l : (forall a b, ends any (f a b)) -> forall a, ends any (foldM f a l).
Proof. intros H. induction l; intros s; cbn [foldM]; [exact I|]. eapply ends_bind; [apply H|intros; apply IHl]. Qed.
Lemma mapM_ends {A B} (f : A -> res B) l : (forall a, ends any (f a)) -> ends any (mapM f l).
Proof.
  intros H. induction l; cbn [mapM]; [exact I|]. eapply ends_bind; [apply H|intros ? _].
  eapply ends_bind; [apply IHl|intros; exact I].
Qed.
#[local] Hint Constants Opaque : calm.
#[local] Hint Resolve read_record_ends val_key_ends dgetE_ends as_dict_ends py_iter_ends truthy_ends option_digits_ends
  py_int_ends fmt_GENER_ends fmt_ELEME_ends fmt_CONNE_ends fmt_INCON_ends label_len_ends : calm.
Ltac go := repeat (walk; try (eapply ends_bind; [solve [auto with calm nocore]|intros ? _])).

(** A record that may fail. *)
Ltac tried :=
  match goal with
  | |- ends _ (match read_record ?l ?f with _ => _ end) =>
      let E := fresh "E" in let R := fresh "R" in let e := fresh "e" in
      pose proof (read_record_ends f l) as R; destruct (read_record l f) as [?|e];
      [go|destruct e; try (cbn; discriminate); try (exfalso; apply R; reflexivity); cbn [ends]; try (unfold left; cbn [snd]; lia)]
  end.

Lemma append_generator_ends old tmp : ends any (append_generator old tmp).
Proof. unfold append_generator. apply mapM_ends. intros [k v]. go. Qed.
Lemma update_default_ends p d : ends any (update_default p d).
Proof. unfold update_default. go. Qed.
Lemma update_rocks_ends p d : ends any (update_rocks p d).
Proof. unfold update_rocks. apply foldM_ends. intros q kv. go. Qed.
Lemma update_centers_ends p c : ends any (update_centers p c).
Proof. unfold update_centers. go. apply foldM_ends. intros q kv. go. Qed.
#[local] Hint Resolve append_generator_ends update_default_ends update_rocks_ends update_centers_ends : calm.

(** ** The loops *)
Definition advances {St} (step : St -> list str -> res (bool * St * list str)) : Prop :=
  forall st ls, ends (fun x => (fst (fst x) = true -> (List.length (snd x) < List.length ls)%nat) /\
                               (List.length (snd x) <= List.length ls)%nat) (step st ls).

Lemma iter_lines_ends {St} (step : St -> list str -> res (bool * St * list str)) : advances step ->
  forall fuel st ls, (List.length ls < fuel)%nat -> ends (left (List.length ls)) (iter_lines fuel step st ls).
Proof.
  intros A. induction fuel as [|fuel IH]; intros st ls L; [lia|]. cbn [iter_lines].
  eapply ends_bind; [apply A|]. intros [[c st'] ls'] [H1 H2]. cbn [fst snd] in *. destruct c; [|exact H2].
  specialize (H1 eq_refl). eapply ends_impl; [apply IH; lia|]. unfold left. intros ?; lia.
Qed.
Lemma repeat_lines_ends {St} n (step : St -> str -> res St) : (forall st l, ends any (step st l)) ->
  forall st ls, ends (left (List.length ls)) (repeat_lines n step st ls).
Proof.
  intros A. induction n as [|n IH]; intros st ls; cbn [repeat_lines]; [unfold left; cbn; lia|].
  walk. eapply ends_bind; [apply A|intros ? _]. eapply ends_impl; [apply IH|]. unfold left. intros ?; lia.
Qed.
Lemma read_table_ends fmt n : forall fuel acc ls, ends (left (List.length ls)) (read_table fuel fmt n acc ls).
Proof.
  induction fuel as [|fuel IH]; intros acc ls; cbn [read_table]; go.
  eapply ends_impl; [apply IH|]. unfold left. intros ?; lia.
Qed.
Lemma read_tables_ends n keys : forall ls, ends (left (List.length ls)) (read_tables keys n ls).
Proof.
  induction keys as [|k keys IH]; intros ls; cbn [read_tables]; [go|].
  eapply ends_bind; [apply read_table_ends|]. intros [t ls1] H. unfold left in H; cbn [snd] in H.
  eapply ends_bind; [apply IH|]. intros [d ls2] H2. unfold left in H2; cbn [snd] in H2. go.
Qed.

Ltac through L := eapply ends_bind; [apply L|]; let H := fresh in intros [? ?] H; unfold left in H; cbn [snd] in H.

Lemma read_model_ends k ls : ends (left (List.length ls)) (read_model k ls).
Proof. unfold read_model. go. Qed.
Lemma read_rpcap_ends ls : ends (left (List.length ls)) (read_rpcap ls).
Proof. unfold read_rpcap. through read_model_ends. through read_model_ends. go. Qed.
Lemma read_rock_ends : advances read_rock.
Proof.
  intros st ls. unfold read_rock. go.
  eapply ends_bind with (P := left (List.length l)); [destruct (is_none _); go|].
  intros [d ls1] H1. unfold left in H1; cbn [snd] in H1.
  eapply ends_bind with (P := left (List.length l)).
  - destruct (at_ a 1); go. through read_rpcap_ends. go.
  - intros [d2 ls2] H2. unfold left in H2; cbn [snd] in H2. go.
Qed.
Lemma read_rocks_ends ls : ends (left (List.length ls)) (read_rocks ls).
Proof. unfold read_rocks. through (iter_lines_ends read_rock read_rock_ends (S (List.length ls)) ([], []) ls (Nat.lt_succ_diag_r _)). go. Qed.
Lemma read_flac_ends o ls : ends (left (List.length ls)) (read_flac o ls).
Proof.
  unfold read_flac. go.
  assert (F : forall o st, ends (left (List.length (snd st))) (foldM read_flac_rock st o)).
  { clear. induction o as [|x o IH]; intros st; cbn [foldM]; [unfold left; cbn; lia|].
    eapply ends_bind with (P := left (List.length (snd st))).
    - unfold read_flac_rock. go.
    - intros [d l] H. eapply ends_impl; [apply IH|]. unfold left in *; cbn [snd] in *. intros y. lia. }
  eapply ends_bind; [apply F|]. intros [d l'] H'. unfold left in H'; cbn [snd] in H'. go.
Qed.
Lemma read_multi_ends ls : ends (left (List.length ls)) (read_multi ls).
Proof. unfold read_multi. go. Qed.
Lemma read_solvr_ends ls : ends (left (List.length ls)) (read_solvr ls).
Proof. unfold read_solvr. go. Qed.
Lemma read_param_ends ls : ends (left (List.length ls)) (read_param ls).
Proof.
  unfold read_param. go.
  eapply ends_bind with (P := left (List.length l0)).
  { destruct (0 <=? a2); go. eapply ends_bind; [apply repeat_lines_ends; intros; go|].
    intros [x y] H'. unfold left in H'; cbn [snd] in H'. go. }
  intros [ts l1] H2. unfold left in H2; cbn [snd] in H2. go.
  eapply ends_bind with (P := left (List.length l3)).
  { tried. }
  intros [d l5] H5. unfold left in H5; cbn [snd] in H5. go.
Qed.
Lemma read_selec_ends ls : ends (left (List.length ls)) (read_selec ls).
Proof.
  unfold read_selec. go.
  eapply ends_bind with (P := left (List.length l)).
  { destruct a0; [|go]. eapply ends_bind; [apply repeat_lines_ends; intros; go|].
    intros [x y] H'. unfold left in H'; cbn [snd] in H'. go. }
  intros [fl l1] H1. unfold left in H1; cbn [snd] in H1. go.
  calm; [go|]. go.
Qed.
Lemma read_two_ends fmt stop two ls : ends (left (List.length ls)) (read_two fmt stop two ls).
Proof.
  unfold read_two. go.
  tried.
Qed.
Lemma read_indom_rock_ends : advances read_indom_rock.
Proof.
  intros st ls. unfold read_indom_rock. go.
  eapply ends_bind; [apply read_two_ends|]. intros [[d two] l1] H1. unfold left in H1; cbn [snd] in H1. go.
Qed.
Ltac loop L := eapply ends_bind; [apply (iter_lines_ends _ L); apply Nat.lt_succ_diag_r|];
  let H := fresh in intros [? ?] H; unfold left in H; cbn [snd] in H; go.
Lemma read_indom_ends ls : ends (left (List.length ls)) (read_indom ls).
Proof. unfold read_indom. loop read_indom_rock_ends. Qed.
Lemma read_momop_ends ls : ends (left (List.length ls)) (read_momop ls).
Proof. unfold read_momop. go. Qed.
Lemma read_times_ends ls : ends (left (List.length ls)) (read_times ls).
Proof.
  unfold read_times. go. through read_table_ends. calm; go.
Qed.
Lemma read_oft_line_ends : advances read_oft_line.
Proof. intros st ls. unfold read_oft_line. go. Qed.
Lemma read_oft_ends k ls : ends (left (List.length ls)) (read_oft k ls).
Proof. unfold read_oft. loop read_oft_line_ends. Qed.
Lemma read_generator_ends fmt : ends any fmt -> advances (read_generator fmt).
Proof.
  intros F st ls. unfold read_generator. go. eapply ends_bind; [exact F|intros fm _]. go. cbv zeta.
  eapply ends_bind with (P := left (List.length l)).
  { destruct (at_ a 5) as [| |z| | | | |]; go. through read_tables_ends. go. }
  intros [tmp l1] H1. unfold left in H1; cbn [snd] in H1.
  calm; go.
Qed.
Lemma read_gener_ends ll ls : ends (left (List.length ls)) (read_gener ll ls).
Proof. unfold read_gener. go. loop (read_generator_ends _ (fmt_GENER_ends a)). Qed.
Lemma read_diffu_row_ends : advances read_diffu_row.
Proof.
  intros st ls. unfold read_diffu_row. go.
  tried. cbn [ends fst snd]. split; [discriminate|lia].
Qed.
Lemma read_diffu_ends ls : ends (left (List.length ls)) (read_diffu ls).
Proof. unfold read_diffu. loop read_diffu_row_ends. Qed.
Lemma read_variable_ends st l : ends any (read_variable st l).
Proof. unfold read_variable. go. calm; go. Qed.
Lemma read_outpu_ends ls : ends (left (List.length ls)) (read_outpu ls).
Proof.
  unfold read_outpu. go.
  eapply ends_bind with (P := left (List.length l)); [destruct (_ && _); go|].
  intros [[fmt line] l1] H1. unfold left in H1; cbn [snd] in H1. go. calm; [go|].
  eapply ends_bind; [apply repeat_lines_ends, read_variable_ends|]. intros [x y] H'. unfold left in H'; cbn [snd] in H'. go.
Qed.
Lemma read_element_ends fmt : ends any fmt -> advances (read_element fmt).
Proof.
  intros F st ls. unfold read_element. go. eapply ends_bind; [exact F|intros fm _]. go.
  calm; [go|]. calm; [go|]. go.
Qed.
Lemma read_eleme_ends ll ls : ends (left (List.length ls)) (read_eleme ll ls).
Proof. unfold read_eleme. go. loop (read_element_ends _ (fmt_ELEME_ends a)). Qed.
Lemma read_coord_line_ends : advances read_coord_line.
Proof. intros st ls. unfold read_coord_line. go. Qed.
Lemma read_coord_ends ls : ends (left (List.length ls)) (read_coord ls).
Proof. unfold read_coord. apply (iter_lines_ends _ read_coord_line_ends). apply Nat.lt_succ_diag_r. Qed.
Lemma read_connection_ends fmt : ends any fmt -> advances (read_connection fmt).
Proof. intros F st ls. unfold read_connection. go. eapply ends_bind; [exact F|intros fm _]. go. Qed.
Lemma read_conne_ends ll ls : ends (left (List.length ls)) (read_conne ll ls).
Proof. unfold read_conne. go. loop (read_connection_ends _ (fmt_CONNE_ends a)). Qed.
Lemma read_initial_ends fmt : ends any fmt -> advances (read_initial fmt).
Proof.
  intros F [[d o] two] ls. unfold read_initial. go. eapply ends_bind; [exact F|intros fm _]. go.
  eapply ends_bind; [apply read_two_ends|]. intros [[v t] l1] H1. unfold left in H1; cbn [snd] in H1. go.
Qed.
Lemma read_incon_ends ll ls : ends (left (List.length ls)) (read_incon ll ls).
Proof. unfold read_incon. go. loop (read_initial_ends _ (fmt_INCON_ends a)). Qed.

Lemma read_block_ends ll line p ls : ends (left (List.length ls)) (read_block ll line p ls).
Proof.
  unfold read_block.
  repeat match goal with
  | |- ends _ (if ?b then _ else _) => destruct b
  end; try ended;
  try lazymatch goal with
  | |- ends _ (bind (read_rocks _) _) => through read_rocks_ends
  | |- ends _ (bind (read_rpcap _) _) => through read_rpcap_ends
  | |- ends _ (bind (read_multi _) _) => through read_multi_ends
  | |- ends _ (bind (read_solvr _) _) => through read_solvr_ends
  | |- ends _ (bind (read_param _) _) => through read_param_ends
  | |- ends _ (bind (read_selec _) _) => through read_selec_ends
  | |- ends _ (bind (read_indom _) _) => through read_indom_ends
  | |- ends _ (bind (read_momop _) _) => through read_momop_ends
  | |- ends _ (bind (read_times _) _) => through read_times_ends
  | |- ends _ (bind (read_oft _ _) _) => through read_oft_ends
  | |- ends _ (bind (read_gener _ _) _) => through read_gener_ends
  | |- ends _ (bind (read_diffu _) _) => through read_diffu_ends
  | |- ends _ (bind (read_outpu _) _) => through read_outpu_ends
  | |- ends _ (bind (read_eleme _ _) _) => through read_eleme_ends
  | |- ends _ (bind (read_coord _) _) => through read_coord_ends
  | |- ends _ (bind (read_conne _ _) _) => through read_conne_ends
  | |- ends _ (bind (read_incon _ _) _) => through read_incon_ends
  end; go. through read_flac_ends. go.
Qed.

Lemma read_blocks_end ll : forall fuel p ls, (List.length ls <= fuel)%nat -> ends any (read_blocks fuel ll p ls).
Proof.
  induction fuel as [|fuel IH]; intros p [|line ls] L; try (cbn; exact I); [cbn [List.length] in L; lia|].
  cbn [read_blocks List.length] in *. eapply ends_bind; [apply read_block_ends|].
  intros [[c q] l] H. unfold left in H; cbn [snd] in H. destruct c; [|exact I]. apply IH. lia.
Qed.

(** ** The title *)
Lemma first_five (kw l : str) : List.length kw = 5%nat -> streqb (firstn 5 l) kw = startswith kw l.
Proof.
  intros L. apply eq_true_iff_eq. rewrite streqb_eq, startswith_spec. split.
  - intros E. exists (skipn 5 l). rewrite <- E. symmetry. apply firstn_skipn.
  - intros [r ->]. rewrite <- L. rewrite firstn_app, Nat.sub_diag, firstn_all. apply app_nil_r.
Qed.
Definition opens_rocks (l : str) : bool := startswith ($"ROCKS") (strip l).
Lemma title_loop_stops : forall ls fuel acc, existsb opens_rocks ls = true -> (List.length ls <= fuel)%nat ->
  exists l, title_loop fuel acc ls = Ok l.
Proof.
  induction ls as [|l ls IH]; intros fuel acc E L; [discriminate|]. cbn [existsb List.length] in *.
  destruct fuel as [|fuel]; [lia|]. cbn [title_loop readline]. unfold opens_rocks in E at 1.
  destruct (startswith ($"ROCKS") (strip l)); [eexists; reflexivity|]. cbn [orb] in E. apply IH; [exact E|lia].
Qed.
Lemma title_loop_goes : forall fuel ls acc, existsb opens_rocks ls = false -> title_loop fuel acc ls = Err Diverge.
Proof.
  induction fuel as [|fuel IH]; intros ls acc E; [reflexivity|]. cbn [title_loop].
  destruct ls as [|l ls]; cbn [readline].
  - change (startswith ($"ROCKS") (strip [])) with false. cbv iota. now apply IH.
  - cbn [existsb] in E. apply orb_false_iff in E as [E1 E2]. unfold opens_rocks in E1. rewrite E1. now apply IH.
Qed.
Lemma title_loop_more : forall ls fuel fuel' acc, existsb opens_rocks ls = true ->
  (List.length ls <= fuel)%nat -> (List.length ls <= fuel')%nat -> title_loop fuel acc ls = title_loop fuel' acc ls.
Proof.
  induction ls as [|l ls IH]; intros fuel fuel' acc E L L'; [discriminate|]. cbn [existsb List.length] in *.
  destruct fuel as [|fuel]; [lia|]. destruct fuel' as [|fuel']; [lia|]. cbn [title_loop readline]. unfold opens_rocks in E at 1.
  destruct (startswith ($"ROCKS") (strip l)); [reflexivity|]. cbn [orb] in E. apply IH; auto; lia.
Qed.
Lemma first_opens l : existsb (streqb (firstn 5 l)) [$"ROCKS"; $"ELEME"; $"INCON"; $"GENER"]
  = existsb (fun kw => startswith kw l) [$"ROCKS"; $"ELEME"; $"INCON"; $"GENER"].
Proof. cbn [existsb]. now rewrite !first_five. Qed.

Lemma read_title_ends ls fuel : (List.length ls <= fuel)%nat ->
  if title_ends ls then exists d, read_title fuel ls = Ok d else read_title fuel ls = Err Diverge.
Proof.
  intros L. unfold title_ends, read_title. destruct ls as [|l ls].
  - cbn [readline]. rewrite first_opens. change (strip []) with (@nil ascii). cbn [existsb startswith orb].
    rewrite title_loop_goes by reflexivity. reflexivity.
  - cbn [readline]. rewrite first_opens. destruct (existsb _ [_; _; _; _]); cbn [orb]; [eexists; reflexivity|].
    fold opens_rocks. destruct (existsb opens_rocks ls) eqn:E.
    + cbn [List.length] in L. destruct (title_loop_stops ls fuel [strip l] E ltac:(lia)) as (t & ->). eexists; reflexivity.
    + now rewrite title_loop_goes.
Qed.
Lemma read_title_goes ls fuel : title_ends ls = false -> read_title fuel ls = Err Diverge.
Proof.
  unfold title_ends, read_title. destruct ls as [|l ls]; intros E.
  - cbn [readline]. rewrite first_opens. change (strip []) with (@nil ascii). cbn [existsb startswith orb].
    now rewrite title_loop_goes.
  - apply orb_false_iff in E as [E1 E2]. cbn [readline]. rewrite first_opens, E1. now rewrite title_loop_goes.
Qed.
Lemma read_title_more ls fuel fuel' : title_ends ls = true -> (List.length ls <= fuel)%nat -> (List.length ls <= fuel')%nat ->
  read_title fuel ls = read_title fuel' ls.
Proof.
  unfold title_ends, read_title. destruct ls as [|l ls]; [discriminate|]. cbn [readline List.length]. intros E L L'.
  rewrite first_opens. destruct (existsb _ [_; _; _; _]); [reflexivity|]. cbn [orb] in E.
  erewrite title_loop_more; [reflexivity|exact E|lia|lia].
Qed.

Lemma label_length_test z : ((5 <=? z) && (z <? 10)) = ((5 <=? z) && (z <=? 9)).
Proof. f_equal. apply eq_true_iff_eq. rewrite Z.ltb_lt, Z.leb_le. lia. Qed.

Theorem read_ends t ll : label_length_ok ll = true ->
  (title_ends (lines t) = true -> exists r, r <> Err Diverge /\ forall fuel, (List.length (lines t) <= fuel)%nat -> read_text fuel ll t = r) /\
  (title_ends (lines t) = false -> forall fuel, read_text fuel ll t = Err Diverge).
Proof.
  intros G.
  assert (R : exists n, forall fuel, read_text fuel ll t = read_buffer fuel n t).
  { destruct ll as [z|]; [|eexists; reflexivity]. cbn [label_length_ok read_text] in *. rewrite label_length_test, G.
    eexists; reflexivity. }
  destruct R as (n & R). unfold read_buffer in R. cbv zeta in R. split.
  - intros E. exists (read_text (List.length (lines t)) ll t). split.
    + rewrite R. pose proof (read_title_ends (lines t) (List.length (lines t)) (le_n _)) as H. rewrite E in H.
      destruct H as (d & ->). cbn [bind]. pose proof (read_blocks_end n (List.length (lines t)) d (lines t) (le_n _)) as B.
      destruct (read_blocks _ n d (lines t)) as [q|e]; [discriminate|]. cbn in B. congruence.
    + intros fuel L. rewrite !R. rewrite (read_title_more _ fuel (List.length (lines t)) E L (le_n _)). reflexivity.
  - intros E fuel. rewrite R. now rewrite read_title_goes.
Qed.
Theorem read_refuses t ll fuel : label_length_ok ll = false -> read_text fuel ll t = Err ValueError.
Proof. destruct ll as [z|]; [|discriminate]. cbn. intros G. now rewrite label_length_test, G. Qed.
