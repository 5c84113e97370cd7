(** Reading an input file with other blanks at the ends of its lines. *)
From Coq Require Import String Ascii ZArith Bool Lia List.
From Verif Require Import Base.Str Base.Digits Base.Flt.
From Verif Require Import Model.Py Model.Records Model.Read.
From Verif Require Import Spec.Padding.
Import ListNotations.
Local Open Scope nat_scope.

Section Padding.
Variable allow : bool.

Definition ws (l l' : str) : Prop :=
  (exists b u v, l = b ++ u /\ l' = b ++ v /\ forallb is_space u = true /\ forallb is_space v = true) /\
  (allow = false -> List.length l <= List.length l').

Lemma firstn_space n u : forallb is_space u = true -> forallb is_space (firstn n u) = true.
Proof. revert u. induction n; intros [|c u] H; cbn in *; auto. apply andb_true_iff in H as [H1 H2]. rewrite H1. now apply IHn. Qed.
Lemma skipn_space n u : forallb is_space u = true -> forallb is_space (skipn n u) = true.
Proof. revert u. induction n; intros [|c u] H; cbn in *; auto. apply IHn. now apply andb_true_iff in H as [_ H]. Qed.
Lemma ws_firstn n l l' : ws l l' -> ws (firstn n l) (firstn n l').
Proof.
  intros ((b & u & v & -> & -> & U & V) & L). split.
  - exists (firstn n b), (firstn (n - List.length b) u), (firstn (n - List.length b) v). rewrite !firstn_app. repeat split; now apply firstn_space.
  - intros A. specialize (L A). rewrite !firstn_length. lia.
Qed.
Lemma ws_skipn n l l' : ws l l' -> ws (skipn n l) (skipn n l').
Proof.
  intros ((b & u & v & -> & -> & U & V) & L). split.
  - exists (skipn n b), (skipn (n - List.length b) u), (skipn (n - List.length b) v). rewrite !skipn_app. repeat split; now apply skipn_space.
  - intros A. specialize (L A). rewrite !skipn_length. lia.
Qed.
Lemma space_rev u : forallb is_space (rev u) = forallb is_space u.
Proof. induction u as [|c u IH]; [reflexivity|]. cbn [rev]. rewrite forallb_app, IH. cbn [forallb]. rewrite andb_true_r. apply andb_comm. Qed.
Lemma lstrip_space_app u s : forallb is_space u = true -> lstrip (u ++ s) = lstrip s.
Proof. induction u as [|c u IH]; intros H; [reflexivity|]. cbn [forallb] in H. apply andb_true_iff in H as [H1 H2]. cbn [app lstrip]. rewrite H1. auto. Qed.
Lemma rstrip_app_space s u : forallb is_space u = true -> rstrip (s ++ u) = rstrip s.
Proof. intros H. unfold rstrip. rewrite rev_app_distr, lstrip_space_app by (now rewrite space_rev). reflexivity. Qed.
Lemma strip_app_space s u : forallb is_space u = true -> strip (s ++ u) = strip s.
Proof.
  intros H. unfold strip. induction s as [|c s IH]; cbn [app lstrip].
  - rewrite lstrip_all_space by exact H. reflexivity.
  - destruct (is_space c); [exact IH|]. change (c :: s ++ u) with ((c :: s) ++ u). now apply rstrip_app_space.
Qed.
Lemma ws_rstrip l l' : ws l l' -> rstrip l' = rstrip l.
Proof. intros ((b & u & v & -> & -> & U & V) & _). now rewrite !rstrip_app_space. Qed.
Lemma ws_strip l l' : ws l l' -> strip l' = strip l.
Proof. intros ((b & u & v & -> & -> & U & V) & _). now rewrite !strip_app_space. Qed.
Lemma ws_blank l l' : ws l l' -> blank l' = blank l.
Proof. intros W. unfold blank. now rewrite (ws_strip _ _ W). Qed.
Lemma digits_space i b : forall u, forallb is_space u = true -> digit_entries i (b ++ u) = digit_entries i b.
Proof.
  assert (N : forall u i, forallb is_space u = true -> digit_entries i u = []).
  { induction u as [|c u IH]; intros j H; [reflexivity|]. cbn [forallb] in H. apply andb_true_iff in H as [H1 H2]. cbn [digit_entries]. rewrite IH by exact H2.
    destruct (is_digit c) eqn:D; [|reflexivity]. unfold is_space, is_digit in *. apply andb_true_iff in D as [D1 D2]. apply Z.leb_le in D1, D2.
    apply orb_true_iff in H1 as [H1|H1]; apply andb_true_iff in H1 as [H3 H4]; apply Z.leb_le in H3, H4; lia. }
  revert i. induction b as [|c b IH]; intros i u H; cbn [app digit_entries]; [now apply N|]. now rewrite IH.
Qed.
Lemma space_digit c : is_space c = true -> is_digit c = false.
Proof.
  intros H1. destruct (is_digit c) eqn:D; [|reflexivity]. unfold is_space, is_digit in *. apply andb_true_iff in D as [D1 D2]. apply Z.leb_le in D1, D2.
  apply orb_true_iff in H1 as [H1|H1]; apply andb_true_iff in H1 as [H3 H4]; apply Z.leb_le in H3, H4; lia.
Qed.
Lemma count_space b u : forallb is_space u = true -> count_digits (b ++ u) = count_digits b.
Proof.
  intros H. induction b as [|c b IH]; cbn [app count_digits]; [|now rewrite IH].
  destruct u as [|c u]; [reflexivity|]. cbn [forallb] in H. apply andb_true_iff in H as [H _]. cbn [count_digits]. now rewrite space_digit.
Qed.
Lemma ws_label l l' : ws l l' -> get_label_length l' = get_label_length l.
Proof. intros W. unfold get_label_length. destruct (ws_skipn 5 _ _ W) as ((b & u & v & -> & -> & U & V) & _). now rewrite !count_space. Qed.
Lemma starts_space kw : forallb (fun c => negb (is_space c)) kw = true -> forall b u, forallb is_space u = true -> startswith kw (b ++ u) = startswith kw b.
Proof.
  induction kw as [|k kw IH]; intros K b u U; [reflexivity|]. cbn [forallb] in K. apply andb_true_iff in K as [K1 K2].
  destruct b as [|c b]; cbn [app startswith]; [|now rewrite IH].
  destruct u as [|c u]; [reflexivity|]. cbn [forallb] in U. apply andb_true_iff in U as [U _]. cbn [startswith].
  destruct (Ascii.eqb k c) eqn:E; [|reflexivity]. apply Ascii.eqb_eq in E. subst. rewrite U in K1. discriminate K1.
Qed.
Lemma ws_starts kw l l' : forallb (fun c => negb (is_space c)) kw = true -> ws l l' -> startswith kw l' = startswith kw l.
Proof. intros K ((b & u & v & -> & -> & U & V) & _). now rewrite !starts_space. Qed.

(** Records *)
Definition S_value (s : str) : pyval := match s with [] => PNone | _ => PStr s end.
Definition agree (t : token) (x y : pyval) : Prop :=
  if Ascii.eqb (tok_t t) "S" then exists s s', x = S_value s /\ y = S_value s' /\ ws s s' else x = y.
Fixpoint agrees (fmt : list token) (d d' : list pyval) : Prop :=
  match fmt, d, d' with
  | [], [], [] => True
  | t :: fmt, x :: d, y :: d' => agree t x y /\ agrees fmt d d'
  | _, _, _ => False
  end.
Lemma record_agrees fmt : forall l l', ws l l' ->
  match read_record l fmt with Ok d => exists d', read_record l' fmt = Ok d' /\ agrees fmt d d' | Err e => read_record l' fmt = Err e end.
Proof.
  induction fmt as [|t fmt IH]; intros l l' W; cbn [read_record]; [exists []; cbn; auto|].
  assert (F : match read_field t (firstn (tok_w t) l) with Ok x => exists y, read_field t (firstn (tok_w t) l') = Ok y /\ agree t x y | Err e => read_field t (firstn (tok_w t) l') = Err e end).
  { pose proof (ws_firstn (tok_w t) _ _ W) as F. unfold read_field, agree. destruct (Ascii.eqb (tok_t t) "S") eqn:E.
    - apply Ascii.eqb_eq in E. rewrite E. set (s := firstn (tok_w t) l) in *. set (s' := firstn (tok_w t) l') in *.
      assert (C : forall z, match z with [] => Ok PNone | _ => convert "S"%char z end = Ok (S_value z)) by (intros [|c z]; reflexivity).
      rewrite !C. exists (S_value s'). split; [reflexivity|]. exists s, s'. auto.
    - rewrite (ws_strip _ _ F). destruct (match strip (firstn (tok_w t) l) with [] => Ok PNone | _ => convert (tok_t t) (strip (firstn (tok_w t) l)) end); eauto. }
  destruct (read_field t (firstn (tok_w t) l)) as [x|e]; cbn [bind].
  - destruct F as (y & -> & A). cbn [bind]. specialize (IH _ _ (ws_skipn (tok_w t) _ _ W)).
    destruct (read_record (skipn (tok_w t) l) fmt) as [d|e]; cbn [bind].
    + destruct IH as (d' & -> & B). cbn [bind]. exists (y :: d'). split; [reflexivity|]. cbn [agrees]. auto.
    + now rewrite IH.
  - now rewrite F.
Qed.
Definition no_S (fmt : list token) : bool := forallb (fun t => negb (Ascii.eqb (tok_t t) "S")) fmt.
Lemma agrees_same fmt : no_S fmt = true -> forall d d', agrees fmt d d' -> d' = d.
Proof.
  induction fmt as [|t fmt IH]; intros N [|x d] [|y d'] A; cbn [agrees] in A; try (now destruct A); auto.
  cbn [no_S forallb] in N. apply andb_true_iff in N as [N1 N2]. destruct A as [A1 A2]. unfold agree in A1. apply negb_true_iff in N1. rewrite N1 in A1. subst. f_equal. auto.
Qed.
Lemma ws_record fmt l l' : no_S fmt = true -> ws l l' -> read_record l' fmt = read_record l fmt.
Proof.
  intros N W. pose proof (record_agrees fmt l l' W) as H. destruct (read_record l fmt); [|exact H]. destruct H as (d' & -> & A). f_equal. exact (agrees_same fmt N _ _ A).
Qed.
Lemma agrees_at fmt : forall d d' i, agrees fmt d d' -> Ascii.eqb (tok_t (nth i fmt (Tok 0 None " "))) "S" = false -> at_ d' i = at_ d i.
Proof.
  unfold at_. induction fmt as [|t fmt IH]; intros [|x d] [|y d'] i A; cbn [agrees] in A; try (now destruct A); auto.
  destruct A as [A1 A2]. destruct i as [|i]; cbn [nth]; [|now apply IH]. intros N. unfold agree in A1. rewrite N in A1. now symmetry.
Qed.
Lemma agrees_S fmt : forall d d' i, agrees fmt d d' -> Ascii.eqb (tok_t (nth i fmt (Tok 0 None " "))) "S" = true ->
  exists s s', at_ d i = S_value s /\ at_ d' i = S_value s' /\ ws s s'.
Proof.
  unfold at_. induction fmt as [|t fmt IH]; intros [|x d] [|y d'] i A; cbn [agrees] in A; try (now destruct A).
  - destruct i; cbn; discriminate.
  - destruct A as [A1 A2]. destruct i as [|i]; cbn [nth]; [|now apply IH]. intros N. unfold agree in A1. rewrite N in A1. exact A1.
Qed.

(** Simulation *)
Definition pads : list str -> list str -> Prop := Forall2 ws.
Definition sim {A} (x y : res (A * list str)) : Prop :=
  forall a r, x = Ok (a, r) -> (exists r', y = Ok (a, r') /\ pads r r') \/ (allow = true /\ y = Err TypeError).
Lemma sim_ok {A} (a : A) r r' : pads r r' -> sim (Ok (a, r)) (Ok (a, r')).
Proof. intros P b s E. injection E as <- <-. left. eauto. Qed.
Lemma sim_err {A} e (y : res (A * list str)) : sim (Err e) y.
Proof. intros a r E. discriminate E. Qed.
Lemma sim_bind {A B} (x y : res (A * list str)) (k k' : A * list str -> res (B * list str)) :
  sim x y -> (forall a r r', pads r r' -> sim (k (a, r)) (k' (a, r'))) -> sim (bind x k) (bind y k').
Proof.
  intros X K b s E. destruct x as [[a r]|e]; [|discriminate E]. cbn [bind] in E.
  destruct (X a r eq_refl) as [(r' & -> & P)|(F & ->)]; [|right; auto]. exact (K a r r' P b s E).
Qed.
Lemma sim_same {A B} (x : res A) (k k' : A -> res (B * list str)) : (forall a, x = Ok a -> sim (k a) (k' a)) -> sim (bind x k) (bind x k').
Proof. intros K. destruct x as [a|e]; cbn [bind]; [now apply K|apply sim_err]. Qed.
Lemma sim_next {B} ls ls' (k k' : str * list str -> res (B * list str)) :
  pads ls ls' -> (forall l l' r r', ws l l' -> pads r r' -> sim (k (l, r)) (k' (l', r'))) -> sim (bind (next ls) k) (bind (next ls') k').
Proof. intros P K. destruct P as [|l l' r r' W P]; cbn [next bind]; [apply sim_err|now apply K]. Qed.
Lemma sim_iter {St} (step step' : St -> list str -> res (bool * St * list str)) :
  (forall st ls ls', pads ls ls' -> sim (step st ls) (step' st ls')) -> forall n st ls ls', pads ls ls' -> sim (iter_lines n step st ls) (iter_lines n step' st ls').
Proof.
  intros X n. induction n as [|n IH]; intros st ls ls' P; cbn [iter_lines]; [apply sim_err|].
  apply sim_bind; [now apply X|]. intros [c st'] r r' P'. destruct c; [now apply IH|now apply sim_ok].
Qed.
Lemma sim_repeat {St} (step : St -> str -> res St) :
  (forall st l l', ws l l' -> step st l' = step st l) -> forall n st ls ls', pads ls ls' -> sim (repeat_lines n step st ls) (repeat_lines n step st ls').
Proof.
  intros X n. induction n as [|n IH]; intros st ls ls' P; cbn [repeat_lines]; [now apply sim_ok|].
  apply sim_next; [exact P|]. intros l l' r r' W P'. rewrite (X st l l' W). apply sim_same. intros st' _. now apply IH.
Qed.
Lemma pads_length ls ls' : pads ls ls' -> List.length ls' = List.length ls.
Proof. induction 1; cbn; auto. Qed.
Lemma formats n : (forall f, fmt_GENER n = Ok f -> no_S f = true) /\ (forall f, fmt_ELEME n = Ok f -> no_S f = true) /\
  (forall f, fmt_CONNE n = Ok f -> no_S f = true) /\ (forall f, fmt_INCON n = Ok f -> no_S f = true).
Proof.
  do 10 (destruct n as [|n]; [repeat split; intros f E; cbn [fmt_GENER fmt_ELEME fmt_CONNE fmt_INCON] in E; first [discriminate E|assert (X := f_equal (fun r => match r with Ok x => no_S x | Err _ => true end) E); cbn beta iota in X; rewrite <- X; vm_compute; reflexivity]|]).
  repeat split; intros f E; discriminate E.
Qed.
Ltac rec := match goal with W : ws ?l ?l' |- context [read_record ?l' ?f] => rewrite (ws_record f l l') by first [vm_compute; reflexivity|assumption] end.
Ltac go1 := lazymatch goal with
  | |- sim (Err _) _ => apply sim_err
  | |- sim (bind (next _) _) _ => apply sim_next; [assumption|]; intros ? ? ? ? ? ?
  | W : ws ?l ?l' |- context [read_record ?l' ?f] => rewrite (ws_record f l l') by first [assumption|vm_compute; reflexivity]
  | W : ws ?l ?l' |- context [blank ?l'] => rewrite (ws_blank l l' W)
  | W : ws ?l ?l' |- context [plus3 ?l'] => unfold plus3; rewrite (ws_starts ($"+++") l l' eq_refl W); fold (plus3 l)
  | W : ws ?l ?l' |- context [strip ?l'] => rewrite (ws_strip l l' W)
  | W : ws ?l ?l' |- context [rstrip ?l'] => rewrite (ws_rstrip l l' W)
  | |- sim (Ok _) (Ok _) => apply sim_ok; assumption
  | |- sim (bind ?x _) (bind ?x _) => apply sim_same; intros ? ?
  end.
Ltac go := repeat go1.

Lemma sim_model k ls ls' : pads ls ls' -> sim (read_model k ls) (read_model k ls').
Proof. intros P. unfold read_model. go. Qed.
Lemma sim_rpcap ls ls' : pads ls ls' -> sim (read_rpcap ls) (read_rpcap ls').
Proof. intros P. unfold read_rpcap. apply sim_bind; [now apply sim_model|]. intros. apply sim_bind; [now apply sim_model|]. intros. go. Qed.
Lemma sim_rock st ls ls' : pads ls ls' -> sim (read_rock st ls) (read_rock st ls').
Proof.
  intros P. unfold read_rock. go. destruct (blank _); go. apply sim_bind.
  - destruct (is_none _); go.
  - intros d s s' P'. apply sim_bind; [|intros; go]. destruct (at_ a 1); try apply sim_ok; auto. destruct (1 <? z)%Z; [|go]. apply sim_bind; [now apply sim_rpcap|]. intros. go.
Qed.
Lemma sim_rocks ls ls' : pads ls ls' -> sim (read_rocks ls) (read_rocks ls').
Proof. intros P. unfold read_rocks. rewrite (pads_length _ _ P). apply sim_bind; [apply sim_iter; [exact sim_rock|exact P]|]. intros. go. Qed.
Lemma sim_flac o ls ls' : pads ls ls' -> sim (read_flac o ls) (read_flac o ls').
Proof.
  intros P. unfold read_flac. go. apply sim_bind; [|intros; go].
  assert (X : forall o d ls ls', pads ls ls' -> sim (foldM read_flac_rock (d, ls) o) (foldM read_flac_rock (d, ls') o)).
  { clear. intros o. induction o as [|x o IH]; intros d ls ls' P; cbn [foldM]; [now apply sim_ok|]. apply sim_bind; [|intros; now apply IH].
    unfold read_flac_rock. cbn [fst snd]. go. }
  now apply X.
Qed.
Lemma sim_multi ls ls' : pads ls ls' -> sim (read_multi ls) (read_multi ls').
Proof. intros P. unfold read_multi. go. Qed.
Lemma sim_solvr ls ls' : pads ls ls' -> sim (read_solvr ls) (read_solvr ls').
Proof. intros P. unfold read_solvr. go. Qed.
Lemma sim_selec ls ls' : pads ls ls' -> sim (read_selec ls) (read_selec ls').
Proof.
  intros P. unfold read_selec. go. apply sim_bind; [|intros; go]. destruct a0; [|go]. apply sim_bind; [|intros; go]. apply sim_repeat; [|assumption]. intros. now rec.
Qed.
Lemma sim_two f stop two ls ls' : no_S f = true -> (forall l l', ws l l' -> stop l' = stop l) -> pads ls ls' -> sim (read_two f stop two ls) (read_two f stop two ls').
Proof.
  intros N ST P. unfold read_two. go. destruct two; [|go]. go. rewrite (ST _ _ ltac:(eassumption)). destruct (stop _); [go|].
  match goal with |- context [read_record ?l f] => destruct (read_record l f) as [more|e] end; [go|]. destruct e; go.
Qed.
Lemma sim_indom ls ls' : pads ls ls' -> sim (read_indom ls) (read_indom ls').
Proof.
  intros P. unfold read_indom. rewrite (pads_length _ _ P). apply sim_bind; [|intros; go]. apply sim_iter; [|exact P]. clear. intros st ls ls' P.
  unfold read_indom_rock. go. destruct (blank _); go. apply sim_bind; [apply sim_two; [vm_compute; reflexivity|apply ws_blank|assumption]|]. intros [? ?] ? ? ?. go.
Qed.
Lemma sim_table f n : no_S f = true -> forall fuel acc ls ls', pads ls ls' -> sim (read_table fuel f n acc ls) (read_table fuel f n acc ls').
Proof.
  intros N fuel. induction fuel as [|fuel IH]; intros acc ls ls' P; cbn [read_table]; destruct (_ <? n)%Z; try apply sim_err; try (now apply sim_ok). go. now apply IH.
Qed.
Lemma sim_times ls ls' : pads ls ls' -> sim (read_times ls) (read_times ls').
Proof.
  intros P. unfold read_times. go. destruct (at_ _ 0); try apply sim_err. match goal with P : pads ?r ?r' |- context [List.length ?r'] => rewrite (pads_length _ _ P) end.
  apply sim_bind; [apply sim_table; [vm_compute; reflexivity|assumption]|]. intros. go.
Qed.
Lemma sim_oft k ls ls' : pads ls ls' -> sim (read_oft k ls) (read_oft k ls').
Proof.
  intros P. unfold read_oft. rewrite (pads_length _ _ P). apply sim_bind; [|intros; go]. apply sim_iter; [|exact P]. clear. intros st ls ls' P.
  unfold read_oft_line. go. destruct (rstrip _); go.
Qed.
Lemma sim_label ll {B} ls ls' (k k' : nat -> res (B * list str)) : pads ls ls' -> (forall n, sim (k n) (k' n)) -> sim (bind (label_len ll ls) k) (bind (label_len ll ls') k').
Proof.
  intros P K. unfold label_len. destruct P as [|l l' r r' W P]; cbn [next bind]; [apply sim_err|]. rewrite (ws_label _ _ (ws_firstn 9 _ _ W)). apply K.
Qed.
Lemma sim_tables n keys : forall ls ls', pads ls ls' -> sim (read_tables keys n ls) (read_tables keys n ls').
Proof.
  induction keys as [|k keys IH]; intros ls ls' P; cbn [read_tables]; [now apply sim_ok|]. rewrite (pads_length _ _ P).
  apply sim_bind; [apply sim_table; [vm_compute; reflexivity|exact P]|]. intros. apply sim_bind; [now apply IH|]. intros. go.
Qed.
Lemma sim_gener ll ls ls' : pads ls ls' -> sim (read_gener ll ls) (read_gener ll ls').
Proof.
  intros P. unfold read_gener. apply sim_label; [exact P|]. intros n. rewrite (pads_length _ _ P). apply sim_bind; [|intros; go]. apply sim_iter; [|exact P]. clear ls ls' P. intros st ls ls' P.
  unfold read_generator. go. destruct (blank _); go. assert (N : no_S a = true) by (match goal with H : fmt_GENER n = Ok a |- _ => exact (proj1 (formats n) a H) end). go. apply sim_bind; [|intros; go].
  destruct (match at_ _ 5 with PInt _ => _ | _ => _ end); [|go]. go. apply sim_bind; [now apply sim_tables|]. intros. go.
Qed.
Lemma sim_diffu ls ls' : pads ls ls' -> sim (read_diffu ls) (read_diffu ls').
Proof.
  intros P. unfold read_diffu. rewrite (pads_length _ _ P). apply sim_bind; [|intros; go]. apply sim_iter; [|exact P]. clear. intros st ls ls' P.
  unfold read_diffu_row. go. destruct (blank _); [go|]. match goal with |- context [read_record ?x fmt_DIFFU] => generalize (read_record x fmt_DIFFU) end. intros [d|e]; [go|]. destruct e; go.
Qed.
Lemma sim_outpu ls ls' : pads ls ls' -> sim (read_outpu ls) (read_outpu ls').
Proof.
  intros P. unfold read_outpu. go. apply sim_bind; [destruct (_ && _); go|]. intros [f line] s s' P'. destruct (all_digits line); [|go]. go. apply sim_bind; [|intros; go].
  apply sim_repeat; [|exact P']. intros st l0 l1 W. unfold read_variable. now rec.
Qed.
Lemma sim_eleme ll ls ls' : pads ls ls' -> sim (read_eleme ll ls) (read_eleme ll ls').
Proof.
  intros P. unfold read_eleme. apply sim_label; [exact P|]. intros n. rewrite (pads_length _ _ P). apply sim_bind; [|intros; go]. apply sim_iter; [|exact P]. clear ls ls' P. intros st ls ls' P.
  unfold read_element. go. destruct (blank _); go. assert (N : no_S a = true) by (match goal with H : fmt_ELEME n = Ok a |- _ => exact (proj1 (proj2 (formats n)) a H) end). go.
Qed.
Lemma sim_coord ls ls' : pads ls ls' -> sim (read_coord ls) (read_coord ls').
Proof.
  intros P. unfold read_coord. rewrite (pads_length _ _ P). apply sim_iter; [|exact P]. clear. intros st ls ls' P. unfold read_coord_line. go. destruct (blank _); go.
Qed.
Lemma sim_conne ll ls ls' : pads ls ls' -> sim (read_conne ll ls) (read_conne ll ls').
Proof.
  intros P. unfold read_conne. apply sim_label; [exact P|]. intros n. rewrite (pads_length _ _ P). apply sim_bind; [|intros; go]. apply sim_iter; [|exact P]. clear ls ls' P. intros st ls ls' P.
  unfold read_connection. go. destruct (_ || _); go. assert (N : no_S a = true) by (match goal with H : fmt_CONNE n = Ok a |- _ => exact (proj1 (proj2 (proj2 (formats n))) a H) end). go.
Qed.
Lemma sim_incon ll ls ls' : pads ls ls' -> sim (read_incon ll ls) (read_incon ll ls').
Proof.
  intros P. unfold read_incon. apply sim_label; [exact P|]. intros n. rewrite (pads_length _ _ P). apply sim_bind; [|intros [[? ?] ?] ? ? ?; go]. apply sim_iter; [|exact P]. clear ls ls' P. intros [[d order] two] ls ls' P.
  unfold read_initial. go. destruct (_ || _); go. assert (N : no_S a = true) by (match goal with H : fmt_INCON n = Ok a |- _ => exact (proj2 (proj2 (proj2 (formats n))) a H) end). go.
  apply sim_bind; [apply sim_two; [vm_compute; reflexivity|intros x x' X; unfold plus3; rewrite (ws_blank x x' X), (ws_starts ($"+++") x x' eq_refl X); reflexivity|assumption]|]. intros [? ?] ? ? ?. go.
Qed.

Lemma sim_digits {B} fmt d d' i (k k' : dict -> res (B * list str)) : agrees fmt d d' -> Ascii.eqb (tok_t (nth i fmt (Tok 0 None " "))) "S" = true ->
  (forall m, sim (k m) (k' m)) -> sim (bind (option_digits (at_ d i)) k) (bind (option_digits (at_ d' i)) k').
Proof.
  intros A N K. destruct (agrees_S fmt d d' i A N) as (s & s' & -> & -> & (b & u & v & E & E' & U & V) & L).
  destruct s as [|c s]; [apply sim_err|]. cbn [S_value option_digits bind]. destruct s' as [|c' s']; cbn [S_value option_digits bind].
  - intros x r _. right. split; [|reflexivity]. destruct allow; [reflexivity|]. specialize (L eq_refl). cbn in L. lia.
  - rewrite E, E', !digits_space by assumption. apply K.
Qed.
Lemma sim_momop ls ls' : pads ls ls' -> sim (read_momop ls) (read_momop ls').
Proof.
  intros P. unfold read_momop. apply sim_next; [exact P|]. intros l l' r r' W P'. pose proof (record_agrees fmt_MOMOP l l' W) as A.
  destruct (read_record l fmt_MOMOP) as [d|e]; [|apply sim_err]. destruct A as (d' & -> & A). cbn [bind]. apply (sim_digits fmt_MOMOP); [exact A|reflexivity|]. intros m. go.
Qed.
Lemma sim_param ls ls' : pads ls ls' -> sim (read_param ls) (read_param ls').
Proof.
  intros P. unfold read_param. apply sim_next; [exact P|]. intros l l' r r' W P'. pose proof (record_agrees fmt_PARAM_1 l l' W) as A.
  destruct (read_record l fmt_PARAM_1) as [d|e]; [|apply sim_err]. destruct A as (d' & -> & A). cbn [bind]. apply (sim_digits fmt_PARAM_1); [exact A|reflexivity|]. intros m.
  rewrite (agrees_at fmt_PARAM_1 d d' 0), (agrees_at fmt_PARAM_1 d d' 1), (agrees_at fmt_PARAM_1 d d' 2), (agrees_at fmt_PARAM_1 d d' 3), (agrees_at fmt_PARAM_1 d d' 4),
    (agrees_at fmt_PARAM_1 d d' 7), (agrees_at fmt_PARAM_1 d d' 8) by first [exact A|reflexivity].
  go. apply sim_bind.
  - destruct (0 <=? _)%Z; [go|]. apply sim_bind; [|intros; go]. apply sim_repeat; [|assumption]. intros. now rec.
  - intros ts s s' Q. go. apply sim_bind; [|intros; go]. match goal with |- context [read_record ?x fmt_PARAM_5] => generalize (read_record x fmt_PARAM_5) end. intros [more|e]; [go|]. destruct e; go.
Qed.
Lemma sim_block ll line line' p ls ls' : ws line line' -> pads ls ls' -> sim (read_block ll line p ls) (read_block ll line' p ls').
Proof.
  intros W P. unfold read_block. cbv beta zeta. rewrite !(fun kw K => ws_starts kw line line' K W) by reflexivity.
  Ltac part P := lazymatch goal with
    | |- sim (bind (read_rocks _) _) _ => apply sim_bind; [apply sim_rocks; exact P|]
    | |- sim (bind (read_rpcap _) _) _ => apply sim_bind; [apply sim_rpcap; exact P|]
    | |- sim (bind (read_flac _ _) _) _ => apply sim_bind; [apply sim_flac; exact P|]
    | |- sim (bind (read_multi _) _) _ => apply sim_bind; [apply sim_multi; exact P|]
    | |- sim (bind (read_solvr _) _) _ => apply sim_bind; [apply sim_solvr; exact P|]
    | |- sim (bind (read_param _) _) _ => apply sim_bind; [apply sim_param; exact P|]
    | |- sim (bind (read_selec _) _) _ => apply sim_bind; [apply sim_selec; exact P|]
    | |- sim (bind (read_indom _) _) _ => apply sim_bind; [apply sim_indom; exact P|]
    | |- sim (bind (read_momop _) _) _ => apply sim_bind; [apply sim_momop; exact P|]
    | |- sim (bind (read_times _) _) _ => apply sim_bind; [apply sim_times; exact P|]
    | |- sim (bind (read_oft _ _) _) _ => apply sim_bind; [apply sim_oft; exact P|]
    | |- sim (bind (read_gener _ _) _) _ => apply sim_bind; [apply sim_gener; exact P|]
    | |- sim (bind (read_diffu _) _) _ => apply sim_bind; [apply sim_diffu; exact P|]
    | |- sim (bind (read_outpu _) _) _ => apply sim_bind; [apply sim_outpu; exact P|]
    | |- sim (bind (read_eleme _ _) _) _ => apply sim_bind; [apply sim_eleme; exact P|]
    | |- sim (bind (read_coord _) _) _ => apply sim_bind; [apply sim_coord; exact P|]
    | |- sim (bind (read_conne _ _) _) _ => apply sim_bind; [apply sim_conne; exact P|]
    | |- sim (bind (read_incon _ _) _) _ => apply sim_bind; [apply sim_incon; exact P|]
    | |- sim (Ok _) _ => apply sim_ok; exact P
    | |- sim (bind (dgetE _ _) _) _ => apply sim_same; intros ? _; apply sim_same; intros ? _; apply sim_bind; [apply sim_flac; exact P|]
    end.
  repeat (lazymatch goal with |- sim (if ?b then _ else _) (if ?b then _ else _) => destruct b; [part P; try (let x := fresh in intros x ? ? ?; solve [go|destruct x as [? ?]; go|destruct x as [[? ?] ?]; go])|] end).
  now apply sim_ok.
Qed.
Definition follows_text {A} (x y : res A) : Prop := forall a, x = Ok a -> y = Ok a \/ (allow = true /\ y = Err TypeError).
Lemma sim_blocks ll : forall n p ls ls', pads ls ls' -> follows_text (read_blocks n ll p ls) (read_blocks n ll p ls').
Proof.
  induction n as [|n IH]; intros p ls ls' [|l l' r r' W P] a; cbn [read_blocks]; auto; try discriminate.
  intros E. pose proof (sim_block ll l l' p r r' W P) as B. destruct (read_block ll l p r) as [[[c q] s]|e]; [|discriminate E]. cbn [bind] in E.
  destruct (B (c, q) s eq_refl) as [(s' & -> & P')|(F & ->)]; [|right; auto]. cbn [bind]. destruct c; [exact (IH q s s' P' a E)|left; exact E].
Qed.
Lemma pads_readline ls ls' : pads ls ls' -> strip (fst (readline ls')) = strip (fst (readline ls)) /\ pads (snd (readline ls)) (snd (readline ls')).
Proof. intros [|l l' r r' W P]; cbn [readline fst snd]; [split; [reflexivity|constructor]|]. split; [now apply ws_strip|exact P]. Qed.
Lemma pads_title_loop n : forall t ls ls', pads ls ls' -> title_loop n t ls' = title_loop n t ls.
Proof.
  induction n as [|n IH]; intros t ls ls' P; cbn [title_loop]; [reflexivity|]. destruct (pads_readline _ _ P) as [E Q]. destruct (readline ls) as [l r], (readline ls') as [l' r']. cbn [fst snd] in *.
  rewrite E. destruct (startswith _ _); [reflexivity|]. now apply IH.
Qed.
Lemma pads_title n ls ls' : pads ls ls' -> read_title n ls' = read_title n ls.
Proof.
  intros P. unfold read_title. destruct (pads_readline _ _ P) as [E Q]. destruct (readline ls) as [l r], (readline ls') as [l' r']. cbn [fst snd] in *.
  rewrite E. now rewrite (pads_title_loop n _ r r' Q).
Qed.
Lemma sim_text fuel ll t t' : pads (lines t) (lines t') -> follows_text (read_text fuel ll t) (read_text fuel ll t').
Proof.
  intros P.
  assert (B : forall l, follows_text (read_buffer fuel l t) (read_buffer fuel l t')).
  { intros l a. unfold read_buffer. rewrite (pads_title fuel _ _ P), (pads_length _ _ P). destruct (read_title fuel (lines t)) as [q|e]; [|discriminate]. cbn [bind]. now apply sim_blocks. }
  unfold read_text. destruct ll as [z|]; [|apply B]. destruct (_ && _); [apply B|]. intros a E. discriminate E.
Qed.
End Padding.

Lemma end_spaces u : Forall end_blank u -> forallb is_space u = true.
Proof. induction 1 as [|c u [->|[->| ->]] F IH]; [reflexivity|exact IH|exact IH|exact IH]. Qed.
Lemma ends_ws allow l l' : same_but_end l l' -> (allow = false -> List.length l <= List.length l') -> ws allow l l'.
Proof. intros (b & u & v & A & B & U & V) L. split; [|exact L]. exists b, u, v. split; [exact A|]. split; [exact B|]. split; now apply end_spaces. Qed.
Lemma padded_read t t' fuel ll d : same_but_ends t t' -> not_shorter t t' -> read_text fuel ll t = Ok d -> read_text fuel ll t' = Ok d.
Proof.
  intros A B E. destruct (sim_text false fuel ll t t') with (a := d) as [X|[X _]]; [|exact E|exact X|discriminate X].
  unfold same_but_ends, not_shorter in *. revert B. induction A as [|l l' r r' W A IH]; intros B; [constructor|]. inversion B; subst. constructor; [|now apply IH]. now apply ends_ws.
Qed.
Lemma trailing_read t t' fuel ll d : same_but_ends t t' -> read_text fuel ll t = Ok d -> read_text fuel ll t' = Ok d \/ read_text fuel ll t' = Err TypeError.
Proof.
  intros A E. destruct (sim_text true fuel ll t t') with (a := d) as [X|[_ X]]; [|exact E|now left|now right].
  unfold same_but_ends in *. induction A as [|l l' r r' W A IH]; constructor; [|exact IH]. apply ends_ws; [exact W|discriminate].
Qed.
(** A check, for examples. *)
Definition blankb (c : ascii) : bool := Ascii.eqb c sp || Ascii.eqb c (ascii_of_nat 9) || Ascii.eqb c nl.
Fixpoint check_end (l l' : str) : bool :=
  match l, l' with
  | c :: r, c' :: r' => (Ascii.eqb c c' && check_end r r') || (forallb blankb l && forallb blankb l')
  | _, _ => forallb blankb l && forallb blankb l'
  end.
Lemma blankb_ok u : forallb blankb u = true -> Forall end_blank u.
Proof.
  rewrite forallb_forall, Forall_forall. intros H c I. specialize (H c I). unfold blankb in H. apply orb_true_iff in H as [H|H]; [apply orb_true_iff in H as [H|H]|]; apply Ascii.eqb_eq in H; unfold end_blank; auto.
Qed.
Lemma check_end_ok : forall l l', check_end l l' = true -> same_but_end l l'.
Proof.
  assert (N : forall l l', forallb blankb l && forallb blankb l' = true -> same_but_end l l').
  { intros l l' H. apply andb_true_iff in H as [A B]. exists [], l, l'. repeat split; now apply blankb_ok. }
  induction l as [|c r IH]; intros l' H; [apply N; destruct l'; exact H|]. destruct l' as [|c' r']; [now apply N|]. cbn [check_end] in H. apply orb_true_iff in H as [H|H]; [|now apply N].
  apply andb_true_iff in H as [E H]. apply Ascii.eqb_eq in E. subst c'. destruct (IH r' H) as (b & u & v & -> & -> & U & V). exists (c :: b), u, v. repeat split; auto.
Qed.
Fixpoint check2 {A} (f : A -> A -> bool) (l l' : list A) : bool := match l, l' with [], [] => true | x :: r, y :: r' => f x y && check2 f r r' | _, _ => false end.
Lemma check2_ok {A} (f : A -> A -> bool) (R : A -> A -> Prop) : (forall x y, f x y = true -> R x y) -> forall l l', check2 f l l' = true -> Forall2 R l l'.
Proof. intros H l. induction l as [|x l IH]; intros [|y l'] C; cbn in C; try discriminate; constructor; apply andb_true_iff in C as [C1 C2]; auto. Qed.
Lemma check_texts t t' : check2 check_end (lines t) (lines t') = true -> same_but_ends t t'.
Proof. apply check2_ok. exact check_end_ok. Qed.
Lemma check_lengths t t' : check2 (fun l l' => List.length l <=? List.length l') (lines t) (lines t') = true -> not_shorter t t'.
Proof. apply check2_ok. intros x y H. now apply Nat.leb_le. Qed.
