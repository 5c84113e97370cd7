(** Registration and choice of a format. *)
From Coq Require Import String Ascii ZArith Bool Lia List.
From Verif Require Import Base.Str Model.Py Model.Dispatch Spec.Dispatch.
Import ListNotations.
Local Open Scope Z_scope.

Lemma tget_tset {A} k k' (v : A) t : tget k (tset k' v t) = if streqb k k' then Some v else tget k t.
Proof.
  induction t as [|[q w] t IH]; cbn [tset tget].
  - reflexivity.
  - destruct (streqb k' q) eqn:E; cbn [tget].
    + apply streqb_eq in E as ->. destruct (streqb k q); reflexivity.
    + rewrite IH. destruct (streqb k q) eqn:F; [|reflexivity].
      apply streqb_eq in F as ->. rewrite streqb_sym in E. now rewrite E.
Qed.
Lemma tget_exts (f : str) exts t e : tget e (fold_left (fun acc ext => tset ext f acc) exts t) = if existsb (streqb e) exts then Some f else tget e t.
Proof.
  revert t. induction exts as [|x exts IH]; intros t; cbn [fold_left existsb]; auto.
  rewrite IH, tget_tset. destruct (streqb e x), (existsb (streqb e) exts); reflexivity.
Qed.
Lemma existsb_In e l : existsb (streqb e) l = true <-> In e l.
Proof.
  rewrite existsb_exists. split.
  - intros (x & I & E). apply streqb_eq in E. now subst.
  - intros I. exists e. split; auto. apply streqb_refl.
Qed.

(** The value in a table is that of the last registration setting it. *)
Section History.
Context {A B : Type}.
Variables (f : tables A -> option B) (P : registration A -> Prop) (g : registration A -> option B).
Hypothesis Pdec : forall r, {P r} + {~ P r}.
Hypothesis set : forall t r, P r -> f (register_format t r) = g r.
Hypothesis keep : forall t r, ~ P r -> f (register_format t r) = f t.
Lemma history_none hist t : Forall (fun r => ~ P r) hist -> f (fold_left register_format hist t) = f t.
Proof. revert t. induction hist as [|r h IH]; intros t F; auto. inversion_clear F. cbn [fold_left]. now rewrite IH, keep. Qed.
Lemma history_last hist r : last_such P hist r -> f (registered hist) = g r.
Proof.
  intros (a & b & -> & H & F). unfold registered. rewrite fold_left_app. cbn [fold_left].
  now rewrite history_none, set.
Qed.
Lemma history_never hist : Forall (fun r => ~ P r) hist -> f (registered hist) = f no_tables.
Proof. apply history_none. Qed.
End History.

Section Tables.
Context {A : Type}.
Implicit Types (hist : list (registration A)) (r : registration A).
Lemma In_dec_str (e : str) l : {In e l} + {~ In e l}.
Proof. apply in_dec, str_eq_dec. Qed.
Lemma ext_last hist e r : last_such (fun r => In e (r_exts r)) hist r -> tget e (t_ext (registered hist)) = Some (r_fmt r).
Proof.
  apply (history_last (fun t => tget e (t_ext t)) (fun r => In e (r_exts r)) (fun r => Some (r_fmt r))).
  - intros t r0 I. cbn [register_format t_ext]. rewrite tget_exts. apply existsb_In in I. now rewrite I.
  - intros t r0 I. cbn [register_format t_ext]. rewrite tget_exts. destruct (existsb (streqb e) (r_exts r0)) eqn:E; auto.
    apply existsb_In in E. contradiction.
Qed.
Lemma ext_never hist e : Forall (fun r => ~ In e (r_exts r)) hist -> tget e (t_ext (registered hist)) = None.
Proof.
  intros F. rewrite (history_never (fun t => tget e (t_ext t)) (fun r => In e (r_exts r))); auto.
  intros t r0 I. cbn [register_format t_ext]. rewrite tget_exts. destruct (existsb (streqb e) (r_exts r0)) eqn:E; auto.
  apply existsb_In in E. contradiction.
Qed.
Lemma read_last hist fmt r : last_such (fun r => r_fmt r = fmt /\ r_reader r <> None) hist r ->
  tget fmt (t_read (registered hist)) = r_reader r.
Proof.
  apply (history_last (fun t => tget fmt (t_read t)) (fun r => r_fmt r = fmt /\ r_reader r <> None) r_reader).
  - intros t r0 [<- N]. cbn [register_format t_read]. destruct (r_reader r0); [|congruence].
    now rewrite tget_tset, streqb_refl.
  - intros t r0 N. cbn [register_format t_read]. destruct (r_reader r0) eqn:E; auto. rewrite tget_tset.
    destruct (streqb fmt (r_fmt r0)) eqn:F; auto. apply streqb_eq in F. exfalso. apply N. split; congruence.
Qed.
Lemma read_never hist fmt : Forall (fun r => ~ (r_fmt r = fmt /\ r_reader r <> None)) hist ->
  tget fmt (t_read (registered hist)) = None.
Proof.
  intros F. rewrite (history_never (fun t => tget fmt (t_read t)) (fun r => r_fmt r = fmt /\ r_reader r <> None)); auto.
  intros t r0 N. cbn [register_format t_read]. destruct (r_reader r0) eqn:E; auto. rewrite tget_tset.
  destruct (streqb fmt (r_fmt r0)) eqn:G; auto. apply streqb_eq in G. exfalso. apply N. split; congruence.
Qed.
Lemma write_last hist fmt r : last_such (fun r => r_fmt r = fmt /\ r_writer r <> None) hist r ->
  tget fmt (t_write (registered hist)) = r_writer r.
Proof.
  apply (history_last (fun t => tget fmt (t_write t)) (fun r => r_fmt r = fmt /\ r_writer r <> None) r_writer).
  - intros t r0 [<- N]. cbn [register_format t_write]. destruct (r_writer r0); [|congruence].
    now rewrite tget_tset, streqb_refl.
  - intros t r0 N. cbn [register_format t_write]. destruct (r_writer r0) eqn:E; auto. rewrite tget_tset.
    destruct (streqb fmt (r_fmt r0)) eqn:F; auto. apply streqb_eq in F. exfalso. apply N. split; congruence.
Qed.
Lemma write_never hist fmt : Forall (fun r => ~ (r_fmt r = fmt /\ r_writer r <> None)) hist ->
  tget fmt (t_write (registered hist)) = None.
Proof.
  intros F. rewrite (history_never (fun t => tget fmt (t_write t)) (fun r => r_fmt r = fmt /\ r_writer r <> None)); auto.
  intros t r0 N. cbn [register_format t_write]. destruct (r_writer r0) eqn:E; auto. rewrite tget_tset.
  destruct (streqb fmt (r_fmt r0)) eqn:G; auto. apply streqb_eq in G. exfalso. apply N. split; congruence.
Qed.
End Tables.

(** ** Extensions *)
Lemma rfind_none c s : ~ In c s -> rfind c s = -1.
Proof.
  induction s as [|a s IH]; intros N; cbn [rfind]; auto. rewrite IH by (intros X; apply N; now right). cbn.
  destruct (Ascii.eqb c a) eqn:E; auto. apply Ascii.eqb_eq in E. exfalso. apply N. now left.
Qed.
Lemma rfind_range c s : -1 <= rfind c s < Z.of_nat (List.length s).
Proof.
  induction s as [|a s IH]; cbn [rfind List.length]; [lia|]. destruct (0 <=? rfind c s) eqn:E; [lia|].
  destruct (Ascii.eqb c a); lia.
Qed.
Lemma rfind_last c a b : ~ In c b -> rfind c (a ++ c :: b) = Z.of_nat (List.length a).
Proof.
  intros N. induction a as [|x a IH]; cbn [app rfind List.length].
  - rewrite rfind_none by auto. cbn. now rewrite Ascii.eqb_refl.
  - rewrite IH. destruct (Z.leb_spec 0 (Z.of_nat (List.length a))); lia.
Qed.
Lemma rfind_inv c s i : rfind c s = Z.of_nat i -> exists a b, s = a ++ c :: b /\ List.length a = i /\ ~ In c b.
Proof.
  revert i. induction s as [|x s IH]; intros i E; cbn [rfind] in E; [lia|].
  destruct (Z.leb_spec 0 (rfind c s)) as [L|L].
  - destruct i as [|i]; [lia|]. destruct (IH i) as (a & b & -> & La & N); [lia|].
    exists (x :: a), b. cbn. auto.
  - destruct (Ascii.eqb c x) eqn:F; [|lia]. apply Ascii.eqb_eq in F as ->. assert (i = 0%nat) as -> by lia.
    exists [], s. split; [reflexivity|]. split; [reflexivity|]. intros I. apply in_split in I as (a & b & ->).
    assert (R : forall (l : str) d, ~ rfind d (l ++ d :: b) < 0).
    { clear. induction l as [|y l IHl]; intros d; cbn [app rfind].
      - pose proof (rfind_range d b). destruct (Z.leb_spec 0 (rfind d b)); [lia|]. rewrite Ascii.eqb_refl. lia.
      - specialize (IHl d). destruct (Z.leb_spec 0 (rfind d (l ++ d :: b))); [lia|]. lia. }
    now apply (R a x).
Qed.
Lemma extension_of name ext : has_extension name ext -> extension name = ext.
Proof.
  intros (dir & base & e & -> & -> & D & B & E & F & (c & I & C)). unfold extension.
  assert (X : rfind "." (dir ++ base ++ "."%char :: e) = Z.of_nat (List.length (dir ++ base))) by (rewrite app_assoc; now apply rfind_last).
  assert (Y : rfind "/" (dir ++ base ++ "."%char :: e) = Z.of_nat (List.length dir) - 1).
  { destruct D as [->|(d & ->)].
    - cbn [app List.length]. rewrite rfind_none; [lia|]. rewrite in_app_iff. intros [|[|]]; [auto|discriminate|auto].
    - rewrite <- app_assoc. cbn [app]. rewrite rfind_last, app_length; [cbn; lia|].
      rewrite in_app_iff. intros [|[|]]; [auto|discriminate|auto]. }
  cbv zeta. rewrite X, Y. rewrite app_length. replace (_ <? _) with true by (symmetry; apply Z.ltb_lt; lia).
  replace (Z.to_nat (Z.of_nat (List.length dir) - 1 + 1)) with (List.length dir) by lia.
  rewrite Nat2Z.id. unfold slice. rewrite skipn_app, skipn_all, Nat.sub_diag. cbn [app skipn].
  replace (List.length dir + List.length base - List.length dir)%nat with (List.length base) by lia.
  rewrite firstn_app, firstn_all, Nat.sub_diag. cbn [firstn]. rewrite app_nil_r.
  replace (existsb _ base) with true.
  - rewrite skipn_app. rewrite skipn_all2 by lia. cbn [app].
    replace (List.length dir + List.length base - List.length dir)%nat with (List.length base) by lia.
    rewrite skipn_app, skipn_all, Nat.sub_diag. reflexivity.
  - symmetry. apply existsb_exists. exists c. split; auto. destruct (Ascii.eqb c ".") eqn:G; auto.
    apply Ascii.eqb_eq in G. congruence.
Qed.
Lemma extension_inv name : extension name <> [] -> has_extension name (extension name).
Proof.
  unfold extension. cbv zeta. destruct (Z.ltb_spec (rfind "/" name) (rfind "." name)) as [L|L]; [|congruence].
  destruct (existsb _ _) eqn:X; [|congruence]. intros _.
  pose proof (rfind_range "/" name) as R1. pose proof (rfind_range "." name) as R2.
  destruct (rfind_inv "." name (Z.to_nat (rfind "." name))) as (a & e & E & La & N); [lia|].
  rewrite <- La in *. replace (rfind "." name) with (Z.of_nat (List.length a)) in * by lia.
  assert (S1 : skipn (List.length a) name = "."%char :: e) by (rewrite E, skipn_app, skipn_all, Nat.sub_diag; reflexivity).
  rewrite S1. clear S1.
  destruct (Z.eq_dec (rfind "/" name) (-1)) as [M|M].
  - exists [], a, e. rewrite M in *. cbn [app]. split; auto. split; auto. split; auto.
    assert (Q : ~ In "/"%char name).
    { intros I. apply in_split in I as (u & v & Ev).
      assert (R : forall l, 0 <= rfind "/" (l ++ "/"%char :: v)).
      { clear. induction l as [|y l IHl]; cbn [app rfind].
        - pose proof (rfind_range "/" v). destruct (Z.leb_spec 0 (rfind "/" v)); cbn; lia.
        - destruct (Z.leb_spec 0 (rfind "/" (l ++ "/"%char :: v))); lia. }
      specialize (R u). rewrite <- Ev in R. lia. }
    rewrite E in Q. rewrite in_app_iff in Q. split; [tauto|]. split; [intros I; apply Q; right; now right|]. split; auto.
    replace (Z.to_nat (-1 + 1)) with 0%nat in X by reflexivity. unfold slice in X. cbn [skipn] in X. rewrite Nat.sub_0_r in X.
    rewrite E, firstn_app, firstn_all, Nat.sub_diag in X. cbn [firstn] in X. rewrite app_nil_r in X.
    apply existsb_exists in X as (c & I & C). exists c. split; auto. intros ->. discriminate.
  - destruct (rfind_inv "/" name (Z.to_nat (rfind "/" name))) as (d & w & Ed & Ld & Nd); [lia|].
    assert (LL : (List.length d < List.length a)%nat) by lia.
    assert (W : exists base, a = (d ++ ["/"%char]) ++ base /\ w = base ++ "."%char :: e).
    { assert (Q : a ++ "."%char :: e = (d ++ ["/"%char]) ++ w) by (rewrite <- app_assoc; cbn [app]; congruence).
      apply app_eq_app in Q as (l & [[Q1 Q2]|[Q1 Q2]]); [exists l; auto|].
      destruct l as [|x l]; [exists []; rewrite app_nil_r in *; cbn [app] in *; auto|].
      apply (f_equal (@List.length ascii)) in Q1. rewrite !app_length in Q1. cbn [List.length] in Q1. lia. }
    destruct W as (base & -> & ->). rewrite in_app_iff in Nd.
    exists (d ++ ["/"%char]), base, e. rewrite <- app_assoc. rewrite <- app_assoc in E. split; auto. split; auto. split; [eauto|].
    split; [tauto|]. split; [intros I; apply Nd; right; now right|]. split; auto.
    replace (Z.to_nat (rfind "/" name + 1)) with (List.length (d ++ ["/"%char])) in X by (rewrite app_length; cbn; lia).
    unfold slice in X. rewrite E in X.
    set (D := d ++ ["/"%char]) in *. clearbody D. rewrite skipn_app, skipn_all, Nat.sub_diag in X. cbn [app skipn] in X.
    rewrite app_length in X. replace (_ + List.length base - _)%nat with (List.length base) in X by lia.
    rewrite firstn_app, firstn_all, Nat.sub_diag in X. cbn [firstn] in X. rewrite app_nil_r in X.
    apply existsb_exists in X as (c & I & C). exists c. split; auto. intros ->. discriminate.
Qed.
Lemma no_extension name : (forall ext, ~ has_extension name ext) -> extension name = [].
Proof. intros N. destruct (extension name) eqn:E; auto. exfalso. apply (N (extension name)). apply extension_inv. congruence. Qed.

(** ** The function called *)
Section Choice.
Context {A : Type}.
Implicit Types (hist : list (registration A)) (r : registration A).
Lemma chosen_ext hist name ext r1 : has_extension name ext -> last_such (lists (lower ext)) hist r1 ->
  filetype_from_filename name (t_ext (registered hist)) = r_fmt r1.
Proof. intros H L. unfold filetype_from_filename. rewrite (extension_of _ _ H). now rewrite (ext_last _ _ _ L). Qed.
Lemma chosen_none hist name : (forall ext, has_extension name ext -> Forall (fun r => ~ lists (lower ext) r) hist) ->
  Forall (fun r => ~ lists [] r) hist -> filetype_from_filename name (t_ext (registered hist)) = [].
Proof.
  intros H H0. unfold filetype_from_filename. rewrite ext_never; auto.
  destruct (extension name) eqn:E; [exact H0|]. rewrite <- E. apply H. apply extension_inv. congruence.
Qed.
Lemma call_read hist fmt r f : last_such (reads fmt) hist r -> r_reader r = Some f -> call fmt (t_read (registered hist)) = Ok f.
Proof. intros L E. unfold call. now rewrite (read_last _ _ _ L), E. Qed.
Lemma call_write hist fmt r f : last_such (writes fmt) hist r -> r_writer r = Some f -> call fmt (t_write (registered hist)) = Ok f.
Proof. intros L E. unfold call. now rewrite (write_last _ _ _ L), E. Qed.
Lemma call_read_none hist fmt : Forall (fun r => ~ reads fmt r) hist -> call fmt (t_read (registered hist)) = Err KeyError.
Proof. intros L. unfold call. now rewrite (read_never _ _ L). Qed.
Lemma call_write_none hist fmt : Forall (fun r => ~ writes fmt r) hist -> call fmt (t_write (registered hist)) = Err KeyError.
Proof. intros L. unfold call. now rewrite (write_never _ _ L). Qed.

Lemma input_format_auto hist name fmt : format_for hist name fmt ->
  input_format (registered hist) (PStr name) None = Ok fmt.
Proof.
  intros [ext r H L N|H H0]; cbn [input_format].
  - rewrite (chosen_ext _ _ _ _ H L). destruct (r_fmt r); [congruence|reflexivity].
  - rewrite chosen_none by auto. reflexivity.
Qed.
Theorem input_read_auto hist name fmt r f : format_for hist name fmt -> last_such (reads fmt) hist r -> r_reader r = Some f ->
  input_reader (registered hist) (PStr name) None = Ok f.
Proof. intros H L E. unfold input_reader. rewrite (input_format_auto _ _ _ H). cbn [bind]. eapply call_read; eauto. Qed.
Theorem input_write_auto hist name fmt r f d : format_for hist name fmt -> last_such (writes fmt) hist r -> r_writer r = Some f ->
  input_writer (registered hist) (PStr name) (PDict d) None = Ok f.
Proof. intros H L E. unfold input_writer. rewrite (input_format_auto _ _ _ H). cbn [bind]. eapply call_write; eauto. Qed.
Theorem input_explicit hist name fmt d : In fmt [$"tough"; $"json"] ->
  (forall r f, last_such (reads fmt) hist r -> r_reader r = Some f -> input_reader (registered hist) (PStr name) (Some fmt) = Ok f) /\
  (forall r f, last_such (writes fmt) hist r -> r_writer r = Some f ->
     input_writer (registered hist) (PStr name) (PDict d) (Some fmt) = Ok f).
Proof.
  intros I. assert (E : input_format (registered hist) (PStr name) (Some fmt) = Ok fmt).
  { cbn [input_format]. apply existsb_In in I. now rewrite I. }
  unfold input_reader, input_writer. rewrite E. cbn [bind]. split; intros; [eapply call_read|eapply call_write]; eauto.
Qed.
Theorem input_refused (t : tables A) filename v fmt : ~ In fmt [$"tough"; $"json"] ->
  match filename with PStr _ => True | _ => False end -> match v with PDict _ => True | _ => False end ->
  input_reader t filename (Some fmt) = Err ValueError /\ input_writer t filename v (Some fmt) = Err ValueError.
Proof.
  intros N F V. destruct filename; try contradiction. destruct v; try contradiction.
  unfold input_reader, input_writer, input_format.
  destruct (existsb (streqb fmt) [$"tough"; $"json"]) eqn:E; [|auto]. apply existsb_In in E. contradiction.
Qed.
(** Without a reader or writer for the format: KeyError. *)
Theorem input_missing hist name fmt d : format_for hist name fmt ->
  (Forall (fun r => ~ reads fmt r) hist -> input_reader (registered hist) (PStr name) None = Err KeyError) /\
  (Forall (fun r => ~ writes fmt r) hist -> input_writer (registered hist) (PStr name) (PDict d) None = Err KeyError).
Proof.
  intros H. unfold input_reader, input_writer. rewrite (input_format_auto _ _ _ H). cbn [bind].
  split; intros; [now apply call_read_none|now apply call_write_none].
Qed.
(** Output and mesh files *)
Theorem output_auto hist name ext r1 r2 f : has_extension name ext -> last_such (lists (lower ext)) hist r1 ->
  last_such (writes (r_fmt r1)) hist r2 -> r_writer r2 = Some f ->
  output_writer (registered hist) (PStr name) None = Ok f /\ mesh_writer (registered hist) (PStr name) None = Ok (Some f).
Proof.
  intros H L W E. unfold output_writer, mesh_writer, either_format. rewrite (chosen_ext _ _ _ _ H L).
  split; [eapply call_write; eauto|]. now rewrite (write_last _ _ _ W), E.
Qed.
Theorem output_explicit hist name fmt r f : fmt <> [] -> last_such (writes fmt) hist r -> r_writer r = Some f ->
  output_writer (registered hist) (PStr name) (Some fmt) = Ok f /\ mesh_writer (registered hist) (PStr name) (Some fmt) = Ok (Some f).
Proof.
  intros N W E. destruct fmt as [|c fmt]; [congruence|]. unfold output_writer, mesh_writer, either_format.
  split; [eapply call_write; eauto|]. now rewrite (write_last _ _ _ W), E.
Qed.
Theorem mesh_auto hist name ext r1 r2 f : has_extension name ext -> last_such (lists (lower ext)) hist r1 ->
  last_such (reads (r_fmt r1)) hist r2 -> r_reader r2 = Some f -> mesh_reader (registered hist) (PStr name) None = Ok (Some f).
Proof.
  intros H L W E. unfold mesh_reader, either_format. rewrite (chosen_ext _ _ _ _ H L).
  now rewrite (read_last _ _ _ W), E.
Qed.
(** The case of an extension does not matter. *)
Theorem case_ignored (t : tables A) a b x y : has_extension a x -> has_extension b y -> lower x = lower y -> forall f d,
  input_reader t (PStr a) f = input_reader t (PStr b) f /\ input_writer t (PStr a) (PDict d) f = input_writer t (PStr b) (PDict d) f /\
  output_writer t (PStr a) f = output_writer t (PStr b) f /\
  mesh_reader t (PStr a) f = mesh_reader t (PStr b) f /\ mesh_writer t (PStr a) f = mesh_writer t (PStr b) f.
Proof.
  intros X Y E f d. assert (H : forall m, filetype_from_filename a m = filetype_from_filename b m).
  { intros m. unfold filetype_from_filename. now rewrite (extension_of _ _ X), (extension_of _ _ Y), E. }
  unfold input_reader, input_writer, output_writer, mesh_reader, mesh_writer, input_format, either_format.
  rewrite !H. auto.
Qed.
(** An extension with a capital letter never matches. *)
Lemma lower_upper_free s : existsb is_upper (lower s) = false.
Proof.
  induction s as [|c s IH]; auto. cbn [lower map existsb]. fold (lower s). rewrite IH, orb_false_r.
  destruct c as [[] [] [] [] [] [] [] []]; reflexivity.
Qed.
Theorem capital_never hist r name : Forall (fun e => existsb is_upper e = true) (r_exts r) ->
  filetype_from_filename name (t_ext (registered (hist ++ [r]))) = filetype_from_filename name (t_ext (registered hist)).
Proof.
  intros F. unfold filetype_from_filename, registered. rewrite fold_left_app. cbn [fold_left register_format t_ext].
  rewrite tget_exts. destruct (existsb _ (r_exts r)) eqn:E; auto. apply existsb_In in E. rewrite Forall_forall in F.
  specialize (F _ E). cbv beta in F. now rewrite lower_upper_free in F.
Qed.
End Choice.
