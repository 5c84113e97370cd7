(** The header and the zone record of Tecplot files. *)
From Coq Require Import String Ascii Arith ZArith Bool Lia List.
From Verif Require Import Base.Str Base.Digits Base.Flt Base.FltText Model.Py Model.Numpy Model.Dispatch Model.Output Proofs.CellText Proofs.TecplotProof.
From Verif Require Import Model.F3grid Model.TecMesh Spec.TecMesh Proofs.TecCells Proofs.F3Text.
Import ListNotations.
Local Open Scope nat_scope.

(** ** The names *)
Lemma commas_app a b : commas_out (a ++ b) = commas_out a ++ commas_out b.
Proof. apply map_app. Qed.
Lemma quoted_eq s : TecMesh.quoted s = quote :: s ++ [quote].
Proof. reflexivity. Qed.
Lemma readable_word k : readable k -> isword (TecMesh.quoted k) /\ lacks ","%char (TecMesh.quoted k) /\ lacks "="%char (TecMesh.quoted k) /\ nonl (TecMesh.quoted k) = true.
Proof.
  intros [_ H]. rewrite quoted_eq.
  assert (P : forall c, In c (quote :: k ++ [quote]) -> is_space c = false /\ c <> ","%char /\ c <> "="%char).
  { intros c [<-|I]; [repeat split; discriminate|]. apply in_app_or in I as [I|[<-|[]]]; [|repeat split; discriminate]. destruct (H c I) as (A & B & C & _). auto. }
  assert (NS : no_space_str (quote :: k ++ [quote]) = true).
  { unfold no_space_str. apply forallb_forall. intros c I. destruct (P c I) as [-> _]. reflexivity. }
  split; [split; [discriminate|exact NS]|]. split; [intros c I; now apply P|]. split; [intros c I; now apply P|]. now apply nonl_word.
Qed.
Lemma spread ws : Forall isword ws -> Forall (lacks ","%char) ws ->
  split_ws (commas_out (join $", " ws)) = ws.
Proof.
  intros F L. induction F as [|w ws W F IH]; [reflexivity|]. apply Forall_cons_iff in L as [L1 L]. destruct ws as [|w' ws].
  - cbn [join]. rewrite commas_lacks by auto. now apply split_ws_one.
  - replace (commas_out (join $", " (w :: w' :: ws))) with (w ++ sp :: [sp] ++ commas_out (join $", " (w' :: ws))).
    2:{ change (join $", " (w :: w' :: ws)) with (w ++ $", " ++ join $", " (w' :: ws)). rewrite !commas_app. now rewrite (commas_lacks w) by auto. }
    rewrite split_ws_word by auto. rewrite split_ws_lead by reflexivity. f_equal. now apply IH.
Qed.
Lemma unquote_quoted k : readable k -> unquote (TecMesh.quoted k) = k.
Proof.
  intros [_ H]. rewrite quoted_eq. assert (L : lacks quote k) by (intros c I; now apply H).
  unfold unquote. cbn [filter]. rewrite filter_app. fold (unquote k). rewrite unquote_lacks by auto. cbn. apply app_nil_r.
Qed.
Lemma names_back hs : Forall readable hs -> var_names (map TecMesh.quoted hs) = Ok hs.
Proof.
  induction 1 as [|k hs K F IH]; [reflexivity|]. cbn [map var_names].
  assert (E : startswith_c quote (TecMesh.quoted k) && endswith_c quote (TecMesh.quoted k) = true).
  { rewrite quoted_eq. cbn [startswith_c]. unfold endswith_c. change (quote :: k ++ [quote]) with ((quote :: k) ++ [quote]). rewrite rev_app_distr. reflexivity. }
  rewrite E, andb_false_r, IH. cbn [bind]. now rewrite unquote_quoted.
Qed.
Lemma lacks_joined d sep l : lacks d sep -> Forall (lacks d) l -> lacks d (join sep l).
Proof.
  intros S F. induction F as [|x l X F IH]; [intros c []|]. destruct l as [|y l]; [exact X|]. cbn [join]. apply lacks_app. split; [exact X|].
  apply lacks_app. now split.
Qed.
Lemma closes_joined sep l : l <> [] -> Forall closes l -> closes (join sep l).
Proof.
  intros N F. induction F as [|x l X F IH]; [congruence|]. destruct l as [|y l]; [exact X|]. cbn [join]. apply closes_app, closes_app, IH. discriminate.
Qed.
Definition names_line (hs : list str) : str := $"VARIABLES = " ++ join $", " (map TecMesh.quoted hs) ++ [nl].
Lemma names_read hs : Forall readable hs -> In $"X" hs -> In $"Y" hs ->
  one_line (names_line hs) /\ startswith $"VARIABLES" (upper (strip (names_line hs))) = true /\ read_variables (strip (names_line hs)) = Ok hs.
Proof.
  intros F X Y. assert (NE : hs <> []) by (intros ->; destruct X).
  assert (FQ : Forall (fun w => isword w /\ lacks ","%char w /\ lacks "="%char w /\ nonl w = true) (map TecMesh.quoted hs)).
  { apply Forall_map. eapply Forall_impl; [|exact F]. intros k. apply readable_word. }
  set (J := join $", " (map TecMesh.quoted hs)).
  assert (CL : closes J).
  { apply closes_joined; [intros E; now apply map_eq_nil in E|]. apply Forall_map, Forall_forall. intros k _. rewrite quoted_eq. exists (quote :: k), quote. split; reflexivity. }
  assert (ES : strip (names_line hs) = $"VARIABLES = " ++ J).
  { unfold names_line. fold J. rewrite app_assoc. apply strip_nl. apply open_close; [eexists _, _; split; reflexivity|]. now apply closes_app. }
  split; [|rewrite ES; split; [reflexivity|]].
  - exists ($"VARIABLES = " ++ J). split; [unfold names_line; now rewrite app_assoc|]. change (nonl ($"VARIABLES = " ++ J) = true). rewrite nonl_app. apply andb_true_iff. split; [reflexivity|].
    unfold J. clear - FQ. induction FQ as [|w ws (_ & _ & _ & W) FQ IH]; [reflexivity|]. destruct ws as [|w' ws]; [exact W|]. change (join $", " (w :: w' :: ws)) with (w ++ $", " ++ join $", " (w' :: ws)). rewrite !nonl_app, W, IH. reflexivity.
  - unfold read_variables. change ($"VARIABLES = " ++ J) with ($"VARIABLES " ++ "="%char :: [sp] ++ J).
    rewrite split_on_cons by (intros c I ->; cbn in I; intuition discriminate).
    assert (LE : lacks "="%char J).
    { apply lacks_joined; [intros c I ->; cbn in I; intuition discriminate|]. eapply Forall_impl; [|exact FQ]. cbn. tauto. }
    rewrite split_on_lacks by (apply lacks_app; split; [intros c [<-|[]]; discriminate|exact LE]). cbn [nth_error].
    rewrite commas_app. change (commas_out [sp]) with [sp]. rewrite split_ws_lead by reflexivity. unfold J. rewrite spread; auto.
    2:{ eapply Forall_impl; [|exact FQ]. cbn. tauto. } 2:{ eapply Forall_impl; [|exact FQ]. cbn. tauto. }
    rewrite names_back by auto. cbn [bind].
    assert (SM : forall k, In k hs -> smem k hs = true) by (intros k I; apply existsb_exists; exists k; split; auto; apply streqb_refl).
    rewrite (SM _ X), (SM _ Y). reflexivity.
Qed.

(** ** The zone *)
Lemma find_sub_word q sub a b : lacks q a -> find_sub (q :: sub) (a ++ (q :: sub) ++ b) = Some (a, (q :: sub) ++ b).
Proof.
  induction a as [|c a IH]; intros H.
  - rewrite app_nil_l. change ((q :: sub) ++ b) with (q :: sub ++ b). cbn [find_sub]. change (q :: sub ++ b) with ((q :: sub) ++ b). now rewrite startswith_app.
  - apply lacks_cons in H as [H1 H2]. cbn [app find_sub startswith]. assert (E : Ascii.eqb q c = false) by (apply Ascii.eqb_neq; congruence).
    rewrite E. cbn [andb]. change (a ++ q :: sub ++ b) with (a ++ (q :: sub) ++ b). now rewrite IH.
Qed.
Definition counts (n m : nat) : str := $"ZONE NODES = " ++ nat_text n ++ $", ELEMENTS = " ++ nat_text m ++ $",".
Definition packing (zone : str) : str := $"DATAPACKING = BLOCK, ZONETYPE = " ++ zone.
Definition centred (from to : nat) : str := $"VARLOCATION = ([" ++ location_text from to ++ $"] = CELLCENTERED)".
Definition pairs_of (n m : nat) (zone : str) : list (str * zval) :=
  [($"NODES", ZInt (Z.of_nat n)); ($"ELEMENTS", ZInt (Z.of_nat m)); ($"DATAPACKING", ZStr $"BLOCK"); ($"ZONETYPE", ZStr zone)].
Lemma nat_digits n : forallb is_digit (nat_text n) = true.
Proof. apply print_nat_digits. Qed.
Lemma word_step w r ws : isword w -> split_ws r = ws -> split_ws (w ++ sp :: r) = w :: ws.
Proof. intros W E. rewrite split_ws_word by auto. now rewrite E. Qed.
Lemma skip_step r ws : split_ws r = ws -> split_ws (sp :: r) = ws.
Proof. intros <-. apply (split_ws_lead [sp]). reflexivity. Qed.
Lemma last_step w t : isword w -> forallb is_space t = true -> split_ws (w ++ t) = [w].
Proof. intros W T. rewrite split_ws_trail by auto. now apply split_ws_one. Qed.
Lemma zone_words n m zone (t : str) : In zone zones -> forallb is_space (commas_out t) = true ->
  filter (fun w => negb (streqb w $"=")) (split_ws (commas_out ($"NODES = " ++ nat_text n ++ $", ELEMENTS = " ++ nat_text m ++ $", DATAPACKING = BLOCK, ZONETYPE = " ++ zone ++ t))) =
  [$"NODES"; nat_text n; $"ELEMENTS"; nat_text m; $"DATAPACKING"; $"BLOCK"; $"ZONETYPE"; zone].
Proof.
  intros Z T. rewrite !commas_app. assert (LN : forall k, commas_out (nat_text k) = nat_text k) by (intros k; apply commas_lacks, digits_lacks; [reflexivity|apply nat_digits]).
  rewrite !LN. assert (ZW : isword zone /\ commas_out zone = zone /\ streqb zone $"=" = false).
  { cbn in Z. destruct Z as [<-|[<-|[<-|[<-|[]]]]]; (split; [split; [discriminate|reflexivity]|split; reflexivity]). }
  destruct ZW as (ZW & -> & ZE).
  assert (W : forall c s, no_space_str (c :: s) = true -> isword (c :: s)) by (intros c s H; split; [discriminate|exact H]).
  assert (E : split_ws (commas_out $"NODES = " ++ nat_text n ++ commas_out $", ELEMENTS = " ++ nat_text m ++ commas_out $", DATAPACKING = BLOCK, ZONETYPE = " ++ zone ++ commas_out t) =
    [$"NODES"; $"="; nat_text n; $"ELEMENTS"; $"="; nat_text m; $"DATAPACKING"; $"="; $"BLOCK"; $"ZONETYPE"; $"="; zone]).
  { apply (word_step $"NODES"); [now apply W|]. apply (word_step $"="); [now apply W|].
    apply (word_step (nat_text n)); [apply isword_nat|]. apply skip_step. apply (word_step $"ELEMENTS"); [now apply W|]. apply (word_step $"="); [now apply W|].
    apply (word_step (nat_text m)); [apply isword_nat|]. apply skip_step. apply (word_step $"DATAPACKING"); [now apply W|]. apply (word_step $"="); [now apply W|].
    apply (word_step $"BLOCK"); [now apply W|]. apply skip_step. apply (word_step $"ZONETYPE"); [now apply W|]. apply (word_step $"="); [now apply W|].
    now apply last_step. }
  rewrite E. assert (D : forall k, streqb (nat_text k) $"=" = false).
  { intros k. apply streqb_neq. intros X. pose proof (nat_digits k) as Y. rewrite X in Y. discriminate. }
  cbn [filter]. change (streqb $"NODES" $"=") with false. change (streqb $"=" $"=") with true. change (streqb $"ELEMENTS" $"=") with false.
  change (streqb $"DATAPACKING" $"=") with false. change (streqb $"BLOCK" $"=") with false. change (streqb $"ZONETYPE" $"=") with false.
  rewrite !D, ZE. reflexivity.
Qed.
Lemma zone_pairs_ok z0 n m zone : In zone zones -> z0 = [] \/ (exists s, z0 = [($"VARLOCATION", ZStr s)]) ->
  zone_pairs z0 [$"NODES"; nat_text n; $"ELEMENTS"; nat_text m; $"DATAPACKING"; $"BLOCK"; $"ZONETYPE"; zone] = Ok (z0 ++ pairs_of n m zone).
Proof.
  intros Z H. assert (NE : forall k, no_equal (nat_text k) = nat_text k) by (intros k; apply no_equal_lacks, digits_lacks; [reflexivity|apply nat_digits]).
  assert (VI : forall s k, smem $s zone_int_keys = true -> zone_value $s (nat_text k) = Ok (ZInt (Z.of_nat k))).
  { intros s k E. unfold zone_value. rewrite E. unfold nat_text. now rewrite parse_print_Z. }
  assert (S : forall z k v r, contains "=" k = false -> zone_pairs z (k :: v :: r) = let* x := zone_value k (no_equal v) in zone_pairs (tset k x z) r).
  { intros z k v r E. cbn [zone_pairs]. now rewrite E. }
  rewrite S by reflexivity. rewrite NE, VI by reflexivity. cbn [bind]. rewrite S by reflexivity. rewrite NE, VI by reflexivity. cbn [bind].
  rewrite S by reflexivity. change (zone_value $"DATAPACKING" (no_equal $"BLOCK")) with (Ok (ZStr $"BLOCK")). cbn [bind].
  rewrite S by reflexivity. assert (EZ : zone_value $"ZONETYPE" (no_equal zone) = Ok (ZStr zone)) by (cbn in Z; destruct Z as [<-|[<-|[<-|[<-|[]]]]]; reflexivity).
  rewrite EZ. cbn [bind zone_pairs]. f_equal. destruct H as [->|[s ->]]; reflexivity.
Qed.
Definition prefix (n m : nat) (zone : str) : str := $"NODES = " ++ nat_text n ++ $", ELEMENTS = " ++ nat_text m ++ $", DATAPACKING = BLOCK, ZONETYPE = " ++ zone.
Definition letters : str := $"NODES = , ELEMENTS = , DATAPACKING = BLOCK, ZONETYPE = FETRIANGLEQUADRILATERALHEDRONBRICK".
Lemma prefix_lacks d n m zone : In zone zones -> is_digit d = false -> existsb (Ascii.eqb d) letters = false -> lacks d (prefix n m zone).
Proof.
  intros Z D L. unfold prefix. assert (LN : forall k, lacks d (nat_text k)) by (intros k; apply digits_lacks; [exact D|apply nat_digits]).
  assert (SUB : forall s, forallb (fun c => existsb (Ascii.eqb c) letters) s = true -> lacks d s).
  { intros s H c I ->. rewrite forallb_forall in H. rewrite (H _ I) in L. discriminate. }
  apply lacks_app. split; [apply SUB; reflexivity|]. apply lacks_app. split; [apply LN|].
  apply lacks_app. split; [apply SUB; reflexivity|]. apply lacks_app. split; [apply LN|].
  apply lacks_app. split; [apply SUB; reflexivity|]. apply SUB. cbn in Z. destruct Z as [<-|[<-|[<-|[<-|[]]]]]; reflexivity.
Qed.
Lemma zone_plain n m zone : In zone zones -> Output.read_zone (counts n m ++ sp :: packing zone) = Ok (pairs_of n m zone).
Proof.
  intros Z. unfold Output.read_zone. assert (E : skipn 5 (counts n m ++ sp :: packing zone) = prefix n m zone).
  { unfold counts, packing, prefix. rewrite <- !app_assoc. reflexivity. }
  rewrite E. unfold zone_title. rewrite find_sub_none by (apply prefix_lacks; auto). cbn [bind].
  unfold zone_varlocation. rewrite (find_sub_none "V"%char $"ARLOCATION") by (apply prefix_lacks; auto). cbn [bind map].
  pose proof (zone_words n m zone [] Z eq_refl) as W. rewrite app_nil_r in W. fold (prefix n m zone) in W. rewrite W. rewrite zone_pairs_ok by auto. reflexivity.
Qed.
Lemma zone_located n m zone (s : str) : In zone zones -> (forall d, In d ["("; ")"; quote; sp]%char -> lacks d s) ->
  Output.read_zone (counts n m ++ sp :: (packing zone ++ $",") ++ sp :: $"VARLOCATION = ([" ++ s ++ $"] = CELLCENTERED)") =
  Ok (($"VARLOCATION", ZStr ($"([" ++ s ++ $"]=CELLCENTERED)")) :: pairs_of n m zone).
Proof.
  intros Z L. unfold Output.read_zone. set (line := counts n m ++ sp :: (packing zone ++ $",") ++ sp :: $"VARLOCATION = ([" ++ s ++ $"] = CELLCENTERED)").
  assert (E : skipn 5 line = (prefix n m zone ++ $", ") ++ $"VARLOCATION" ++ $" = " ++ ("("%char :: "["%char :: s) ++ $"] = CELLCENTERED)").
  { unfold line, counts, packing, prefix. rewrite <- !app_assoc. reflexivity. }
  rewrite E. clear E line. set (line := (prefix n m zone ++ $", ") ++ $"VARLOCATION" ++ $" = " ++ ("("%char :: "["%char :: s) ++ $"] = CELLCENTERED)").
  assert (LP : forall d, is_digit d = false -> existsb (Ascii.eqb d) letters = false -> lacks d (prefix n m zone ++ $", ")).
  { intros d D X. apply lacks_app. split; [now apply prefix_lacks|]. intros c I ->. cbn in I. destruct I as [<-|[<-|[]]]; vm_compute in X; discriminate X. }
  assert (LL : lacks quote line).
  { unfold line. apply lacks_app. split; [now apply LP|]. apply lacks_app. split; [intros c I ->; cbn in I; intuition discriminate|].
    apply lacks_app. split; [intros c I ->; cbn in I; intuition discriminate|]. apply lacks_app.
    split; [apply lacks_cons; split; [discriminate|]; apply lacks_cons; split; [discriminate|]; apply L; cbn; tauto|].
    intros c I ->; cbn in I; intuition discriminate. }
  unfold zone_title. rewrite find_sub_none by exact LL. cbn [bind]. unfold zone_varlocation.
  assert (E1 : find_sub $"VARLOCATION" line = Some (prefix n m zone ++ $", ", $"VARLOCATION" ++ $" = " ++ ("("%char :: "["%char :: s) ++ $"] = CELLCENTERED)")).
  { apply find_sub_word. now apply LP. }
  rewrite E1.
  set (a := (prefix n m zone ++ $", ") ++ $"VARLOCATION = ").
  set (b := a ++ "("%char :: "["%char :: s ++ $"] = CELLCENTERED").
  assert (EA : line = a ++ "("%char :: ("["%char :: s) ++ $"] = CELLCENTERED)") by (unfold line, a; rewrite <- !app_assoc; reflexivity).
  assert (EB : line = b ++ ")"%char :: []) by (unfold line, b, a; rewrite <- !app_assoc; cbn [app]; rewrite <- !app_assoc; reflexivity).
  assert (E2 : find_sub $"(" line = Some (a, "("%char :: ("["%char :: s) ++ $"] = CELLCENTERED)")).
  { rewrite EA. apply find_sub_at. unfold a. apply lacks_app. split; [now apply LP|]. intros c I ->; cbn in I; intuition discriminate. }
  assert (E3 : find_sub $")" line = Some (b, [")"%char])).
  { rewrite EB. apply find_sub_at. unfold b, a. apply lacks_app. split; [apply lacks_app; split; [now apply LP|intros c I ->; cbn in I; intuition discriminate]|].
    apply lacks_cons; split; [discriminate|]; apply lacks_cons; split; [discriminate|]. apply lacks_app. split; [apply L; cbn; tauto|intros c I ->; cbn in I; intuition discriminate]. }
  rewrite E2, E3.
  assert (E4 : slice (List.length a) (S (List.length b)) line = "("%char :: "["%char :: s ++ $"] = CELLCENTERED)").
  { unfold slice. rewrite EA. rewrite skipn_app, skipn_all, Nat.sub_diag. cbn [app skipn]. apply firstn_all2.
    assert (LB : List.length b = List.length a + S (S (List.length s + 16))) by (unfold b; rewrite app_length; cbn [List.length]; rewrite app_length; reflexivity).
    assert (LX : List.length ("("%char :: "["%char :: s ++ $"] = CELLCENTERED)") = S (S (List.length s + 17))) by (cbn [List.length]; rewrite app_length; reflexivity).
    match goal with |- List.length ?x <= _ => change x with ("("%char :: "["%char :: s ++ $"] = CELLCENTERED)") end. rewrite LX, LB. lia. }
  rewrite E4.
  assert (E5 : skipn (S (List.length b)) line = []).
  { apply skipn_all2. rewrite EB, app_length. cbn [List.length]. lia. }
  rewrite E5, app_nil_r. cbn [bind map fst snd].
  assert (E6 : filter (fun c => negb (Ascii.eqb c sp)) ("("%char :: "["%char :: s ++ $"] = CELLCENTERED)") = $"([" ++ s ++ $"]=CELLCENTERED)").
  { cbn [filter]. change (negb (Ascii.eqb "(" sp)) with true. change (negb (Ascii.eqb "[" sp)) with true. cbn match. rewrite filter_app.
    assert (FS : forall s, lacks sp s -> filter (fun c => negb (Ascii.eqb c sp)) s = s).
    { clear. induction s as [|c s IH]; intros H; [reflexivity|]. apply lacks_cons in H as [H1 H2]. cbn [filter]. apply Ascii.eqb_neq in H1. rewrite H1. cbn [negb]. now rewrite IH. }
    rewrite FS by (apply L; cbn; tauto). reflexivity. }
  rewrite E6. pose proof (zone_words n m zone $", " Z eq_refl) as W.
  assert (EW : prefix n m zone ++ $", " = $"NODES = " ++ nat_text n ++ $", ELEMENTS = " ++ nat_text m ++ $", DATAPACKING = BLOCK, ZONETYPE = " ++ zone ++ $", ") by (unfold prefix; now rewrite <- !app_assoc).
  rewrite EW, W. rewrite zone_pairs_ok by eauto. reflexivity.
Qed.

(** ** The format *)
Lemma entries_plain k n m zone : parse_fezone (pairs_of n m zone) k = Ok (Fezone n m true zone (repeat false k)).
Proof.
  unfold parse_fezone, pairs_of, count_of, entry, text_of. cbn -[Z.of_nat Z.to_nat Z.leb repeat]. rewrite !(proj2 (Z.leb_le _ _)) by lia. cbn [guard bind]. now rewrite !Nat2Z.id.
Qed.
Lemma centre_ok p q a : forall c, centre (Z.of_nat (p + c)) (Z.of_nat (p + c + q) - 1) (repeat false p ++ repeat true c ++ repeat false (q + a)) =
  Ok (repeat false p ++ repeat true (c + q) ++ repeat false a).
Proof.
  unfold centre. intros c. replace (Z.of_nat (p + c + q) - 1 - Z.of_nat (p + c) + 1)%Z with (Z.of_nat q) by lia. rewrite Nat2Z.id.
  assert (G : forall q b c, foldM (fun fl z => let* _ := guard (0 <=? z)%Z Unmodelled in let* _ := guard (Z.to_nat z <? List.length fl) IndexError in Ok (set_nth (Z.to_nat z) true fl))
    (repeat false p ++ repeat true c ++ repeat false (q + a)) (map (fun i => (Z.of_nat b + Z.of_nat i)%Z) (seq (p + c - b) q)) =
    if b <=? p + c then Ok (repeat false p ++ repeat true (c + q) ++ repeat false a) else
    foldM (fun fl z => let* _ := guard (0 <=? z)%Z Unmodelled in let* _ := guard (Z.to_nat z <? List.length fl) IndexError in Ok (set_nth (Z.to_nat z) true fl))
    (repeat false p ++ repeat true c ++ repeat false (q + a)) (map (fun i => (Z.of_nat b + Z.of_nat i)%Z) (seq (p + c - b) q))).
  { clear. induction q as [|q IH]; intros b c; destruct (Nat.leb_spec b (p + c)) as [B|B]; try reflexivity.
    - cbn. now rewrite Nat.add_0_r.
    - cbn [seq map foldM]. rewrite (proj2 (Z.leb_le _ _)) by lia. cbn [guard bind].
      replace (Z.to_nat (Z.of_nat b + Z.of_nat (p + c - b))) with (p + c) by lia.
      assert (LT : (p + c <? List.length (repeat false p ++ repeat true c ++ repeat false (S q + a))) = true).
      { apply Nat.ltb_lt. rewrite !app_length, !repeat_length. lia. }
      rewrite LT. cbn [guard bind].
      assert (ES : set_nth (p + c) true (repeat false p ++ repeat true c ++ repeat false (S q + a)) = repeat false p ++ repeat true (S c) ++ repeat false (q + a)).
      { change (repeat false (S q + a)) with (false :: repeat false (q + a)). rewrite app_assoc, AvsucdProof.set_nth_app by (rewrite app_length, !repeat_length; reflexivity).
        rewrite <- app_assoc. f_equal. change (repeat true (S c)) with (true :: repeat true c). rewrite repeat_cons, <- app_assoc. reflexivity. }
      rewrite ES. replace (S (p + c - b)) with (p + S c - b) by lia. rewrite IH. replace (b <=? p + S c) with true by (symmetry; apply Nat.leb_le; lia).
      now replace (S c + q) with (c + S q) by lia. }
  specialize (G q (p + c) c). rewrite Nat.leb_refl, Nat.sub_diag in G. exact G.
Qed.
Lemma range_read p q : 0 < q -> one_location (repeat false (p + q)) ($"[" ++ location_text (S p) (p + q) ++ $"]=CELLCENTERED") = Ok (repeat false p ++ repeat true q).
Proof.
  intros Q. pose proof (centre_ok p q 0 0) as C. rewrite !Nat.add_0_r in C. cbn [repeat app] in C. rewrite app_nil_r in C. rewrite <- repeat_app in C. rewrite Nat.add_0_l in C.
  assert (LD : forall d k, is_digit d = false -> lacks d (nat_text k)) by (intros d k D; apply digits_lacks; [exact D|apply nat_digits]).
  set (loc := location_text (S p) (p + q)). assert (LE : lacks "="%char loc).
  { unfold loc, location_text. destruct (S p =? p + q); [now apply LD|]. apply lacks_app. split; [now apply LD|]. apply lacks_cons. split; [discriminate|now apply LD]. }
  unfold one_location.
  assert (E : $"[" ++ loc ++ $"]=CELLCENTERED" = ("["%char :: loc ++ $"]") ++ "="%char :: $"CELLCENTERED") by (cbn [app]; rewrite <- app_assoc; reflexivity).
  rewrite E, split_on_cons. 2:{ apply lacks_cons. split; [discriminate|]. apply lacks_app. split; [exact LE|]. intros c [<-|[]]; discriminate. }
  change (split_on "=" $"CELLCENTERED") with [$"CELLCENTERED"]. cbn match. change (streqb (strip $"CELLCENTERED") $"CELLCENTERED") with true. cbn match.
  assert (EI : inner ("["%char :: loc ++ $"]") = loc).
  { unfold inner. cbn [tl]. change $"]" with ["]"%char]. apply removelast_last. }
  rewrite EI. unfold loc, location_text. destruct (Nat.eqb_spec (S p) (p + q)) as [X|X].
  - rewrite split_on_lacks by now apply LD. cbn match. rewrite to_int_nat. cbn [bind]. rewrite <- C. f_equal; lia.
  - rewrite split_on_cons by now apply LD. rewrite split_on_lacks by now apply LD. rewrite !to_int_nat. cbn [bind]. rewrite <- C. f_equal; lia.
Qed.
Lemma entries_located p q n m zone : 0 < q ->
  parse_fezone (($"VARLOCATION", ZStr ($"([" ++ location_text (S p) (p + q) ++ $"]=CELLCENTERED)")) :: pairs_of n m zone) (p + q) = Ok (Fezone n m true zone (repeat false p ++ repeat true q)).
Proof.
  intros Q. unfold parse_fezone, count_of, entry, text_of, pairs_of.
  cbn -[Z.of_nat Z.to_nat Z.leb repeat one_location location_text inner split_on streqb lit]. cbn -[Z.of_nat Z.to_nat Z.leb repeat one_location location_text inner split_on].
  rewrite !(proj2 (Z.leb_le _ _)) by lia. cbn [guard bind]. rewrite !Nat2Z.id.
  match goal with |- context [split_on _ (inner ?x)] => assert (EI : inner x = $"[" ++ location_text (S p) (p + q) ++ $"]=CELLCENTERED") end.
  { unfold inner. cbn [tl]. change ($"[" ++ location_text (S p) (p + q) ++ $"]=CELLCENTERED") with ("["%char :: location_text (S p) (p + q) ++ $"]=CELLCENTERED").
    transitivity (removelast (("["%char :: location_text (S p) (p + q) ++ $"]=CELLCENTERED") ++ [")"%char])); [|apply removelast_last].
    f_equal. cbn [app]. rewrite <- app_assoc. reflexivity. }
  rewrite EI. rewrite split_on_lacks.
  2:{ assert (LD : forall k, lacks ","%char (nat_text k)) by (intros k; apply digits_lacks; [reflexivity|apply nat_digits]).
      apply lacks_app. split; [intros c [<-|[]]; discriminate|]. apply lacks_app. split; [|intros c I ->; cbn in I; intuition discriminate].
      unfold location_text. destruct (S p =? p + q); [apply LD|]. apply lacks_app. split; [apply LD|]. apply lacks_cons. split; [discriminate|apply LD]. }
  cbn [foldM]. rewrite range_read by exact Q. reflexivity.
Qed.
