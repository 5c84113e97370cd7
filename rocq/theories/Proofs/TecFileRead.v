(** Tecplot mesh files as any program may write them: the zone, the data and the cells. *)
From Coq Require Import String Ascii Arith ZArith Bool Lia List.
From Verif Require Import Base.Str Base.Digits Base.Flt Model.Py Model.Numpy Model.Mesh Model.F3grid Model.Avsucd Model.TecMesh Spec.Avsucd Spec.TecMesh Spec.TecFile.
From Verif Require Model.Dispatch Model.Output Proofs.CellText Proofs.TecplotProof Proofs.TecZone Proofs.TecMeshProof Proofs.AvsucdProof Proofs.MaterialProof Proofs.PruneProof Proofs.DispatchProof Proofs.F3Build Proofs.F3Write Proofs.OutputSamples.
From Verif Require Import Proofs.TecFileProof.
Import ListNotations.
Local Open Scope nat_scope.

(** ** What the zone says *)
Section Zone.
  Variables (pairs : list (str * str)) (location : option str) (vals : list (str * Output.zval)) (title : option str).
  Hypothesis V : Forall2 valued pairs vals.
  Hypothesis ND : NoDup (map fst pairs).
  Definition told : list (str * Output.zval) :=
    let l := map (fun e => (fst e, Output.ZStr (snd e))) (located location) ++ vals in match title with Some (c :: t) => Dispatch.tset $"T" (Output.ZStr (c :: t)) l | _ => l end.
  Lemma vals_names : map fst vals = map fst pairs.
  Proof. clear ND. induction V as [|p e ps es [E _] F IH]; [reflexivity|]. cbn [map]. now rewrite E, IH. Qed.
  Lemma told_entry k : k <> $"T" -> k <> $"VARLOCATION" -> entry k told = Dispatch.tget k vals.
  Proof.
    intros N1 N2. unfold entry, told. assert (G : Dispatch.tget k (map (fun e => (fst e, Output.ZStr (snd e))) (located location) ++ vals) = Dispatch.tget k vals).
    { destruct location as [s|]; [|reflexivity]. cbn [located map app fst snd Dispatch.tget]. apply streqb_neq in N2. now rewrite N2. }
    destruct title as [[|c t]|]; try exact G. rewrite DispatchProof.tget_tset. apply streqb_neq in N1. rewrite N1. exact G.
  Qed.
  Lemma told_there k v : k <> $"T" -> k <> $"VARLOCATION" -> In (k, v) pairs -> exists x, Output.zone_value k v = Ok x /\ entry k told = Some x.
  Proof.
    intros N1 N2 I. rewrite told_entry by assumption. assert (G : exists x, Output.zone_value k v = Ok x /\ In (k, x) vals).
    { clear ND. induction V as [|p [k' x] ps es [E W] F IH]; [destruct I|]. destruct I as [-> | I].
      - cbn [fst snd] in *. subst k'. exists x. split; [exact W|now left].
      - destruct (IH F I) as (y & W' & J). exists y. split; [exact W'|now right]. }
    destruct G as (x & W & J). exists x. split; [exact W|]. apply CellText.tget_in; [|exact J]. pose proof vals_names as VN. unfold Dispatch.table in *. now rewrite VN.
  Qed.
  Lemma told_absent k : k <> $"T" -> k <> $"VARLOCATION" -> ~ In k (map fst pairs) -> entry k told = None.
  Proof.
    intros N1 N2 N. rewrite told_entry by assumption. rewrite <- vals_names in N. clear V ND. induction vals as [|[k' x] l IH]; [reflexivity|]. cbn [map fst In] in N. cbn [Dispatch.tget].
    assert (E : streqb k k' = false) by (apply streqb_neq; intros ->; tauto). rewrite E. apply IH. tauto.
  Qed.
  Lemma told_location : Forall pair_ok pairs -> entry $"VARLOCATION" told = match location with None => None | Some s => Some (Output.ZStr ("("%char :: filter (fun c => negb (Ascii.eqb c sp)) s ++ [")"%char])) end.
  Proof.
    intros OK. unfold entry, told. assert (G : Dispatch.tget $"VARLOCATION" vals = None).
    { assert (N : ~ In $"VARLOCATION" (map fst vals)). { rewrite vals_names. intros I. apply in_map_iff in I as (p & E & I). rewrite Forall_forall in OK. destruct (key_ok p (OK p I)) as (_ & _ & X & _). congruence. }
      clear - N. induction vals as [|[k' x] l IH]; [reflexivity|]. cbn [map fst In] in N. cbn [Dispatch.tget]. assert (E : streqb $"VARLOCATION" k' = false) by (apply streqb_neq; intros E; apply N; now left). rewrite E. apply IH. tauto. }
    destruct title as [[|c t]|]; [|rewrite DispatchProof.tget_tset; change (streqb $"VARLOCATION" $"T") with false; cbn match|]; (destruct location as [s|]; [reflexivity|exact G]).
  Qed.
End Zone.

Lemma set_flag f : forall n b j, j < n -> set_nth j true (map f (seq b n)) = map (fun i => f i || (i =? b + j)) (seq b n).
Proof.
  induction n as [|n IH]; intros b j L; [lia|]. destruct j as [|j]; cbn [seq map set_nth].
  - rewrite Nat.add_0_r, Nat.eqb_refl, orb_true_r. f_equal. apply map_ext_in. intros i I. apply in_seq in I. replace (i =? b) with false by (symmetry; apply Nat.eqb_neq; lia). now rewrite orb_false_r.
  - replace (b =? b + S j) with false by (symmetry; apply Nat.eqb_neq; lia). rewrite orb_false_r. f_equal. rewrite IH by lia. apply map_ext. intros i. do 2 f_equal. lia.
Qed.
Lemma centre_flags a b n f : 1 <= a <= b -> b <= n -> centre (Z.of_nat a - 1) (Z.of_nat b - 1) (map f (seq 0 n)) = Ok (map (fun i => f i || ((a <=? S i) && (S i <=? b))) (seq 0 n)).
Proof.
  intros A B. unfold centre. replace (Z.to_nat (Z.of_nat b - 1 - (Z.of_nat a - 1) + 1)) with (S b - a) by lia.
  assert (G : forall q s f, a + s + q <= S n -> foldM (fun fl z => let* _ := guard (0 <=? z)%Z Unmodelled in let* _ := guard (Z.to_nat z <? List.length fl) IndexError in Ok (set_nth (Z.to_nat z) true fl)) (map f (seq 0 n)) (map (fun i => (Z.of_nat a - 1 + Z.of_nat i)%Z) (seq s q)) =
    Ok (map (fun i => f i || ((a + s <=? S i) && (S i <? a + s + q))) (seq 0 n))).
  { assert (A1 : 1 <= a) by lia. clear b B A f. induction q as [|q IH]; intros s f L; cbn [seq map foldM].
    - f_equal. apply map_ext. intros i. replace ((a + s <=? S i) && (S i <? a + s + 0)) with false; [now rewrite orb_false_r|]. symmetry. apply andb_false_iff. rewrite Nat.leb_gt, Nat.ltb_ge. lia.
    - rewrite (proj2 (Z.leb_le _ _)) by lia. cbn [guard bind]. rewrite map_length, seq_length. rewrite (proj2 (Nat.ltb_lt _ _)) by lia. cbn [guard bind]. rewrite set_flag by lia. rewrite IH by lia. f_equal. apply map_ext. intros i. rewrite <- orb_assoc. f_equal.
        apply eq_true_iff_eq. rewrite orb_true_iff, !andb_true_iff, Nat.eqb_eq, !Nat.leb_le, !Nat.ltb_lt. lia. }
  rewrite G by lia. f_equal. apply map_ext. intros i. rewrite Nat.add_0_r. f_equal. f_equal. apply eq_true_iff_eq. rewrite Nat.ltb_lt, Nat.leb_le. lia.
Qed.

Lemma digits_lack d n : is_digit d = false -> CellText.lacks d (print_Z (Z.of_nat n)).
Proof. intros D. apply TecplotProof.digits_lacks; [exact D|]. apply (TecZone.nat_digits n). Qed.
Lemma one_range r n f : 1 <= r_from r <= r_to r -> r_to r <= n ->
  one_location (map f (seq 0 n)) (range_text r) = Ok (map (fun i => f i || (r_centred r && (r_from r <=? S i) && (S i <=? r_to r))) (seq 0 n)).
Proof.
  intros A B. destruct r as [a b ce]. cbn [r_from r_to r_centred] in *. unfold range_text. cbn [r_from r_to r_centred].
  set (loc := if a =? b then print_Z (Z.of_nat a) else print_Z (Z.of_nat a) ++ "-"%char :: print_Z (Z.of_nat b)). assert (LE : CellText.lacks "="%char loc).
  { unfold loc. destruct (a =? b); [now apply digits_lack|]. apply CellText.lacks_app. split; [now apply digits_lack|]. apply CellText.lacks_cons. split; [discriminate|now apply digits_lack]. }
  unfold one_location. set (w := if ce then $"CELLCENTERED" else $"NODAL").
  assert (E : "["%char :: loc ++ $"]=" ++ w = ("["%char :: loc ++ ["]"%char]) ++ "="%char :: w) by (cbn [app]; rewrite <- app_assoc; reflexivity).
  match goal with |- context [split_on "=" ?x] => replace x with (("["%char :: loc ++ ["]"%char]) ++ "="%char :: w) by (symmetry; exact E) end.
  rewrite CellText.split_on_cons. 2:{ apply CellText.lacks_cons. split; [discriminate|]. apply CellText.lacks_app. split; [exact LE|]. intros c [<-|[]]; discriminate. }
  assert (W : split_on "=" w = [w] /\ streqb (strip w) $"CELLCENTERED" = ce) by (unfold w; destruct ce; split; reflexivity). destruct W as (-> & ->).
  destruct ce; cbn [andb].
  2:{ f_equal. apply map_ext. intros i. now rewrite orb_false_r. }
  assert (EI : inner ("["%char :: loc ++ ["]"%char]) = loc) by (unfold inner; cbn [tl]; apply removelast_last).
  rewrite EI. rewrite <- (centre_flags a b n f) by lia. unfold loc. destruct (Nat.eqb_spec a b) as [<-|X].
  - rewrite CellText.split_on_lacks by now apply digits_lack. unfold to_int. rewrite parse_print_Z. reflexivity.
  - rewrite CellText.split_on_cons by now apply digits_lack. rewrite CellText.split_on_lacks by now apply digits_lack. unfold to_int. rewrite !parse_print_Z. reflexivity.
Qed.
Lemma range_lacks r : CellText.lacks ","%char (range_text r).
Proof.
  unfold range_text. apply CellText.lacks_cons. split; [discriminate|]. apply CellText.lacks_app. split.
  - destruct (r_from r =? r_to r); [now apply digits_lack|]. apply CellText.lacks_app. split; [now apply digits_lack|]. apply CellText.lacks_cons. split; [discriminate|now apply digits_lack].
  - apply CellText.lacks_app. split; [intros c I ->; cbn in I; intuition discriminate|]. destruct (r_centred r); intros c I ->; cbn in I; intuition discriminate.
Qed.
Lemma pieces_of ws : ws <> [] -> Forall (CellText.lacks ","%char) ws -> split_on "," (join [","%char] ws) = ws.
Proof.
  intros N F. induction F as [|w ws L F IH]; [congruence|]. destruct ws as [|w' ws]; [cbn [join]; now apply CellText.split_on_lacks|].
  change (join [","%char] (w :: w' :: ws)) with (w ++ ","%char :: join [","%char] (w' :: ws)). rewrite CellText.split_on_cons by exact L. f_equal. apply IH. discriminate.
Qed.
Lemma ranges_read s n centred : locates s n centred -> foldM one_location (repeat false n) (split_on "," (inner ("("%char :: filter (fun c => negb (Ascii.eqb c sp)) s ++ [")"%char]))) = Ok centred.
Proof.
  intros (ranges & N & E & F & ->). assert (EI : inner ("("%char :: filter (fun c => negb (Ascii.eqb c sp)) s ++ [")"%char]) = filter (fun c => negb (Ascii.eqb c " ")) s) by (unfold inner; cbn [tl]; apply removelast_last).
  rewrite EI, E, pieces_of.
  2:{ intros X. now apply map_eq_nil in X. }
  2:{ apply Forall_map, Forall_forall. intros r _. apply range_lacks. }
  assert (R : repeat false n = map (fun _ => false) (seq 0 n)) by (clear; generalize 0; induction n as [|n IH]; intros k; [reflexivity|]; cbn [repeat seq map]; f_equal; apply IH). rewrite R. clear R N E EI s.
  assert (G : forall f, foldM one_location (map f (seq 0 n)) (map range_text ranges) = Ok (map (fun i => f i || existsb (fun r => r_centred r && (r_from r <=? S i) && (S i <=? r_to r)) ranges) (seq 0 n))).
  { induction F as [|r ranges (A & B) F IH]; intros f; cbn [map foldM existsb]; [f_equal; apply map_ext; intros i; now rewrite orb_false_r|]. rewrite one_range by assumption. cbn [bind]. rewrite IH. f_equal. apply map_ext. intros i. now rewrite orb_assoc. }
  apply G.
Qed.
Lemma count_read pairs location vals title k k' n : Forall2 valued pairs vals -> NoDup (map fst pairs) -> In (k, k') [($"N", $"NODES"); ($"E", $"ELEMENTS")] -> given pairs k k' n ->
  count_of k k' (told location vals title) = Ok n.
Proof.
  intros V ND I (v & P & G).
  assert (K : k <> $"T" /\ k <> $"VARLOCATION" /\ k' <> $"T" /\ k' <> $"VARLOCATION") by (destruct I as [[= <- <-]|[[= <- <-]|[]]]; repeat split; discriminate). destruct K as (K1 & K2 & K3 & K4).
  assert (ZV : Output.zone_value k v = Ok (Output.ZInt (Z.of_nat n)) /\ Output.zone_value k' v = Ok (Output.ZInt (Z.of_nat n))).
  { unfold Output.zone_value. rewrite P. destruct I as [[= <- <-]|[[= <- <-]|[]]]; split; reflexivity. }
  destruct ZV as (Z1 & Z2). unfold count_of. destruct G as [G|(G1 & G)].
  - destruct (told_there pairs location vals title V ND k v K1 K2 G) as (x & X & ->). assert (x = Output.ZInt (Z.of_nat n)) by congruence. subst x. rewrite (proj2 (Z.leb_le _ _)) by lia. cbn [guard bind]. now rewrite Nat2Z.id.
  - rewrite (told_absent pairs location vals title V k K1 K2 G1). destruct (told_there pairs location vals title V ND k' v K3 K4 G) as (x & X & ->). assert (x = Output.ZInt (Z.of_nat n)) by congruence. subst x. rewrite (proj2 (Z.leb_le _ _)) by lia. cbn [guard bind]. now rewrite Nat2Z.id.
Qed.
Lemma zone_known pairs location vals title n z : Forall2 valued pairs vals -> NoDup (map fst pairs) -> Forall pair_ok pairs -> says pairs location n z ->
  parse_fezone (told location vals title) n = Ok (Fezone (z_points z) (z_elements z) (z_blocks z) (z_name z) (z_cells z)).
Proof.
  intros V ND OK (F & N & E & L). unfold parse_fezone.
  rewrite (count_read pairs location vals title $"N" $"NODES" (z_points z) V ND (or_introl eq_refl) N). rewrite (count_read pairs location vals title $"E" $"ELEMENTS" (z_elements z) V ND (or_intror (or_introl eq_refl)) E).
  assert (T : forall k v, In k ["F"; "ET"; "DATAPACKING"; "ZONETYPE"]%string -> In ($k, v) pairs -> entry $k (told location vals title) = Some (Output.ZStr v)).
  { intros k v K I. assert (KK : $k <> $"T" /\ $k <> $"VARLOCATION" /\ Output.zone_value $k v = Ok (Output.ZStr v)).
    { cbn in K. destruct K as [<-|[<-|[<-|[<-|[]]]]]; (split; [discriminate|]; split; [discriminate|reflexivity]). }
    destruct KK as (K1 & K2 & K3). destruct (told_there pairs location vals title V ND $k v K1 K2 I) as (x & X & ->). congruence. }
  assert (H : exists f, streqb f $"FEBLOCK" = z_blocks z /\ match entry $"F" (told location vals title) with
    | Some f => let* f := text_of (Some f) in let* _ := guard (streqb f $"FEPOINT" || streqb f $"FEBLOCK") ValueError in let* t := text_of (entry $"ET" (told location vals title)) in Ok (f, t)
    | None => match entry $"DATAPACKING" (told location vals title) with Some f => let* f := text_of (Some f) in let* t := text_of (entry $"ZONETYPE" (told location vals title)) in Ok ($"FE" ++ f, t) | None => Err ValueError end end = Ok (f, z_name z)).
  { destruct F as [(F1 & F2)|(F0 & F1 & F2)].
    - rewrite (T "F"%string _ (or_introl eq_refl) F1), (T "ET"%string _ (or_intror (or_introl eq_refl)) F2). exists (if z_blocks z then $"FEBLOCK" else $"FEPOINT"). destruct (z_blocks z); split; reflexivity.
    - rewrite (told_absent pairs location vals title V $"F") by (discriminate || exact F0). rewrite (T "DATAPACKING"%string _ (or_intror (or_intror (or_introl eq_refl))) F1), (T "ZONETYPE"%string _ (or_intror (or_intror (or_intror (or_introl eq_refl)))) F2).
      exists ($"FE" ++ if z_blocks z then $"BLOCK" else $"POINT"). destruct (z_blocks z); split; reflexivity. }
  destruct H as (f & FB & ->). cbn [bind fst snd]. rewrite FB. destruct (z_blocks z).
  - destruct L as [(v & p & I & P & C)|(NV & L)].
    + destruct (told_there pairs location vals title V ND $"NV" v ltac:(discriminate) ltac:(discriminate) I) as (x & X & ->).
      assert (x = Output.ZInt (Z.of_nat p)) by (unfold Output.zone_value in X; change (Output.smem $"NV" Output.zone_int_keys) with true in X; cbn match in X; rewrite P in X; congruence). subst x.
      rewrite (proj2 (Z.leb_le _ _)) by lia. cbn [guard bind]. rewrite C. do 2 f_equal. apply map_ext. intros i. apply eq_true_iff_eq. rewrite Z.leb_le, Nat.leb_le. lia.
    + rewrite (told_absent pairs location vals title V $"NV") by (discriminate || exact NV). rewrite (told_location pairs location vals title V OK). destruct location as [s|].
      * cbn [text_of bind]. rewrite (ranges_read s n _ L). reflexivity.
      * rewrite L. reflexivity.
  - cbn [bind]. now rewrite L.
Qed.

(** ** The rows *)
Lemma to_floats ws xs : Forall2 (fun w x => parse_float w = Some x) ws xs -> mapM to_flt ws = Ok xs.
Proof. intros F. apply MaterialProof.mapM_F2. eapply PruneProof.Forall2_impl; [|exact F]. intros w x H. unfold to_flt. now rewrite H. Qed.
Lemma filled_app a b : filled (a ++ b) = filled a ++ filled b.
Proof. apply filter_app. Qed.
Lemma rows_taken block data : forall rows rest, Forall2 number_line rows (filled data) ->
  exists blanks, filled blanks = [] /\ data_rows block (list_sum (map (fun r => if block then List.length r else 1) rows)) (data ++ rest) = Ok (rows, blanks ++ rest).
Proof.
  induction data as [|l data IH]; intros rows rest F.
  - cbn in F. inversion F; subst. exists []. split; [reflexivity|]. cbn. destruct rest; reflexivity.
  - unfold filled in F. cbn [filter] in F. fold (filled data) in F. destruct (split_ws l) as [|w ws] eqn:SW.
    + destruct rows as [|r rows].
      * exists (l :: data). split; [unfold filled; cbn [filter]; rewrite SW; now inversion F|]. reflexivity.
      * assert (FN : exists l', In l' (filled data) /\ number_line r l') by (clear - F; inversion F; subst; eexists; split; [now left|eassumption]). destruct FN as (l' & I & N). assert (P : exists q, list_sum (map (fun r => if block then List.length r else 1) (r :: rows)) = S q).
        { cbn [map list_sum fold_right]. apply filter_In in I as (_ & I). pose proof (MaterialProof.Forall2_length _ _ _ N) as L. destruct (split_ws l'); [discriminate|]. cbn [List.length] in L. destruct block; [destruct (List.length r); [lia|]|]; cbn; eauto. }
        destruct P as (q & P). destruct (IH (r :: rows) rest F) as (bl & B & D). exists bl. split; [exact B|]. rewrite P in D |- *. cbn [app data_rows Nat.eqb]. unfold words_of. rewrite TecplotProof.split_ws_strip, SW. exact D.
    + inversion F as [|r ? rows' ? N F']; subst. destruct (IH rows' rest F') as (bl & B & D). exists bl. split; [exact B|]. cbn [map list_sum fold_right]. fold (list_sum (map (fun r => if block then List.length r else 1) rows')).
      pose proof (MaterialProof.Forall2_length _ _ _ N) as L. rewrite SW in L. cbn [List.length] in L.
      assert (NZ : (if block then List.length r else 1) <> 0) by (destruct block; lia). destruct ((if block then List.length r else 1) + list_sum (map (fun r0 => if block then List.length r0 else 1) rows')) as [|q] eqn:Q; [lia|].
      cbn [app data_rows Nat.eqb]. unfold words_of. rewrite TecplotProof.split_ws_strip, SW. unfold number_line in N. rewrite SW in N. rewrite (to_floats _ _ N). cbn [bind].
      replace (S q - (if block then List.length r else 1)) with (list_sum (map (fun r0 => if block then List.length r0 else 1) rows')) by lia. rewrite D. reflexivity.
Qed.
Lemma cells_taken body tail : forall cells, Forall2 cell_line cells (filled body) -> cell_rows (List.length cells) (body ++ tail) = Ok (map (map (fun v => Z.of_nat (S v))) cells).
Proof.
  induction body as [|l body IH]; intros cells F.
  - cbn in F. inversion F; subst. cbn. destruct tail; reflexivity.
  - destruct cells as [|c cells]; [reflexivity|]. unfold filled in F. cbn [filter] in F. fold (filled body) in F. cbn [List.length app cell_rows Nat.eqb]. unfold words_of. rewrite TecplotProof.split_ws_strip. destruct (split_ws l) as [|w ws] eqn:SW.
    + exact (IH (c :: cells) F).
    + inversion F as [|? ? ? ? N F']; subst. unfold cell_line in N. rewrite SW in N.
      assert (E : mapM to_int (w :: ws) = Ok (map (fun v => Z.of_nat (S v)) c)).
      { apply MaterialProof.mapM_F2. clear - N. induction N as [|x v xs vs P N IH]; [constructor|]. cbn [map]. constructor; [|exact IH]. unfold to_int. now rewrite P. }
      rewrite E. cbn [bind]. rewrite Nat.sub_succ, Nat.sub_0_r, (IH cells F'). reflexivity.
Qed.
Lemma word_there cur s : split_ws_aux cur s = [] -> cur = [].
Proof.
  revert cur. induction s as [|c s IH]; intros cur; cbn [split_ws_aux]; [destruct cur; [reflexivity|discriminate]|]. destruct (is_space c); [destruct cur; [reflexivity|discriminate]|]. intros H. apply IH in H. discriminate.
Qed.
Lemma some_row data rows : starts_with_digit data -> Forall2 number_line rows (filled data) -> rows <> [].
Proof.
  intros D F ->. destruct data as [|l data]; [exact D|]. destruct D as (c & s & E & C). unfold filled in F. cbn [filter] in F. destruct (split_ws l) as [|w ws] eqn:SW; [|inversion F].
  rewrite <- TecplotProof.split_ws_strip, E in SW. unfold split_ws in SW. cbn [split_ws_aux] in SW. assert (NS : is_space c = false) by (destruct (is_space c) eqn:X; [|reflexivity]; destruct c as [[] [] [] [] [] [] [] []]; discriminate). rewrite NS in SW. apply word_there in SW. discriminate.
Qed.

(** ** The columns *)
Lemma columns_found (z : zone) cols rows : rows <> [] -> cols <> [] -> rows_of z cols rows -> List.length (z_cells z) = List.length cols -> (z_blocks z = false -> z_cells z = repeat false (List.length cols)) ->
  list_sum (map (fun r => if z_blocks z then List.length r else 1) rows) = (if z_blocks z then list_sum (map (fun c : bool => if c then z_elements z else z_points z) (z_cells z)) else z_points z) /\
  (if z_blocks z then let* _ := guard (negb (List.length rows =? 0)) ValueError in Ok (np_split (concat rows) (cumsum 0 (removelast (map (fun c : bool => if c then z_elements z else z_points z) (z_cells z))))) else transpose rows) = Ok cols /\
  Forall2 (fun (cell : bool) c => List.length c = if cell then z_elements z else z_points z) (z_cells z) cols.
Proof.
  intros N NC R L FL. unfold rows_of in R. destruct (z_blocks z).
  - destruct R as (E & F). assert (M : map (fun c : bool => if c then z_elements z else z_points z) (z_cells z) = map (@List.length flt) cols) by (clear - F; induction F as [|b c bs cs H F IH]; [reflexivity|]; cbn [map]; now rewrite H, IH).
    rewrite M. split; [|split; [|exact F]].
    + transitivity (List.length (concat rows)); [clear; induction rows as [|r rows IH]; [reflexivity|]; cbn [map list_sum fold_right concat]; rewrite app_length; now rewrite <- IH|]. rewrite E. clear. induction cols as [|r cols IH]; [reflexivity|]. cbn [map list_sum fold_right concat]. rewrite app_length. now rewrite IH.
    + destruct rows as [|r rows]; [congruence|]. cbn [List.length Nat.eqb negb guard bind]. rewrite E. now rewrite TecMeshProof.pieces_back.
  - destruct R as (P & W & C). split; [|split].
    + rewrite <- P. clear. induction rows as [|r rows IH]; [reflexivity|]. cbn [map list_sum fold_right List.length]. now rewrite <- IH.
    + unfold transpose. assert (RE : rectangular rows = true).
      { unfold rectangular. destruct rows as [|r rows]; [reflexivity|]. apply Forall_cons_iff in W as [W1 W]. apply forallb_forall. intros q I. apply Nat.eqb_eq. rewrite Forall_forall in W. now rewrite (W q I). }
      rewrite RE. cbn [guard bind]. destruct rows as [|r rows]; [congruence|]. cbn [List.length Nat.eqb negb guard bind hd]. apply Forall_cons_iff in W as [W1 W]. rewrite W1. apply MaterialProof.mapM_F2. apply TecMeshProof.seq_F2. intros j c J. apply MaterialProof.mapM_F2.
      eapply PruneProof.Forall2_impl; [|exact (C j c J)]. intros q x H. unfold item. now rewrite H.
    + rewrite FL by reflexivity. clear FL L NC. assert (Q : Forall (fun c => List.length c = z_points z) cols).
      { apply Forall_forall. intros c I. apply In_nth_error in I as (j & J). rewrite <- P. symmetry. exact (MaterialProof.Forall2_length _ _ _ (C j c J)). }
      clear - Q. induction Q as [|c cols H Q IH]; cbn [List.length repeat]; constructor; auto.
Qed.
Lemma sorted_all (data : list (str * list flt)) : NoDup (map fst data) -> forall l flags P C, incl l data -> NoDup (map fst (P ++ l)) -> NoDup (map fst (C ++ l)) ->
  foldM (TecMeshProof.sort_step data) (P, C) (combine flags (map fst l)) = Ok (P ++ map snd (filter (fun e => negb (fst e)) (combine flags l)), C ++ map snd (filter (fun e : bool * (str * list flt) => fst e) (combine flags l))).
Proof.
  intros ND. induction l as [|e l IH]; intros flags P C I NP NC.
  - assert (E : forall A (fl : list bool), combine fl (@nil A) = []) by (intros A [|? ?]; reflexivity). cbn [map]. rewrite !E. cbn. now rewrite !app_nil_r.
  - destruct flags as [|b flags]; [cbn; now rewrite !app_nil_r|]. cbn [map combine foldM]. unfold TecMeshProof.sort_step at 1. cbn [fst snd]. rewrite (TecMeshProof.assoc_there data e) by (auto; apply I; now left). cbn [bind].
    assert (OUT : forall Q : list (str * list flt), NoDup (map fst (Q ++ e :: l)) -> ~ In (fst e) (map fst Q) /\ NoDup (map fst (Q ++ l)) /\ NoDup (map fst ((Q ++ [e]) ++ l))).
    { intros Q N. split; [|split].
      - rewrite map_app in N. cbn [map] in N. apply NoDup_remove_2 in N. intros J. apply N. apply in_or_app. now left.
      - rewrite map_app in N |- *. cbn [map] in N. now apply NoDup_remove_1 in N.
      - now rewrite <- app_assoc. }
    assert (IL : incl l data) by (intros x J; apply I; now right). destruct (OUT P NP) as (P1 & P2 & P3). destruct (OUT C NC) as (C1 & C2 & C3).
    assert (EE : (fst e, snd e) = e) by (destruct e; reflexivity). destruct b; cbn [bind]; rewrite F3Build.sset_new by assumption; cbn [bind]; rewrite EE, IH by assumption; cbn [filter negb fst map snd]; rewrite <- app_assoc; reflexivity.
Qed.
Lemma known_in {B} k (d : list (str * B)) : known d k = true <-> In k (map fst d).
Proof.
  split.
  - intros K. destruct (in_dec (list_eq_dec Ascii.ascii_dec) k (map fst d)) as [I|N]; [exact I|]. rewrite TecMeshProof.known_not in K by exact N. discriminate.
  - induction d as [|[k' v] d IH]; intros I; [destruct I|]. destruct (streqb k k') eqn:E; [apply streqb_eq in E; subst; apply TecMeshProof.known_first|]. rewrite TecMeshProof.known_next by exact E. apply IH. destruct I as [I|I]; [|exact I]. cbn [fst] in I. subst. rewrite streqb_refl in E. discriminate.
Qed.
Lemma axis_found {B} (d : list (str * B)) capital small k : axis_name (map fst d) capital small k -> (if known d $capital then $capital else $small) = k.
Proof.
  intros (I & [-> | (-> & N)]); [apply known_in in I; now rewrite I|]. now rewrite TecMeshProof.known_not.
Qed.
Lemma pops ks : NoDup ks -> forall cs (pd : list (str * list flt)), NoDup (map fst pd) -> incl ks (map fst pd) ->
  exists out, foldM TecMeshProof.pop_step (cs, pd) ks = Ok (cs ++ out, filter (fun e => negb (existsb (streqb (fst e)) ks)) pd) /\ Forall2 (fun k c => In (k, c) pd) ks out.
Proof.
  induction 1 as [|k ks NK ND IH]; intros cs pd N I.
  - exists []. split; [|constructor]. cbn [foldM existsb]. rewrite app_nil_r. do 2 f_equal. clear. induction pd as [|e pd IH]; [reflexivity|]. cbn [filter negb existsb] in *. f_equal. exact IH.
  - assert (J : In k (map fst pd)) by (apply I; now left). apply in_map_iff in J as ([k' c] & E & J). cbn [fst] in E. subst k'.
    set (pd' := filter (fun e => negb (streqb (fst e) k)) pd). assert (ND' : NoDup (map fst pd')).
    { unfold pd'. clear - N. induction pd as [|e pd IH]; [constructor|]. cbn [map] in N. inversion_clear N as [|? ? N1 N2]. cbn [filter]. destruct (negb (streqb (fst e) k)); [|now apply IH]. cbn [map]. constructor; [|now apply IH]. intros X. apply N1. apply in_map_iff in X as (y & E & X). apply filter_In in X as (X & _). rewrite <- E. now apply in_map. }
    destruct (IH (cs ++ [c]) pd' ND') as (out & O & F).
    { intros x X. assert (Y : In x (map fst pd)) by (apply I; now right). apply in_map_iff in Y as (e & E & Y). apply in_map_iff. exists e. split; [exact E|]. apply filter_In. split; [exact Y|]. apply negb_true_iff, streqb_neq. rewrite E. intros ->. contradiction. }
    exists (c :: out). split.
    + cbn [foldM]. unfold TecMeshProof.pop_step at 1, pop. cbn [fst snd]. rewrite (TecMeshProof.assoc_there pd (k, c) N J : assoc k pd = Ok c). cbn [bind fst snd]. fold pd'. rewrite O. rewrite <- app_assoc. cbn [app]. do 2 f_equal. unfold pd'. clear. induction pd as [|e pd IH]; [reflexivity|]. cbn [filter existsb].
      destruct (streqb (fst e) k); cbn [negb orb]; [exact IH|]. cbn [filter]. destruct (negb (existsb (streqb (fst e)) ks)); now rewrite IH.
    + constructor; [exact J|]. eapply PruneProof.Forall2_impl; [|exact F]. intros x y X. now apply filter_In in X as (X & _).
Qed.
Lemma mapM_total {A B} (f : A -> res B) l : (forall x, In x l -> exists y, f x = Ok y) -> exists l', mapM f l = Ok l'.
Proof.
  induction l as [|x l IH]; intros H; [exists []; reflexivity|]. destruct (H x (or_introl eq_refl)) as (y & Y). destruct IH as (l' & L); [intros z Z; apply H; now right|]. exists (y :: l'). cbn [mapM]. now rewrite Y, L.
Qed.
Lemma columns_out n cs : cs <> [] -> Forall (fun c => List.length c = n) cs -> exists points, columns cs = Ok points /\ List.length points = n /\
  forall i p, nth_error points i = Some p -> Forall2 (fun c x => nth_error c i = Some x) cs p.
Proof.
  intros N F. unfold columns. destruct cs as [|c0 cs]; [congruence|]. assert (F0 := F). apply Forall_cons_iff in F0 as [L0 _]. cbn [hd]. rewrite L0.
  assert (G : forallb (fun c => List.length c =? n) (c0 :: cs) = true) by (apply forallb_forall; intros c I; apply Nat.eqb_eq; rewrite Forall_forall in F; now apply F). rewrite G. cbn [guard bind].
  destruct (mapM_total (fun i => mapM (fun c => item c i) (c0 :: cs)) (seq 0 n)) as (points & P).
  { intros i I. apply in_seq in I. apply mapM_total. intros c J. unfold item. destruct (nth_error c i) as [x|] eqn:E; [eauto|]. apply nth_error_None in E. rewrite Forall_forall in F. rewrite (F c J) in E. lia. }
  exists points. split; [exact P|]. apply MaterialProof.mapM_F2 in P. split; [apply MaterialProof.Forall2_length in P; now rewrite seq_length in P|]. intros i p I.
  assert (H : exists j, nth_error (seq 0 n) i = Some j /\ mapM (fun c => item c j) (c0 :: cs) = Ok p).
  { clear - P I. revert i I. induction P as [|j q js ps E P IH]; intros i I; destruct i as [|i]; try discriminate; cbn [nth_error] in *; [injection I as <-; eauto|now apply IH]. }
  destruct H as (j & J & H). assert (j = i) by (assert (L : i < n) by (rewrite <- (seq_length n 0); apply nth_error_Some; congruence); rewrite (nth_error_nth' _ 0) in J by (now rewrite seq_length); rewrite seq_nth in J by exact L; cbn in J; congruence). subst j.
  apply MaterialProof.mapM_F2 in H. eapply PruneProof.Forall2_impl; [|exact H]. intros c x E. unfold item in E. destruct (nth_error c i); congruence.
Qed.

(** ** The mesh *)
Lemma one_length (cells : list (list nat)) w : Forall (fun c => List.length c = w) cells ->
  forallb (fun c => List.length c =? List.length (hd [] (map (map (fun v => Z.of_nat (S v))) cells))) (map (map (fun v => Z.of_nat (S v))) cells) = true.
Proof.
  intros F. apply forallb_forall. intros c I. apply in_map_iff in I as (c' & <- & I). apply Nat.eqb_eq. rewrite map_length. destruct cells as [|c0 cells]; [destruct I|]. cbn [map hd]. rewrite map_length. rewrite Forall_forall in F. now rewrite (F c' I), (F c0 (or_introl eq_refl)).
Qed.
Lemma kind_found s t : zone_kind s t -> assoc s type_of_zone = Ok t.
Proof.
  intros (a & b & c & I & E & ->). cbn in I. destruct I as [[= <- <- <-]|[[= <- <- <-]|[[= <- <- <-]|[[= <- <- <-]|[]]]]]; destruct E as [-> | ->]; reflexivity.
Qed.
Lemma flags_length pairs location n z : says pairs location n z -> List.length (z_cells z) = n /\ (z_blocks z = false -> z_cells z = repeat false n).
Proof.
  intros (_ & _ & _ & L). destruct (z_blocks z).
  - split; [|discriminate]. destruct L as [(v & p & _ & _ & ->)|(_ & L)]; [now rewrite map_length, seq_length|]. destruct location as [s|].
    + destruct L as (r & _ & _ & _ & ->). now rewrite map_length, seq_length.
    + rewrite L. apply repeat_length.
  - rewrite L. split; [apply repeat_length|reflexivity].
Qed.
Lemma names_nodup (flags : list bool) (data : list (str * list flt)) P : NoDup (map fst data) -> NoDup (map fst (map snd (filter P (combine flags data)))).
Proof.
  revert flags. induction data as [|e data IH]; intros flags N; [destruct flags; constructor|]. destruct flags as [|b flags]; [constructor|]. cbn [map] in N. inversion_clear N as [|? ? N1 N2]. cbn [combine filter]. destruct (P (b, e)); [|now apply IH]. cbn [map snd]. constructor; [|now apply IH].
  intros I. apply N1. apply in_map_iff in I as (x & <- & I). apply in_map_iff in I as ((b' & y) & E & I). cbn [snd] in E. subst y. apply filter_In in I as (I & _). apply in_combine_r in I. now apply in_map.
Qed.
Lemma point_lengths (z : zone) names cols : Forall2 (fun (cell : bool) c => List.length c = if cell then z_elements z else z_points z) (z_cells z) cols ->
  forall k c, In (k, c) (at_points z (combine names cols)) -> List.length c = z_points z.
Proof.
  unfold at_points. intros F k c I. apply in_map_iff in I as ((b & x) & E & I). cbn [snd] in E. subst x. apply filter_In in I as (I & B). cbn [fst] in B. apply negb_true_iff in B. subst b.
  revert names I. induction F as [|b c' bs cs H F IH]; intros names I; [destruct I|]. destruct names as [|n names]; [destruct I|]. cbn [combine] in I. destruct I as [[= -> -> ->]|I]; [exact H|]. now apply IH with (names := names).
Qed.

Theorem file_read file names z cols cells t kx ky kzs w :
  tec_file names z cols cells (lines file) -> NoDup names -> zone_kind (z_name z) t ->
  let data := combine names cols in
  axis_name (map fst (at_points z data)) "X" "x" kx -> axis_name (map fst (at_points z data)) "Y" "y" ky ->
  (exists kz, kzs = [kz] /\ axis_name (map fst (at_points z data)) "Z" "z" kz) \/ kzs = [] /\ ~ In $"Z" (map fst (at_points z data)) /\ ~ In $"z" (map fst (at_points z data)) ->
  cells <> [] -> Forall (fun c => List.length c = w) cells ->
  exists m, read_mesh file = Ok m /\ u_cells m = [(t, cells)] /\ List.length (u_points m) = z_points z /\
    (forall i p, nth_error (u_points m) i = Some p -> Forall2 (fun k x => exists c, In (k, c) data /\ nth_error c i = Some x) (kx :: ky :: kzs) p) /\
    u_point_data m = map floats (filter (fun e => negb (existsb (streqb (fst e)) (kx :: ky :: kzs))) (at_points z data)) /\
    (forall l, renamed (map floats (at_cells z data)) l -> u_cell_data m = l).
Proof.
  intros (before & variables & between & first & more & dat & body & tail & rows & LS & FB & NL & FM & (Z0 & ZM & text & location & rest & pairs & UT & UL & ZW & SY) & SD & FR & RO & LC & FC & LE) ND K data AX AY AZ NC CW.
  assert (INCL : forall k, In k (map fst (at_points z data)) -> In k names).
  { intros k I. unfold at_points, data in I. apply in_map_iff in I as ((k' & c) & E & I). cbn [fst] in E. subst k'. apply in_map_iff in I as ((b & x) & E & I). cbn [snd] in E. subst x. apply filter_In in I as (I & _). apply in_combine_r, in_combine_l in I. exact I. }
  assert (HX : In $"X" names \/ In $"x" names) by (destruct AX as (I & [-> | (-> & _)]); apply INCL in I; auto). assert (HY : In $"Y" names \/ In $"y" names) by (destruct AY as (I & [-> | (-> & _)]); apply INCL in I; auto).
  unfold read_mesh. rewrite LS. rewrite (zone_reached names before variables between first _ FB NL FM Z0 HX HY). cbn [bind].
  assert (SD' : starts_with_digit (dat ++ body ++ tail)) by (destruct dat; [destruct SD|exact SD]). rewrite (zone_taken more _ ZM SD').
  destruct (zone_read first more text location rest pairs UT UL ZW) as (vals & title & FV & ->). destruct ZW as (groups & _ & _ & OK & NP & _).
  cbn [bind].
  change (match title with Some (c :: t0) => Dispatch.tset $"T" (Output.ZStr (c :: t0)) (map (fun e => (fst e, Output.ZStr (snd e))) (located location) ++ vals) | _ => map (fun e => (fst e, Output.ZStr (snd e))) (located location) ++ vals end) with (told location vals title).
  rewrite (zone_known pairs location vals title (List.length names) z FV NP OK SY). cbn [bind]. cbv zeta. cbn [Model.TecMesh.z_cells z_nodes z_block z_type z_centred].
  assert (NR : rows <> []) by exact (some_row dat rows SD FR). destruct (flags_length _ _ _ _ SY) as (FL & FP). rewrite <- LC in FL, FP.
  assert (NCOL : cols <> []) by (intros ->; cbn in LC; destruct names; [destruct HX as [[]|[]]|discriminate]).
  destruct (columns_found z cols rows NR NCOL RO FL FP) as (SUM & ARR & LEN). rewrite <- SUM. destruct (rows_taken (z_blocks z) dat rows (body ++ tail) FR) as (blanks & BL & ->). cbn [bind fst snd].
  rewrite app_assoc. rewrite <- LE. rewrite (cells_taken (blanks ++ body) tail cells) by (rewrite filled_app, BL; exact FC). cbn [bind].
  assert (LN : (List.length (map (map (fun v => Z.of_nat (S v))) cells) =? 0) = false) by (destruct cells; [congruence|reflexivity]). rewrite LN, (one_length cells w CW). cbn [negb guard bind]. rewrite LE, ARR. cbn [bind].
  assert (DN : map fst data = names) by (unfold data; clear - LC; revert cols LC; induction names as [|n ns IH]; intros [|c cs] L; try discriminate; [reflexivity|]; cbn [combine map fst]; f_equal; apply IH; now injection L).
  assert (FD : fold_left (fun d e => sset (fst e) (snd e) d) (combine names cols) [] = data) by (rewrite AvsucdProof.sset_many; [reflexivity|]; cbn [app]; fold data; now rewrite DN). rewrite FD.
  assert (SO : foldM (TecMeshProof.sort_step data) ([], []) (combine (z_cells z) names) = Ok (at_points z data, at_cells z data)).
  { rewrite <- DN at 1. rewrite sorted_all; [reflexivity|now rewrite DN|apply incl_refl|cbn; now rewrite DN|cbn; now rewrite DN]. }
  unfold TecMeshProof.sort_step in SO. rewrite SO. cbn [bind].
  assert (NPD : NoDup (map fst (at_points z data))) by (apply names_nodup; now rewrite DN). assert (NCD : NoDup (map fst (at_cells z data))) by (apply names_nodup; now rewrite DN).
  rewrite (axis_found (at_points z data) "X" "x" kx AX), (axis_found (at_points z data) "Y" "y" ky AY).
  assert (KZ : (if known (at_points z data) $"Z" then [$"Z"] else if known (at_points z data) $"z" then [$"z"] else []) = kzs).
  { destruct AZ as [(kz & -> & I & [-> | (-> & N)])|(-> & N1 & N2)].
    - apply known_in in I. now rewrite I.
    - apply known_in in I. rewrite TecMeshProof.known_not by exact N. now rewrite I.
    - rewrite !TecMeshProof.known_not by assumption. reflexivity. }
  rewrite KZ. assert (NK : NoDup (kx :: ky :: kzs)).
  { assert (KX : kx = $"X" \/ kx = $"x") by (destruct AX as (_ & [-> | (-> & _)]); auto). assert (KY : ky = $"Y" \/ ky = $"y") by (destruct AY as (_ & [-> | (-> & _)]); auto).
    assert (KKZ : kzs = [] \/ kzs = [$"Z"] \/ kzs = [$"z"]) by (destruct AZ as [(kz & -> & I & [-> | (-> & N)])|(-> & N1 & N2)]; auto).
    destruct KX as [-> | ->], KY as [-> | ->], KKZ as [-> | [-> | ->]]; apply OutputSamples.nodupb_ok; vm_compute; reflexivity. }
  assert (IK : incl (kx :: ky :: kzs) (map fst (at_points z data))).
  { intros k [<-|[<-|I]]; [exact (proj1 AX)|exact (proj1 AY)|]. destruct AZ as [(kz & -> & J & _)|(-> & _)]; [|destruct I]. destruct I as [<-|[]]. exact J. }
  destruct (pops (kx :: ky :: kzs) NK [] (at_points z data) NPD IK) as (out & PO & FO). unfold TecMeshProof.pop_step in PO. rewrite PO. cbn [bind fst snd app].
  destruct (columns_out (z_points z) out) as (points & -> & LP & HP).
  { intros ->. inversion FO. }
  { apply Forall_forall. intros c I. clear - FO I LEN. assert (G : exists k, In (k, c) (at_points z data)) by (clear LEN; induction FO as [|k x ks xs H F IH]; [destruct I|]; destruct I as [<-|I]; [eauto|now apply IH]). destruct G as (k & G). exact (point_lengths z names cols LEN k c G). }
  cbn [bind]. rewrite (kind_found _ _ K). cbn [bind].
  assert (NB : mapM (mapM node_number) (map (map (fun v => Z.of_nat (S v))) cells) = Ok cells) by (clear; induction cells as [|c cells IH]; [reflexivity|]; cbn [map mapM]; rewrite TecMeshProof.numbers_back, IH; reflexivity). rewrite NB. cbn [bind].
  eexists. split; [reflexivity|]. cbn [u_cells u_points u_point_data u_cell_data]. split; [reflexivity|]. split; [exact LP|]. split; [|split; [reflexivity|]].
  - intros i p I. specialize (HP i p I). assert (SUB : forall k c, In (k, c) (at_points z data) -> In (k, c) data).
    { intros k c J. unfold at_points in J. apply in_map_iff in J as ((b & x) & E & J). cbn [snd] in E. subst x. apply filter_In in J as (J & _). now apply in_combine_r in J. }
    clear - FO HP SUB. revert p HP. induction FO as [|k c ks cs H F IH]; intros p HP; inversion HP; subst; constructor; eauto.
  - intros l R. apply (TecMeshProof.renamed_ok _ _ R). rewrite map_map. cbn. exact NCD.
Qed.
