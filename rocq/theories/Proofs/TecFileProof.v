(** Tecplot mesh files as any program may write them: the header. *)
From Coq Require Import String Ascii Arith ZArith Bool Lia List.
From Verif Require Import Base.Str Base.Digits Base.Flt Model.Py Model.Numpy Model.Dispatch Model.Output Proofs.CellText Proofs.TecplotProof Proofs.RecognizeProof.
From Verif Require Import Model.F3grid Model.TecMesh Spec.TecMesh Spec.TecFile.
From Verif Require Proofs.ResultFileProof Proofs.TecZone Proofs.F3Text.
Import ListNotations.
Local Open Scope nat_scope.

Lemma words_in_eq s : words_in s = split_ws (commas_out s).
Proof. reflexivity. Qed.
Lemma not_in_lacks c s : ~ In c s -> lacks c s.
Proof. intros N d I ->. contradiction. Qed.

(** ** The names *)
Lemma names_found names ws : Forall2 spells names ws -> var_names ws = Ok names.
Proof.
  induction 1 as [|k w names ws (Q & W) F IH]; [reflexivity|]. apply not_in_lacks in Q. cbn [var_names]. rewrite IH. destruct W as [-> | ->].
  - rewrite (lacks_contains quote k) by exact Q. cbn [andb bind]. now rewrite unquote_lacks.
  - assert (E : startswith_c quote (quote :: k ++ [quote]) && endswith_c quote (quote :: k ++ [quote]) = true).
    { cbn [startswith_c]. unfold endswith_c. change (quote :: k ++ [quote]) with ((quote :: k) ++ [quote]). rewrite rev_app_distr. reflexivity. }
    change (""""%char :: k ++ [""""%char]) with (quote :: k ++ [quote]). rewrite E, andb_false_r. cbn [bind]. do 2 f_equal. unfold unquote. cbn [filter]. rewrite filter_app. fold (unquote k). rewrite unquote_lacks by exact Q. cbn. apply app_nil_r.
Qed.
Lemma variables_found names line : names_line names line -> (In $"X" names \/ In $"x" names) -> (In $"Y" names \/ In $"y" names) -> read_variables (strip line) = Ok names.
Proof.
  intros (_ & a & b & rest & S & F) X Y. unfold read_variables. rewrite S. cbn [nth_error]. rewrite <- words_in_eq, (names_found names _ F). cbn [bind].
  assert (M : forall k, In k names -> smem k names = true) by (intros k I; apply existsb_exists; exists k; split; [exact I|apply streqb_refl]).
  assert (GX : smem $"X" names || smem $"x" names = true) by (apply orb_true_iff; destruct X; [left|right]; now apply M).
  assert (GY : smem $"Y" names || smem $"y" names = true) by (apply orb_true_iff; destruct Y; [left|right]; now apply M).
  rewrite GX, GY. reflexivity.
Qed.
Lemma skip_others vs ls r : Forall other_line ls -> find_zone vs (ls ++ r) = find_zone vs r.
Proof. induction 1 as [|l ls (A & B & C) F IH]; [reflexivity|]. cbn [app find_zone]. rewrite B, C. destruct (strip l); [congruence|exact IH]. Qed.
Lemma zone_reached names before variables between first rest : Forall other_line before -> names_line names variables -> Forall other_line between -> startswith $"ZONE" (upper (strip first)) = true ->
  (In $"X" names \/ In $"x" names) -> (In $"Y" names \/ In $"y" names) -> find_zone None (before ++ variables :: between ++ first :: rest) = Ok (Some names, strip first, rest).
Proof.
  intros A N B Z X Y. rewrite skip_others by exact A. cbn [find_zone]. rewrite (proj1 N), (variables_found names variables N X Y). cbn [bind]. rewrite skip_others by exact B. cbn [find_zone].
  assert (V : startswith $"VARIABLES" (upper (strip first)) = false) by (apply startswith_spec in Z as (t & ->); reflexivity). now rewrite V, Z.
Qed.
Lemma zone_taken more rest : Forall (fun l => exists c s, strip l = c :: s /\ is_digit c = false) more -> starts_with_digit rest -> zone_lines (more ++ rest) = (map (fun l => upper (strip l)) more, rest).
Proof.
  intros F D. induction F as [|l more (c & s & E & N) F IH].
  - destruct rest as [|l rest]; [destruct D|]. destruct D as (c & s & E & C). cbn [app zone_lines map]. rewrite E. cbn [upper map]. now rewrite upper_is_digit, C.
  - cbn [app zone_lines map]. rewrite E. cbn [upper map]. rewrite upper_is_digit, N, IH. reflexivity.
Qed.

(** ** The pairs *)
Definition valued (p : str * str) (e : str * zval) : Prop := fst e = fst p /\ zone_value (fst p) (snd p) = Ok (snd e).
Definition apart (ws : list str) : list str := filter (fun w => negb (streqb w $"=")) ws.
Lemma key_ok p : pair_ok p -> fst p <> [] /\ lacks "="%char (fst p) /\ fst p <> $"VARLOCATION" /\ exists x, zone_value (fst p) (snd p) = Ok x.
Proof.
  intros (_ & _ & k & E & H). rewrite E. assert (G : $k <> [] /\ lacks "="%char $k /\ $k <> $"VARLOCATION").
  { assert (I : In k (count_keys ++ text_keys)) by (apply in_app_iff; tauto). cbn in I. repeat (destruct I as [<- | I]; [split; [discriminate|]; split; [intros c J ->; cbn in J; intuition discriminate|discriminate]|]). destruct I. }
  destruct G as (G1 & G2 & G3). split; [exact G1|]. split; [exact G2|]. split; [exact G3|]. unfold zone_value. destruct H as [(I & z & Z)|I].
  - assert (M : smem $k zone_int_keys = true) by (cbn in I; repeat (destruct I as [<- | I]; [reflexivity|]); destruct I). rewrite M, Z. eexists. reflexivity.
  - assert (M : smem $k zone_int_keys = false /\ smem $k zone_str_keys = true) by (cbn in I; repeat (destruct I as [<- | I]; [split; reflexivity|]); destruct I). destruct M as (-> & ->). eexists. reflexivity.
Qed.
Lemma not_equal w : w <> $"=" -> negb (streqb w $"=") = true.
Proof. intros N. apply negb_true_iff, streqb_neq, N. Qed.
Lemma lacks_word w : lacks "="%char w -> w <> $"=".
Proof. intros L ->. exact (L _ (or_introl eq_refl) eq_refl). Qed.
Lemma pairs_step z w w' r : zone_pairs z (w :: w' :: r) =
  if contains "=" w then
    if negb (startswith_c "=" w || endswith_c "=" w) then match split_on "=" w with [k; v] => let* x := zone_value k v in zone_pairs (tset k x z) (w' :: r) | _ => Err ValueError end
    else let k := no_equal w in let* x := zone_value k w' in zone_pairs (tset k x z) r
  else let* x := zone_value w (no_equal w') in zone_pairs (tset w x z) r.
Proof. reflexivity. Qed.
Lemma ends_last s c : endswith_c c (s ++ [c]) = true.
Proof. unfold endswith_c. rewrite rev_app_distr. cbn. apply Ascii.eqb_refl. Qed.
Lemma ends_lacks s c : lacks c s -> endswith_c c s = false.
Proof.
  intros L. unfold endswith_c. destruct (rev s) as [|x r] eqn:E; [reflexivity|]. apply Ascii.eqb_neq. intros <-. assert (I : In c s) by (apply in_rev; rewrite E; now left). exact (L c I eq_refl).
Qed.
Lemma pairs_read pairs groups : Forall2 pair_words pairs groups -> Forall pair_ok pairs -> (forall front g, groups = front ++ [g] -> 1 < List.length g) ->
  forall z, NoDup (map fst z ++ map fst pairs) -> exists vals, Forall2 valued pairs vals /\ zone_pairs z (apart (concat groups)) = Ok (z ++ vals).
Proof.
  induction 1 as [|[k v] g pairs groups W F IH]; intros OK CL z ND; [exists []; split; [constructor|]; rewrite app_nil_r; reflexivity|].
  apply Forall_cons_iff in OK as [OK1 OK]. destruct (key_ok _ OK1) as (K1 & K2 & _ & x & V). cbn [fst snd] in *. destruct OK1 as (V1 & V2 & _). cbn [fst snd] in *. apply not_in_lacks in V2.
  assert (NK : ~ In k (map fst z)). { cbn [map fst] in ND. apply NoDup_remove_2 in ND. intros I. apply ND. apply in_app_iff. now left. }
  destruct (IH OK) with (z := z ++ [(k, x)]) as (vals & FV & ZP).
  { intros front g' ->. apply (CL (g :: front) g'). reflexivity. }
  { rewrite map_app, <- app_assoc. exact ND. }
  exists ((k, x) :: vals). split; [constructor; [split; [reflexivity|exact V]|exact FV]|].
  assert (TS : tset k x z = z ++ [(k, x)]) by now apply tset_new.
  replace (z ++ (k, x) :: vals) with ((z ++ [(k, x)]) ++ vals) by (rewrite <- app_assoc; reflexivity). rewrite <- ZP. cbn [concat]. unfold apart. rewrite filter_app. fold (apart (concat groups)).
  inversion W; subst; cbn [filter].
  - rewrite not_equal by (intros E; destruct k; [congruence|]; injection E as -> E; destruct k; discriminate E). cbn [app].
    destruct groups as [|g' groups]; [specialize (CL [] _ eq_refl); cbn in CL; lia|]. assert (NE : exists w r, apart (concat (g' :: groups)) = w :: r).
    { inversion F as [|[k' v'] ? pairs' ? W' F']; subst. apply Forall_cons_iff in OK as [OK2 _]. destruct (key_ok _ OK2) as (K1' & K2' & _). cbn [fst] in *. cbn [concat]. unfold apart. rewrite filter_app.
      inversion W'; subst; cbn [filter]; (rewrite not_equal; [cbn [app]; eauto|]).
      - intros E. destruct k'; [congruence|]. injection E as -> E. destruct k'; discriminate E.
      - intros E. destruct k'; [congruence|]. injection E as -> E. destruct k'; discriminate E.
      - now apply lacks_word.
      - now apply lacks_word. }
    destruct NE as (w' & r & NE). rewrite NE, pairs_step. rewrite contains_app. cbn [contains existsb]. rewrite Ascii.eqb_refl, orb_true_r.
    assert (S1 : startswith_c "=" (k ++ "="%char :: v) = false) by (destruct k as [|c k]; [congruence|]; cbn [app startswith_c]; apply Ascii.eqb_neq; first [intros <- | intros ->]; exact (K2 _ (or_introl eq_refl) eq_refl)).
    assert (S2 : endswith_c "=" (k ++ "="%char :: v) = false).
    { unfold endswith_c. rewrite rev_app_distr. cbn [rev]. rewrite <- app_assoc. destruct (rev v) as [|c r'] eqn:E; [apply (f_equal (@rev _)) in E; rewrite rev_involutive in E; cbn in E; congruence|]. cbn [app]. apply Ascii.eqb_neq. first [intros <- | intros ->]. assert (I : In "="%char v) by (apply in_rev; rewrite E; now left). exact (V2 _ I eq_refl). }
    rewrite S1, S2. cbn [orb negb]. rewrite split_on_cons by exact K2. rewrite split_on_lacks by exact V2. rewrite V. cbn [bind]. now rewrite TS.
  - rewrite not_equal by (intros E; destruct k; [congruence|]; injection E as -> E; destruct k; discriminate E). rewrite not_equal by now apply lacks_word. cbn [app]. rewrite pairs_step. rewrite contains_app. cbn [contains existsb]. rewrite Ascii.eqb_refl, orb_true_r, ends_last, orb_true_r. cbn [negb].
    assert (NQ : no_equal (k ++ ["="%char]) = k) by (unfold no_equal; rewrite filter_app; fold (no_equal k); rewrite no_equal_lacks by exact K2; cbn; apply app_nil_r). cbn zeta. rewrite NQ, V. cbn [bind]. now rewrite TS.
  - rewrite not_equal by now apply lacks_word. rewrite not_equal by (intros E; injection E as E; congruence). cbn [app]. rewrite pairs_step. rewrite (lacks_contains "=" k) by exact K2. assert (NQ : no_equal ("="%char :: v) = v) by (unfold no_equal; cbn [filter]; rewrite Ascii.eqb_refl; cbn [negb]; now apply no_equal_lacks).
    rewrite NQ, V. cbn [bind]. now rewrite TS.
  - rewrite not_equal by now apply lacks_word. change (streqb ["="%char] $"=") with true. cbn [negb]. rewrite not_equal by now apply lacks_word. cbn [app]. rewrite pairs_step. rewrite (lacks_contains "=" k) by exact K2. rewrite no_equal_lacks by exact V2. rewrite V. cbn [bind]. now rewrite TS.
Qed.

(** ** The title and the location *)
Lemma find_sub_some sub : forall s a b, find_sub sub s = Some (a, b) -> s = a ++ b /\ startswith sub b = true.
Proof.
  induction s as [|c s IH]; intros a b; cbn [find_sub].
  - destruct (startswith sub []) eqn:E; [intros [= <- <-]; auto|discriminate].
  - destruct (startswith sub (c :: s)) eqn:E; [intros [= <- <-]; auto|]. destruct (find_sub sub s) as [[a' b']|]; [|discriminate]. intros [= <- <-]. destruct (IH a' b' eq_refl) as (-> & S). auto.
Qed.
Lemma find_sub_absent sub s : (forall a b, s <> a ++ sub ++ b) -> find_sub sub s = None.
Proof. intros N. destruct (find_sub sub s) as [[a b]|] eqn:E; [|reflexivity]. apply find_sub_some in E as (-> & S). apply startswith_spec in S as (t & ->). now contradiction (N a t). Qed.
Lemma find_sub_first c sub a b : (forall x y, a ++ removelast (c :: sub) <> x ++ (c :: sub) ++ y) -> find_sub (c :: sub) (a ++ (c :: sub) ++ b) = Some (a, (c :: sub) ++ b).
Proof.
  induction a as [|d a IH]; intros N.
  - rewrite app_nil_l. change ((c :: sub) ++ b) with (c :: sub ++ b). cbn [find_sub]. change (c :: sub ++ b) with ((c :: sub) ++ b). now rewrite startswith_app.
  - change ((d :: a) ++ (c :: sub) ++ b) with (d :: a ++ (c :: sub) ++ b). cbn [find_sub]. destruct (startswith (c :: sub) (d :: a ++ (c :: sub) ++ b)) eqn:E.
    + exfalso. apply startswith_spec in E as (t & E). assert (P : exists y, (d :: a) ++ removelast (c :: sub) = (c :: sub) ++ y).
      { assert (L : List.length (c :: sub) <= List.length ((d :: a) ++ removelast (c :: sub))).
        { rewrite app_length. cbn [List.length]. pose proof (@app_removelast_last _ (c :: sub) "0"%char ltac:(discriminate)) as R. apply (f_equal (@List.length _)) in R. rewrite app_length in R. cbn [List.length] in R. lia. }
        exists (skipn (List.length (c :: sub)) ((d :: a) ++ removelast (c :: sub))). rewrite <- (firstn_skipn (List.length (c :: sub)) ((d :: a) ++ removelast (c :: sub))) at 1. f_equal.
        assert (E2 : firstn (List.length (c :: sub)) (((d :: a) ++ removelast (c :: sub)) ++ last (c :: sub) "0"%char :: b) = c :: sub).
        { rewrite <- app_assoc. replace (removelast (c :: sub) ++ last (c :: sub) "0"%char :: b) with ((c :: sub) ++ b) by (rewrite (@app_removelast_last _ (c :: sub) "0"%char) at 1 by discriminate; now rewrite <- app_assoc).
          change ((d :: a) ++ (c :: sub) ++ b) with (d :: a ++ (c :: sub) ++ b). rewrite E, firstn_app, firstn_all, Nat.sub_diag. cbn [firstn]. apply app_nil_r. }
        rewrite firstn_app in E2. replace (List.length (c :: sub) - List.length ((d :: a) ++ removelast (c :: sub))) with 0 in E2 by lia. cbn [firstn] in E2. now rewrite app_nil_r in E2. }
      destruct P as (y & P). apply (N [] y). exact P.
    + rewrite IH; [reflexivity|]. intros x y E2. apply (N (d :: x) y). exact (f_equal (cons d) E2).
Qed.
Lemma title_out text text' : untitled text text' -> exists t, zone_title text = Ok (t, text').
Proof.
  intros [(N & ->)|(a & t & b & -> & N & ->)]; unfold zone_title.
  - rewrite (find_sub_none quote []) by now apply not_in_lacks. eexists. reflexivity.
  - apply not_in_lacks in N. apply lacks_app in N as [LA N]. apply lacks_app in N as [LT LB]. change (""""%char) with quote in *. rewrite (find_sub_at quote a) by exact LA. cbn [tl]. rewrite (find_sub_at quote t) by exact LT.
    exists (Some t). do 2 f_equal. rewrite (replace_lacks quote _ _ a) by exact LA. f_equal. replace (quote :: t ++ quote :: b) with ((quote :: t ++ [quote]) ++ b) by (cbn [app]; now rewrite <- app_assoc). rewrite replace_at. f_equal.
    rewrite <- (app_nil_r b) at 1. rewrite (replace_lacks quote _ _ b) by exact LB. cbn. apply app_nil_r.
Qed.
Definition located (location : option str) : list (str * str) := match location with None => [] | Some s => [($"VARLOCATION", "("%char :: filter (fun c => negb (Ascii.eqb c sp)) s ++ [")"%char])] end.
Lemma location_out text location text' : unlocated text location text' -> zone_varlocation text = Ok (located location, text').
Proof.
  destruct location as [s|]; cbn [unlocated]; unfold zone_varlocation.
  - intros (a & e & b & -> & N & P & ->). rewrite (find_sub_first "V"%char $"ARLOCATION" a); [|exact N].
    assert (LP : forall c, In c ["("; ")"]%char -> lacks c (a ++ $"VARLOCATION" ++ e)).
    { intros c I. apply lacks_app. split; [intros d J ->; destruct (P c) as (P1 & P2); [apply in_app_iff; now left|]; destruct I as [<-|[<-|[]]]; congruence|]. apply lacks_app. split; [intros d J ->; destruct I as [<-|[<-|[]]]; cbn in J; intuition discriminate|].
      intros d J ->. destruct (P c) as (P1 & P2); [apply in_app_iff; right; apply in_app_iff; now left|]. destruct I as [<-|[<-|[]]]; congruence. }
    assert (LS : lacks ")"%char s) by (intros d J ->; destruct (P ")"%char) as (P1 & P2); [apply in_app_iff; right; apply in_app_iff; now right|congruence]).
    set (h := a ++ $"VARLOCATION" ++ e). assert (E1 : a ++ ("V"%char :: $"ARLOCATION") ++ e ++ "("%char :: s ++ ")"%char :: b = h ++ "("%char :: s ++ ")"%char :: b) by (unfold h; rewrite <- !app_assoc; reflexivity).
    change (a ++ $"VARLOCATION" ++ e ++ "("%char :: s ++ ")"%char :: b) with (a ++ ("V"%char :: $"ARLOCATION") ++ e ++ "("%char :: s ++ ")"%char :: b). rewrite E1.
    change $"(" with ["("%char]. rewrite (find_sub_at "("%char h) by (apply LP; now left). change $")" with [")"%char]. replace (h ++ "("%char :: s ++ ")"%char :: b) with ((h ++ "("%char :: s) ++ ")"%char :: b) by (rewrite <- app_assoc; reflexivity).
    rewrite (find_sub_at ")"%char (h ++ "("%char :: s)) by (apply lacks_app; split; [apply LP; right; now left|]; apply lacks_cons; split; [discriminate|exact LS]).
    assert (SL : slice (List.length h) (S (List.length (h ++ "("%char :: s))) ((h ++ "("%char :: s) ++ ")"%char :: b) = "("%char :: s ++ [")"%char]).
    { unfold slice. rewrite <- app_assoc, skipn_app, skipn_all, Nat.sub_diag. cbn [app skipn]. replace (S (List.length (h ++ "("%char :: s)) - List.length h) with (List.length ("("%char :: s ++ [")"%char])) by (rewrite app_length; cbn [List.length]; rewrite app_length; cbn [List.length]; lia).
      replace ("("%char :: s ++ ")"%char :: b) with (("("%char :: s ++ [")"%char]) ++ b) by (cbn [app]; now rewrite <- app_assoc). rewrite firstn_app, firstn_all, Nat.sub_diag. cbn [firstn]. apply app_nil_r. }
    rewrite SL. assert (SK : skipn (S (List.length (h ++ "("%char :: s))) ((h ++ "("%char :: s) ++ ")"%char :: b) = b).
    { replace ((h ++ "("%char :: s) ++ ")"%char :: b) with (((h ++ "("%char :: s) ++ [")"%char]) ++ b) by (now rewrite <- app_assoc). rewrite skipn_app. rewrite skipn_all2 by (rewrite (app_length (h ++ "("%char :: s)); cbn [List.length]; lia). rewrite (app_length (h ++ "("%char :: s)). cbn [List.length]. replace (_ - _) with 0 by lia. reflexivity. }
    rewrite SK. cbn [located]. do 4 f_equal. cbn [filter]. change (negb (Ascii.eqb "(" sp)) with true. cbn match. rewrite filter_app. reflexivity.
  - intros (N & ->). now rewrite find_sub_absent.
Qed.
Theorem zone_read first more text location rest pairs : untitled (skipn 5 (join [" "%char] (strip first :: map (fun l => upper (strip l)) more))) text -> unlocated text location rest -> zone_words pairs rest ->
  exists vals title, Forall2 valued pairs vals /\ Output.read_zone (join [sp] (strip first :: map (fun l => upper (strip l)) more)) = Ok (match title with Some (c :: t) => tset $"T" (ZStr (c :: t)) (map (fun e => (fst e, ZStr (snd e))) (located location) ++ vals) | _ => map (fun e => (fst e, ZStr (snd e))) (located location) ++ vals end).
Proof.
  intros U L (groups & W & F & OK & ND & CL). destruct (title_out _ _ U) as (title & T).
  assert (NV : NoDup (map fst (map (fun e => (fst e, ZStr (snd e))) (located location)) ++ map fst pairs)).
  { destruct location as [s|]; [|exact ND]. cbn [located map fst app]. constructor; [|exact ND]. intros I. apply in_map_iff in I as (p & E & I). rewrite Forall_forall in OK. destruct (key_ok p (OK p I)) as (_ & _ & N & _). congruence. }
  destruct (pairs_read pairs groups F OK CL _ NV) as (vals & FV & ZP). exists vals, title. split; [exact FV|].
  unfold Output.read_zone. change [sp] with [" "%char]. rewrite T. cbn [bind]. rewrite (location_out _ _ _ L). cbn [bind]. rewrite <- words_in_eq, W. fold (apart (concat groups)). rewrite ZP. cbn [bind]. destruct title as [[|c t]|]; reflexivity.
Qed.
Lemma find_sub_none_absent sub s : find_sub sub s = None -> forall a b, s <> a ++ sub ++ b.
Proof.
  intros N a b E. revert s N E. induction a as [|c a IH]; intros s N E.
  - cbn [app] in E. assert (S : startswith sub s = true) by (subst s; apply startswith_app). destruct s; cbn [find_sub] in N; rewrite S in N; discriminate.
  - destruct s as [|d s]; [discriminate|]. injection E as -> E. cbn [find_sub] in N. destruct (startswith sub (c :: s)); [discriminate|]. destruct (find_sub sub s) as [[? ?]|] eqn:F; [discriminate|]. exact (IH s F E).
Qed.
