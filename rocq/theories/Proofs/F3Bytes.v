(** Little-endian integers and binary64 numbers. *)
From Coq Require Import String Ascii Arith ZArith Bool Lia List.
From Verif Require Import Base.Str Base.Flt Model.Py Model.F3grid.
Import ListNotations.
Local Open Scope Z_scope.

Lemma code_byte z : 0 <= z < 256 -> code (byte z) = z.
Proof. intros H. unfold code, byte. rewrite N_ascii_embedding by lia. lia. Qed.
Lemma little_length n z : List.length (little n z) = n.
Proof. revert z. induction n as [|n IH]; intros z; cbn [little List.length]; auto. Qed.
Lemma of_little_little n z : 0 <= z < 256 ^ Z.of_nat n -> of_little (little n z) = z.
Proof.
  revert z. induction n as [|n IH]; intros z H.
  - cbn in *. lia.
  - rewrite Nat2Z.inj_succ, Z.pow_succ_r in H by lia. cbn [little of_little].
    rewrite code_byte by (apply Z.mod_pos_bound; lia). rewrite IH.
    + pose proof (Z.div_mod z 256). lia.
    + split; [apply Z.div_pos; lia|]. apply Z.div_lt_upper_bound; lia.
Qed.
Lemma get_u_little n z s : 0 <= z < 256 ^ Z.of_nat n -> get_u n (little n z ++ s) = Ok (z, s).
Proof.
  intros H. unfold get_u, take_bytes. rewrite app_length, little_length.
  replace (Nat.leb n (n + List.length s)) with true by (symmetry; apply Nat.leb_le; lia). cbn [guard bind fst snd].
  rewrite firstn_app, skipn_app, little_length, Nat.sub_diag. cbn [firstn skipn]. rewrite app_nil_r.
  rewrite <- (little_length n z) at 1. rewrite firstn_all. rewrite of_little_little by auto.
  rewrite skipn_all2 by (rewrite little_length; lia). reflexivity.
Qed.
Lemma u32_read z s t : u32 z = Ok t -> get_u 4 (t ++ s) = Ok (z, s).
Proof.
  unfold u32. destruct (Z.leb_spec 0 z); [|discriminate]. destruct (Z.ltb_spec z (2 ^ 32)); [|discriminate].
  cbn [andb guard bind]. intros E. assert (t = little 4 z) as -> by congruence. apply get_u_little. split; [lia|]. exact H0.
Qed.
Lemma u16_read z s t : u16 z = Ok t -> get_u 2 (t ++ s) = Ok (z, s).
Proof.
  unfold u16. destruct (Z.leb_spec 0 z); [|discriminate]. destruct (Z.ltb_spec z (2 ^ 16)); [|discriminate].
  cbn [andb guard bind]. intros E. assert (t = little 2 z) as -> by congruence. apply get_u_little. split; [lia|]. exact H0.
Qed.

Lemma sign_bits (s : bool) lo : 0 <= lo < 2 ^ 63 ->
  (2 ^ 63 <=? (if s then 2 ^ 63 else 0) + lo) = s /\
  (((if s then 2 ^ 63 else 0) + lo) / 2 ^ 52) mod 2 ^ 11 = lo / 2 ^ 52 /\
  ((if s then 2 ^ 63 else 0) + lo) mod 2 ^ 52 = lo mod 2 ^ 52.
Proof.
  intros H. assert (B : 0 <= lo / 2 ^ 52 < 2 ^ 11).
  { split; [apply Z.div_pos; lia|]. apply Z.div_lt_upper_bound; lia. }
  destruct s.
  - split; [apply Z.leb_le; lia|].
    replace (2 ^ 63 + lo) with (lo + 2 ^ 11 * 2 ^ 52) by lia.
    rewrite Z.div_add, Z.mod_add by lia. split; auto.
    replace (lo / 2 ^ 52 + 2 ^ 11) with (lo / 2 ^ 52 + 1 * 2 ^ 11) by lia. rewrite Z.mod_add by lia. apply Z.mod_small; lia.
  - rewrite Z.add_0_l. split; [apply Z.leb_gt; lia|]. split; auto. apply Z.mod_small; lia.
Qed.
Lemma of_bits_pack (s : bool) ex fr : 0 <= ex < 2048 -> 0 <= fr < 2 ^ 52 ->
  of_bits64 ((if s then 2 ^ 63 else 0) + (ex * 2 ^ 52 + fr)) =
  if ex =? 2047 then if fr =? 0 then Inf s else NaN
  else if ex =? 0 then Fin s fr (-1074) else Fin s (fr + 2 ^ 52) (ex - 1075).
Proof.
  intros E F. assert (L : 0 <= ex * 2 ^ 52 + fr < 2 ^ 63).
  { change (2 ^ 63) with (2048 * 2 ^ 52). nia. }
  destruct (sign_bits s (ex * 2 ^ 52 + fr) L) as (A & B & C). unfold of_bits64. rewrite A, B, C.
  rewrite Z.div_add_l, (Z.div_small fr), Z.add_0_r by lia.
  rewrite (Z.add_comm (ex * 2 ^ 52)), Z.mod_add, Z.mod_small by lia. reflexivity.
Qed.
Lemma bits_range x : is_f64 x = true -> 0 <= bits64 x < 256 ^ Z.of_nat 8.
Proof.
  change (256 ^ Z.of_nat 8) with (2 ^ 64). change (2 ^ 64) with (4096 * 2 ^ 52). change (2 ^ 63) with (2048 * 2 ^ 52).
  destruct x as [s m e|s|]; cbn [is_f64 bits64]; try (intros _; try destruct s; change (2 ^ 63) with (2048 * 2 ^ 52); change (2 ^ 51) with 2251799813685248; lia).
  rewrite !andb_true_iff, orb_true_iff, !Z.leb_le, Z.ltb_lt, Z.eqb_eq. intros ((((A & B) & C) & D) & E).
  change (2 ^ 63) with (2048 * 2 ^ 52). destruct (Z.ltb_spec m (2 ^ 52)); destruct s; lia.
Qed.
Lemma of_bits_bits x : is_f64 x = true -> of_bits64 (bits64 x) = x.
Proof.
  destruct x as [s m e|s|]; cbn [is_f64 bits64].
  - rewrite !andb_true_iff, orb_true_iff, !Z.leb_le, Z.ltb_lt, Z.eqb_eq. intros ((((A & B) & C) & D) & E).
    destruct (Z.ltb_spec m (2 ^ 52)).
    + replace m with (0 * 2 ^ 52 + m) at 1 by lia. rewrite of_bits_pack by lia. change (0 =? 2047) with false. change (0 =? 0) with true. cbv iota.
      f_equal. lia.
    + rewrite of_bits_pack by lia. destruct (Z.eqb_spec (e + 1075) 2047); [lia|]. destruct (Z.eqb_spec (e + 1075) 0); [lia|]. f_equal; lia.
  - intros _. replace (2047 * 2 ^ 52) with (2047 * 2 ^ 52 + 0) by lia. rewrite of_bits_pack by lia. reflexivity.
  - intros _. vm_compute. reflexivity.
Qed.
Lemma f64_read x s : is_f64 x = true -> get_f64 (f64 x ++ s) = Ok (x, s).
Proof.
  intros F. unfold get_f64, f64. rewrite get_u_little by now apply bits_range. cbn [bind fst snd]. now rewrite of_bits_bits.
Qed.
Lemma get_many_read {A} (put : A -> res str) (get : str -> res (A * str)) (P : A -> Prop) :
  (forall x t s, P x -> put x = Ok t -> get (t ++ s) = Ok (x, s)) ->
  forall l t s, Forall P l -> mapM put l = Ok t -> get_many get (List.length l) (concat t ++ s) = Ok (l, s).
Proof.
  intros H. induction l as [|x l IH]; intros t s F M; cbn [mapM] in M.
  - injection M as <-. reflexivity.
  - apply Forall_cons_iff in F as [Fx F].
    destruct (put x) as [tx|] eqn:E; cbn [bind] in M; [|discriminate]. destruct (mapM put l) as [tl|] eqn:El; cbn [bind] in M; [|discriminate].
    injection M as <-. cbn [List.length get_many concat]. rewrite <- app_assoc, (H x tx) by auto. cbn [bind fst snd].
    now rewrite (IH tl s F eq_refl).
Qed.
