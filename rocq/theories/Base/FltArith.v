(** Arithmetic and comparison of Python [float] (IEEE binary64, rounding to
    nearest, ties to even).  Models of Python built-ins; division by zero, which
    Python and numpy treat differently, is left to the caller. *)
From Coq Require Import List Ascii String ZArith QArith Bool Lia.
From Verif Require Import Base.Str Base.Digits Base.Flt Base.QPow Base.FltRound.
Import ListNotations.
Local Open Scope Z_scope.

(** The signed mantissa. *)
Definition sm (s : bool) (m : Z) : Z := if s then - m else m.
(** (-1)^s * m1 * 2^e1 compared to the other, over a common exponent. *)
Definition align (m e e' : Z) : Z := m * 2 ^ (e - Z.min e e').
Definition fcompare (x y : flt) : option comparison :=
  match x, y with
  | NaN, _ | _, NaN => None
  | Inf s, Inf t => Some (if eqb s t then Eq else if s then Lt else Gt)
  | Inf s, _ => Some (if s then Lt else Gt)
  | _, Inf t => Some (if t then Gt else Lt)
  | Fin s m e, Fin s' m' e' => Some (align (sm s m) e e' ?= align (sm s' m') e' e)
  end.
Definition fltb (x y : flt) : bool := match fcompare x y with Some Lt => true | _ => false end.
Definition fleb (x y : flt) : bool := match fcompare x y with Some Lt | Some Eq => true | _ => false end.
Definition feqb (x y : flt) : bool := match fcompare x y with Some Eq => true | _ => false end.

(** The float nearest to z * 2^e; [s] is the sign of a zero. *)
Definition round_at (s : bool) (z e : Z) : flt :=
  let s := if z =? 0 then s else z <? 0 in
  let (a, d) := frac 2 (Z.abs z) e in round64 s a d.
Definition fopp (x : flt) : flt := match x with Fin s m e => Fin (negb s) m e | Inf s => Inf (negb s) | NaN => NaN end.
Definition fadd (x y : flt) : flt :=
  match x, y with
  | NaN, _ | _, NaN => NaN
  | Inf s, Inf t => if eqb s t then Inf s else NaN
  | Inf s, _ | _, Inf s => Inf s
  | Fin s m e, Fin s' m' e' => round_at (s && s') (align (sm s m) e e' + align (sm s' m') e' e) (Z.min e e')
  end.
Definition fsub (x y : flt) : flt := fadd x (fopp y).
Definition fmul (x y : flt) : flt :=
  match x, y with
  | NaN, _ | _, NaN => NaN
  | Inf s, Inf t => Inf (xorb s t)
  | Inf s, Fin t m _ | Fin t m _, Inf s => if m =? 0 then NaN else Inf (xorb s t)
  | Fin s m e, Fin s' m' e' => round_at (xorb s s') (sm s m * sm s' m') (e + e')
  end.

(** Comparison is that of the values. *)
Lemma align_val s m e e' : (inject_Z (align (sm s m) e e') * qpow 2 (Z.min e e') == fval (Fin s m e))%Q.
Proof.
  unfold align, fval, qval. set (k := Z.min e e'). assert (L : 0 <= e - k) by lia.
  assert (E : (qpow 2 e == inject_Z (2 ^ (e - k)) * qpow 2 k)%Q).
  { replace e with (k + (e - k)) at 1 by lia. rewrite qpow_add_pos by lia. ring. }
  rewrite inject_Z_mult. destruct s; cbn [sm]; [rewrite inject_Z_opp|]; rewrite E; ring.
Qed.
Lemma fcompare_fin s m e s' m' e' : fcompare (Fin s m e) (Fin s' m' e') = Some (fval (Fin s m e) ?= fval (Fin s' m' e'))%Q.
Proof.
  cbn [fcompare]. f_equal. pose proof (align_val s m e e') as A. pose proof (align_val s' m' e' e) as B. rewrite (Z.min_comm e' e) in B.
  set (a := align (sm s m) e e') in *. set (b := align (sm s' m') e' e) in *. pose proof (qpow_pos 2 (Z.min e e') ltac:(lia)) as P.
  destruct (Z.compare_spec a b) as [E | L | L]; symmetry.
  - apply Qeq_alt. rewrite <- A, <- B, E. reflexivity.
  - apply Qlt_alt. rewrite <- A, <- B. apply Qmult_lt_compat_r; [exact P|]. now rewrite <- Zlt_Qlt.
  - apply Qgt_alt. rewrite <- A, <- B. apply Qmult_lt_compat_r; [exact P|]. now rewrite <- Zlt_Qlt.
Qed.
Lemma fltb_fin x y : is_finite x = true -> is_finite y = true -> fltb x y = true <-> (fval x < fval y)%Q.
Proof.
  destruct x as [s m e| |], y as [s' m' e'| |]; try discriminate. intros _ _. unfold fltb. rewrite fcompare_fin, Qlt_alt.
  destruct (_ ?= _)%Q; split; congruence.
Qed.
Lemma fleb_fin x y : is_finite x = true -> is_finite y = true -> fleb x y = true <-> (fval x <= fval y)%Q.
Proof.
  destruct x as [s m e| |], y as [s' m' e'| |]; try discriminate. intros _ _. unfold fleb. rewrite fcompare_fin, Qle_alt.
  destruct (_ ?= _)%Q; split; congruence.
Qed.
Lemma feqb_fin x y : is_finite x = true -> is_finite y = true -> feqb x y = true <-> (fval x == fval y)%Q.
Proof.
  destruct x as [s m e| |], y as [s' m' e'| |]; try discriminate. intros _ _. unfold feqb. rewrite fcompare_fin, Qeq_alt.
  destruct (_ ?= _)%Q; split; congruence.
Qed.
