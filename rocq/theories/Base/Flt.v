(** Python [float]: IEEE binary64 values, [float(str)] (correctly rounded) and
    the format codes [e], [f], [g] used by /repo, e.g.
    /repo/toughio/_io/input/tough/_helpers.py:257-294.  Models of Python built-ins. *)
From Coq Require Import List Ascii String ZArith Bool Lia.
From Verif Require Import Base.Str Base.Digits.
Import ListNotations.
Local Open Scope Z_scope.

(** A binary64 value: [Fin s m e] is (-1)^s * m * 2^e. *)
Inductive flt :=
| Fin (s : bool) (m e : Z)
| Inf (s : bool)
| NaN.

(** Canonical finite values: normal (53-bit mantissa) or subnormal/zero. *)
Definition is_f64 (x : flt) : bool :=
  match x with
  | Fin _ m e =>
      ((0 <=? m) && (m <? 2 ^ 53) && (-1074 <=? e) && (e <=? 971)
       && ((2 ^ 52 <=? m) || (e =? -1074)))
  | _ => true
  end.

Definition is_finite (x : flt) : bool := match x with Fin _ _ _ => true | _ => false end.

(** Nearest integer to a/b (b > 0), ties to even. *)
Definition rne_div (a b : Z) : Z :=
  let q := a / b in
  let r := a mod b in
  match Z.compare (2 * r) b with
  | Lt => q
  | Gt => q + 1
  | Eq => if Z.even q then q else q + 1
  end.

(** (a/d) / b^k as a fraction. *)
Definition scale (b k a d : Z) : Z * Z :=
  if 0 <=? k then (a, d * b ^ k) else (a * b ^ (- k), d).

(** floor (log_b (a/d)) for a, d > 0. *)
Definition ilogq (b a d : Z) : Z :=
  let k := ilog b a - ilog b d in
  let (a', d') := scale b k a d in
  if d' <=? a' then k else k - 1.

(** Round a/d > 0 to [n] digits in base [b], ties to even, with least
    exponent [emin] if given: the result (m, k) stands for m * b^k. *)
Definition round_prec (b n : Z) (emin : option Z) (a d : Z) : Z * Z :=
  let k0 := ilogq b a d - (n - 1) in
  let k := match emin with Some e => Z.max k0 e | None => k0 end in
  let (a', d') := scale b k a d in
  let m := rne_div a' d' in
  if m =? b ^ n then (b ^ (n - 1), k + 1) else (m, k).

(** m * b^k as a fraction. *)
Definition frac (b m k : Z) : Z * Z :=
  if 0 <=? k then (m * b ^ k, 1) else (m, b ^ (- k)).

Definition fzero (s : bool) : flt := Fin s 0 (-1074).

(** The binary64 nearest to (-1)^s * a/d, ties to even, overflow to infinity. *)
Definition round64 (s : bool) (a d : Z) : flt :=
  if a =? 0 then fzero s
  else
    let (m, e) := round_prec 2 53 (Some (-1074)) a d in
    if 971 <? e then Inf s else Fin s m e.

(** float(int) conversion (also done by [format(int, 'e'|'f'|'g')]);
    [Inf] stands for OverflowError. *)
Definition flt_of_Z (z : Z) : flt := round64 (z <? 0) (Z.abs z) 1.

(* ---------------- parsing ---------------- *)

(** Longest prefix of digits. *)
Fixpoint span_digits (s : str) : str * str :=
  match s with
  | c :: s' =>
      if is_digit c then let (a, b) := span_digits s' in (c :: a, b) else ([], s)
  | [] => ([], [])
  end.

Definition is_e (c : ascii) : bool := Ascii.eqb c "e" || Ascii.eqb c "E".

(** Exponent part: "" or e[+-]digits. *)
Definition parse_exp (s : str) : option Z :=
  match s with
  | [] => Some 0
  | c :: s' =>
      if is_e c then
        let (neg, ds) := split_sign s' in
        if nonempty ds && forallb is_digit ds then
          Some (if neg then - of_digits ds else of_digits ds)
        else None
      else None
  end.

(** Unsigned decimal literal: digits D and exponent E meaning D * 10^E. *)
Definition parse_udec (s : str) : option (Z * Z) :=
  let (ip, r) := span_digits s in
  let (fp, r') :=
    match r with
    | c :: r1 => if Ascii.eqb c "." then span_digits r1 else ([], r)
    | [] => ([], [])
    end in
  if nonempty (ip ++ fp) then
    match parse_exp r' with
    | Some e => Some (of_digits (ip ++ fp), e - Z.of_nat (List.length fp))
    | None => None
    end
  else None.

Definition is_inf_name (s : str) : bool :=
  let t := lower s in streqb t $"inf" || streqb t $"infinity".
Definition is_nan_name (s : str) : bool := streqb (lower s) $"nan".

(** The binary64 nearest to (-1)^s * D * 10^E. *)
Definition flt_of_dec (s : bool) (D E : Z) : flt :=
  let (a, d) := frac 10 D E in round64 s a d.

(** [float(s)]; [None] models ValueError. *)
Definition parse_float (s : str) : option flt :=
  match no_underscores (strip s) with
  | None => None
  | Some s1 =>
      let (neg, u) := split_sign s1 in
      if is_inf_name u then Some (Inf neg)
      else if is_nan_name u then Some NaN
      else match parse_udec u with
           | Some (D, E) => Some (flt_of_dec neg D E)
           | None => None
           end
  end.

(* ---------------- formatting ---------------- *)

Definition sign_str (s : bool) : str := if s then ["-"%char] else [].

(** Exponent suffix of [e]-style output: sign and at least two digits. *)
Definition exp_str (x : Z) : str :=
  "e"%char :: (if x <? 0 then "-"%char else "+"%char)
    :: zpad (Nat.max 2 (ndigits (Z.abs x))) (Z.abs x).

(** Correct rounding of m * 2^e > 0 to [n] significant decimal digits. *)
Definition dec_round (n m e : Z) : Z * Z :=
  let (a, d) := frac 2 m e in round_prec 10 n None a d.

(** Digits of a [k+1]-digit decimal as d.ddd *)
Definition mantissa_str (k : nat) (D : Z) : str :=
  let ds := zpad (S k) D in
  firstn 1 ds ++ (if Nat.eqb k 0 then [] else "."%char :: skipn 1 ds).

(** format(x, ".ke") without padding *)
Definition fmt_e (k : nat) (x : flt) : str :=
  match x with
  | Fin s m e =>
      if m =? 0 then sign_str s ++ mantissa_str k 0 ++ exp_str 0
      else
        let (D, E) := dec_round (Z.of_nat k + 1) m e in
        sign_str s ++ mantissa_str k D ++ exp_str (E + Z.of_nat k)
  | Inf s => sign_str s ++ $"inf"
  | NaN => $"nan"
  end.

(** format(x, ".kf") without padding *)
Definition fmt_f (k : nat) (x : flt) : str :=
  match x with
  | Fin s m e =>
      let (a, d) := frac 2 m e in
      let v := rne_div (a * 10 ^ Z.of_nat k) d in
      sign_str s ++ digits (v / 10 ^ Z.of_nat k)
        ++ (if Nat.eqb k 0 then [] else "."%char :: zpad k (v mod 10 ^ Z.of_nat k))
  | Inf s => sign_str s ++ $"inf"
  | NaN => $"nan"
  end.

(** Remove trailing zeros, and the point if nothing follows it. *)
Definition is_zero_c (c : ascii) : bool := Ascii.eqb c "0".
Fixpoint drop_while (p : ascii -> bool) (s : str) : str :=
  match s with c :: s' => if p c then drop_while p s' else s | [] => [] end.
Definition rstrip0 (s : str) : str := rev (drop_while is_zero_c (rev s)).
Definition with_point (ip fp : str) : str :=
  match rstrip0 fp with [] => ip | f => ip ++ "."%char :: f end.

(** format(x, ".pg") without padding, p >= 1 (default precision 6) *)
Definition fmt_g (p : nat) (x : flt) : str :=
  match x with
  | Fin s m e =>
      if m =? 0 then sign_str s ++ $"0"
      else
        let (D, E) := dec_round (Z.of_nat p) m e in
        let X := E + Z.of_nat p - 1 in
        let ds := zpad p D in
        sign_str s ++
        if (-4 <=? X) && (X <? Z.of_nat p) then
          if 0 <=? X then
            let i := Z.to_nat (X + 1) in with_point (firstn i ds) (skipn i ds)
          else with_point $"0" (zpad (Z.to_nat (- X - 1)) 0 ++ ds)
        else with_point (firstn 1 ds) (skipn 1 ds) ++ exp_str X
  | Inf s => sign_str s ++ $"inf"
  | NaN => $"nan"
  end.
