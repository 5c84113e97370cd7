(** Relative permeability and capillarity models,
    /repo/toughio/relative_permeability and /repo/toughio/capillarity.  The classes
    are written once, over any kind of numbers with the operations Python uses;
    three kinds of numbers are given: the reals, the reals with every operation
    rounded, and binary64.  Saturations and parameters are Python floats: what numpy
    scalars give instead of an exception (nan, inf) is not modelled; plotting and
    __repr__ are not modelled. *)
From Coq Require Import ZArith QArith Qreals Reals Floats Bool List.
From Verif Require Import Model.Py.
Import ListNotations.

(** The operations on Python floats the models use: + - * / ** abs, comparisons and
    numpy.log.  Division by zero and powers that are not real numbers are errors. *)
Record arith := {   (* as used in relative_permeability/_verma.py:35-45 and the other _eval *)
  num : Type;
  cst : Q -> num;                        (* a literal *)
  add : num -> num -> num;
  sub : num -> num -> num;
  mul : num -> num -> num;
  opp : num -> num;
  div : num -> num -> res num;
  pown : num -> nat -> num;              (* x ** 2, an integer literal as exponent *)
  pow : num -> num -> res num;
  log : num -> res num;
  leb : num -> num -> bool;
  ltb : num -> num -> bool }.

(** ** Numbers *)
Definition Rleb (x y : R) : bool := if Rle_dec x y then true else false.   (* x <= y, as in relative_permeability/_linear.py:35-55 *)
Definition Rltb (x y : R) : bool := if Rlt_dec x y then true else false.   (* x < y, as in relative_permeability/_linear.py:35-55 *)
(** Python's [x ** y] on floats, before rounding.  A negative number to a fractional
    power is complex in Python: an error here. *)
Definition real_pow (x y : R) : res R :=   (* as in relative_permeability/_van_genuchten_mualem.py:33-53 *)
  if Req_EM_T y 0 then Ok 1%R
  else if Req_EM_T x 0 then if Rltb y 0 then Err ZeroDivisionError else Ok 0%R
  else if Rltb 0 x then Ok (Rpower x y)
  else if Req_EM_T y (IZR (Int_part y)) then Ok (powerRZ x (Int_part y))
  else Err Unmodelled.
(** Reals where the result of every operation goes through [rd]; subtraction of the
    sign is exact, as in IEEE arithmetic.  No overflow. *)
Definition rounded (rd : R -> R) : arith :=   (* the arithmetic of relative_permeability/_verma.py:35-45 and the other _eval *)
  {| num := R;
     cst := fun q => rd (Q2R q);
     add := fun x y => rd (x + y)%R;
     sub := fun x y => rd (x - y)%R;
     mul := fun x y => rd (x * y)%R;
     opp := Ropp;
     div := fun x y => if Req_EM_T y 0 then Err ZeroDivisionError else Ok (rd (x / y)%R);
     pown := fun x n => rd (x ^ n)%R;
     pow := fun x y => let* z := real_pow x y in Ok (rd z);
     log := fun x => if Rltb 0 x then Ok (rd (ln x)) else Err Unmodelled;
     leb := Rleb;
     ltb := Rltb |}.
Definition exact : arith := rounded (fun x => x).   (* no rounding, relative_permeability/_verma.py:35-45 and the other _eval *)
(** binary64, as the processor computes.  Integer powers by repeated multiplication;
    other powers and logarithms are not given. *)
Definition b64_of_Z (z : Z) : float :=   (* literals, relative_permeability/_verma.py:13 *)
  match z with
  | Z0 => 0%float
  | Zpos p => Z.iter (Zpos p) (fun x => (x + 1)%float) 0%float
  | Zneg p => (- Z.iter (Zpos p) (fun x => (x + 1)%float) 0)%float
  end.
Fixpoint b64_pown (x : float) (n : nat) : float := match n with O => 1%float | S O => x | S n => (x * b64_pown x n)%float end.   (* x ** 2, relative_permeability/_corey.py:31-45 *)
Definition binary64 : arith :=   (* the arithmetic of relative_permeability/_verma.py:35-45 and the other _eval *)
  {| num := float;
     cst := fun q => (b64_of_Z (Qnum q) / b64_of_Z (Zpos (Qden q)))%float;
     add := PrimFloat.add;
     sub := PrimFloat.sub;
     mul := PrimFloat.mul;
     opp := PrimFloat.opp;
     div := fun x y => if PrimFloat.eqb y 0 then Err ZeroDivisionError else Ok (x / y)%float;
     pown := b64_pown;
     pow := fun _ _ => Err Unmodelled;
     log := fun _ => Err Unmodelled;
     leb := PrimFloat.leb;
     ltb := PrimFloat.ltb |}.

Section Models.
Context (A : arith).
Let num := num A.
Let cst := cst A.
Let add := add A.
Let sub := sub A.
Let mul := mul A.
Let opp := opp A.
Let div := div A.
Let pown := pown A.
Let pow := pow A.
Let log := log A.
Let leb := leb A.
Let ltb := ltb A.

Definition c0 : num := cst 0.   (* 0.0, relative_permeability/_linear.py:35-55 *)
Definition c1 : num := cst 1.   (* 1.0, relative_permeability/_linear.py:35-55 *)
Definition pymax (x y : num) : num := if ltb x y then y else x.   (* max(x, y), relative_permeability/_verma.py:35-45 *)
Definition pymin (x y : num) : num := if ltb y x then y else x.   (* min(x, y), relative_permeability/_verma.py:35-45 *)
Definition pyabs (x : num) : num := if ltb x c0 then opp x else x.   (* abs(x), capillarity/_trust.py:39-48 *)
Definition equal (x y : num) : bool := leb x y && leb y x.   (* x == y, capillarity/_trust.py:33-36 *)

(** ** Relative permeability, /repo/toughio/relative_permeability *)
(** _linear.py:35-55 *)
Definition rp_linear (sl slmin sgmin slmax sgmax : num) : res (num * num) :=
  let* kl := if leb slmax sl then Ok c1 else if leb sl slmin then Ok c0 else div (sub sl slmin) (sub slmax slmin) in
  let sg := sub c1 sl in
  let* kg := if leb sgmax sg then Ok c1 else if leb sg sgmin then Ok c0 else div (sub sg sgmin) (sub sgmax sgmin) in
  Ok (kl, kg).
(** _pickens.py:25-28 *)
Definition rp_pickens (sl x : num) : res (num * num) := let* kl := pow sl x in Ok (kl, c1).
(** _corey.py:31-45 *)
Definition rp_corey (sl slr sgr : num) : res (num * num) :=
  let sg := sub c1 sl in
  if ltb sg sgr then Ok (c1, c0)
  else if leb (sub c1 slr) sg then Ok (c0, c1)
  else
    let* Shat := div (sub sl slr) (sub (sub c1 slr) sgr) in
    Ok (pown Shat 4, mul (sub c1 (pown Shat 2)) (pown (sub c1 Shat) 2)).
(** _grant.py:31-45 *)
Definition rp_grant (sl slr sgr : num) : res (num * num) :=
  let sg := sub c1 sl in
  if ltb sg sgr then Ok (c1, c0)
  else if leb (sub c1 slr) sg then Ok (c0, c1)
  else
    let* Shat := div (sub sl slr) (sub (sub c1 slr) sgr) in
    let kl := pown Shat 4 in
    Ok (kl, sub c1 kl).
(** _fatt_klikoff.py:29-35 *)
Definition rp_fatt_klikoff (sl slr : num) : res (num * num) :=
  let* Seff := if ltb slr sl then div (sub sl slr) (sub c1 slr) else Ok c0 in
  Ok (pown Seff 3, pown (sub c1 Seff) 3).
(** _van_genuchten_mualem.py:33-53 *)
Definition rp_mualem (sl m slr sls sgr : num) : res (num * num) :=
  if leb sls sl then Ok (c1, c0)
  else
    let* Seff := div (sub sl slr) (sub sls slr) in
    let* kl :=
      if ltb c0 Seff then
        let* root := pow Seff (cst (Qmake 1 2)) in
        let* im := div c1 m in
        let* p := pow Seff im in
        let* q := pow (sub c1 p) m in
        Ok (mul root (pown (sub c1 q) 2))
      else Ok c0 in
    let* Shat := div (sub sl slr) (sub (sub c1 slr) sgr) in
    let Shat := pymax Shat c0 in
    let Shat := pymin Shat c1 in
    let kg := if leb sgr c0 then sub c1 kl else mul (sub c1 (pown Shat 2)) (pown (sub c1 Shat) 2) in
    Ok (kl, kg).
(** _verma.py:35-45 *)
Definition rp_verma (sl slr sls a b c : num) : res (num * num) :=
  let* Shat := div (sub sl slr) (sub sls slr) in
  let Shat := pymax Shat c0 in
  let Shat := pymin Shat c1 in
  let kg := add (add a (mul b Shat)) (mul c (pown Shat 2)) in
  let kg := pymax kg c0 in
  let kg := pymin kg c1 in
  Ok (pown Shat 3, kg).

(** The classes, relative_permeability/__init__.py:1-17 *)
Inductive rp_model := RpLinear | RpPickens | RpCorey | RpGrant | RpFattKlikoff | RpMualem | RpVerma.
(** [_id], line 10 of every file of relative_permeability *)
Definition rp_id (k : rp_model) : Z :=   (* relative_permeability/_linear.py:10 and so on *)
  match k with RpLinear => 1 | RpPickens => 2 | RpCorey => 3 | RpGrant => 4 | RpFattKlikoff => 7 | RpMualem => 7 | RpVerma => 8 end.
(** The length the parameters setters ask for: _linear.py:64, _pickens.py:37,
    _corey.py:54, _grant.py:54, _fatt_klikoff.py:44, _van_genuchten_mualem.py:62,
    _verma.py:54 *)
Definition rp_arity (k : rp_model) : nat :=
  match k with RpLinear => 4 | RpPickens => 1 | RpCorey => 2 | RpGrant => 2 | RpFattKlikoff => 1 | RpMualem => 4 | RpVerma => 5 end.
(** The default parameters of the constructors, _verma.py:13 *)
Definition rp_defaults (k : rp_model) : list num :=
  match k with RpVerma => [cst (Qmake 2 10); cst (Qmake 895 1000); cst (Qmake 1259 1000); cst (Qmake (-17615) 10000); cst (Qmake 5089 10000)] | _ => [] end.
(** What the constructors refuse: _linear.py:29-32, _corey.py:27-28, _grant.py:27-28,
    _fatt_klikoff.py:25-26; the others refuse nothing *)
Definition rp_refuses (k : rp_model) (p : list num) : bool :=
  match k, p with
  | RpLinear, [slmin; sgmin; slmax; sgmax] => leb slmax slmin || leb sgmax sgmin
  | RpCorey, [slr; sgr] => leb c1 (add slr sgr)
  | RpGrant, [slr; sgr] => leb c1 (add slr sgr)
  | RpFattKlikoff, [slr] => leb c1 slr
  | _, _ => false
  end.
(** [_eval(sl, *parameters)]; a wrong number of parameters cannot be unpacked *)
Definition rp_eval (k : rp_model) (sl : num) (p : list num) : res (num * num) :=   (* the _eval cited above, relative_permeability/_base.py:41-49 *)
  match k, p with
  | RpLinear, [slmin; sgmin; slmax; sgmax] => rp_linear sl slmin sgmin slmax sgmax
  | RpPickens, [x] => rp_pickens sl x
  | RpCorey, [slr; sgr] => rp_corey sl slr sgr
  | RpGrant, [slr; sgr] => rp_grant sl slr sgr
  | RpFattKlikoff, [slr] => rp_fatt_klikoff sl slr
  | RpMualem, [m; slr; sls; sgr] => rp_mualem sl m slr sls sgr
  | RpVerma, [slr; sls; a; b; c] => rp_verma sl slr sls a b c
  | _, _ => Err ValueError
  end.

(** ** Capillarity, /repo/toughio/capillarity *)
(** _linear.py:31-40 *)
Definition cp_linear (sl pmax smin smax : num) : res num :=
  if leb sl smin then Ok (opp pmax)
  else if leb smax sl then Ok c0
  else div (mul (opp pmax) (sub smax sl)) (sub smax smin).
(** _pickens.py:41-51 *)
Definition cp_pickens (sl p0 slr sl0 x : num) : res num :=
  let sl := pymax sl (mul (cst (Qmake 1001 1000)) slr) in
  let top := mul (cst (Qmake 999 1000)) sl0 in
  let sl := if ltb top sl then top else sl in
  let* s := div sl sl0 in
  let* A := div (mul (add c1 s) (sub sl0 slr)) (add sl0 slr) in
  let* s := div sl sl0 in
  let B := sub c1 s in
  let* ab := div A B in
  let* ba := div (pown B 2) (pown A 2) in
  let* root := pow (sub c1 ba) (cst (Qmake 1 2)) in
  let* l := log (mul ab (add c1 root)) in
  let* ix := div c1 x in
  let* p := pow l ix in
  Ok (mul (opp p0) p).
(** The ramp to zero near full saturation, _trust.py:47, _van_genuchten.py:49 *)
Definition ramp (sl : num) : res num := if ltb (cst (Qmake 999 1000)) sl then div (sub c1 sl) (cst (Qmake 1 1000)) else Ok c1.
(** _trust.py:39-48 *)
Definition cp_trust (sl p0 slr eta pe pmax : num) : res num :=
  let* pcap :=
    if ltb slr sl then
      let* q := div (sub c1 sl) (sub sl slr) in
      let* ie := div c1 eta in
      let* p := pow q ie in
      Ok (sub (opp pe) (mul p0 p))
    else Ok (opp (pyabs pmax)) in
  let pcap := pymax pcap (opp (pyabs pmax)) in
  let* f := ramp sl in
  Ok (mul pcap f).
(** _milly.py:29-37 *)
Definition cp_milly (sl slr : num) : res num :=
  let sl := pymax sl (mul (cst (Qmake 1001 1000)) slr) in
  let d := sub sl slr in
  let* fac :=
    if leb (cst (Qmake 371 1000)) d then Ok c1
    else
      let* q := div (cst (Qmake 371 1000)) d in
      let* p := pow (sub q c1) (cst (Qmake 1 4)) in
      pow (cst 10) (sub (mul (cst (Qmake 226 100)) p) (cst 2)) in
  Ok (mul (opp (cst (Qmake 97783 1000))) fac).
(** _van_genuchten.py:37-50 *)
Definition cp_genuchten (sl m slr alpha pmax sls : num) : res num :=
  if equal sl c1 then Ok c0
  else
    let* pcap :=
      if ltb slr sl then
        let* Seff := div (sub sl slr) (sub sls slr) in
        let* ia := div (opp c1) (pyabs alpha) in
        let* im := div (opp c1) m in
        let* p := pow Seff im in
        let* q := pow (sub p c1) (sub c1 m) in
        Ok (mul ia q)
      else Ok (opp (pyabs pmax)) in
    let pcap := pymax pcap (opp (pyabs pmax)) in
    let* f := ramp sl in
    Ok (mul pcap f).

(** The classes, capillarity/__init__.py:1-13 *)
Inductive cp_model := CpLinear | CpPickens | CpTrust | CpMilly | CpGenuchten.
(** [_id]: _linear.py:10, _pickens.py:12, _trust.py:10, _milly.py:10,
    _van_genuchten.py:10 *)
Definition cp_id (k : cp_model) : Z := match k with CpLinear => 1 | CpPickens => 2 | CpTrust => 3 | CpMilly => 4 | CpGenuchten => 7 end.
(** _linear.py:49, _pickens.py:60, _trust.py:57, _milly.py:46, _van_genuchten.py:59 *)
Definition cp_arity (k : cp_model) : nat := match k with CpLinear => 3 | CpPickens => 4 | CpTrust => 5 | CpMilly => 1 | CpGenuchten => 5 end.
(** _linear.py:27-28, _pickens.py:33-38, _trust.py:33-36, _milly.py:25-26,
    _van_genuchten.py:33-34 *)
Definition cp_refuses (k : cp_model) (p : list num) : bool :=
  match k, p with
  | CpLinear, [pmax; smin; smax] => leb smax smin
  | CpPickens, [p0; slr; sl0; x] => negb (ltb c0 slr && ltb slr c1) || ltb sl0 c1 || equal x c0
  | CpTrust, [p0; slr; eta; pe; pmax] => ltb slr c0 || equal eta c0
  | CpMilly, [slr] => ltb slr c0
  | CpGenuchten, [m; slr; alpha; pmax; sls] => ltb pmax c0
  | _, _ => false
  end.
(** [_eval(sl, *parameters)] *)
Definition cp_eval (k : cp_model) (sl : num) (p : list num) : res num :=   (* the _eval cited above, capillarity/_base.py:39-47 *)
  match k, p with
  | CpLinear, [pmax; smin; smax] => cp_linear sl pmax smin smax
  | CpPickens, [p0; slr; sl0; x] => cp_pickens sl p0 slr sl0 x
  | CpTrust, [p0; slr; eta; pe; pmax] => cp_trust sl p0 slr eta pe pmax
  | CpMilly, [slr] => cp_milly sl slr
  | CpGenuchten, [m; slr; alpha; pmax; sls] => cp_genuchten sl m slr alpha pmax sls
  | _, _ => Err ValueError
  end.

(** ** Objects.  Both families work alike: [arity], [defaults], [refuses] and [eval]
    are those of a class. *)
(** The parameters setter: only the length is looked at (same lines as the arities) *)
Definition set_parameters (arity : nat) (value : list num) : res (list num) :=   (* relative_permeability/_linear.py:62-69 and so on *)
  if negb (List.length value =? arity)%nat then Err ValueError else Ok value.
(** The constructor called with positional arguments: missing trailing arguments take
    their default, other numbers of arguments are a TypeError *)
Definition construct (arity : nat) (defaults : list num) (refuses : list num -> bool) (args : list num) : res (list num) :=   (* relative_permeability/_linear.py:13-33 and so on *)
  let p := args ++ skipn (List.length args) defaults in
  if negb (List.length p =? arity)%nat then Err TypeError
  else if refuses p then Err ValueError
  else set_parameters arity p.
(** __call__ on a scalar, relative_permeability/_base.py:41-44, capillarity/_base.py:39-42 *)
Definition call_scalar {B} (eval : num -> list num -> res B) (p : list num) (sl : num) : res B :=
  if leb c0 sl && leb sl c1 then eval sl p else Err ValueError.
(** __call__ on an array, relative_permeability/_base.py:45-49, capillarity/_base.py:43-47
    (the former then transposes the result) *)
Definition call_array {B} (eval : num -> list num -> res B) (p : list num) (sl : list num) : res (list B) :=
  if forallb (fun s => leb c0 s) sl && forallb (fun s => leb s c1) sl then mapM (fun s => eval s p) sl else Err ValueError.

Definition rp_new (k : rp_model) : list num -> res (list num) := construct (rp_arity k) (rp_defaults k) (rp_refuses k).   (* __init__ of every class, relative_permeability/_linear.py:13-33 and so on *)
Definition cp_new (k : cp_model) : list num -> res (list num) := construct (cp_arity k) [] (cp_refuses k).   (* __init__ of every class, capillarity/_linear.py:13-29 and so on *)
Definition rp_call (k : rp_model) : list num -> num -> res (num * num) := call_scalar (rp_eval k).   (* relative_permeability/_base.py:39-49 *)
Definition cp_call (k : cp_model) : list num -> num -> res num := call_scalar (cp_eval k).   (* capillarity/_base.py:37-47 *)
(** What a program does with the attribute [parameters]: assignments one after the
    other, those that raise being ignored by the caller *)
Fixpoint updates (arity : nat) (p : list num) (vs : list (list num)) : list num :=   (* relative_permeability/_linear.py:62-69 and so on *)
  match vs with
  | [] => p
  | v :: vs => updates arity (match set_parameters arity v with Ok q => q | Err _ => p end) vs
  end.
End Models.
