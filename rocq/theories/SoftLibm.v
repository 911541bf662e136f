(** * SoftLibm: an executable C library for the binary64 instance.

    FNum.v leaves exp, log10, sin, erf and pow to an arbitrary record [libm].
    This file gives one such record, computed in 2^-128 fixed point on Z and
    rounded once to binary64, so that the model can be RUN on the developers' own
    numbers (tools/fidelity.py).  No theorem of the manifest depends on it, and nothing
    here is proved about its accuracy: it is a test instrument. *)
From Coq Require Import ZArith List.
From Flocq Require Import Core BinarySingleNaN.
From Verif Require Import Base Num FNum.
Import ListNotations.
Open Scope Z_scope.

Definition sc : Z := 128.
Definition fone : Z := Eval vm_compute in 2 ^ 128.
Definition fmul (a b : Z) : Z := Z.shiftr (a * b) sc.
(** sum of x^(2k+1)/(2k+1), with alternating signs if [alt] *)
Fixpoint odd_series (fuel : nat) (alt : bool) (p x2 k acc : Z) : Z :=
  match fuel with
  | O => acc
  | S n => if Z.abs p <=? 1 then acc else
           odd_series n alt (fmul (if alt then - p else p) x2) x2 (k + 2) (acc + p / k)
  end.
Definition fatanh (x : Z) : Z := odd_series 200 false x (fmul x x) 1 0.
Definition fatan (x : Z) : Z := odd_series 200 true x (fmul x x) 1 0.
Definition fln2 : Z := Eval vm_compute in 2 * fatanh (fone / 3).
Definition fln10 : Z := Eval vm_compute in 3 * fln2 + 2 * fatanh (fone / 9).
Definition fpi : Z := Eval vm_compute in 16 * fatan (fone / 5) - 4 * fatan (fone / 239).
Definition fsqrtpi : Z := Eval vm_compute in Z.sqrt (fpi * fone).

Definition to_b64 (m e : Z) : b64 := binary_normalize prec emax eq_refl eq_refl mode_NE m e false.
Definition shl (m e : Z) : Z := if 0 <=? e then Z.shiftl m e else Z.shiftr m (- e).
(** a finite float as a fixed-point number *)
Definition fixed (x : b64) : Z :=
  match x with
  | B754_finite s m e _ => shl (if s then Z.neg m else Z.pos m) (e + sc)
  | _ => 0
  end.

(** e^x for a fixed-point x, as a mantissa at 2^-128 and a power of two *)
Fixpoint exp_series (fuel : nat) (t r k acc : Z) : Z :=
  match fuel with
  | O => acc
  | S n => if Z.abs t <=? 1 then acc else exp_series n (fmul t r / k) r (k + 1) (acc + t)
  end.
Definition fexp (x : Z) : Z * Z :=
  let k := x / fln2 in (exp_series 100 fone (x - k * fln2) 1 0, k).
Definition exp_b64 (x : Z) : b64 := let '(m, k) := fexp x in to_b64 m (k - sc).

(** ln of m * 2^e (m > 0) *)
Definition fln (m : positive) (e : Z) : Z :=
  let d := Z.log2 (Zpos m) + 1 in
  let t := shl (Zpos m) (sc - d) in
  (e + d) * fln2 - 2 * fatanh ((fone - t) * fone / (fone + t)).

Definition soft_exp (x : b64) : res b64 :=
  match x with
  | B754_zero _ => Ok (lit 1 1)
  | B754_finite _ _ _ _ =>
      if Bltb (lit 7097 10) x then Err OverflowError
      else if Bltb x (lit (-800) 1) then Ok (lit 0 1) else Ok (exp_b64 (fixed x))
  | B754_infinity false => Ok x
  | B754_infinity true => Ok (lit 0 1)
  | B754_nan => Ok B754_nan
  end.
Definition soft_log10 (x : b64) : res b64 :=
  match x with
  | B754_finite false m e _ => Ok (to_b64 (fln m e * fone / fln10) (- sc))
  | B754_infinity false => Ok x
  | B754_nan => Ok B754_nan
  | _ => Err (ValueError "math domain error")
  end.
Fixpoint sin_series (fuel : nat) (t x2 k acc : Z) : Z :=
  match fuel with
  | O => acc
  | S n => if Z.abs t <=? 1 then acc else sin_series n (- (fmul t x2 / ((k + 1) * (k + 2)))) x2 (k + 2) (acc + t)
  end.
Definition soft_sin (x : b64) : res b64 :=
  match x with
  | B754_zero _ => Ok x
  | B754_finite _ _ _ _ =>
      let y := fixed x in
      let r := y - (y / (2 * fpi)) * (2 * fpi) in
      let r := if fpi <? r then r - 2 * fpi else r in
      Ok (to_b64 (sin_series 100 r (fmul r r) 1 0) (- sc))
  | B754_nan => Ok B754_nan
  | B754_infinity _ => Err (ValueError "math domain error")
  end.
Fixpoint erf_series (fuel : nat) (t x2 k acc : Z) : Z :=
  match fuel with
  | O => acc
  | S n => if Z.abs t <=? 1 then acc else erf_series n (- (fmul t x2 / (k + 1))) x2 (k + 1) (acc + t / (2 * k + 1))
  end.
Definition soft_erf (x : b64) : res b64 :=
  match x with
  | B754_zero _ => Ok x
  | B754_finite s _ _ _ =>
      if Bleb (lit 6 1) (Babs x) then Ok (lit (if s then -1 else 1) 1)
      else let y := fixed x in
           Ok (to_b64 (2 * erf_series 400 y (fmul y y) 0 0 * fone / fsqrtpi) (- sc))
  | B754_nan => Ok B754_nan
  | B754_infinity s => Ok (lit (if s then -1 else 1) 1)
  end.

(** y as an integer, if it is one *)
Definition int_of (y : b64) : option Z :=
  match y with
  | B754_zero _ => Some 0
  | B754_finite s m e _ =>
      let z := if s then Z.neg m else Z.pos m in
      if 0 <=? e then Some (shl z e)
      else if Z.eqb (shl (shl z e) (- e)) z then Some (shl z e) else None
  | _ => None
  end.
Definition pow_pos (m : positive) (e : Z) (y : b64) : res b64 :=
  match y with
  | B754_finite _ _ _ _ =>
      let p := fmul (fixed y) (fln m e) in
      if 710 * fone <? p then Err OverflowError
      else if p <? - (800 * fone) then Ok (lit 0 1) else Ok (exp_b64 p)
  | B754_zero _ => Ok (lit 1 1)
  | _ => Ok B754_nan
  end.
Definition soft_power (zneg nneg : exn) (x y : b64) : res b64 :=
  match int_of y, x with
  | Some 0, _ => Ok (lit 1 1)
  | _, B754_nan => Ok B754_nan
  | oy, B754_zero _ =>
      if Bltb y (lit 0 1) then Err zneg else if is_nan y then Ok B754_nan else Ok (lit 0 1)
  | _, B754_finite false m e _ => pow_pos m e y
  | Some k, B754_finite true m e _ => rmap (fun r => if Z.odd k then Bopp r else r) (pow_pos m e y)
  | None, B754_finite true _ _ _ => if is_finite y then Err nneg else Ok B754_nan
  | _, B754_infinity _ => if Bltb y (lit 0 1) then Ok (lit 0 1) else if is_nan y then Ok B754_nan else Ok (B754_infinity false)
  end.

Definition soft : libm := {|
  m_exp := soft_exp; m_log10 := soft_log10; m_sin := soft_sin; m_erf := soft_erf;
  m_mpow := soft_power (ValueError "math domain error") (ValueError "math domain error");
  m_pow := soft_power ZeroDivisionError ComplexResult;
  m_nppow := fun x y => match soft_power ZeroDivisionError ComplexResult x y with
                        | Ok r => r
                        | Err ZeroDivisionError => B754_infinity false
                        | Err OverflowError => B754_infinity false
                        | Err _ => B754_nan end;
  m_pi := to_b64 fpi (- sc) |}.
