(** * FNum: IEEE-754 binary64 as an instance of [Num] (Flocq).

    What the instance says about Python: +, -, *, / and math.sqrt are correctly
    rounded to nearest-even with infinities and one NaN; comparisons involving a
    NaN are false; a literal n/d is the binary64 number nearest to n/d.  A value
    also carries a flag telling numpy float64 scalars from Python floats,
    because dividing a Python float by a Python zero raises ZeroDivisionError
    while numpy only warns.  The transcendental functions (exp, log10, sin, erf,
    pow, and the operator "**") are an arbitrary record [libm]: theorems about this instance
    quantify over it, so nothing about their accuracy is assumed.
    Simplification: NaN payloads and the sign of a NaN are not represented. *)
From Coq Require Import ZArith Reals.
From Flocq Require Import Core BinarySingleNaN.
From Verif Require Import Base Num.

Definition prec : Z := 53.
Definition emax : Z := 1024.
Definition emin : Z := -1074.
#[global] Instance prec_ok : Prec_gt_0 prec := eq_refl.
#[global] Instance emax_ok : Prec_lt_emax prec emax := eq_refl.

Definition b64 : Type := binary_float prec emax.

(** A float object: a Python float, or ([np = true]) a numpy float64. *)
Record f64 : Type := mkf { np : bool; val : b64 }.

(** Python's literal n/d, correctly rounded. *)
Definition quot (sx : bool) (m d : positive) : b64 :=
  SF2B _ (proj1 (Bdiv_correct_aux prec emax _ _ mode_NE sx m 0 false d 0)).
Definition lit (n : Z) (d : positive) : b64 :=
  match n with
  | Z0 => B754_zero false
  | Zpos m => quot false m d
  | Zneg m => quot true m d
  end.

Record libm : Type := {
  m_exp : b64 -> res b64;
  m_log10 : b64 -> res b64;
  m_sin : b64 -> res b64;
  m_erf : b64 -> res b64;
  m_mpow : b64 -> b64 -> res b64;     (* math.pow *)
  m_pow : b64 -> b64 -> res b64;      (* ** on Python floats *)
  m_nppow : b64 -> b64 -> b64;        (* ** when numpy is involved: never raises *)
  m_pi : b64
}.

Definition op2 (f : b64 -> b64 -> b64) (x y : f64) : f64 := mkf (np x || np y) (f (val x) (val y)).
Definition op1 (f : b64 -> b64) (x : f64) : f64 := mkf (np x) (f (val x)).
(** math.f(x): a Python float whatever x is *)
Definition pyres (r : res b64) : res f64 := rmap (mkf false) r.

Definition f_div (x y : f64) : res f64 :=
  if negb (np x || np y) && Beqb (val y) (B754_zero false) then Err ZeroDivisionError
  else Ok (op2 (Bdiv mode_NE) x y).
Definition f_sqrt (x : f64) : res f64 :=
  if Bltb (val x) (B754_zero false) then Err (ValueError "math domain error")
  else Ok (mkf false (Bsqrt mode_NE (val x))).
Definition f_trunc (x : f64) : res Z :=
  match val x with
  | B754_nan => Err (ValueError "cannot convert float NaN to integer")
  | B754_infinity _ => Err (OverflowError)
  | _ => Ok (Btrunc (val x))
  end.

#[global] Instance FNum (L : libm) : Num f64 := {
  n_lit := fun n d => mkf false (lit n d);
  n_add := op2 (Bplus mode_NE);
  n_sub := op2 (Bminus mode_NE);
  n_mul := op2 (Bmult mode_NE);
  n_neg := op1 Bopp;
  n_abs := op1 Babs;
  n_div := f_div;
  n_ltb := fun x y => Bltb (val x) (val y);
  n_leb := fun x y => Bleb (val x) (val y);
  n_eqb := fun x y => Beqb (val x) (val y);
  n_exp := fun x => pyres (m_exp L (val x));
  n_log10 := fun x => pyres (m_log10 L (val x));
  n_sin := fun x => pyres (m_sin L (val x));
  n_sqrt := f_sqrt;
  n_erf := fun x => pyres (m_erf L (val x));
  n_mpow := fun x y => pyres (m_mpow L (val x) (val y));
  n_pow := fun x y => if np x || np y then Ok (mkf true (m_nppow L (val x) (val y)))
                      else pyres (m_pow L (val x) (val y));
  n_trunc := f_trunc;
  n_pi := mkf false (m_pi L);
  n_inf := Ok (mkf false (B754_infinity false));
  n_np := fun x => mkf true (val x);
  n_pyf := fun x => mkf false (val x)
}.
