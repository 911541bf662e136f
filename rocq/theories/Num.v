(** * Num: the arithmetic interface the model is parametric in.

    pyflowgo computes with Python floats (and, downstream of
    [np.arange]/scipy splines, numpy float64 scalars).  Every definition of
    the model is written once, over an arbitrary [Num T]; the class contains
    operations only and NO laws.  A theorem proved for every [Num T] therefore
    holds for IEEE binary64 (NaN, infinities, rounding included).  Analytic
    theorems are proved for the instance [RNum] of real numbers (RNum.v), and
    rounding-sensitive ones for the binary64 instance (FNum.v). *)
From Verif Require Import Base.

Class Num (T : Type) := {
  n_lit   : Z -> positive -> T;        (* the literal  n/d,  e.g. 1.51 = n_lit 151 100 *)
  n_add   : T -> T -> T;
  n_sub   : T -> T -> T;
  n_mul   : T -> T -> T;
  n_neg   : T -> T;
  n_abs   : T -> T;
  n_div   : T -> T -> res T;           (* x / y                                      *)
  n_ltb   : T -> T -> bool;            (* x < y   (x > y is n_ltb y x)               *)
  n_leb   : T -> T -> bool;            (* x <= y  (x >= y is n_leb y x)              *)
  n_eqb   : T -> T -> bool;            (* x == y                                     *)
  n_exp   : T -> res T;                (* math.exp                                   *)
  n_log10 : T -> res T;                (* math.log10                                 *)
  n_sin   : T -> res T;                (* math.sin                                   *)
  n_sqrt  : T -> res T;                (* math.sqrt                                  *)
  n_erf   : T -> res T;                (* math.erf                                   *)
  n_mpow  : T -> T -> res T;           (* math.pow                                   *)
  n_pow   : T -> T -> res T;           (* x ** y                                     *)
  n_trunc : T -> res Z;                (* int(x)                                     *)
  n_pi    : T;                         (* math.pi                                    *)
  n_inf   : res T;                     (* float("inf")                               *)
  n_np    : T -> T;                    (* the same value as a numpy float64 scalar   *)
  n_pyf   : T -> T                     (* float(x): the same value as a Python float *)
}.

Declare Scope num_scope.
Delimit Scope num_scope with num.
Infix "+" := n_add : num_scope.
Infix "-" := n_sub : num_scope.
Infix "*" := n_mul : num_scope.
Notation "- x" := (n_neg x) : num_scope.
Infix "/" := n_div : num_scope.
Infix "<?" := n_ltb : num_scope.
Infix "<=?" := n_leb : num_scope.
Infix "=?" := n_eqb : num_scope.

Section Derived.
Context {T : Type} {N : Num T}.

(** Python's builtin [max(a, b)]: keeps [a] unless [b > a]. *)
Definition py_max (a b : T) : T := if n_ltb a b then b else a.
(** Python's builtin [min(a, b)]: keeps [a] unless [b < a]. *)
Definition py_min (a b : T) : T := if n_ltb b a then b else a.
(** Python's [x or y] on floats: [x] unless [x == 0.]. *)
Definition py_or (x y : T) : T := if n_eqb x (n_lit 0 1) then y else x.
(** Literals. *)
Definition zero : T := n_lit 0 1.
Definition one : T := n_lit 1 1.
Definition num_of_nat (n : nat) : T := n_lit (Z.of_nat n) 1.
(** [sum(l)] : starts from 0, adds left to right. *)
Definition py_sum (l : list T) : T := fold_left n_add l zero.

(** [float(s)] on a string.  Grammar modelled: optional white space, sign,
    digits, optional fraction, optional exponent.  Simplification: the words
    nan/inf/infinity and digit-group underscores, which Python also accepts,
    are rejected here. *)
Definition is_digit (c : ascii) : bool :=
  let n := nat_of_ascii c in (48 <=? n)%nat && (n <=? 57)%nat.
Definition digit_val (c : ascii) : Z := Z.of_nat (nat_of_ascii c - 48).
Fixpoint read_digits (s : string) (acc : Z) (cnt : nat) : Z * nat * string :=
  match s with
  | String c r => if is_digit c then read_digits r (acc * 10 + digit_val c)%Z (S cnt) else (acc, cnt, s)
  | EmptyString => (acc, cnt, s)
  end.
Definition read_sign (s : string) : bool * string :=
  match s with
  | String c r => if Ascii.eqb c "-" then (true, r) else if Ascii.eqb c "+" then (false, r) else (false, s)
  | EmptyString => (false, s)
  end.
Definition scale10 (m e : Z) : T :=
  if (0 <=? e)%Z then n_lit (m * 10 ^ e) 1 else n_lit m (Z.to_pos (10 ^ (- e))).
Definition parse_float (s0 : string) : res T :=
  let bad := Err (ValueError "could not convert string to float") in
  let '(neg, s) := read_sign (strip s0) in
  let '(ip, ni, s) := read_digits s 0 0 in
  let '(m, nf, s) := match s with
                     | String c r => if Ascii.eqb c "." then read_digits r ip 0 else (ip, O, s)
                     | EmptyString => (ip, O, s) end in
  if (ni + nf =? 0)%nat then bad else
  let sgn := (fun z : Z => if neg then (- z)%Z else z) in
  match s with
  | EmptyString => Ok (scale10 (sgn m) (- Z.of_nat nf))
  | String c r =>
      if Ascii.eqb c "e" || Ascii.eqb c "E" then
        let '(eneg, r) := read_sign r in
        let '(ev, ne, rest) := read_digits r 0 0 in
        if (ne =? 0)%nat then bad else
        match rest with
        | EmptyString => Ok (scale10 (sgn m) ((if eneg then - ev else ev) - Z.of_nat nf))
        | _ => bad
        end
      else bad
  end.
End Derived.
