(** * RNum: exact real arithmetic as an instance of [Num].

    What the instance says about Python: a division by zero raises
    ZeroDivisionError; [math.pow], [**], [math.log10], [math.sqrt] raise
    outside their domains exactly as CPython documents; there is no rounding
    and no overflow.  [float("inf")] has no real value ([NotReal]).
    numpy scalars and Python floats coincide ([n_np], [n_pyf] are the
    identity), so "a division by zero raises" describes Python floats only. *)
From Coq Require Export Reals Lra.
From Coquelicot Require Import RInt Coquelicot.
From Verif Require Import Base Num.
Open Scope R_scope.

Definition R_ltb (x y : R) : bool := if Rlt_dec x y then true else false.
Definition R_leb (x y : R) : bool := if Rle_dec x y then true else false.
Definition R_eqb (x y : R) : bool := if Req_EM_T x y then true else false.

Definition R_div (x y : R) : res R :=
  if Req_EM_T y 0 then Err ZeroDivisionError else Ok (x / y).

(** log base 10 *)
Definition log10 (x : R) : R := ln x / ln 10.
Definition R_log10 (x : R) : res R :=
  if Rlt_dec 0 x then Ok (log10 x) else Err (ValueError "math domain error").
Definition R_sqrt (x : R) : res R :=
  if Rle_dec 0 x then Ok (sqrt x) else Err (ValueError "math domain error").

(** The error function. *)
Definition erf (x : R) : R := 2 / sqrt PI * RInt (fun t => exp (- t ^ 2)) 0 x.

(** Real powers as floating-point [pow] defines them; [zneg] is what
    0 ** negative raises, [nneg] what negative ** non-integer raises. *)
Definition R_power (zneg nneg : exn) (x y : R) : res R :=
  if Rlt_dec 0 x then Ok (Rpower x y)
  else if Req_EM_T x 0 then
         if Req_EM_T y 0 then Ok 1
         else if Rlt_dec 0 y then Ok 0 else Err zneg
       else if Req_EM_T y (IZR (Int_part y)) then Ok (powerRZ x (Int_part y))
            else Err nneg.
Definition R_mpow : R -> R -> res R :=
  R_power (ValueError "math domain error") (ValueError "math domain error").
Definition R_pow : R -> R -> res R := R_power ZeroDivisionError ComplexResult.

Definition R_trunc (x : R) : Z :=
  if Rle_dec 0 x then Int_part x else Z.opp (Int_part (- x)).

#[global] Instance RNum : Num R := {
  n_lit := fun n d => IZR n / IZR (Zpos d);
  n_add := Rplus;
  n_sub := Rminus;
  n_mul := Rmult;
  n_neg := Ropp;
  n_abs := Rabs;
  n_div := R_div;
  n_ltb := R_ltb;
  n_leb := R_leb;
  n_eqb := R_eqb;
  n_exp := fun x => Ok (exp x);
  n_log10 := R_log10;
  n_sin := fun x => Ok (sin x);
  n_sqrt := R_sqrt;
  n_erf := fun x => Ok (erf x);
  n_mpow := R_mpow;
  n_pow := R_pow;
  n_trunc := fun x => Ok (R_trunc x);
  n_pi := PI;
  n_inf := Err NotReal;
  n_np := fun x => x;
  n_pyf := fun x => x
}.

(** ** Reflection of the tests *)
Lemma R_ltb_true x y : R_ltb x y = true <-> x < y.
Proof. unfold R_ltb; destruct (Rlt_dec x y); split; auto; discriminate. Qed.
Lemma R_ltb_false x y : R_ltb x y = false <-> y <= x.
Proof. unfold R_ltb; destruct (Rlt_dec x y); split; auto; try discriminate; lra. Qed.
Lemma R_leb_true x y : R_leb x y = true <-> x <= y.
Proof. unfold R_leb; destruct (Rle_dec x y); split; auto; discriminate. Qed.
Lemma R_leb_false x y : R_leb x y = false <-> y < x.
Proof. unfold R_leb; destruct (Rle_dec x y); split; auto; try discriminate; lra. Qed.
Lemma R_eqb_true x y : R_eqb x y = true <-> x = y.
Proof. unfold R_eqb; destruct (Req_EM_T x y); split; auto; discriminate. Qed.
Lemma R_eqb_false x y : R_eqb x y = false <-> x <> y.
Proof. unfold R_eqb; destruct (Req_EM_T x y); split; auto; try discriminate; contradiction. Qed.

Lemma R_div_ok x y : y <> 0 -> R_div x y = Ok (x / y).
Proof. unfold R_div; destruct (Req_EM_T y 0); [contradiction | auto]. Qed.
Lemma R_div_inv x y z : R_div x y = Ok z -> y <> 0 /\ z = x / y.
Proof. unfold R_div; destruct (Req_EM_T y 0); intros H; [discriminate|]. injection H as <-. auto. Qed.
Lemma R_div_0 x : R_div x 0 = Err ZeroDivisionError.
Proof. unfold R_div; destruct (Req_EM_T 0 0); [auto | contradiction]. Qed.

Lemma R_power_pos a b x y : 0 < x -> R_power a b x y = Ok (Rpower x y).
Proof. unfold R_power; destruct (Rlt_dec 0 x); [auto | contradiction]. Qed.
Lemma R_power_0_pos a b y : 0 < y -> R_power a b 0 y = Ok 0.
Proof.
  intros H. unfold R_power. destruct (Rlt_dec 0 0); [lra|].
  destruct (Req_EM_T 0 0); [|contradiction]. destruct (Req_EM_T y 0); [lra|].
  destruct (Rlt_dec 0 y); [auto|contradiction].
Qed.
Lemma R_power_0_neg a b y : y < 0 -> R_power a b 0 y = Err a.
Proof.
  intros H. unfold R_power. destruct (Rlt_dec 0 0); [lra|].
  destruct (Req_EM_T 0 0); [|contradiction]. destruct (Req_EM_T y 0); [lra|].
  destruct (Rlt_dec 0 y); [lra|auto].
Qed.

Lemma Int_part_IZR_id z : Int_part (IZR z) = z.
Proof.
  destruct (base_Int_part (IZR z)) as [H1 H2].
  set (k := Int_part (IZR z)) in *. apply le_IZR in H1.
  assert (H3 : IZR z < IZR k + 1) by lra.
  rewrite <- plus_IZR in H3. apply lt_IZR in H3. lia.
Qed.

Lemma R_power_neg_int a b x z : x < 0 -> R_power a b x (IZR z) = Ok (powerRZ x z).
Proof.
  intros H. unfold R_power. destruct (Rlt_dec 0 x); [lra|].
  destruct (Req_EM_T x 0); [lra|]. rewrite Int_part_IZR_id.
  destruct (Req_EM_T (IZR z) (IZR z)); [auto|contradiction].
Qed.
Lemma Int_part_non_int z d : 0 < d < 1 -> Int_part (IZR z + d) = z.
Proof.
  intros H. destruct (base_Int_part (IZR z + d)) as [H1 H2].
  set (k := Int_part (IZR z + d)) in *.
  assert (A : IZR k < IZR (z + 1)) by (rewrite plus_IZR; lra). apply lt_IZR in A.
  assert (B : IZR z < IZR k + 1) by lra. rewrite <- plus_IZR in B. apply lt_IZR in B. lia.
Qed.
Lemma R_power_neg_nonint a b x z d : x < 0 -> 0 < d < 1 -> R_power a b x (IZR z + d) = Err b.
Proof.
  intros H Hd. unfold R_power. destruct (Rlt_dec 0 x); [lra|].
  destruct (Req_EM_T x 0); [lra|]. rewrite (Int_part_non_int z d Hd).
  destruct (Req_EM_T (IZR z + d) (IZR z)); [lra|auto].
Qed.

Lemma R_power_nat a b x (n : nat) : (0 < n)%nat -> R_power a b x (INR n) = Ok (x ^ n).
Proof.
  intros Hn. destruct (total_order_T x 0) as [[H|H]|H].
  - rewrite INR_IZR_INZ, R_power_neg_int by auto. rewrite <- pow_powerRZ. reflexivity.
  - subst. rewrite R_power_0_pos by (apply lt_0_INR; lia). rewrite pow_i; auto.
  - rewrite R_power_pos by lra. now rewrite Rpower_pow by lra.
Qed.
Lemma R_power_2 a b x : R_power a b x 2 = Ok (x ^ 2).
Proof. replace 2 with (INR 2) by (simpl; lra). apply R_power_nat. lia. Qed.
Lemma R_power_3 a b x : R_power a b x 3 = Ok (x ^ 3).
Proof. replace 3 with (INR 3) by (simpl; lra). apply R_power_nat. lia. Qed.
Lemma R_power_4 a b x : R_power a b x 4 = Ok (x ^ 4).
Proof. replace 4 with (INR 4) by (simpl; lra). apply R_power_nat. lia. Qed.

(** Literals. *)
Lemma lit_1 z : IZR z / 1 = IZR z.
Proof. field. Qed.

(** [rnum]: expose the real operations. *)
Ltac rnum_unf :=
  unfold zero, one, num_of_nat in *;
  cbn [n_lit n_add n_sub n_mul n_neg n_abs n_div n_ltb n_leb n_eqb n_exp n_log10 n_sin n_sqrt n_erf
       n_mpow n_pow n_trunc n_pi n_inf n_np n_pyf RNum] in *.
Ltac rnum := rnum_unf; repeat rewrite lit_1 in *.

(** Destruct the boolean tests of the model into real inequalities. *)
Ltac rtests :=
  repeat match goal with
  | H : R_ltb _ _ = true |- _ => apply R_ltb_true in H
  | H : R_ltb _ _ = false |- _ => apply R_ltb_false in H
  | H : R_leb _ _ = true |- _ => apply R_leb_true in H
  | H : R_leb _ _ = false |- _ => apply R_leb_false in H
  | H : R_eqb _ _ = true |- _ => apply R_eqb_true in H
  | H : R_eqb _ _ = false |- _ => apply R_eqb_false in H
  end.
