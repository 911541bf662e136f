(** * FloatErr: how far a binary64 product, quotient or sum is from the exact one *)
From Coq Require Import ZArith Reals Lra Psatz.
From Flocq Require Import Core BinarySingleNaN Relative.
From Verif Require Import Base Num FNum FFacts.
Open Scope R_scope.

(** Half a unit in the last place of 1: the largest relative rounding error. *)
Notation u := (bpow radix2 (-53)).

(** A finite double whose magnitude lies between 2^-k and 2^k. *)
Definition within (k : Z) (x : b64) : Prop :=
  is_finite x = true /\ bpow radix2 (- k) <= Rabs (B2R x) <= bpow radix2 k.

Lemma within_nonzero k x : within k x -> B2R x <> 0.
Proof.
  intros (_ & H & _) E. rewrite E, Rabs_R0 in H. assert (P := bpow_gt_0 radix2 (- k)). lra.
Qed.
Lemma within_opp k x : within k x -> within k (Bopp x).
Proof. intros (F & H). split; [rewrite is_finite_Bopp; exact F|rewrite B2R_Bopp, Rabs_Ropp; exact H]. Qed.
Lemma within_mono k l x : (k <= l)%Z -> within k x -> within l x.
Proof.
  intros H (F & A & B). split; [exact F|]. split.
  - apply Rle_trans with (2 := A). apply bpow_le. lia.
  - apply Rle_trans with (1 := B). apply bpow_le. lia.
Qed.

Lemma bpow_in_format e : (-1022 <= e)%Z -> generic_format radix2 (FLT_exp emin prec) (bpow radix2 e).
Proof. intros H. apply generic_format_bpow. unfold FLT_exp, emin, prec. lia. Qed.

Section Round.
Context (k : Z) (x : R) (Hk : (0 <= k <= 1022)%Z) (H : bpow radix2 (- k) <= Rabs x <= bpow radix2 k).

Lemma rnd_within : bpow radix2 (- k) <= Rabs (rnd x) <= bpow radix2 k.
Proof.
  split.
  - apply abs_round_ge_generic; try typeclasses eauto; [apply bpow_in_format; lia|apply H].
  - apply abs_round_le_generic; try typeclasses eauto; [apply bpow_in_format; lia|apply H].
Qed.
Lemma rnd_no_overflow : Rlt_bool (Rabs (rnd x)) (bpow radix2 emax) = true.
Proof.
  apply Rlt_bool_true. apply Rle_lt_trans with (1 := proj2 rnd_within). apply bpow_lt. unfold emax. lia.
Qed.
Lemma rnd_relative : exists e, Rabs e <= u /\ rnd x = x * (1 + e).
Proof.
  destruct (relative_error_N_FLT_ex radix2 emin prec eq_refl (fun z => negb (Z.even z)) x) as (e & He & E).
  - apply Rle_trans with (2 := proj1 H). apply bpow_le. unfold emin, prec. lia.
  - exists e. split; [|exact E]. replace u with (/ 2 * bpow radix2 (- prec + 1)); [exact He|].
    change (/2) with (bpow radix2 (-1)). rewrite <- bpow_plus. reflexivity.
Qed.
End Round.

Lemma abs_mult_within a b x y : bpow radix2 (- a) <= Rabs x <= bpow radix2 a ->
  bpow radix2 (- b) <= Rabs y <= bpow radix2 b ->
  bpow radix2 (- (a + b)) <= Rabs (x * y) <= bpow radix2 (a + b).
Proof.
  intros A B. rewrite Rabs_mult, Z.opp_add_distr, !bpow_plus.
  assert (P1 := bpow_gt_0 radix2 (- a)). assert (P2 := bpow_gt_0 radix2 (- b)).
  split; apply Rmult_le_compat; lra.
Qed.
Lemma abs_inv_within b y : bpow radix2 (- b) <= Rabs y <= bpow radix2 b ->
  bpow radix2 (- b) <= Rabs (/ y) <= bpow radix2 b.
Proof.
  intros B. assert (P1 := bpow_gt_0 radix2 (- b)).
  assert (Hy : y <> 0) by (intros ->; rewrite Rabs_R0 in B; lra).
  rewrite Rabs_inv. rewrite bpow_opp at 1. replace (bpow radix2 b) with (/ bpow radix2 (- b)) at 2
    by (rewrite bpow_opp, Rinv_inv; reflexivity).
  split; apply Rinv_le_contravar; lra || (try apply B; apply Rabs_pos_lt; auto).
Qed.

Lemma mult_within a b x y : (0 <= a)%Z -> (0 <= b)%Z -> (a + b <= 1022)%Z -> within a x -> within b y ->
  within (a + b) (Bmult mode_NE x y) /\
  exists e, Rabs e <= u /\ B2R (Bmult mode_NE x y) = B2R x * B2R y * (1 + e).
Proof.
  intros Ha Hb Hab (Fx & X) (Fy & Y). assert (P := abs_mult_within _ _ _ _ X Y).
  assert (C := Bmult_correct _ _ _ _ mode_NE x y). rewrite fexp_is in C.
  rewrite (rnd_no_overflow (a + b)) in C by (lia || exact P). destruct C as (C1 & C2 & _).
  rewrite Fx, Fy in C2. split.
  - split; [exact C2|]. rewrite C1. apply rnd_within; [lia|exact P].
  - rewrite C1. apply (rnd_relative (a + b)); [lia|exact P].
Qed.
Lemma div_within a b x y : (0 <= a)%Z -> (0 <= b)%Z -> (a + b <= 1022)%Z -> within a x -> within b y ->
  within (a + b) (Bdiv mode_NE x y) /\
  exists e, Rabs e <= u /\ B2R (Bdiv mode_NE x y) = B2R x / B2R y * (1 + e).
Proof.
  intros Ha Hb Hab WX WY. assert (N := within_nonzero _ _ WY). destruct WX as (Fx & X), WY as (Fy & Y).
  assert (P := abs_mult_within _ _ _ _ X (abs_inv_within _ _ Y)).
  assert (C := Bdiv_correct _ _ _ _ mode_NE x y N). rewrite fexp_is in C.
  change (B2R x / B2R y) with (B2R x * / B2R y) in *.
  rewrite (rnd_no_overflow (a + b)) in C by (lia || exact P). destruct C as (C1 & C2 & _).
  rewrite Fx in C2. split.
  - split; [exact C2|]. rewrite C1. apply rnd_within; [lia|exact P].
  - rewrite C1. apply (rnd_relative (a + b)); [lia|exact P].
Qed.

(** Finite sums and products come from finite terms, and are rounded ones. *)
Lemma plus_finite (x y : b64) : is_finite (Bplus mode_NE x y) = true ->
  is_finite x = true /\ is_finite y = true /\ B2R (Bplus mode_NE x y) = rnd (B2R x + B2R y).
Proof.
  intros H. assert (F : is_finite x = true /\ is_finite y = true).
  { destruct x as [s|s| |s m e Hb], y as [s'|s'| |s' m' e' Hb']; try (split; reflexivity); try discriminate H;
      destruct s; try destruct s'; discriminate H. }
  destruct F as [Fx Fy]. split; [exact Fx|]. split; [exact Fy|].
  assert (C := Bplus_correct _ _ _ _ mode_NE x y Fx Fy). rewrite fexp_is in C.
  destruct (Rlt_bool _ _) in C; [apply C|]. destruct C as [C _]. exfalso.
  destruct (Bplus mode_NE x y); simpl in H, C; discriminate.
Qed.
Lemma mult_finite (x y : b64) : is_finite (Bmult mode_NE x y) = true ->
  is_finite x = true /\ is_finite y = true /\ B2R (Bmult mode_NE x y) = rnd (B2R x * B2R y).
Proof.
  intros H. assert (C := Bmult_correct _ _ _ _ mode_NE x y). rewrite fexp_is in C.
  destruct (Rlt_bool _ _) in C.
  - destruct C as (C1 & C2 & _). rewrite H in C2. symmetry in C2. apply andb_prop in C2 as [A B]. auto.
  - exfalso. destruct (Bmult mode_NE x y); simpl in H, C; discriminate.
Qed.
Lemma rnd_error x : Rabs (rnd x - x) <= u * Rabs x + bpow radix2 (-1075).
Proof.
  destruct (error_N_FLT radix2 emin prec eq_refl (fun z => negb (Z.even z)) x) as (e & h & He & Hh & _ & E).
  change (rnd x = x * (1 + e) + h) in E. rewrite E. replace (x * (1 + e) + h - x) with (x * e + h) by ring.
  apply Rle_trans with (1 := Rabs_triang _ _). rewrite Rabs_mult.
  replace (/ 2 * bpow radix2 (- prec + 1)) with u in He
    by (change (/2) with (bpow radix2 (-1)); rewrite <- bpow_plus; reflexivity).
  replace (/ 2 * bpow radix2 emin) with (bpow radix2 (-1075)) in Hh
    by (change (/2) with (bpow radix2 (-1)); rewrite <- bpow_plus; reflexivity).
  assert (Q := Rabs_pos x). nra.
Qed.

(** x + y*z, as a loop body computes it. *)
Lemma advance_error (x y z : b64) : is_finite (Bplus mode_NE x (Bmult mode_NE y z)) = true ->
  Rabs (B2R (Bplus mode_NE x (Bmult mode_NE y z)) - (B2R x + B2R y * B2R z)) <=
    bpow radix2 (-51) * (Rabs (B2R x) + Rabs (B2R y * B2R z)) + bpow radix2 (-1073).
Proof.
  intros H. destruct (plus_finite _ _ H) as (Fx & Fp & E). destruct (mult_finite _ _ Fp) as (_ & _ & Ep).
  set (d := B2R y * B2R z) in *. set (p := B2R (Bmult mode_NE y z)) in *.
  assert (E1 := rnd_error d). rewrite <- Ep in E1. assert (E2 := rnd_error (B2R x + p)). rewrite <- E in E2.
  set (T' := B2R (Bplus mode_NE x (Bmult mode_NE y z))) in *.
  assert (T1 := Rabs_triang (T' - (B2R x + p)) (p - d)).
  replace (T' - (B2R x + p) + (p - d)) with (T' - (B2R x + d)) in T1 by ring.
  assert (T2 := Rabs_triang (B2R x) p). assert (T3 := Rabs_triang d (p - d)).
  replace (d + (p - d)) with p in T3 by ring.
  assert (U1 : bpow radix2 (-51) = 4 * u) by (change 4 with (bpow radix2 2); rewrite <- bpow_plus; reflexivity).
  assert (U2 : bpow radix2 (-1073) = 4 * bpow radix2 (-1075)) by (change 4 with (bpow radix2 2); rewrite <- bpow_plus; reflexivity).
  rewrite U1, U2. assert (P1 := bpow_gt_0 radix2 (-53)). assert (P2 := bpow_gt_0 radix2 (-1075)).
  assert (P3 : u <= 1) by (change 1 with (bpow radix2 0); apply bpow_le; lia).
  assert (Q1 := Rabs_pos (B2R x)). assert (Q2 := Rabs_pos d).
  set (h := bpow radix2 (-1075)) in *. set (uu := u) in *. clearbody uu h.
  assert (A : Rabs p <= 2 * Rabs d + h) by nra. nra.
Qed.

(** Relative errors that accumulate through one product chain and a quotient. *)
Lemma u_small : 0 < u /\ 1000 * u <= 1.
Proof.
  split; [apply bpow_gt_0|]. assert (H : u <= bpow radix2 (-10)) by (apply bpow_le; lia).
  change (bpow radix2 (-10)) with (/ 1024) in H. set (uu := u) in *. clearbody uu. lra.
Qed.
Lemma chain3 e1 e2 e3 e4 : Rabs e1 <= u -> Rabs e2 <= u -> Rabs e3 <= u -> Rabs e4 <= u ->
  Rabs ((1 + e4) / ((1 + e1) * (1 + e2) * (1 + e3)) - 1) <= bpow radix2 (-50).
Proof.
  intros H1 H2 H3 H4. destruct u_small as [U0 U1].
  replace (bpow radix2 (-50)) with (8 * u) by (change 8 with (bpow radix2 3); rewrite <- bpow_plus; reflexivity).
  set (uu := u) in *. clearbody uu.
  apply Rabs_le_inv in H1, H2, H3, H4. set (q := (1 + e1) * (1 + e2) * (1 + e3)).
  assert (Q : 1 - 4 * uu <= q <= 1 + 4 * uu).
  { unfold q. assert (A : 1 - 5 / 2 * uu <= (1 + e1) * (1 + e2) <= 1 + 5 / 2 * uu).
    { assert (Rabs (e1 * e2) <= uu * uu).
      { rewrite Rabs_mult. apply Rmult_le_compat; try apply Rabs_pos; apply Rabs_le; lra. }
      apply Rabs_le_inv in H. nra. }
    set (g := (1 + e1) * (1 + e2)) in *. clearbody g. nra. }
  assert (Pq : 0 < q) by nra. assert (Hu : uu * (1 - 4 * uu) <= uu * q) by (apply Rmult_le_compat_l; lra).
  replace ((1 + e4) / q - 1) with ((1 + e4 - q) / q) by (field; lra).
  apply Rabs_le. split.
  - apply Rmult_le_reg_r with q; [exact Pq|]. unfold Rdiv. rewrite Rmult_assoc, Rinv_l by lra. nra.
  - apply Rmult_le_reg_r with q; [exact Pq|]. unfold Rdiv. rewrite Rmult_assoc, Rinv_l by lra. nra.
Qed.
Lemma chain1 e1 e4 : Rabs e1 <= u -> Rabs e4 <= u ->
  Rabs ((1 + e4) / (1 + e1) - 1) <= bpow radix2 (-51).
Proof.
  intros H1 H4. destruct u_small as [U0 U1].
  replace (bpow radix2 (-51)) with (4 * u) by (change 4 with (bpow radix2 2); rewrite <- bpow_plus; reflexivity).
  set (uu := u) in *. clearbody uu. apply Rabs_le_inv in H1, H4.
  assert (Pq : 0 < 1 + e1) by lra.
  replace ((1 + e4) / (1 + e1) - 1) with ((e4 - e1) / (1 + e1)) by (field; lra).
  apply Rabs_le. split; apply Rmult_le_reg_r with (1 + e1); try exact Pq; unfold Rdiv; rewrite Rmult_assoc, Rinv_l by lra; nra.
Qed.

(** ** Exact sums: multiples of 2^e that stay below 2^(53+e) *)
Lemma plus_exact (x y : b64) (m n e : Z) :
  is_finite x = true -> is_finite y = true ->
  B2R x = IZR m * bpow radix2 e -> B2R y = IZR n * bpow radix2 e ->
  (-1074 <= e <= 970)%Z -> (Z.abs (m + n) <= 2 ^ 53)%Z ->
  is_finite (Bplus mode_NE x y) = true /\ B2R (Bplus mode_NE x y) = IZR (m + n) * bpow radix2 e.
Proof.
  intros Fx Fy Ex Ey He Hm.
  assert (Hm' : Rabs (IZR (m + n)) <= bpow radix2 53).
  { rewrite <- abs_IZR. change (bpow radix2 53) with (IZR (2 ^ 53)). apply IZR_le. exact Hm. }
  assert (G : generic_format radix2 (FLT_exp emin prec) (IZR (m + n) * bpow radix2 e)).
  { destruct (Z.eq_dec (Z.abs (m + n)) (2 ^ 53)) as [Q|Q].
    - assert (A : (m + n = 2 ^ 53 \/ m + n = - 2 ^ 53)%Z) by lia.
      assert (B : IZR (2 ^ 53) * bpow radix2 e = bpow radix2 (53 + e)) by (rewrite bpow_plus; reflexivity).
      destruct A as [-> | ->].
      + rewrite B. apply generic_format_bpow. unfold FLT_exp, emin, prec. lia.
      + rewrite opp_IZR. rewrite <- Ropp_mult_distr_l. apply generic_format_opp. rewrite B.
        apply generic_format_bpow. unfold FLT_exp, emin, prec. lia.
    - apply generic_format_FLT. exists (Float radix2 (m + n) e); simpl.
      + reflexivity.
      + change (Z.pow_pos 2 53) with (2 ^ 53)%Z. unfold prec. lia.
      + unfold emin. lia. }
  assert (S : B2R x + B2R y = IZR (m + n) * bpow radix2 e) by (rewrite Ex, Ey, plus_IZR; ring).
  assert (C := Bplus_correct _ _ _ _ mode_NE x y Fx Fy). rewrite fexp_is, S, round_generic in C by (typeclasses eauto || exact G).
  rewrite Rlt_bool_true in C; [split; apply C|].
  rewrite Rabs_mult, (Rabs_pos_eq (bpow radix2 e)) by apply bpow_ge_0.
  apply Rle_lt_trans with (bpow radix2 53 * bpow radix2 e).
  - apply Rmult_le_compat_r; [apply bpow_ge_0|exact Hm'].
  - rewrite <- bpow_plus. apply bpow_lt. unfold emax. lia.
Qed.
Lemma chain2 e1 e2 e3 : Rabs e1 <= u -> Rabs e2 <= u -> Rabs e3 <= u ->
  Rabs ((1 + e2) * (1 + e3) / (1 + e1) - 1) <= bpow radix2 (-50).
Proof.
  intros H1 H2 H3. destruct u_small as [U0 U1].
  replace (bpow radix2 (-50)) with (8 * u) by (change 8 with (bpow radix2 3); rewrite <- bpow_plus; reflexivity).
  set (uu := u) in *. clearbody uu. apply Rabs_le_inv in H1, H2, H3.
  assert (A : 1 - 5 / 2 * uu <= (1 + e2) * (1 + e3) <= 1 + 5 / 2 * uu).
  { assert (Rabs (e2 * e3) <= uu * uu).
    { rewrite Rabs_mult. apply Rmult_le_compat; try apply Rabs_pos; apply Rabs_le; lra. }
    apply Rabs_le_inv in H. nra. }
  set (g := (1 + e2) * (1 + e3)) in *. clearbody g. assert (Pq : 0 < 1 + e1) by lra.
  replace (g / (1 + e1) - 1) with ((g - (1 + e1)) / (1 + e1)) by (field; lra).
  apply Rabs_le. split; apply Rmult_le_reg_r with (1 + e1); try exact Pq; unfold Rdiv; rewrite Rmult_assoc, Rinv_l by lra; nra.
Qed.
