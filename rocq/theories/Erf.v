(** * Erf: the error function is increasing, starts at 0 and stays below 1 *)
From Coquelicot Require Import Coquelicot.
From Verif Require Import Base Num RNum.
Open Scope R_scope.

Definition gauss (t : R) : R := exp (- t ^ 2).
Definition I0 (x : R) : R := RInt gauss 0 x.

Lemma gauss_cont t : continuous gauss t.
Proof. unfold gauss. apply (ex_derive_continuous (fun t => exp (- t ^ 2))). auto_derive. auto. Qed.
Lemma gauss_ex a b : ex_RInt gauss a b.
Proof. apply (ex_RInt_continuous (V := R_CompleteNormedModule)). intros. apply gauss_cont. Qed.
Lemma gauss_pos t : 0 < gauss t.
Proof. apply exp_pos. Qed.

Lemma I0_derive x : is_derive I0 x (gauss x).
Proof.
  unfold I0. apply (is_derive_RInt gauss (fun x => RInt gauss 0 x) 0 x).
  - apply filter_forall. intros y. apply (RInt_correct gauss 0 y). apply gauss_ex.
  - apply gauss_cont.
Qed.
Lemma I0_0 : I0 0 = 0.
Proof. unfold I0. apply (RInt_point 0 gauss). Qed.

Definition kern (x t : R) : R := exp (- (x ^ 2 * (1 + t ^ 2))) / (1 + t ^ 2).
Definition G0 (x : R) : R := RInt (kern x) 0 1.

Lemma one_plus_sq t : 1 + t ^ 2 <> 0.
Proof. assert (0 <= t ^ 2) by apply pow2_ge_0. lra. Qed.
Lemma kern_derive x t : is_derive (fun u => kern u t) x (- 2 * x * exp (- (x ^ 2 * (1 + t ^ 2)))).
Proof.
  unfold kern. assert (H := one_plus_sq t). auto_derive; auto.
  replace (- (x * (x * 1) * (1 + t * (t * 1)))) with (- (x ^ 2 * (1 + t ^ 2))) by ring.
  simpl in H. field. rewrite Rmult_1_r in H. exact H.
Qed.
Lemma kern_Derive x t : Derive (fun u => kern u t) x = - 2 * x * exp (- (x ^ 2 * (1 + t ^ 2))).
Proof. apply is_derive_unique, kern_derive. Qed.
Lemma kern_ex x : ex_RInt (kern x) 0 1.
Proof.
  apply (ex_RInt_continuous (V := R_CompleteNormedModule)). intros t _.
  apply (ex_derive_continuous (kern x)). unfold kern. auto_derive. apply one_plus_sq.
Qed.

Lemma G0_derive x : is_derive G0 x (- 2 * gauss x * I0 x).
Proof.
  assert (H : is_derive (fun y => RInt (fun t => kern y t) 0 1) x
                (RInt (fun t => Derive (fun u => kern u t) x) 0 1)).
  { apply is_derive_RInt_param.
    - apply filter_forall. intros y t _. eexists. apply kern_derive.
    - intros t _.
      apply continuity_2d_pt_ext with (f := fun u v => - 2 * u * exp (- (u ^ 2 * (1 + v ^ 2)))).
      { intros u v. symmetry. apply kern_Derive. }
      apply continuity_2d_pt_mult.
      + apply continuity_2d_pt_mult; [apply continuity_2d_pt_const|apply continuity_2d_pt_id1].
      + apply (continuity_1d_2d_pt_comp exp).
        * apply derivable_continuous_pt, derivable_pt_exp.
        * apply continuity_2d_pt_opp. apply continuity_2d_pt_mult.
          -- apply (continuity_1d_2d_pt_comp (fun u => u ^ 2)).
             apply derivable_continuous_pt, derivable_pt_pow. apply continuity_2d_pt_id1.
          -- apply continuity_2d_pt_plus; [apply continuity_2d_pt_const|].
             apply (continuity_1d_2d_pt_comp (fun u => u ^ 2)).
             apply derivable_continuous_pt, derivable_pt_pow. apply continuity_2d_pt_id2.
    - apply filter_forall. intros y. apply kern_ex. }
  replace (- 2 * gauss x * I0 x) with (RInt (fun t => Derive (fun u => kern u t) x) 0 1); [exact H|].
  transitivity (RInt (fun t => scal (- 2 * gauss x) (scal x (gauss (x * t + 0)))) 0 1).
  - apply RInt_ext. intros t _. rewrite kern_Derive. unfold scal; simpl; unfold mult; simpl. unfold gauss.
    assert (E : exp (- (x ^ 2 * (1 + t ^ 2))) = exp (- x ^ 2) * exp (- (x * t + 0) ^ 2)).
    { rewrite <- exp_plus. f_equal. ring. }
    simpl in *. rewrite E. ring.
  - assert (Ex : ex_RInt (fun t => scal x (gauss (x * t + 0))) 0 1).
    { apply (ex_RInt_comp_lin gauss x 0 0 1). apply gauss_ex. }
    transitivity ((- 2 * gauss x) * RInt (fun t => scal x (gauss (x * t + 0))) 0 1).
    { exact (RInt_scal (V := R_CompleteNormedModule) _ 0 1 (- 2 * gauss x) Ex). }
    f_equal. transitivity (RInt gauss (x * 0 + 0) (x * 1 + 0)).
    { exact (RInt_comp_lin (V := R_CompleteNormedModule) gauss x 0 0 1 (gauss_ex _ _)). }
    unfold I0. f_equal; ring.
Qed.

Lemma G0_0 : G0 0 = PI / 4.
Proof.
  unfold G0. rewrite (RInt_ext _ (fun t => / (1 + t ^ 2))).
  - assert (H : is_RInt (fun t => / (1 + t ^ 2)) 0 1 (minus (atan 1) (atan 0))).
    { apply (is_RInt_derive (V := R_CompleteNormedModule) atan (fun t => / (1 + t ^ 2))).
      - intros t _. apply is_derive_Reals, derivable_pt_lim_atan.
      - intros t _. apply (ex_derive_continuous (fun t => / (1 + t ^ 2))). auto_derive. apply one_plus_sq. }
    rewrite (is_RInt_unique (V := R_CompleteNormedModule) _ _ _ _ H), atan_1, atan_0.
    unfold minus, plus, opp; simpl. ring.
  - intros t _. unfold kern. replace (0 ^ 2 * (1 + t ^ 2)) with 0 by ring.
    rewrite Ropp_0, exp_0. apply Rmult_1_l.
Qed.

Lemma gauss_identity x : I0 x ^ 2 + G0 x = PI / 4.
Proof.
  assert (E : I0 0 ^ 2 + G0 0 = PI / 4) by (rewrite I0_0, G0_0; ring).
  rewrite <- E.
  assert (D : forall y, is_derive (fun x => I0 x ^ 2 + G0 x) y 0).
  { intros y.
    replace 0 with (plus (INR 2 * gauss y * I0 y ^ 1) (- 2 * gauss y * I0 y)) by (unfold plus; simpl; ring).
    apply (is_derive_plus (fun x => I0 x ^ 2) G0).
    - apply (is_derive_pow I0 2 y (gauss y)). apply I0_derive.
    - apply G0_derive. }
  destruct (MVT_gen (fun x => I0 x ^ 2 + G0 x) 0 x (fun _ => 0)) as (c & _ & Hc).
  - intros y _. apply D.
  - intros y _. apply continuity_pt_filterlim, (ex_derive_continuous (fun x => I0 x ^ 2 + G0 x)).
    eexists. apply D.
  - lra.
Qed.

Lemma G0_nonneg x : 0 <= G0 x.
Proof.
  unfold G0. apply RInt_ge_0; [lra|apply kern_ex|].
  intros t _. unfold kern. apply Rlt_le, Rdiv_lt_0_compat; [apply exp_pos|].
  assert (0 <= t ^ 2) by apply pow2_ge_0. lra.
Qed.

Lemma erf_I0 x : erf x = 2 / sqrt PI * I0 x.
Proof. reflexivity. Qed.
Lemma sqrt_PI_pos : 0 < sqrt PI.
Proof. apply sqrt_lt_R0, PI_RGT_0. Qed.

Lemma erf_sq_le_1 x : erf x ^ 2 <= 1.
Proof.
  rewrite erf_I0. assert (H := gauss_identity x). assert (Hg := G0_nonneg x).
  assert (Hp := PI_RGT_0). assert (Hs := sqrt_PI_pos).
  assert (E : sqrt PI * sqrt PI = PI) by (apply sqrt_sqrt; lra).
  replace ((2 / sqrt PI * I0 x) ^ 2) with (4 * I0 x ^ 2 / PI).
  - apply Rmult_le_reg_r with PI; [lra|]. unfold Rdiv. rewrite Rmult_assoc, Rinv_l by lra. lra.
  - rewrite <- E at 1. field. lra.
Qed.
Lemma erf_le_1 x : erf x <= 1.
Proof. assert (H := erf_sq_le_1 x). nra. Qed.
Lemma erf_0 : erf 0 = 0.
Proof. rewrite erf_I0, I0_0. ring. Qed.
Lemma erf_incr x y : x <= y -> erf x <= erf y.
Proof.
  intros H. rewrite !erf_I0. apply Rmult_le_compat_l.
  { apply Rlt_le, Rdiv_lt_0_compat; [lra|apply sqrt_PI_pos]. }
  unfold I0. rewrite <- (RInt_Chasles gauss 0 x y) by apply gauss_ex.
  assert (0 <= RInt gauss x y).
  { apply RInt_ge_0; [lra|apply gauss_ex|]. intros t _. apply Rlt_le, gauss_pos. }
  unfold plus; simpl. lra.
Qed.
Lemma erf_ge_0 x : 0 <= x -> 0 <= erf x.
Proof. intros H. rewrite <- erf_0. now apply erf_incr. Qed.
