(** * Properties C26-C33: melt, bubbles, bulk viscosity, vesicles, density,
      yield strength, Costa models (exact reals) *)
From Verif Require Import Base Num Json Logger World Vesicle MeltVisc RelVisc Bubbles Terrain Lava
  Spec Frame RNum RPow Erf Props_Rheology.
Open Scope R_scope.

(** ** C26 *)
(** Specification: parameters within the model's domain, and the temperatures
    (kelvin) at which it is meant to be used. *)
Definition melt_domain (m : melt_model R) (temp : R) : Prop :=
  match m with
  | MeltBasic visc_erupt _ => 0 < visc_erupt
  | MeltShaw slope => 0 < slope /\ 0 < temp
  | MeltVFT _ b c => 0 < b /\ c < temp
  end.

Lemma Rpower_10_incr x y : x < y -> Rpower 10 x < Rpower 10 y.
Proof. intros. apply Rpower_lt; lra. Qed.

Theorem C26_melt_viscosity : forall m (s : state R) t1 t2,
  melt_domain m t1 -> melt_domain m t2 -> t1 < t2 ->
  exists v1 v2,
    compute_melt_viscosity m (with_temp t1 s) = Ok v1 /\
    compute_melt_viscosity m (with_temp t2 s) = Ok v2 /\
    0 < v2 < v1.
Proof.
  intros m s t1 t2 H1 H2 Ht. destruct m; cbn [melt_domain compute_melt_viscosity] in *; rnum;
    cbn [st_temp set_core_temperature].
  - eexists _, _. split; [reflexivity|]. split; [reflexivity|]. split.
    + apply Rmult_lt_0_compat; [auto|apply exp_pos].
    + apply Rmult_lt_compat_l; auto. apply exp_increasing. lra.
  - rewrite !R_div_ok by lra. cbn [rbind]. rewrite !R_div_ok by lra. cbn [rbind].
    unfold R_pow. rewrite !R_power_pos by lra.
    eexists _, _. split; [reflexivity|]. split; [reflexivity|]. split; [apply Rpower_gt_0|].
    apply Rpower_10_incr. unfold Rdiv.
    assert (/ t2 < / t1). { apply Rinv_lt_contravar; [apply Rmult_lt_0_compat|]; lra. }
    assert (slope * (10000 * / t2) < slope * (10000 * / t1)).
    { apply Rmult_lt_compat_l; lra. }
    lra.
  - rewrite !R_div_ok by lra. cbn [rbind]. unfold R_pow. rewrite !R_power_pos by lra.
    eexists _, _. split; [reflexivity|]. split; [reflexivity|]. split; [apply Rpower_gt_0|].
    apply Rpower_10_incr. unfold Rdiv.
    assert (/ (t2 - c) < / (t1 - c)). { apply Rinv_lt_contravar; [apply Rmult_lt_0_compat|]; lra. }
    assert (b * / (t2 - c) < b * / (t1 - c)) by (apply Rmult_lt_compat_l; lra).
    lra.
Qed.

(** The three published laws, as the models are documented. *)
Theorem C26_melt_formulas : forall (s : state R),
  (forall ve te, compute_melt_viscosity (MeltBasic ve te) s = Ok (ve * exp (4 / 100 * (te - st_temp s)))) /\
  (forall a b c, st_temp s <> c ->
     compute_melt_viscosity (MeltVFT a b c) s = Ok (Rpower 10 (a + b / (st_temp s - c)))) /\
  (forall k, st_temp s <> 0 ->
     compute_melt_viscosity (MeltShaw k) s
     = Ok (Rpower 10 ((k * (10000 / st_temp s) - 3 / 2 * k - 64 / 10) / (2303 / 1000)) / 10)).
Proof.
  intros s. split; [|split]; intros; cbn [compute_melt_viscosity]; rnum.
  - reflexivity.
  - rewrite R_div_ok by lra. cbn [rbind]. unfold R_pow. now rewrite R_power_pos by lra.
  - rewrite R_div_ok by lra. cbn [rbind]. rewrite R_div_ok by lra. cbn [rbind]. unfold R_pow.
    rewrite R_power_pos by lra. f_equal. unfold Rminus at 1. rewrite Rpower_plus.
    rewrite Rpower_Ropp, Rpower_1 by lra. reflexivity.
Qed.

(** Outside the domain shaw and vft divide by zero. *)
Theorem C26_singular_temperature : forall (s : state R) k a b,
  (st_temp s = 0 -> compute_melt_viscosity (MeltShaw k) s = Err ZeroDivisionError) /\
  compute_melt_viscosity (MeltVFT a b (st_temp s)) s = Err ZeroDivisionError.
Proof.
  intros s k a b. cbn [compute_melt_viscosity]. rnum. split.
  - intros ->. now rewrite R_div_0.
  - replace (st_temp s - st_temp s) with 0 by ring. now rewrite R_div_0.
Qed.

Example C26_nonvacuous : melt_domain (MeltShaw (23 / 10)) 1400 /\ melt_domain (MeltVFT (-5) 5700 600) 1400 /\
  melt_domain (MeltBasic 100 1420) 1400.
Proof. cbn. lra. Qed.

(** ** C27 *)
Theorem C27_bubbles_direction : forall vm (s : state R) vf,
  computes_vesicle_fraction vm s = Ok vf -> 0 < vf < 1 ->
  compute_relative_viscosity_bubbles (BubNo vm) s = Ok 1 /\
  (exists x, compute_relative_viscosity_bubbles (BubRigid vm) s = Ok x /\ x = / (1 - vf) /\ 1 < x) /\
  (exists x, compute_relative_viscosity_bubbles (BubDefo vm) s = Ok x /\ x = Rpower (1 - vf) (5 / 3) /\ 0 < x < 1).
Proof.
  intros vm s vf Hvf H. cbn [compute_relative_viscosity_bubbles]. rewrite Hvf. cbn [rbind]. rnum.
  split; [reflexivity|]. unfold R_mpow. rewrite !R_power_pos by lra. split.
  - eexists. split; [reflexivity|]. replace (Rpower (1 - vf) (-1)) with (/ (1 - vf)).
    + split; [reflexivity|]. rewrite <- Rinv_1 at 1. apply Rinv_lt_contravar; lra.
    + replace (-1) with (Ropp 1) by lra. rewrite Rpower_Ropp, Rpower_1 by lra. reflexivity.
  - eexists. split; [reflexivity|]. split; [reflexivity|]. split; [apply Rpower_gt_0|apply Rpower_lt_1; lra].
Qed.

(** More bubbles, more effect. *)
Theorem C27_bubbles_monotone : forall vf1 vf2 (s : state R),
  0 <= vf1 < vf2 -> vf2 < 1 ->
  (exists x1 x2, compute_relative_viscosity_bubbles (BubRigid (VConstant vf1)) s = Ok x1 /\
     compute_relative_viscosity_bubbles (BubRigid (VConstant vf2)) s = Ok x2 /\ x1 < x2) /\
  (exists x1 x2, compute_relative_viscosity_bubbles (BubDefo (VConstant vf1)) s = Ok x1 /\
     compute_relative_viscosity_bubbles (BubDefo (VConstant vf2)) s = Ok x2 /\ x2 < x1).
Proof.
  intros vf1 vf2 s H1 H2. cbn [compute_relative_viscosity_bubbles computes_vesicle_fraction rbind]. rnum.
  unfold R_mpow. rewrite !R_power_pos by lra. split; eexists _, _; (split; [reflexivity|]); (split; [reflexivity|]).
  - apply (Rpower_neg_decr _ _ 1); lra.
  - apply Rpower_pos_incr; lra.
Qed.

(** mader: the capillary number compares viscous with surface forces, with the
    viscosity of melt and crystals; below 1 bubbles are rigid, from 1 on they
    deform. *)
Theorem C27_mader_switch : forall vm mm rm radius surf (s : state R) vf mv rv,
  computes_vesicle_fraction vm s = Ok vf -> compute_melt_viscosity mm s = Ok mv ->
  compute_relative_viscosity rm s = Ok rv -> surf <> 0 -> vf < 1 ->
  let capillary := radius * (mv * rv) / surf * st_strain s in
  (capillary < 1 ->
     compute_relative_viscosity_bubbles (BubMader vm mm rm radius surf) s
     = compute_relative_viscosity_bubbles (BubRigid vm) s) /\
  (1 <= capillary ->
     compute_relative_viscosity_bubbles (BubMader vm mm rm radius surf) s
     = compute_relative_viscosity_bubbles (BubDefo vm) s).
Proof.
  intros vm mm rm ra su s vf mv rv Hvf Hmv Hrv Hsu Hv ca. cbn [compute_relative_viscosity_bubbles].
  rewrite Hvf, Hmv, Hrv. cbn [rbind]. rnum. rewrite R_div_ok by auto. cbn [rbind]. fold ca.
  unfold R_pow, R_mpow. rewrite !R_power_pos by lra.
  split; intros H.
  - assert (E : R_ltb ca 1 = true) by now apply R_ltb_true. now rewrite E.
  - assert (E : R_ltb ca 1 = false) by now apply R_ltb_false. now rewrite E.
Qed.

(** At vesicle fraction 1 rigid bubbles raise. *)
Theorem C27_all_bubbles : forall vm (s : state R),
  computes_vesicle_fraction vm s = Ok 1 ->
  compute_relative_viscosity_bubbles (BubRigid vm) s = Err (ValueError "math domain error") /\
  compute_relative_viscosity_bubbles (BubDefo vm) s = Ok 0.
Proof.
  intros vm s Hvf. cbn [compute_relative_viscosity_bubbles]. rewrite Hvf. cbn [rbind]. rnum.
  replace (1 - 1) with 0 by ring. unfold R_mpow.
  rewrite R_power_0_neg, R_power_0_pos by lra. auto.
Qed.

(** ** C28 *)
Theorem C28_bulk_viscosity_product : forall (l : lava R) (s : state R) mu,
  computes_bulk_viscosity l s = Ok mu <->
  exists melt crystals bubbles,
    compute_melt_viscosity (lv_melt l) s = Ok melt /\
    compute_relative_viscosity (lv_rel l) s = Ok crystals /\
    compute_relative_viscosity_bubbles (lv_bub l) s = Ok bubbles /\
    mu = melt * crystals * bubbles.
Proof.
  intros l s mu. unfold computes_bulk_viscosity. split.
  - intros H. apply rbind_ok in H as (a & Ha & H). apply rbind_ok in H as (b & Hb & H).
    apply rbind_ok in H as (c & Hc & H). injection H as <-. exists a, b, c. auto.
  - intros (a & b & c & -> & -> & -> & ->). reflexivity.
Qed.
Theorem C28_bulk_viscosity_positive : forall (l : lava R) (s : state R) melt crystals bubbles,
  compute_melt_viscosity (lv_melt l) s = Ok melt ->
  compute_relative_viscosity (lv_rel l) s = Ok crystals ->
  compute_relative_viscosity_bubbles (lv_bub l) s = Ok bubbles ->
  0 < melt -> 0 < crystals -> 0 < bubbles ->
  exists mu, computes_bulk_viscosity l s = Ok mu /\ 0 < mu.
Proof.
  intros l s a b c Ha Hb Hc Pa Pb Pc. exists (a * b * c). split.
  - apply C28_bulk_viscosity_product. exists a, b, c. auto.
  - repeat apply Rmult_lt_0_compat; auto.
Qed.
(** It is defined exactly when all three factors are. *)
Theorem C28_bulk_viscosity_undefined : forall (l : lava R) (s : state R) e,
  computes_bulk_viscosity l s = Err e ->
  compute_melt_viscosity (lv_melt l) s = Err e \/
  compute_relative_viscosity (lv_rel l) s = Err e \/
  compute_relative_viscosity_bubbles (lv_bub l) s = Err e.
Proof.
  intros l s e. unfold computes_bulk_viscosity.
  destruct (compute_melt_viscosity (lv_melt l) s); cbn [rbind]; [|auto].
  destruct (compute_relative_viscosity (lv_rel l) s); cbn [rbind]; [|auto].
  destruct (compute_relative_viscosity_bubbles (lv_bub l) s); cbn [rbind]; [discriminate|auto].
Qed.

(** ** C29 *)
Definition vesicle_constants_ok (m : vesicle_model R) : Prop :=
  match m with
  | VConstant vf => 0 <= vf
  | VBimodal _ vf1 vf2 => 0 <= vf1 /\ 0 <= vf2
  | VVariable _ _ | VPoly _ _ _ => True
  | VVariableBimodal crit vf coef => 0 <= vf - coef * crit /\ 0 <= vf
  end.
Theorem C29_vesicles_defined : forall m (s : state R),
  exists vf, computes_vesicle_fraction m s = Ok vf.
Proof.
  intros [] s; cbn [computes_vesicle_fraction]; rnum.
  - eauto.
  - destruct (R_leb _ _); eauto.
  - destruct (R_leb _ _); eauto.
  - destruct (R_leb _ _); eauto.
  - unfold R_mpow. rewrite R_power_2. cbn [rbind]. destruct (R_leb _ _); eauto.
Qed.
Theorem C29_vesicles_not_negative : forall m (s : state R) vf,
  vesicle_constants_ok m -> 0 <= st_pos s ->
  computes_vesicle_fraction m s = Ok vf -> 0 <= vf.
Proof.
  intros [] s x Hc Hp H; cbn [computes_vesicle_fraction vesicle_constants_ok] in *; rnum.
  - injection H as <-. lra.
  - destruct (R_leb _ _); injection H as <-; lra.
  - destruct (R_leb _ _) eqn:E; injection H as <-; rtests; lra.
  - destruct (R_leb _ _) eqn:E; injection H as <-; rtests; [|lra].
    destruct (Rle_dec 0 coef); [nra|]. assert (coef * st_pos s <= 0) by nra. lra.
  - unfold R_mpow in H. rewrite R_power_2 in H. cbn [rbind] in H.
    destruct (R_leb _ _) eqn:E; injection H as <-; rtests; lra.
Qed.

(** variable: the configured fraction at the vent, falling linearly to 0 and
    staying there. *)
Theorem C29_variable : forall vf coef (s : state R),
  computes_vesicle_fraction (VVariable vf coef) s = Ok (Rmax 0 (vf - coef * st_pos s)).
Proof.
  intros. cbn [computes_vesicle_fraction]. rnum.
  destruct (R_leb _ _) eqn:E; rtests; f_equal; unfold Rmax; destruct (Rle_dec _ _); lra.
Qed.
Theorem C29_variable_range : forall vf coef (s : state R) x,
  0 <= vf -> 0 <= coef -> 0 <= st_pos s ->
  computes_vesicle_fraction (VVariable vf coef) s = Ok x -> 0 <= x <= vf.
Proof.
  intros vf coef s x Hv Hc Hp H. rewrite C29_variable in H. injection H as <-.
  unfold Rmax. destruct (Rle_dec _ _); nra.
Qed.
Theorem C29_poly : forall vf a b (s : state R),
  computes_vesicle_fraction (VPoly vf a b) s
  = Ok (Rmax 0 (vf + b * (st_pos s + 1) + a * st_pos s ^ 2)).
Proof.
  intros. cbn [computes_vesicle_fraction]. rnum. unfold R_mpow. rewrite R_power_2. cbn [rbind].
  destruct (R_leb _ _) eqn:E; rtests; f_equal; unfold Rmax; destruct (Rle_dec _ _); lra.
Qed.
Theorem C29_poly_range : forall vf a b (s : state R) x,
  0 <= vf -> a <= 0 -> b <= 0 -> 0 <= st_pos s ->
  computes_vesicle_fraction (VPoly vf a b) s = Ok x -> 0 <= x <= vf.
Proof.
  intros vf a b s x Hv Ha Hb Hp H. rewrite C29_poly in H. injection H as <-.
  assert (0 <= st_pos s ^ 2) by apply pow2_ge_0.
  unfold Rmax. destruct (Rle_dec _ _); nra.
Qed.
Theorem C29_bimodal : forall crit vf1 vf2 (s : state R),
  computes_vesicle_fraction (VBimodal crit vf1 vf2) s
  = Ok (if Rle_dec (st_pos s) crit then vf1 else vf2).
Proof.
  intros. cbn [computes_vesicle_fraction]. rnum. unfold R_leb. destruct (Rle_dec _ _); reflexivity.
Qed.
(** variable_bimodal: falls linearly up to the critical distance and is constant
    after it, without a jump. *)
Theorem C29_variable_bimodal : forall crit vf coef (s : state R),
  computes_vesicle_fraction (VVariableBimodal crit vf coef) s
  = Ok (vf - coef * Rmin (st_pos s) crit).
Proof.
  intros. cbn [computes_vesicle_fraction]. rnum. unfold R_leb, Rmin.
  destruct (Rle_dec (st_pos s) crit); reflexivity.
Qed.
(** ... but nothing keeps it positive. *)
Theorem C29_variable_bimodal_refuted : exists crit vf coef (s : state R) x,
  0 <= vf <= 1 /\ 0 < coef /\ 0 < crit /\ 0 <= st_pos s /\
  computes_vesicle_fraction (VVariableBimodal crit vf coef) s = Ok x /\ x < 0.
Proof.
  exists 1000, (1 / 2), (1 / 1000), {| st_phi := 0; st_temp := 1400; st_pos := 900; st_time := 0; st_strain := 1 |}, (- (4 / 10)).
  cbn [st_pos]. repeat split; try lra.
  rewrite C29_variable_bimodal. cbn [st_pos]. rewrite Rmin_left by lra. f_equal. lra.
Qed.

(** ** C30 *)
Theorem C30_density_range : forall (l : lava R) (s : state R) vf,
  lava_vesicle_fraction l s = Ok vf -> 0 < lv_dre l -> 0 <= vf < 1 ->
  exists rho, get_bulk_density l s = Ok rho /\ rho = lv_dre l * (1 - vf) /\ 0 < rho <= lv_dre l.
Proof.
  intros l s vf Hvf Hd Hv. unfold get_bulk_density. rewrite Hvf. cbn [rbind]. rnum.
  eexists. split; [reflexivity|]. split; [reflexivity|]. split; [apply Rmult_lt_0_compat; lra|nra].
Qed.
Theorem C30_density_decreasing : forall (l : lava R) (s1 s2 : state R) vf1 vf2 r1 r2,
  lava_vesicle_fraction l s1 = Ok vf1 -> lava_vesicle_fraction l s2 = Ok vf2 -> 0 < lv_dre l ->
  get_bulk_density l s1 = Ok r1 -> get_bulk_density l s2 = Ok r2 ->
  (vf1 < vf2 <-> r2 < r1).
Proof.
  intros l s1 s2 v1 v2 r1 r2 H1 H2 Hd G1 G2. unfold get_bulk_density in *.
  rewrite H1 in G1. rewrite H2 in G2. cbn [rbind] in *. rnum. injection G1 as <-. injection G2 as <-.
  split; nra.
Qed.
(** With the variable model and a non-negative coefficient, density never
    decreases downstream. *)
Theorem C30_density_downstream : forall (l : lava R) (s1 s2 : state R) vf coef r1 r2,
  lv_ves l = VVariable vf coef -> 0 <= coef -> 0 < lv_dre l -> st_pos s1 <= st_pos s2 ->
  get_bulk_density l s1 = Ok r1 -> get_bulk_density l s2 = Ok r2 -> r1 <= r2.
Proof.
  intros l s1 s2 vf coef r1 r2 Hl Hc Hd Hp G1 G2.
  unfold get_bulk_density, lava_vesicle_fraction in *. rewrite Hl, C29_variable in *. cbn [rbind] in *.
  rnum. injection G1 as <-. injection G2 as <-. apply Rmult_le_compat_l; [lra|].
  assert (coef * st_pos s1 <= coef * st_pos s2) by (apply Rmult_le_compat_l; lra).
  unfold Rmax. repeat destruct (Rle_dec _ _); lra.
Qed.

(** ** C31 *)
(** Specification: the yield strengths in pascal, in closed form. *)
Definition yield_value (y : yield_model R) (vf phi temp : R) : R :=
  match y with
  | YBasic te => 1 / 100 * exp (8 / 100 * (te - temp) - 1) + 6500 * pospow phi (285 / 100)
  | YDragoni tl _ => 1 / 100 * exp (8 / 100 * (tl - temp) - 1) + 6500 * pospow phi (285 / 100)
  | YDragoniAlone tl _ => 1 / 100 * exp (8 / 100 * (tl - temp) - 1)
  | YRyerson _ => 6500 * pospow phi (285 / 100)
  | YBLL _ _ => Rpower 10 (80 * (phi - 35 / 100)) + Rpower 10 (198 / 100 * (phi + vf - 35 / 100))
  end.
Definition yield_vesicles (y : yield_model R) (s : state R) : res R :=
  match y with YBLL vm _ => computes_vesicle_fraction vm s | _ => Ok 0 end.

Theorem C31_yield_formulas : forall y (s : state R) vf,
  yield_vesicles y s = Ok vf -> 0 <= st_phi s ->
  compute_yield_strength y s = Ok (yield_value y vf (st_phi s) (st_temp s)).
Proof.
  intros [] s x Hv Hp; cbn [compute_yield_strength yield_vesicles yield_value] in *; rnum;
    unfold R_pow, R_mpow; cbn [rbind]; rewrite ?R_power_pospow by lra; cbn [rbind]; auto.
  rewrite Hv. cbn [rbind]. rewrite !R_power_pos by lra. reflexivity.
Qed.

Lemma yield_vesicles_total y (s : state R) : exists vf, yield_vesicles y s = Ok vf.
Proof. destruct y; cbn; eauto. apply C29_vesicles_defined. Qed.
Lemma yield_vesicles_phi y p (s : state R) : yield_vesicles y (with_phi p s) = yield_vesicles y s.
Proof. destruct y; cbn [yield_vesicles]; rewrite ?ves_phi; reflexivity. Qed.
Lemma yield_vesicles_temp y t (s : state R) : yield_vesicles y (with_temp t s) = yield_vesicles y s.
Proof. destruct y as [| | | |[] ?]; reflexivity. Qed.

Definition feels_crystals (y : yield_model R) : Prop :=
  match y with YDragoniAlone _ _ => False | _ => True end.
Definition feels_temperature (y : yield_model R) : Prop :=
  match y with YRyerson _ | YBLL _ _ => False | _ => True end.

Theorem C31_yield_grows_with_crystals : forall y (s : state R) p1 p2,
  0 <= p1 < p2 ->
  exists t1 t2, compute_yield_strength y (with_phi p1 s) = Ok t1 /\
    compute_yield_strength y (with_phi p2 s) = Ok t2 /\
    0 <= t1 <= t2 /\ (feels_crystals y -> t1 < t2) /\ (~ feels_crystals y -> t1 = t2).
Proof.
  intros y s p1 p2 Hp. destruct (yield_vesicles_total y s) as [vf Hv].
  exists (yield_value y vf p1 (st_temp s)), (yield_value y vf p2 (st_temp s)).
  split; [|split].
  1,2: rewrite (C31_yield_formulas y _ vf);
    [reflexivity|now rewrite yield_vesicles_phi|cbn [st_phi set_crystal_fraction]; lra].
  assert (Hi : pospow p1 (285 / 100) < pospow p2 (285 / 100)) by (apply pospow_incr; lra).
  assert (H0 := pospow_ge_0 p1 (285 / 100)).
  destruct y; cbn [yield_value feels_crystals].
  - assert (H := exp_pos (8 / 100 * (t_erupt - st_temp s) - 1)). repeat split; intros; try lra; tauto.
  - assert (H := exp_pos (8 / 100 * (t_liq - st_temp s) - 1)). repeat split; intros; try lra; tauto.
  - assert (H := exp_pos (8 / 100 * (t_liq - st_temp s) - 1)). repeat split; intros; try lra; tauto.
  - repeat split; intros; try lra; tauto.
  - assert (A := Rpower_gt_0 10 (80 * (p1 - 35 / 100))).
    assert (B := Rpower_gt_0 10 (198 / 100 * (p1 + vf - 35 / 100))).
    assert (C : Rpower 10 (80 * (p1 - 35 / 100)) < Rpower 10 (80 * (p2 - 35 / 100))) by (apply Rpower_10_incr; lra).
    assert (D : Rpower 10 (198 / 100 * (p1 + vf - 35 / 100)) < Rpower 10 (198 / 100 * (p2 + vf - 35 / 100)))
      by (apply Rpower_10_incr; lra).
    repeat split; intros; try lra; tauto.
Qed.

Theorem C31_yield_grows_with_cooling : forall y (s : state R) t1 t2,
  0 <= st_phi s -> t1 < t2 ->
  exists y1 y2, compute_yield_strength y (with_temp t1 s) = Ok y1 /\
    compute_yield_strength y (with_temp t2 s) = Ok y2 /\
    0 <= y2 <= y1 /\ (feels_temperature y -> 0 < y2 < y1) /\ (~ feels_temperature y -> y1 = y2).
Proof.
  intros y s t1 t2 Hp Ht. destruct (yield_vesicles_total y s) as [vf Hv].
  exists (yield_value y vf (st_phi s) t1), (yield_value y vf (st_phi s) t2).
  split; [|split].
  1,2: rewrite (C31_yield_formulas y _ vf);
    [reflexivity|now rewrite yield_vesicles_temp|cbn [st_phi set_core_temperature]; lra].
  assert (H0 := pospow_ge_0 (st_phi s) (285 / 100)).
  destruct y; cbn [yield_value feels_temperature].
  - assert (H := exp_pos (8 / 100 * (t_erupt - t2) - 1)).
    assert (H' : exp (8 / 100 * (t_erupt - t2) - 1) < exp (8 / 100 * (t_erupt - t1) - 1)) by (apply exp_increasing; lra).
    repeat split; intros; try lra; tauto.
  - assert (H := exp_pos (8 / 100 * (t_liq - t2) - 1)).
    assert (H' : exp (8 / 100 * (t_liq - t2) - 1) < exp (8 / 100 * (t_liq - t1) - 1)) by (apply exp_increasing; lra).
    repeat split; intros; try lra; tauto.
  - assert (H := exp_pos (8 / 100 * (t_liq - t2) - 1)).
    assert (H' : exp (8 / 100 * (t_liq - t2) - 1) < exp (8 / 100 * (t_liq - t1) - 1)) by (apply exp_increasing; lra).
    repeat split; intros; try lra; tauto.
  - repeat split; intros; try lra; tauto.
  - assert (A := Rpower_gt_0 10 (80 * (st_phi s - 35 / 100))).
    assert (B := Rpower_gt_0 10 (198 / 100 * (st_phi s + vf - 35 / 100))).
    repeat split; intros; try lra; tauto.
Qed.

(** A negative crystal fraction makes the power complex. *)
Theorem C31_negative_crystals : forall te (s : state R),
  st_phi s < 0 ->
  compute_yield_strength (YBasic te) s = Err ComplexResult /\
  compute_yield_strength (YRyerson te) s = Err ComplexResult.
Proof.
  intros te s H. cbn [compute_yield_strength]. rnum. unfold R_pow.
  replace (285 / 100) with (IZR 2 + 85 / 100) by lra. rewrite R_power_neg_nonint by lra. auto.
Qed.

(** bll through the factory never sees the configured bubbles: it uses 10 %. *)
Theorem C31_bll_ignores_configured_bubbles : forall (d : json R) y,
  read_y_bll default_vesicle d = Ok y ->
  forall (s : state R), 0 <= st_phi s ->
    compute_yield_strength y s
    = Ok (Rpower 10 (80 * (st_phi s - 35 / 100)) + Rpower 10 (198 / 100 * (st_phi s + 1 / 10 - 35 / 100))).
Proof.
  intros d y H s Hp. unfold read_y_bll in H. apply rbind_ok in H as (t & _ & H). injection H as <-.
  rewrite (C31_yield_formulas _ _ (1 / 10)); auto.
Qed.

(** ** C32 *)
Theorem C32_basal_stress : forall (l : lava R) (t : terrain R) depth (s : state R) rho slope,
  get_bulk_density l s = Ok rho -> get_channel_slope t (st_pos s) = Ok slope ->
  get_basal_shear_stress l t depth s = Ok (depth * rho * ter_gravity t * sin slope).
Proof.
  intros l t depth s rho slope Hr Hs. unfold get_basal_shear_stress, compute_basal_shear_stress, basal_body.
  rewrite Hr, Hs. cbn [rbind]. rnum. destruct (lv_yield l); reflexivity.
Qed.
Theorem C32_stop_criterion : forall (l : lava R) (t : terrain R) depth (s : state R) t0 tb,
  get_yield_strength l s = Ok t0 -> get_basal_shear_stress l t depth s = Ok tb ->
  (yield_strength_notcompatible l t depth s = Ok true <-> tb <= t0) /\
  (yield_strength_notcompatible l t depth s = Ok false <-> t0 < tb).
Proof.
  intros l t depth s t0 tb H0 Hb.
  unfold yield_strength_notcompatible, model_yield_notcompatible.
  unfold get_yield_strength in H0. unfold get_basal_shear_stress in Hb. rewrite H0, Hb. cbn [rbind]. rnum.
  split; (split; intros H; [injection H as H; now rtests|f_equal; now first [apply R_leb_true|apply R_leb_false]]).
Qed.
(** On a horizontal or uphill bed lava never flows. *)
Theorem C32_no_slope_no_flow : forall (l : lava R) (t : terrain R) depth (s : state R) rho slope t0,
  get_bulk_density l s = Ok rho -> get_channel_slope t (st_pos s) = Ok slope ->
  get_yield_strength l s = Ok t0 ->
  0 <= depth -> 0 <= rho -> 0 <= ter_gravity t -> - PI <= slope <= 0 -> 0 <= t0 ->
  yield_strength_notcompatible l t depth s = Ok true.
Proof.
  intros l t depth s rho slope t0 Hr Hs H0 Hd Hrho Hg Hsl Ht.
  assert (Hb := C32_basal_stress l t depth s rho slope Hr Hs).
  apply (proj2 (proj1 (C32_stop_criterion l t depth s t0 _ H0 Hb))).
  assert (sin slope <= 0).
  { replace slope with (- (- slope)) by ring. rewrite sin_neg.
    assert (0 <= sin (- slope)) by (apply sin_ge_0; lra). lra. }
  assert (0 <= depth * rho * ter_gravity t) by (repeat apply Rmult_le_pos; lra). nra.
Qed.

(** ** C33 *)
Definition costa_model (m : rel_model R) (parameter : R) : Prop :=
  m = RelCosta1 parameter \/ m = RelCosta2 parameter.

Theorem C33_costa_other_parameter : forall m parameter (s : state R),
  costa_model m parameter -> parameter <> 1 -> parameter <> 1 / 10000 ->
  compute_relative_viscosity m s = Err TypeError.
Proof.
  intros m x s Hm H1 H2. assert (E1 : R_eqb x 1 = false) by now apply R_eqb_false.
  assert (E2 : R_eqb x (1 / 10000) = false) by now apply R_eqb_false.
  destruct Hm as [-> | ->]; cbn [compute_relative_viscosity]; rnum; now rewrite E1, E2.
Qed.

Lemma costa_value delta gama ps eps phi :
  0 < delta -> 0 < gama -> 0 < ps -> 0 < eps < 1 -> 0 <= phi ->
  let r := phi / ps in
  let arg := Rmin 25 (sqrt PI / (2 * (1 - eps)) * r * (1 + pospow r gama)) in
  costa_formula delta gama ps eps phi
  = Ok ((1 + pospow r delta) / Rpower (1 - (1 - eps) * erf arg) (5 / 2 * ps)) /\
  0 <= erf arg <= 1 /\ 0 <= arg.
Proof.
  intros Hd Hg Hs He Hp r arg.
  assert (Hr : 0 <= r) by (apply div_ge_0; lra).
  assert (Hk : 0 <= sqrt PI / (2 * (1 - eps))).
  { apply div_ge_0; [lra|]. apply sqrt_pos. }
  assert (Ha : 0 <= arg).
  { unfold arg. apply Rmin_glb; [lra|]. assert (0 <= pospow r gama) by apply pospow_ge_0.
    apply Rmult_le_pos; [apply Rmult_le_pos; auto|lra]. }
  assert (He1 : 0 <= erf arg <= 1) by (split; [now apply erf_ge_0|apply erf_le_1]).
  split; [|auto]. unfold costa_formula, py_min. rnum. unfold R_sqrt.
  assert (HPI := PI_RGT_0). destruct (Rle_dec 0 PI); [|lra]. cbn [rbind].
  rewrite R_div_ok by lra. cbn [rbind]. rewrite R_div_ok by lra. cbn [rbind]. fold r.
  unfold R_mpow. rewrite !R_power_pospow by lra. cbn [rbind].
  set (raw := sqrt PI / (2 * (1 - eps)) * r * (1 + pospow r gama)) in *.
  replace (if R_ltb raw 25 then raw else 25) with arg.
  2:{ unfold arg, Rmin, R_ltb. destruct (Rle_dec 25 raw), (Rlt_dec raw 25); lra. }
  assert (Hden : 0 < 1 - (1 - eps) * erf arg).
  { assert (0 <= (1 - eps) * (1 - erf arg)) by (apply Rmult_le_pos; lra). lra. }
  rewrite R_power_pos by exact Hden. cbn [rbind]. rewrite R_div_ok; [reflexivity|].
  apply Rgt_not_eq, Rpower_gt_0.
Qed.

Theorem C33_costa_defined : forall m parameter (s : state R) p1 p2,
  costa_model m parameter -> parameter = 1 \/ parameter = 1 / 10000 ->
  0 <= p1 < p2 ->
  exists x1 x2,
    compute_relative_viscosity m (with_phi p1 s) = Ok x1 /\
    compute_relative_viscosity m (with_phi p2 s) = Ok x2 /\
    1 <= x1 < x2.
Proof.
  intros m x s p1 p2 Hm Hx Hp.
  assert (Key : forall delta gama ps eps, 0 < delta -> 0 < gama -> 0 < ps -> 0 < eps < 1 ->
    exists x1 x2, costa_formula delta gama ps eps p1 = Ok x1 /\ costa_formula delta gama ps eps p2 = Ok x2 /\
      1 <= x1 < x2).
  { intros delta gama ps eps Hd Hg Hs He.
    destruct (costa_value delta gama ps eps p1) as (E1 & B1 & A1); try lra.
    destruct (costa_value delta gama ps eps p2) as (E2 & B2 & A2); try lra.
    set (r1 := p1 / ps) in *. set (r2 := p2 / ps) in *.
    set (a1 := Rmin 25 (sqrt PI / (2 * (1 - eps)) * r1 * (1 + pospow r1 gama))) in *.
    set (a2 := Rmin 25 (sqrt PI / (2 * (1 - eps)) * r2 * (1 + pospow r2 gama))) in *.
    eexists _, _. split; [exact E1|]. split; [exact E2|].
    assert (Hr1 : 0 <= r1) by (apply div_ge_0; lra).
    assert (Hr : r1 < r2) by (apply div_lt_compat; lra).
    assert (Hd12 : pospow r1 delta < pospow r2 delta) by (apply pospow_incr; lra).
    assert (Hg12 : pospow r1 gama < pospow r2 gama) by (apply pospow_incr; lra).
    assert (Hd0 := pospow_ge_0 r1 delta). assert (Hg0 := pospow_ge_0 r1 gama).
    assert (Hk : 0 <= sqrt PI / (2 * (1 - eps))) by (apply div_ge_0; [lra|apply sqrt_pos]).
    assert (Ha : a1 <= a2).
    { unfold a1, a2. apply Rle_min_compat_l. rewrite !Rmult_assoc. apply Rmult_le_compat_l; [lra|]. nra. }
    apply erf_incr in Ha.
    set (d1 := Rpower (1 - (1 - eps) * erf a1) (5 / 2 * ps)).
    set (d2 := Rpower (1 - (1 - eps) * erf a2) (5 / 2 * ps)).
    assert (D1 : 0 < d1) by apply Rpower_gt_0. assert (D2 : 0 < d2) by apply Rpower_gt_0.
    assert (M1 : 0 <= (1 - eps) * (1 - erf a1)) by (apply Rmult_le_pos; lra).
    assert (M2 : 0 <= (1 - eps) * (1 - erf a2)) by (apply Rmult_le_pos; lra).
    assert (M3 : 0 <= (1 - eps) * erf a1) by (apply Rmult_le_pos; lra).
    assert (M4 : 0 <= (1 - eps) * (erf a2 - erf a1)) by (apply Rmult_le_pos; lra).
    assert (D1' : d1 <= 1) by (apply Rpower_le_1; lra).
    assert (D12 : d2 <= d1) by (apply Rpower_pos_incr_le; lra).
    split.
    - apply Rmult_le_reg_r with d1; auto. unfold Rdiv. rewrite Rmult_assoc, Rinv_l by lra. lra.
    - unfold Rdiv. assert (/ d1 <= / d2) by (apply Rinv_le_contravar; lra).
      assert (0 < / d1) by (apply Rinv_0_lt_compat; lra).
      apply Rlt_le_trans with ((1 + pospow r2 delta) * / d1).
      + apply Rmult_lt_compat_r; lra.
      + apply Rmult_le_compat_l; lra. }
  destruct Hm as [-> | ->]; cbn [compute_relative_viscosity st_phi set_crystal_fraction]; rnum;
    destruct Hx as [-> | ->].
  - rewrite (proj2 (R_eqb_true 1 1)) by auto. apply Key; lra.
  - rewrite (proj2 (R_eqb_false (1 / 10000) 1)) by lra. rewrite (proj2 (R_eqb_true (1 / 10000) (1 / 10000))) by auto.
    apply Key; lra.
  - rewrite (proj2 (R_eqb_true 1 1)) by auto. apply Key; lra.
  - rewrite (proj2 (R_eqb_false (1 / 10000) 1)) by lra. rewrite (proj2 (R_eqb_true (1 / 10000) (1 / 10000))) by auto.
    apply Key; lra.
Qed.
(** Without crystals both models give exactly 1, and they never call a state
    incompatible. *)
Theorem C33_costa_no_crystals : forall m parameter (s : state R),
  costa_model m parameter -> parameter = 1 \/ parameter = 1 / 10000 ->
  compute_relative_viscosity m (with_phi 0 s) = Ok 1 /\ rel_is_notcompatible m s = Ok false.
Proof.
  intros m x s Hm Hx.
  assert (Key : forall delta gama ps eps, 0 < delta -> 0 < gama -> 0 < ps -> 0 < eps < 1 ->
    costa_formula delta gama ps eps 0 = Ok 1).
  { intros delta gama ps eps Hd Hg Hs He.
    destruct (costa_value delta gama ps eps 0) as (E1 & _ & _); try lra. rewrite E1. f_equal.
    replace (0 / ps) with 0 by (field; lra). rewrite !pospow_0.
    replace (sqrt PI / (2 * (1 - eps)) * 0 * (1 + 0)) with 0 by ring. rewrite Rmin_right by lra.
    rewrite erf_0, Rmult_0_r, Rminus_0_r, Rpower_1_l. field. }
  split; [|destruct Hm as [-> | ->]; reflexivity].
  destruct Hm as [-> | ->]; cbn [compute_relative_viscosity st_phi set_crystal_fraction]; rnum;
    destruct Hx as [-> | ->].
  - rewrite (proj2 (R_eqb_true 1 1)) by auto. apply Key; lra.
  - rewrite (proj2 (R_eqb_false (1 / 10000) 1)) by lra. rewrite (proj2 (R_eqb_true (1 / 10000) (1 / 10000))) by auto.
    apply Key; lra.
  - rewrite (proj2 (R_eqb_true 1 1)) by auto. apply Key; lra.
  - rewrite (proj2 (R_eqb_false (1 / 10000) 1)) by lra. rewrite (proj2 (R_eqb_true (1 / 10000) (1 / 10000))) by auto.
    apply Key; lra.
Qed.
