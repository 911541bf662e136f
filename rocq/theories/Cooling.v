(** * Cooling: when every heat flux is a loss (exact reals) *)
From Verif Require Import Base Num Json Logger World Vesicle MeltVisc RelVisc Bubbles Terrain Lava
  Thermal Flux Integrator Frame StepLog Spec RNum RPow StepProofs Props_Velocity Props_Rheology Props_Material
  Props_Thermal Gives Props_Flux Safe.
Open Scope R_scope.

(** The parameters under which a flux takes heat out of the lava.  Viscous
    heating is in the list without any condition: the code adds it with the
    sign of a loss (C43). *)
Definition is_loss (sm : sim R) (f : flux R) : Prop :=
  match f with
  | FRadiation (RadBasic e) sigma => 0 < sigma /\ 0 < e
  | FRadiation (Rad2Emi e1 e2) sigma => 0 < sigma /\ 0 < e1 /\ 0 < e2
  | FRadiation RadCont sigma | FRadiation RadLin sigma => 0 < sigma
  | FConduction tb cbd => 0 < cbd /\ tb <= get_solid_temperature (s_cryst sm)
  | FConvection => 0 < air_ch (s_air sm) * air_rho (s_air sm) * air_cp (s_air sm) * air_wind (s_air sm)
  | FRain rate dens latent => 0 < rate * dens * latent
  | FViscous | FSnyder => True
  end.

(** A surface warmer than the air (by a quarter of a percent: the convective
    temperature falls short of the surface's by that much, C39) and below
    2600 K (where the fitted emissivities are positive). *)
Record warm (sm : sim R) (w : world R) : Prop := {
  wm_wb : well_behaved sm w;
  wm_ta : 1 <= air_temp (s_air sm);
  wm_tc : exists tc, compute_crust_temperature (s_crust sm) (w_st w) = Ok tc /\
            401 / 400 * air_temp (s_air sm) <= tc <= 2600;
  wm_th : 401 / 400 * air_temp (s_air sm) <= st_temp (w_st w) - lv_buffer (s_lava sm) <= 2600;
  wm_core : get_solid_temperature (s_cryst sm) < st_temp (w_st w);
  wm_loss : Forall (is_loss sm) (s_budget sm)
}.

Lemma fourth_lt a b : 0 <= a < b -> a ^ 4 < b ^ 4.
Proof.
  intros H. assert (a * a < b * b) by nra. assert (0 <= a * a) by nra.
  replace (a ^ 4) with ((a * a) * (a * a)) by ring. replace (b ^ 4) with ((b * b) * (b * b)) by ring. nra.
Qed.
Lemma mix_pos f x y : 0 <= f <= 1 -> 0 < x -> 0 < y -> 0 < f * x + (1 - f) * y.
Proof. intros H Hx Hy. assert (0 <= f * x) by nra. assert (0 <= (1 - f) * y) by nra. destruct (Req_dec f 0); nra. Qed.
Lemma mix_le f x y m : 0 <= f <= 1 -> x <= m -> y <= m -> f * x + (1 - f) * y <= m.
Proof. intros H Hx Hy. assert (f * x <= f * m) by nra. assert ((1 - f) * y <= (1 - f) * m) by nra. lra. Qed.
Lemma mix_ge f x y m : 0 <= f <= 1 -> m <= x -> m <= y -> m <= f * x + (1 - f) * y.
Proof. intros H Hx Hy. assert (f * m <= f * x) by nra. assert ((1 - f) * m <= (1 - f) * y) by nra. lra. Qed.

Section Here.
Variables (sm : sim R) (w : world R).
Hypothesis H : warm sm w.
Let B := wm_wb _ _ H.
Let ta := air_temp (s_air sm).

Lemma warm_crust : safe (crust_temp sm) w (fun tc => 401 / 400 * ta <= tc <= 2600).
Proof.
  destruct (wm_tc _ _ H) as (tc & E & Ht).
  apply safe_reads. intros x c _. exists tc.
  change (w_st (touched x c w)) with (set_strain_rate x (w_st w)). rewrite crust_strain. split; [exact E|exact Ht].
Qed.
Lemma warm_molten : safe (molten_temp sm) w (fun th => 401 / 400 * ta <= th <= 2600).
Proof.
  assert (Hh := wm_th _ _ H). apply safe_get. intros x c _.
  change (computes_molten_material_temperature (s_lava sm) (w_st (touched x c w)))
    with (st_temp (w_st w) - lv_buffer (s_lava sm)). exact Hh.
Qed.
Lemma warm_ert : safe (effective_radiation_temperature sm) w (fun te => 0 < te <= 2600).
Proof.
  assert (Ha := wm_ta _ _ H). fold ta in Ha.
  unfold effective_radiation_temperature.
  eapply safe_bind; [apply (safe_cover sm w B)|intros f Hf]. eapply safe_bind; [apply warm_crust|intros tc Hc].
  eapply safe_bind; [apply warm_molten|intros th Hh]. rnum. unfold R_pow. cbv zeta.
  eapply safe_bind; [eapply (safe_lift _ _ _ (fun y => y = tc ^ 4)); [apply R_power_4|reflexivity]|intros ? ->].
  eapply safe_bind; [eapply (safe_lift _ _ _ (fun y => y = ta ^ 4)); [apply R_power_4|reflexivity]|intros ? ->].
  eapply safe_bind; [eapply (safe_lift _ _ _ (fun y => y = th ^ 4)); [apply R_power_4|reflexivity]|intros ? ->].
  assert (A1 : ta ^ 4 < tc ^ 4) by (apply fourth_lt; lra).
  assert (A2 : ta ^ 4 < th ^ 4) by (apply fourth_lt; lra).
  assert (A3 : tc ^ 4 <= 2600 ^ 4) by (apply pow_incr; lra).
  assert (A4 : th ^ 4 <= 2600 ^ 4) by (apply pow_incr; lra).
  assert (A5 : 0 < ta ^ 4) by (apply pow_lt; lra).
  set (mix := f * (tc ^ 4 - ta ^ 4) + (1 - f) * (th ^ 4 - ta ^ 4)).
  assert (Pm : 0 < mix) by (apply mix_pos; lra).
  assert (Qm : mix <= 2600 ^ 4) by (apply mix_le; lra).
  eapply safe_bind.
  { eapply (safe_lift _ _ _ (fun te => 0 < te <= 2600)).
    - unfold R_mpow. apply R_power_pospow; lra.
    - change (0 < root4 mix <= 2600). assert (E4 := root4_4 mix ltac:(lra)).
      assert (P : 0 < root4 mix) by (unfold root4; rewrite pospow_pos by lra; apply Rpower_gt_0).
      split; [exact P|]. destruct (Rle_dec (root4 mix) 2600) as [|n]; [assumption|]. exfalso.
      assert (2600 ^ 4 < root4 mix ^ 4) by (apply fourth_lt; lra). lra. }
  intros te Hte. eapply safe_bind; [apply safe_log|intros _ _]. apply safe_ret. exact Hte.
Qed.
Lemma cont_pos t : 0 <= t <= 2600 -> 0 < cont_fit t.
Proof. intros Ht. unfold cont_fit. nra. Qed.
Lemma lin_pos t : 0 <= t <= 2600 -> 0 < lin_fit t.
Proof. intros Ht. unfold lin_fit. lra. Qed.
Lemma warm_eps k sigma : is_loss sm (FRadiation k sigma) -> safe (epsilon_effective k sm) w (fun e => 0 < e).
Proof.
  assert (Ha := wm_ta _ _ H). fold ta in Ha. intros Hk. destruct k; cbn [epsilon_effective is_loss] in *.
  - eapply safe_bind; [apply safe_log|intros _ _]. apply safe_ret. lra.
  - eapply safe_bind; [apply (safe_cover sm w B)|intros f Hf]. cbv zeta. eapply safe_bind; [apply safe_log|intros _ _].
    apply safe_ret. rnum. apply mix_pos; lra.
  - eapply safe_bind; [apply (safe_cover sm w B)|intros f Hf].
    eapply safe_bind with (P := fun e => 0 < e).
    { cbn [emissivity_crust]. eapply safe_bind; [apply warm_crust|intros tc Hc].
      eapply safe_lift; [apply cont_emissivity_R|apply cont_pos; lra]. }
    intros ec Hec. eapply safe_bind with (P := fun e => 0 < e).
    { cbn [emissivity_molten]. eapply safe_bind; [apply warm_molten|intros th Hh].
      eapply safe_lift; [apply cont_emissivity_R|apply cont_pos; lra]. }
    intros em Hem. cbv zeta.
    eapply safe_bind; [apply safe_log|intros _ _]. apply safe_ret. rnum. apply mix_pos; lra.
  - eapply safe_bind; [apply warm_ert|intros te Ht]. cbv zeta. eapply safe_bind; [apply safe_log|intros _ _].
    apply safe_ret. rewrite lin_emissivity_R. apply lin_pos. lra.
Qed.
(** x^0.99975 is within a quarter of a percent of x below e^10. *)
Lemma almost_one x : 1 <= x <= 2600 -> x < 401 / 400 * Rpower x (99975 / 100000).
Proof.
  intros Hx. assert (ln_le : forall a b, 0 < a -> a <= b -> ln a <= ln b).
  { intros a b Ha [Hab| ->]; [left; now apply ln_increasing|lra]. } assert (L : ln x <= 39 / 4).
  { apply Rle_trans with (ln (Rpower 3 8)).
    - apply ln_le; [lra|]. replace 8 with (INR 8) by (simpl; lra). rewrite Rpower_pow by lra. simpl. lra.
    - unfold Rpower. rewrite ln_exp. assert (ln 3 <= 6 / 5); [|lra].
      rewrite <- (ln_exp (6 / 5)). apply ln_le; [lra|].
      assert (E1 : exp (6 / 5) = exp (6 / 10) * exp (6 / 10)) by (rewrite <- exp_plus; f_equal; lra).
      assert (E2 : exp (6 / 10) = exp (6 / 20) * exp (6 / 20)) by (rewrite <- exp_plus; f_equal; lra).
      assert (E3 : exp (6 / 20) = exp (6 / 40) * exp (6 / 40)) by (rewrite <- exp_plus; f_equal; lra).
      assert (Q : 1 + 6 / 40 < exp (6 / 40)) by (apply exp_ineq1; lra).
      rewrite E1, E2, E3. set (e := exp (6 / 40)) in *.
      assert (Q1 : 1.32 <= e * e) by nra. set (a := e * e) in *.
      assert (Q2 : 1.74 <= a * a) by nra. set (b := a * a) in *. nra. }
  assert (L0 : 0 <= ln x) by (rewrite <- ln_1; apply ln_le; lra).
  assert (E : x = Rpower x (99975 / 100000) * Rpower x (25 / 100000)).
  { rewrite <- Rpower_plus. replace (99975 / 100000 + 25 / 100000) with 1 by lra. rewrite Rpower_1; lra. }
  assert (Ub : Rpower x (25 / 100000) < 401 / 400).
  { unfold Rpower. assert (Hi : 25 / 100000 * ln x <= 1 / 404) by lra.
    apply Rle_lt_trans with (exp (1 / 404)); [now apply exp_le|].
    assert (Q := exp_ineq1_le (- (1 / 404))). rewrite exp_Ropp in Q.
    assert (P := exp_pos (1 / 404)). apply Rmult_lt_reg_r with (/ exp (1 / 404)); [now apply Rinv_0_lt_compat|].
    rewrite Rinv_r by lra. lra. }
  assert (P := Rpower_gt_0 x (99975 / 100000)). rewrite E at 1. nra.
Qed.
Lemma warm_convection : safe (characteristic_surface_temperature sm) w (fun t => ta < t).
Proof.
  assert (Ha := wm_ta _ _ H). fold ta in Ha. unfold characteristic_surface_temperature.
  eapply safe_bind; [apply warm_crust|intros tc Hc]. eapply safe_bind; [apply (safe_cover sm w B)|intros f Hf].
  eapply safe_bind; [apply warm_molten|intros th Hh]. rnum. unfold R_pow, R_mpow.
  eapply safe_bind; [eapply (safe_lift _ _ _ (fun y => y = Rpower tc (1333 / 1000))); [apply R_power_pos; lra|reflexivity]|intros a ->].
  eapply safe_bind; [eapply (safe_lift _ _ _ (fun y => y = Rpower th (1333 / 1000))); [apply R_power_pos; lra|reflexivity]|intros b ->].
  set (lo := Rmin tc th).
  assert (L1 : 401 / 400 * ta <= lo <= 2600) by (unfold lo, Rmin; destruct (Rle_dec tc th); lra).
  assert (L2 : lo <= tc) by apply Rmin_l. assert (L3 : lo <= th) by apply Rmin_r.
  assert (M : Rpower lo (1333 / 1000) <= f * Rpower tc (1333 / 1000) + (1 - f) * Rpower th (1333 / 1000)).
  { apply mix_ge; auto; apply Rpower_pos_incr_le; lra. }
  assert (P := Rpower_gt_0 lo (1333 / 1000)).
  eapply safe_bind.
  { eapply (safe_lift _ _ _ (fun t => ta < t)); [apply R_power_pos; lra|].
    apply Rlt_le_trans with (Rpower (Rpower lo (1333 / 1000)) (3 / 4)); [|apply Rpower_pos_incr_le; lra].
    rewrite Rpower_mult. replace (1333 / 1000 * (3 / 4)) with (99975 / 100000) by lra.
    assert (A := almost_one lo ltac:(lra)).
    lra. }
  intros t Ht. eapply safe_bind; [apply safe_log|intros _ _]. apply safe_ret. exact Ht.
Qed.

(** Every flux of the budget is positive, for a positive width. *)
Lemma warm_flux f width : 0 < width -> In f (s_budget sm) -> is_loss sm f ->
  safe (compute_flux f sm width (w_depth w)) w (fun q => 0 < q).
Proof.
  intros Hw Hin Hl. assert (Ha := wm_ta _ _ H). fold ta in Ha. assert (Hd := wb_depth _ _ B).
  destruct f; cbn [compute_flux].
  - unfold radiation_flux. eapply safe_bind; [apply warm_ert|intros te Ht].
    eapply safe_bind; [apply (warm_eps k sigma Hl)|intros e He].
    eapply safe_bind; [eapply (safe_lift _ _ _ (fun y => 0 < y)); [rnum; apply R_power_4|apply pow_lt; lra]|intros t4 Ht4].
    cbv zeta. eapply safe_bind; [apply (safe_sr sm w B)|intros ? _]. apply safe_ret. rnum.
    assert (0 < sigma) by (destruct k; cbn [is_loss] in Hl; lra).
    repeat apply Rmult_lt_0_compat; assumption.
  - destruct Hl as [Hc Ht]. destruct (wb_vf _ _ B) as (vf & Ev & Hv). intros x c Hx.
    assert (E : lava_vesicle_fraction (s_lava sm) (w_st (touched x c w)) = Ok vf).
    { unfold lava_vesicle_fraction in *. change (w_st (touched x c w)) with (set_strain_rate x (w_st w)).
      rewrite <- Ev. now destruct (lv_ves (s_lava sm)). }
    assert (F := C40_conductive_flux t_base cbd sm width (w_depth w) _ vf E ltac:(lra) ltac:(lra)).
    cbn [compute_flux] in F. rewrite F. eexists _, x, c. split; [reflexivity|]. split; [exact Hx|].
    assert (S := C40_sign t_base cbd sm width (w_depth w) _ vf _ _ E ltac:(lra) Hc Hd Hw F).
    apply S. assert (Hco := wm_core _ _ H). change (st_temp (w_st (touched x c w))) with (st_temp (w_st w)). lra.
  - cbn [is_loss] in Hl. unfold convection_flux. cbv zeta.
    eapply safe_bind; [apply warm_convection|intros t Ht].
    eapply safe_bind; [apply safe_log|intros _ _]. eapply safe_bind; [apply safe_log|intros _ _].
    apply safe_ret. unfold compute_conv_heat_transfer_coef. rnum. fold ta.
    apply Rmult_lt_0_compat; [apply Rmult_lt_0_compat|]; lra.
  - cbn [is_loss] in Hl. apply safe_ret. unfold rain_flux. rnum. apply Rmult_lt_0_compat; assumption.
  - unfold viscous_flux. eapply safe_bind with (P := fun m => 0 < m).
    { apply safe_reads. intros x c Hx. destruct (wb_mu _ _ B x Hx) as (mu & E & P). exists mu. auto. }
    intros mu Hmu. eapply safe_bind; [apply (safe_velocity sm w B)|intros v Hv].
    eapply safe_bind; [eapply (safe_lift _ _ _ (fun y => 0 < y)); [rnum; apply R_div_ok; lra|apply Rdiv_lt_0_compat; lra]|intros g Hg].
    eapply safe_bind; [eapply (safe_lift _ _ _ (fun y => 0 < y)); [rnum; apply R_power_2|apply pow_lt; lra]|intros g2 Hg2].
    apply safe_ret. rnum. apply Rmult_lt_0_compat; [apply Rmult_lt_0_compat|]; assumption.
  - unfold snyder_flux, effective_temperature_snyder.
    eapply safe_bind with (P := fun t => 0 < t).
    { eapply safe_bind; [apply warm_crust|intros tc Hc]. eapply safe_bind; [apply (safe_cover sm w B)|intros f Hf].
      eapply safe_bind; [apply warm_molten|intros th Hh]. cbv zeta.
      eapply safe_bind; [apply safe_log|intros _ _]. apply safe_ret. rnum. apply mix_pos; lra. }
    intros t Ht.
    eapply safe_bind; [eapply (safe_lift _ _ _ (fun y => 0 < y)); [rnum; unfold R_pow; apply R_power_pos, Ht|apply Rpower_gt_0]|intros p Hp].
    cbv zeta. do 4 (eapply safe_bind; [apply safe_log|intros _ _]). apply safe_ret. rnum.
    assert (0 < p * width) by (apply Rmult_lt_0_compat; assumption). nra.
Qed.
Lemma warm_loop width : 0 < width -> forall fl acc, incl fl (s_budget sm) -> 0 <= acc -> (fl = [] -> 0 < acc) ->
  safe (budget_loop fl sm width (w_depth w) acc) w (fun q => 0 < q).
Proof.
  intros Hw. assert (L := wm_loss _ _ H). rewrite Forall_forall in L.
  induction fl as [|f r IH]; intros acc Hi Hacc Hne; cbn [budget_loop]; [apply safe_ret, Hne; reflexivity|].
  assert (In f (s_budget sm)) by (apply Hi; left; reflexivity).
  eapply safe_bind; [apply warm_flux; auto|intros q Hq]. cbv zeta.
  eapply safe_bind; [apply warm_flux; auto|intros q2 _].
  eapply safe_bind; [apply safe_log|intros _ _]. apply IH; rnum; try lra.
  intros g Hg. apply Hi. right. exact Hg.
Qed.
Lemma warm_budget width : 0 < width -> s_budget sm <> [] ->
  safe (compute_heat_budget sm width (w_depth w)) w (fun q => 0 < q).
Proof.
  intros Hw Hne. unfold compute_heat_budget.
  eapply safe_bind; [apply warm_loop; rnum; auto using incl_refl; try lra; tauto|intros q Hq].
  eapply safe_bind; [apply safe_log|intros _ _]. apply safe_ret; exact Hq.
Qed.
End Here.
