(** * Safe: no computation of a step raises in a well-behaved state (exact reals) *)
From Verif Require Import Base Num Json Logger World Vesicle MeltVisc RelVisc Bubbles Terrain Lava
  Thermal Flux Integrator Frame StepLog Spec RNum RPow StepProofs Props_Velocity Props_Rheology Props_Material
  Props_Thermal Gives Props_Flux.
Open Scope R_scope.

(** [m] succeeds with a result satisfying [P] in every world that differs from
    [w] only in the (positive) strain rate and the log, and changes nothing
    else; the strain rate stays positive. *)
Definition safe {A} (m : M (T:=R) A) (w : world R) (P : A -> Prop) : Prop :=
  forall x c, 0 < x ->
  exists a x' c', m (touched x c w) = (Ok a, touched x' c' w) /\ 0 < x' /\ P a.

Lemma safe_bind {A B} (m : M (T:=R) A) (f : A -> M B) w P Q :
  safe m w P -> (forall a, P a -> safe (f a) w Q) -> safe (bind m f) w Q.
Proof.
  intros Hm Hf x c Hx. destruct (Hm x c Hx) as (a & x1 & c1 & E1 & Hx1 & Pa).
  destruct (Hf a Pa x1 c1 Hx1) as (b & x2 & c2 & E2 & Hx2 & Qb).
  exists b, x2, c2. unfold bind. rewrite E1. auto.
Qed.
Lemma safe_ret {A} (a : A) w (P : A -> Prop) : P a -> safe (ret a) w P.
Proof. intros Ha x c Hx. exists a, x, c. auto. Qed.
Lemma safe_lift {A} (r : res A) a w (P : A -> Prop) : r = Ok a -> P a -> safe (lift r) w P.
Proof. intros -> Ha x c Hx. exists a, x, c. auto. Qed.
Lemma safe_reads {A} (f : world R -> res A) w (P : A -> Prop) :
  (forall x c, 0 < x -> exists a, f (touched x c w) = Ok a /\ P a) -> safe (reads f) w P.
Proof. intros H x c Hx. destruct (H x c Hx) as (a & E & Pa). exists a, x, c. unfold reads. rewrite E. auto. Qed.
Lemma safe_get {A} (f : world R -> A) w (P : A -> Prop) :
  (forall x c, 0 < x -> P (f (touched x c w))) -> safe (get f) w P.
Proof. intros H x c Hx. exists (f (touched x c w)), x, c. unfold get. auto. Qed.
Lemma safe_log name v w : safe (log_var name v) w (fun _ => True).
Proof.
  intros x c Hx. exists tt, x, (c ++ [(name, v)]). unfold log_var, modify. split; [|auto]. f_equal.
  rewrite <- (touched_touched x c x [(name, v)]). reflexivity.
Qed.
Lemma safe_weaken {A} (m : M (T:=R) A) w (P Q : A -> Prop) :
  safe m w P -> (forall a, P a -> Q a) -> safe m w Q.
Proof. intros H HPQ x c Hx. destruct (H x c Hx) as (a & x1 & c1 & E & H1 & Pa). exists a, x1, c1. auto. Qed.

(** What a state must satisfy for the step to be computable there.  [t0], [tb]
    are the yield strength and the basal shear stress. *)
Record well_behaved (sm : sim R) (w : world R) : Prop := {
  wb_depth : 0 < w_depth w;
  wb_mu : forall x, 0 < x -> exists mu,
    computes_bulk_viscosity (s_lava sm) (set_strain_rate x (w_st w)) = Ok mu /\ 0 < mu;
  wb_stress : exists t0 tb, get_yield_strength (s_lava sm) (w_st w) = Ok t0 /\
    get_basal_shear_stress (s_lava sm) (s_ter sm) (w_depth w) (w_st w) = Ok tb /\
    0 <= t0 /\ 0 < tb /\ t0 <> tb;
  wb_vf : exists vf, lava_vesicle_fraction (s_lava sm) (w_st w) = Ok vf /\ 0 <= vf < 1;
  wb_dre : 0 < lv_dre (s_lava sm);
  wb_slope : exists sl, get_channel_slope (s_ter sm) (st_pos (w_st w)) = Ok sl;
  wb_ta : 0 < air_temp (s_air sm);
  wb_tc : exists tc, compute_crust_temperature (s_crust sm) (w_st w) = Ok tc /\ air_temp (s_air sm) <= tc;
  wb_th : air_temp (s_air sm) <= st_temp (w_st w) - lv_buffer (s_lava sm);
  wb_alpha : forall pos, fst (cover_parameters (s_cover sm) pos) <= 0;
  wb_fc : forall pos, 0 <= snd (cover_parameters (s_cover sm) pos) <= 1;
  wb_cbd : forall tb cbd, In (FConduction tb cbd) (s_budget sm) -> cbd <> 0;
  wb_rate : exists rate, compute_crystallization_rate (s_cryst sm) (w_st w) = Ok rate /\ 0 < rate;
  wb_latent : 0 < lv_latent (s_lava sm)
}.

Section Here.
Variables (sm : sim R) (w : world R).
Hypothesis H : well_behaved sm w.

Lemma safe_velocity : safe (compute_mean_velocity (s_lava sm) (s_ter sm)) w (fun v => 0 < v).
Proof.
  intros x c Hx. destruct (wb_mu _ _ H x Hx) as (mu & Hmu & Pmu).
  destruct (wb_stress _ _ H) as (t0 & tb & H0 & Hb & P0 & Pb & Hne). assert (Hd := wb_depth _ _ H).
  unfold compute_mean_velocity. change (w_depth (touched x c w)) with (w_depth w).
  change (w_st (touched x c w)) with (set_strain_rate x (w_st w)).
  assert (A2 : get_yield_strength (s_lava sm) (set_strain_rate x (w_st w)) = Ok t0)
    by (unfold get_yield_strength; rewrite yield_strain; exact H0).
  assert (A3 : get_basal_shear_stress (s_lava sm) (s_ter sm) (w_depth w) (set_strain_rate x (w_st w)) = Ok tb)
    by (unfold get_basal_shear_stress; rewrite basal_strain; exact Hb).
  assert (E := C20_velocity_is_jeffreys _ _ _ _ _ _ _ Hmu A2 A3 ltac:(lra) ltac:(lra) ltac:(lra)).
  cbv zeta in E. set (v := jeffreys_bingham _ _ _ _) in *.
  assert (V := C22_velocity_sign _ _ _ _ _ _ _ _ _ Hmu A2 A3 Hd Pmu Pb P0 E).
  assert (Pv : 0 < v) by (destruct V as [V1 [V2 _]]; destruct (Req_dec v 0); [tauto|lra]).
  rewrite E. exists v, (3 * v / w_depth w), c. split; [destruct w as [[]]; reflexivity|].
  split; [apply Rdiv_lt_0_compat; lra|exact Pv].
Qed.
Lemma safe_cover : safe (cover sm) w (fun f => 0 <= f <= 1).
Proof.
  intros x c Hx. destruct (safe_velocity x c Hx) as (v & x' & c' & E & Hx' & Pv).
  set (p := cover_parameters (s_cover sm) (st_pos (w_st w))).
  exists (snd p * exp (fst p * v)), x', c'.
  assert (Hf : cover sm (touched x c w) = (Ok (snd p * exp (fst p * v)), touched x' c' w)).
  { unfold cover. apply C36_cover_formula. exists v. split; [exact E|reflexivity]. }
  split; [exact Hf|]. split; [exact Hx'|].
  assert (F := C36_cover_is_a_fraction (s_cover sm) _ _ _ _ _ v (wb_alpha _ _ H) (wb_fc _ _ H) E ltac:(lra) Hf).
  destruct F as [[F1 _] F2]. lra.
Qed.
Lemma safe_crust : safe (crust_temp sm) w (fun tc => 0 < tc /\ air_temp (s_air sm) <= tc).
Proof.
  destruct (wb_tc _ _ H) as (tc & E & Ht). assert (Ha := wb_ta _ _ H).
  apply safe_reads. intros x c _. exists tc.
  change (w_st (touched x c w)) with (set_strain_rate x (w_st w)). rewrite crust_strain. split; [exact E|lra].
Qed.
Lemma safe_molten : safe (molten_temp sm) w (fun th => 0 < th /\ air_temp (s_air sm) <= th).
Proof.
  assert (Ha := wb_ta _ _ H). assert (Hh := wb_th _ _ H). apply safe_get. intros x c _.
  change (computes_molten_material_temperature (s_lava sm) (w_st (touched x c w)))
    with (st_temp (w_st w) - lv_buffer (s_lava sm)). lra.
Qed.

Lemma net_nonneg f tc th ta : 0 <= f <= 1 -> 0 < ta -> ta <= tc -> ta <= th ->
  0 <= f * (tc ^ 4 - ta ^ 4) + (1 - f) * (th ^ 4 - ta ^ 4).
Proof.
  intros Hf Ha Hc Hh.
  assert (ta ^ 4 <= tc ^ 4) by (apply pow_incr; lra).
  assert (ta ^ 4 <= th ^ 4) by (apply pow_incr; lra).
  assert (0 <= f * (tc ^ 4 - ta ^ 4)) by (apply Rmult_le_pos; lra).
  assert (0 <= (1 - f) * (th ^ 4 - ta ^ 4)) by (apply Rmult_le_pos; lra). lra.
Qed.
Lemma safe_ert : safe (effective_radiation_temperature sm) w (fun _ => True).
Proof.
  unfold effective_radiation_temperature.
  eapply safe_bind; [apply safe_cover|intros f Hf]. eapply safe_bind; [apply safe_crust|intros tc Hc].
  eapply safe_bind; [apply safe_molten|intros th Hh]. rnum. unfold R_pow. cbv zeta.
  eapply safe_bind; [eapply (safe_lift _ _ _ (fun y => y = tc ^ 4)); [apply R_power_4|reflexivity]|intros ? ->].
  eapply safe_bind; [eapply (safe_lift _ _ _ (fun y => y = air_temp (s_air sm) ^ 4)); [apply R_power_4|reflexivity]|intros ? ->].
  eapply safe_bind; [eapply (safe_lift _ _ _ (fun y => y = th ^ 4)); [apply R_power_4|reflexivity]|intros ? ->].
  eapply safe_bind.
  { eapply (safe_lift _ _ _ (fun _ => True)); [|exact I]. unfold R_mpow. apply R_power_pospow; [|lra].
    apply net_nonneg; try lra. apply (wb_ta _ _ H). }
  intros te _. eapply safe_bind; [apply safe_log|intros _ _]. apply safe_ret. exact I.
Qed.
Lemma safe_ec k : safe (emissivity_crust k sm) w (fun _ => True).
Proof.
  destruct k; cbn [emissivity_crust]; try (apply safe_ret; exact I).
  - eapply safe_bind; [apply safe_crust|intros tc _].
    eapply safe_lift; [apply cont_emissivity_R|exact I].
  - eapply safe_bind; [apply safe_crust|intros tc _]. apply safe_ret; exact I.
Qed.
Lemma safe_em k : safe (emissivity_molten k sm) w (fun _ => True).
Proof.
  destruct k; cbn [emissivity_molten]; try (apply safe_ret; exact I).
  - eapply safe_bind; [apply safe_molten|intros tc _].
    eapply safe_lift; [apply cont_emissivity_R|exact I].
  - eapply safe_bind; [apply safe_molten|intros tc _]. apply safe_ret; exact I.
Qed.
Lemma safe_eps k : safe (epsilon_effective k sm) w (fun _ => True).
Proof.
  destruct k; cbn [epsilon_effective].
  - eapply safe_bind; [apply safe_log|intros _ _]. apply safe_ret; exact I.
  - eapply safe_bind; [apply safe_cover|intros f _]. cbv zeta. eapply safe_bind; [apply safe_log|intros _ _]. apply safe_ret; exact I.
  - eapply safe_bind; [apply safe_cover|intros f _]. eapply safe_bind; [apply (safe_ec RadCont)|intros ec _].
    eapply safe_bind; [apply (safe_em RadCont)|intros em _]. cbv zeta.
    eapply safe_bind; [apply safe_log|intros _ _]. apply safe_ret; exact I.
  - eapply safe_bind; [apply safe_ert|intros te _]. cbv zeta. eapply safe_bind; [apply safe_log|intros _ _]. apply safe_ret; exact I.
Qed.
Lemma safe_planck t : 0 < t -> safe (lift (planck t)) w (fun _ => True).
Proof. intros Ht. destruct (planck_ok t) as [p E]; [lra|]. eapply safe_lift; [exact E|exact I]. Qed.
Lemma safe_sr k width : safe (spectral_radiance k sm width) w (fun _ => True).
Proof.
  assert (Hp := pixel_pos k). assert (Hp2 : pixel_length k * pixel_length k <> 0) by nra.
  unfold spectral_radiance.
  eapply safe_bind; [apply safe_cover|intros f _]. eapply safe_bind; [apply safe_crust|intros tc Hc].
  eapply safe_bind; [apply safe_molten|intros th Hh]. eapply safe_bind; [apply safe_ec|intros ec _].
  eapply safe_bind; [apply safe_em|intros em _]. cbv zeta.
  eapply safe_bind; [eapply (safe_lift _ _ _ (fun _ => True)); [apply R_div_ok, Hp2|exact I]|intros ? _].
  eapply safe_bind; [eapply (safe_lift _ _ _ (fun _ => True)); [apply R_div_ok, Hp2|exact I]|intros ? _].
  eapply safe_bind; [apply safe_planck; lra|intros ? _]. eapply safe_bind; [apply safe_planck; lra|intros ? _].
  eapply safe_bind; [apply safe_planck; rnum; lra|intros ? _].
  eapply safe_bind; [apply safe_log|intros _ _]. apply safe_ret; exact I.
Qed.
Lemma safe_flux f width : In f (s_budget sm) -> safe (compute_flux f sm width (w_depth w)) w (fun _ => True).
Proof.
  intros Hin. assert (Hd := wb_depth _ _ H). destruct f; cbn [compute_flux].
  - unfold radiation_flux. eapply safe_bind; [apply safe_ert|intros te _].
    eapply safe_bind; [apply safe_eps|intros e _].
    eapply safe_bind; [eapply (safe_lift _ _ _ (fun _ => True)); [rnum; apply R_power_4|exact I]|intros ? _]. cbv zeta.
    eapply safe_bind; [apply safe_sr|intros ? _]. apply safe_ret; exact I.
  - assert (Hc := wb_cbd _ _ H _ _ Hin). destruct (wb_vf _ _ H) as (vf & Ev & Hv).
    intros x c Hx.
    assert (E : lava_vesicle_fraction (s_lava sm) (w_st (touched x c w)) = Ok vf).
    { unfold lava_vesicle_fraction in *. change (w_st (touched x c w)) with (set_strain_rate x (w_st w)).
      rewrite <- Ev. now destruct (lv_ves (s_lava sm)). }
    assert (F := C40_conductive_flux t_base cbd sm width (w_depth w) _ vf E Hc ltac:(lra)).
    cbn [compute_flux] in F. rewrite F. eexists _, x, c. split; [reflexivity|auto].
  - unfold convection_flux. cbv zeta. unfold characteristic_surface_temperature.
    eapply safe_bind with (P := fun _ => True).
    + eapply safe_bind; [apply safe_crust|intros tc Hc]. eapply safe_bind; [apply safe_cover|intros f Hf].
      eapply safe_bind; [apply safe_molten|intros th Hh]. rnum. unfold R_pow, R_mpow.
      eapply safe_bind; [eapply (safe_lift _ _ _ (fun y => 0 <= y)); [apply R_power_pospow; lra|apply pospow_ge_0]|intros a Ha].
      eapply safe_bind; [eapply (safe_lift _ _ _ (fun y => 0 <= y)); [apply R_power_pospow; lra|apply pospow_ge_0]|intros b Hb].
      eapply safe_bind; [eapply (safe_lift _ _ _ (fun _ => True)); [apply R_power_pospow; [|lra]|exact I]|intros ? _].
      { assert (0 <= f * a) by (apply Rmult_le_pos; lra). assert (0 <= (1 - f) * b) by (apply Rmult_le_pos; lra). lra. }
      eapply safe_bind; [apply safe_log|intros _ _]. apply safe_ret; exact I.
    + intros tconv _. eapply safe_bind; [apply safe_log|intros _ _]. eapply safe_bind; [apply safe_log|intros _ _].
      apply safe_ret; exact I.
  - apply safe_ret; exact I.
  - unfold viscous_flux. eapply safe_bind with (P := fun _ => True).
    { apply safe_reads. intros x c Hx. destruct (wb_mu _ _ H x Hx) as (mu & E & _). exists mu. auto. }
    intros mu _. eapply safe_bind; [apply safe_velocity|intros v _].
    eapply safe_bind; [eapply (safe_lift _ _ _ (fun _ => True)); [rnum; apply R_div_ok; lra|exact I]|intros g _].
    eapply safe_bind; [eapply (safe_lift _ _ _ (fun _ => True)); [rnum; apply R_power_2|exact I]|intros g2 _].
    apply safe_ret; exact I.
  - unfold snyder_flux, effective_temperature_snyder.
    eapply safe_bind with (P := fun t => 0 < t).
    { eapply safe_bind; [apply safe_crust|intros tc Hc]. eapply safe_bind; [apply safe_cover|intros f Hf].
      eapply safe_bind; [apply safe_molten|intros th Hh]. cbv zeta.
      eapply safe_bind; [apply safe_log|intros _ _]. apply safe_ret. rnum.
      assert (B := C41_effective_temperature_between f tc th Hf).
      assert (0 < Rmin tc th) by (apply Rmin_glb_lt; lra). lra. }
    intros t Ht.
    eapply safe_bind; [eapply (safe_lift _ _ _ (fun _ => True)); [rnum; unfold R_pow; apply R_power_pos, Ht|exact I]|intros p _].
    cbv zeta. do 4 (eapply safe_bind; [apply safe_log|intros _ _]). apply safe_ret; exact I.
Qed.
Lemma safe_loop width : forall fl acc, incl fl (s_budget sm) ->
  safe (budget_loop fl sm width (w_depth w) acc) w (fun _ => True).
Proof.
  induction fl as [|f r IH]; intros acc Hi; cbn [budget_loop]; [apply safe_ret; exact I|].
  assert (In f (s_budget sm)) by (apply Hi; left; reflexivity).
  eapply safe_bind; [apply safe_flux; assumption|intros q _]. cbv zeta.
  eapply safe_bind; [apply safe_flux; assumption|intros q2 _].
  eapply safe_bind; [apply safe_log|intros _ _]. apply IH. intros g Hg. apply Hi. right. exact Hg.
Qed.
Lemma safe_budget width : safe (compute_heat_budget sm width (w_depth w)) w (fun _ => True).
Proof.
  unfold compute_heat_budget. eapply safe_bind; [apply safe_loop, incl_refl|intros q _].
  eapply safe_bind; [apply safe_log|intros _ _]. apply safe_ret; exact I.
Qed.

(** Everything logged at the end of a step. *)
Lemma safe_step_log x : safe (step_log sm x) w (fun _ => True).
Proof.
  destruct (wb_vf _ _ H) as (vf & Ev & Hv).
  assert (Hd := wb_dre _ _ H).
  destruct (C30_density_range _ _ _ Ev Hd Hv) as (rho & Er & _).
  destruct (wb_stress _ _ H) as (t0 & tb & H0 & Hb & _).
  assert (Ev' : forall y, lava_vesicle_fraction (s_lava sm) (set_strain_rate y (w_st w)) = Ok vf).
  { intros y. unfold lava_vesicle_fraction in *. rewrite <- Ev. now destruct (lv_ves (s_lava sm)). }
  unfold step_log.
  eapply safe_bind; [apply safe_log|intros _ _].
  eapply safe_bind; [apply (safe_get _ _ (fun _ => True)); auto|intros s _].
  do 3 (eapply safe_bind; [apply safe_log|intros _ _]).
  eapply safe_bind.
  { apply (safe_reads _ _ (fun _ => True)). intros y c Hy. exists vf. split; [apply (Ev' y)|exact I]. }
  intros vf' _. eapply safe_bind; [apply safe_log|intros _ _].
  eapply safe_bind.
  { apply (safe_reads _ _ (fun _ => True)). intros y c Hy. destruct (wb_mu _ _ H y Hy) as (mu & E & _). exists mu. auto. }
  intros mu _. eapply safe_bind; [apply safe_log|intros _ _].
  eapply safe_bind.
  { apply (safe_reads _ _ (fun _ => True)). intros y c Hy. exists rho. split; [|exact I].
    unfold get_bulk_density in *. change (w_st (touched y c w)) with (set_strain_rate y (w_st w)).
    rewrite Ev' in *. rewrite Ev in Er. exact Er. }
  intros rho' _. do 2 (eapply safe_bind; [apply safe_log|intros _ _]).
  eapply safe_bind; [exact safe_crust|intros tc _]. eapply safe_bind; [apply safe_log|intros _ _].
  eapply safe_bind; [exact safe_cover|intros f _].
  do 6 (eapply safe_bind; [apply safe_log|intros _ _]).
  eapply safe_bind; [apply (safe_get _ _ (fun _ => True)); auto|intros e _].
  do 2 (eapply safe_bind; [apply safe_log|intros _ _]).
  eapply safe_bind.
  { apply (safe_reads _ _ (fun _ => True)). intros y c Hy. exists t0. split; [|exact I].
    unfold get_yield_strength in *. change (w_st (touched y c w)) with (set_strain_rate y (w_st w)). now rewrite yield_strain. }
  intros t0' _. eapply safe_bind; [apply safe_log|intros _ _].
  eapply safe_bind.
  { apply (safe_reads _ _ (fun _ => True)). intros y c Hy. exists tb. split; [|exact I].
    unfold get_basal_shear_stress in *. change (w_depth (touched y c w)) with (w_depth w).
    change (w_st (touched y c w)) with (set_strain_rate y (w_st w)). now rewrite basal_strain. }
  intros tb' _. apply safe_log.
Qed.
End Here.

(** The state the tests after a step look at. *)
Record testable (sm : sim R) (depth : R) (s : state R) : Prop := {
  ts_compat : exists b, is_notcompatible (s_lava sm) s = Ok b;
  ts_yield : exists t0, get_yield_strength (s_lava sm) s = Ok t0;
  ts_basal : exists tb, get_basal_shear_stress (s_lava sm) (s_ter sm) depth s = Ok tb
}.

(** One step never raises when the state is well behaved, the viscosity is
    defined at the current strain rate, the effusion rate is positive (or
    still to be computed) and the tests can be evaluated on any state of the
    channel beyond. *)
Theorem step_never_raises : forall (sm : sim R) (w : world R) mu,
  well_behaved sm w ->
  computes_bulk_viscosity (s_lava sm) (w_st w) = Ok mu -> 0 < mu ->
  0 < ter_width (s_ter sm) ->
  (w_iter w = 0%nat \/ 0 < w_eff w) ->
  (s_mass sm = true -> w_flux w <> None) ->
  (forall s', st_pos s' = st_pos (w_st w) + s_dx sm -> st_phi (w_st w) < st_phi s' ->
     get_solid_temperature (s_cryst sm) < st_temp s' ->
     (exists rate, compute_crystallization_rate (s_cryst sm) (w_st w) = Ok rate /\
        st_phi s' - st_phi (w_st w) = rate * (st_temp (w_st w) - st_temp s')) ->
     testable sm (w_depth w) s') ->
  exists w', single_step sm w = (Ok tt, w').
Proof.
  intros sm w mu H Hmu Pmu Hw He Hfl Ht.
  destruct (wb_stress _ _ H) as (t0 & tb & H0 & Hb & P0 & Pb & Hne). assert (Hd := wb_depth _ _ H).
  assert (E := C20_velocity_is_jeffreys _ _ _ _ _ _ _ Hmu H0 Hb ltac:(lra) ltac:(lra) ltac:(lra)).
  cbv zeta in E. set (v := jeffreys_bingham _ _ _ _) in *.
  assert (V := C22_velocity_sign _ _ _ _ _ _ _ _ _ Hmu H0 Hb Hd Pmu Pb P0 E).
  assert (Pv : 0 < v) by (destruct V as [V1 [V2 _]]; destruct (Req_dec v 0); [tauto|lra]).
  unfold single_step. unfold bind at 1. unfold compute_mean_velocity at 1. rewrite E. cbv beta iota.
  rnum. assert (Ev : R_leb v 0 = false) by (apply R_leb_false; lra). rewrite Ev.
  set (x1 := 3 * v / w_depth w). assert (Px1 : 0 < x1) by (apply Rdiv_lt_0_compat; lra).
  set (wa := set_st (set_strain_rate x1 (w_st w)) w).
  (* computation of the step *)
  destruct (wb_vf _ _ H) as (vf & Evf & Hv).
  destruct (C30_density_range _ _ _ Evf (wb_dre _ _ H) Hv) as (rho & Er & _ & Pr & _).
  destruct (wb_slope _ _ H) as (sl & Esl). destruct (wb_rate _ _ H) as (rate & Erate & Prate).
  assert (Hlat := wb_latent _ _ H).
  set (eff := eff_of sm v wa).
  assert (Peff : 0 < eff).
  { unfold eff, eff_of. change (w_iter wa) with (w_iter w). change (w_depth wa) with (w_depth w).
    change (w_eff wa) with (w_eff w). rnum. destruct (w_iter w).
    - apply Rmult_lt_0_compat; [apply Rmult_lt_0_compat|]; assumption.
    - destruct He as [He|He]; [discriminate|exact He]. }
  assert (Hr' : get_bulk_density (s_lava sm) (set_strain_rate x1 (w_st w)) = Ok rho).
  { rewrite <- Er. unfold get_bulk_density, lava_vesicle_fraction. now destruct (lv_ves (s_lava sm)). }
  assert (Hwb : well_behaved sm (set_eff eff w)) by (destruct H; constructor; assumption).
  assert (Hvd : v * w_depth w <> 0) by (apply Rgt_not_eq, Rmult_lt_0_compat; lra).
  assert (Hcw : exists width, channel_width sm v (w_depth w) rho (set_eff eff wa) = (Ok width, set_eff eff wa)).
  { unfold channel_width. destruct (s_mass sm) eqn:Em.
    - destruct (w_flux w) as [fr|] eqn:Ef; [|exfalso; now apply Hfl].
      unfold bind at 1, reads. change (w_flux (set_eff eff wa)) with (w_flux w). rewrite Ef. cbv beta iota.
      unfold bind, lift. rnum. rewrite R_div_ok by exact Hvd. rewrite R_div_ok by lra. eauto.
    - unfold bind at 1, get, lift. rnum. rewrite R_div_ok by exact Hvd. eauto. }
  destruct Hcw as (width & Hcw).
  destruct (safe_budget sm (set_eff eff w) Hwb width x1 [] Px1) as (hb & x2 & c2 & Ehb & Px2 & _).
  change (w_depth (set_eff eff w)) with (w_depth w) in Ehb.
  set (w2 := touched x2 c2 (set_eff eff w)) in *.
  assert (Hdiv : eff * rho * lv_latent (s_lava sm) * rate <> 0).
  { apply Rgt_not_eq. apply Rmult_lt_0_compat; [apply Rmult_lt_0_compat; [apply Rmult_lt_0_compat|]|]; assumption. }
  set (dT := - hb / (eff * rho * lv_latent (s_lava sm) * rate)).
  assert (Hcomp : exists x, step_compute sm v wa = (Ok x, w2) /\ sv_v x = v /\ sv_depth x = w_depth w /\
     sv_new_phi x = st_phi (w_st w) + dT * (- rate) * s_dx sm /\ sv_new_temp x = st_temp (w_st w) + dT * s_dx sm).
  { eexists. split; [|split; [|split; [|split]]].
    - unfold step_compute.
      unfold bind at 1. unfold get at 1. cbv beta iota. change (w_depth wa) with (w_depth w).
      unfold bind at 1. replace (first_effusion_rate sm v (w_depth w) wa) with (Ok tt, set_eff eff wa).
      2:{ unfold first_effusion_rate, eff, eff_of. change (w_iter wa) with (w_iter w).
          change (w_depth wa) with (w_depth w). destruct (w_iter w); reflexivity. }
      cbv beta iota. unfold bind at 1. unfold reads at 1. change (w_st (set_eff eff wa)) with (set_strain_rate x1 (w_st w)).
      rewrite Hr'. cbv beta iota. unfold bind at 1. rewrite Hcw. cbv beta iota.
      unfold bind at 1. unfold reads at 1. change (st_pos (w_st (set_eff eff wa))) with (st_pos (w_st w)).
      rewrite Esl. cbv beta iota. unfold bind at 1.
      change (set_eff eff wa) with (touched x1 [] (set_eff eff w)) . rewrite Ehb. cbv beta iota zeta.
      unfold bind at 1. unfold reads at 1. change (w_st w2) with (set_strain_rate x2 (w_st w)).
      rewrite cryst_strain, Erate. cbv beta iota zeta.
      unfold bind at 1. unfold get at 1. cbv beta iota. change (w_eff w2) with eff.
      unfold bind at 1. unfold lift at 1. rnum. rewrite R_div_ok by exact Hdiv. fold dT. cbv beta iota zeta.
      unfold bind at 1. unfold get at 1. cbv beta iota zeta. unfold bind at 1. unfold get at 1. cbv beta iota zeta.
      reflexivity.
    - reflexivity.
    - reflexivity.
    - reflexivity.
    - reflexivity. }
  destruct Hcomp as (x & Hcomp & Hxv & Hxd & Hxp & Hxt).
  unfold bind at 1. rewrite Hcomp. cbv beta iota.
  unfold bind at 1. unfold get at 1. cbv beta iota. change (st_phi (w_st w2)) with (st_phi (w_st w)).
  destruct (R_leb (sv_new_phi x) (st_phi (w_st w))) eqn:Ep; [eexists; reflexivity|]. rtests.
  destruct (safe_step_log sm (set_eff eff w) Hwb x x2 c2 Px2) as ([] & x3 & c3 & El & Px3 & _).
  fold w2 in El. unfold bind at 1. rewrite El. cbv beta iota. set (w3 := touched x3 c3 (set_eff eff w)).
  assert (Hu : exists w4, step_update sm x w3 = (Ok tt, w4)).
  { unfold step_update. unfold bind, modify, lift. rnum. rewrite Hxv, Hxd.
    rewrite R_div_ok by lra. rewrite R_div_ok by lra. eexists. reflexivity. }
  destruct Hu as (w4 & Hu). unfold bind at 1. rewrite Hu. cbv beta iota.
  apply step_update_spec in Hu as (dt & sr & _ & _ & ->). rnum.
  set (s4 := {| st_phi := sv_new_phi x; st_temp := sv_new_temp x; st_pos := st_pos (w_st w3) + s_dx sm;
                st_time := st_time (w_st w3) + dt; st_strain := sr |}).
  unfold step_checks. rnum.
  destruct (R_leb (sv_new_temp x) (get_solid_temperature (s_cryst sm))) eqn:Es; [eexists; reflexivity|]. rtests.
  assert (Hts : testable sm (w_depth w) s4).
  { apply Ht; [reflexivity|exact Ep|exact Es|]. exists rate. split; [exact Erate|].
    cbn [st_phi st_temp s4]. rewrite Hxp, Hxt. ring. }
  destruct Hts as [(b & Hb1) (y & Hy1) (z & Hz1)].
  unfold bind at 1. unfold reads at 1. change (w_st (incr_iter (set_st s4 w3))) with s4. rewrite Hb1. cbv beta iota.
  destruct b; [eexists; reflexivity|].
  unfold bind at 1. unfold reads at 1. change (w_st (incr_iter (set_st s4 w3))) with s4.
  change (w_depth (incr_iter (set_st s4 w3))) with (w_depth w).
  unfold yield_strength_notcompatible, model_yield_notcompatible. unfold get_yield_strength in Hy1.
  unfold get_basal_shear_stress in Hz1. rewrite Hy1, Hz1. cbn [rbind].
  destruct (n_leb z y); [eexists; reflexivity|].
  unfold bind, get. destruct (R_leb _ _); eexists; reflexivity.
Qed.
