(** * Props_EnergyDemo: C73 on the shipped template *)
From Coq Require Import Reals Lra.
From Verif Require Import Base Num Json Logger World Vesicle MeltVisc RelVisc Bubbles Terrain Lava
  Thermal Flux Integrator Factory Run RNum StepProps Props_Run Valid Props_ValidRun Cooling Props_Cooling
  Props_EffArray Props_Table Props_Energy Props_Template.
Open Scope R_scope.

Example template_energy : exists w eff rho,
  simulate (step_bound 30000 0 10) (template_sim 0) (initial_world (template_state 0) [] (14 / 10)) = Some (Ok tt, w) /\
  (0 < w_iter w)%nat /\
  total (number "heat_budget") (firstn (w_iter w) (w_log w)) * 10 =
    eff * rho * lv_latent (s_lava (template_sim 0)) * (st_phi (w_st w) - st_phi (template_state 0)) /\
  st_time (w_st w) - st_time (template_state 0) = total (fun r => 10 / number "mean_velocity" r) (firstn (w_iter w) (w_log w)).
Proof.
  destruct template_flows as (w & E & I & L & _).
  assert (Hdx : s_dx (template_sim 0) = 10) by (cbn; rnum; lra).
  assert (Hnz : s_dx (template_sim 0) <> 0) by lra.
  assert (V : exists vf, lv_ves (s_lava (template_sim 0)) = VConstant vf) by (eexists; reflexivity). destruct V as (vf & V).
  destruct (C73_energy_balance_constant_vesicles _ _ _ _ _ Hnz E vf V) as (eff & _ & Q).
  assert (T := C73_travel_time _ _ _ _ _ Hnz E). rewrite Hdx in Q, T.
  exists w, eff, (lv_dre (s_lava (template_sim 0)) * (1 - vf)). auto.
Qed.
