(** * Props_WeakerDemo: C80 on the shipped template *)
From Coq Require Import Reals Lra Lia List.
From Verif Require Import Base Num Json Logger World Vesicle MeltVisc RelVisc Bubbles Terrain Lava
  Thermal Flux Integrator Factory Run Frame StepLog Spec RNum RPow StepProps Props_Run Props_Step
  Props_Velocity Props_Rheology Props_Material Props_Thermal Props_Flux Props_Terrain Props_Table Props_RunOuts Props_Recompute
  Safe Valid Props_ValidRun Cooling Props_Cooling Props_Template Recompute Lipschitz ModelLip Refine Losses Props_Refine Props_RefineRun
  Resume Props_Resume Props_ResumeDemo Props_RefineDemo Props_Compare Props_Weaker.
Open Scope R_scope.

(** The template with emissivity 0.6, no convection, conduction to a base 50 K
    warmer, air at 300 K and a latent heat of 4.0e5. *)
Definition mild_json : json R := JObj (map (fun kv =>
  if String.eqb (fst kv) "heat_budget_models" then
    ("heat_budget_models", JObj [("radiation", JStr "basic"); ("snyder", JStr "no"); ("conduction", JStr "yes");
       ("convection", JStr "no"); ("rain", JStr "no"); ("viscous_heating", JStr "no")])
  else if String.eqb (fst kv) "radiation_parameters" then
    ("radiation_parameters", JObj [("stefan-boltzmann_sigma", num 567 10000000000); ("emissivity_epsilon", num 60 100)])
  else if String.eqb (fst kv) "conduction_parameters" then
    ("conduction_parameters", JObj [("basal_temperature", num 82315 100); ("core_base_distance", num 19 1)])
  else if String.eqb (fst kv) "crystals_parameters" then
    ("crystals_parameters", JObj [("crystals_grown_during_cooling", num 896 1000); ("solid_temperature", num 123715 100);
       ("latent_heat_of_crystallization", num 400000 1)])
  else kv) (template_fields "basic" 0)).
Definition mild_air : air R :=
  {| air_temp := n_lit 300 1; air_wind := n_lit 5 1; air_ch := n_lit 36 10000; air_rho := n_lit 4412 10000; air_cp := n_lit 1099 1 |}.
Definition mild_budget : list (flux R) :=
  [FRadiation (RadBasic (n_lit 60 100)) (n_lit 567 10000000000); FConduction (n_lit 82315 100) (n_lit 19 1)].
Lemma mild_models_built : exists mo, build_models mild_json (crust_profile (template_fs 0)) = Ok mo /\ mo_budget mo = mild_budget /\
  lv_latent (mo_lava mo) = n_lit 400000 1.
Proof. eexists. split; [reflexivity|]. split; reflexivity. Qed.
Lemma template_spared : spares (s_air (template_sim 0)) mild_air (s_budget (template_sim 0)) mild_budget.
Proof.
  apply spares_keep; [cbn; rnum; lra|]. apply spares_keep; [cbn; rnum; lra|]. apply spares_drop. apply spares_nil.
Qed.
Lemma mild_cooling h : 0 < h ->
  cooling (with_step h (with_losses mild_air mild_budget (n_lit 400000 1) (template_sim 0))) (template_state 0) (14 / 10).
Proof.
  intros Hh. assert (V := co_admissible _ _ _ (tdx_cooling h Hh)). assert (K := co_losing _ _ _ (tdx_cooling h Hh)).
  constructor; [|exact I]. constructor.
  - destruct V. constructor; try assumption; try (cbn; rnum; lra).
    { unfold valid_lava in *. cbn in *. rnum. repeat split; lra. }
    intros tb cbd [E|[E|[]]]; try discriminate. injection E as <- <-. lra.
  - cbn. rnum. lra.
  - cbn. rnum. lra.
  - exact (co_crust_max _ _ _ K).
  - cbn. rnum. lra.
  - exact (co_surface_max _ _ _ K).
  - discriminate.
  - repeat constructor; cbn; rnum; lra.
Qed.
Lemma mild_losing : losing (with_losses mild_air mild_budget (n_lit 400000 1) (template_sim 0)) (template_state 0) (14 / 10).
Proof.
  assert (K := co_losing _ _ _ (mild_cooling 10 ltac:(lra))). revert K. 
  replace 10 with (s_dx (with_losses mild_air mild_budget (n_lit 400000 1) (template_sim 0))) by (cbn; rnum; lra).
  intros K. exact K.
Qed.

(** For every number of rows there is a step below which both runs reach it, and
    row by row the milder set-up shows the hotter, faster lava. *)
Example template_milder : forall N, exists h0, 0 < h0 /\ forall h, 0 < h <= h0 -> exists fuel' w w',
  simulate (step_bound 30000 0 h) (tdx h) start = Some (Ok tt, w) /\
  simulate fuel' (with_step h (with_losses mild_air mild_budget (n_lit 400000 1) (template_sim 0))) start = Some (Ok tt, w') /\
  (N < w_iter w)%nat /\ (N < w_iter w')%nat /\
  forall i, (i <= N)%nat -> exists r r', nth_error (w_log w) i = Some r /\ nth_error (w_log w') i = Some r' /\ at_least_as_mobile r r'.
Proof.
  intros N. destruct template_fast as (v0 & Hv0 & Fast). destruct mild_models_built as (mo & Hmo & Eb & _).
  destruct (C80_milder_conditions_flow_further (template 0) mild_json _ _ template_models mo (template_sim 0) (template_state 0) (14 / 10) (12 / 100) v0
    mild_air mild_budget (n_lit 400000 1) template_models_built eq_refl Hmo (eq_sym Eb) template_losing mild_losing template_smooth) as (h1 & Hh1 & G);
    [cbn; rnum; lra|exact Hv0|cbn; rnum; lra|cbn; rnum; lra|exact template_spared|].
  destruct (template_long v0 Hv0 Fast N) as (h2 & Hh2 & G2).
  exists (Rmin h1 h2). split; [apply Rmin_glb_lt; assumption|]. intros h [Hh Hm].
  assert (h <= h1) by (eapply Rle_trans; [exact Hm|apply Rmin_l]). assert (h <= h2) by (eapply Rle_trans; [exact Hm|apply Rmin_r]).
  destruct (G2 h ltac:(lra)) as (w & E & I & Fw).
  destruct (C63_flow_stops_for_a_reason _ _ _ (mild_cooling h Hh)) as (w' & E' & _).
  destruct (G h N _ _ w w' ltac:(lra) E E' I Fw) as [I' M].
  eexists _, w, w'. split; [exact E|]. split; [exact E'|]. auto.
Qed.
