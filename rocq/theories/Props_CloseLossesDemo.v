(** * Props_CloseLossesDemo: C91 on the shipped template *)
From Coq Require Import Reals Lra Lia List.
From Verif Require Import Base Num Json Logger World Vesicle MeltVisc RelVisc Bubbles Terrain Lava
  Thermal Flux Integrator Factory Run Frame StepLog Spec RNum RPow StepProps Props_Run Props_Step
  Props_Velocity Props_Rheology Props_Material Props_Thermal Props_Flux Props_Terrain Props_Table Props_RunOuts Props_Recompute
  Safe Valid Props_ValidRun Cooling Props_Cooling Props_Template Recompute Lipschitz ModelLip Refine Losses Props_Refine Props_RefineRun
  Resume Props_Resume Props_ResumeDemo Props_RefineDemo Props_Compare Props_Weaker Faster Props_Faster Props_FasterDemo Props_Finer Props_FinerDemo Props_CloseLosses Props_CloseFlow.
Open Scope R_scope.

(** The template with emissivity 0.94, wind at 4.95 m/s, air at 295 K, conduction over
    19.2 % of the depth and a latent heat of 3.55e5: all within 2 %. *)
Definition other_json : json R := JObj (map (fun kv =>
  if String.eqb (fst kv) "radiation_parameters" then
    ("radiation_parameters", JObj [("stefan-boltzmann_sigma", num 567 10000000000); ("emissivity_epsilon", num 94 100)])
  else if String.eqb (fst kv) "conduction_parameters" then
    ("conduction_parameters", JObj [("basal_temperature", num 77315 100); ("core_base_distance", num 192 10)])
  else kv) (template_fields "basic" 0)).
Definition other_air : air R :=
  {| air_temp := n_lit 295 1; air_wind := n_lit 495 100; air_ch := n_lit 36 10000; air_rho := n_lit 4412 10000; air_cp := n_lit 1099 1 |}.
Definition other_budget : list (flux R) :=
  [FRadiation (RadBasic (n_lit 94 100)) (n_lit 567 10000000000); FConduction (n_lit 77315 100) (n_lit 192 10); FConvection].
Definition other_sim : sim R := with_losses other_air other_budget (n_lit 355000 1) (template_sim 0).
Lemma other_models_built : exists mo, build_models other_json (crust_profile (template_fs 0)) = Ok mo /\ mo_budget mo = other_budget.
Proof. eexists. split; [reflexivity|]. reflexivity. Qed.
Lemma template_near : Forall2 (near (2 / 100) (s_air (template_sim 0)) other_air) (s_budget (template_sim 0)) other_budget.
Proof.
  apply Forall2_cons; [cbn; rnum; apply within_intro; lra|]. apply Forall2_cons; [cbn; rnum; split; [reflexivity|apply within_intro; lra]|].
  apply Forall2_cons; [cbn; unfold convection_coefficient; cbn; rnum; apply within_intro; lra|]. apply Forall2_nil.
Qed.
Lemma template_milder_too : spares (s_air (template_sim 0)) other_air (s_budget (template_sim 0)) other_budget.
Proof.
  repeat (apply spares_keep; [cbn; unfold convection_coefficient; cbn; rnum; lra|]). apply spares_nil.
Qed.
Lemma other_cooling h : 0 < h -> cooling (with_step h other_sim) (template_state 0) (14 / 10).
Proof.
  intros Hh. assert (V := co_admissible _ _ _ (tdx_cooling h Hh)). assert (K := co_losing _ _ _ (tdx_cooling h Hh)).
  constructor; [|exact I]. constructor.
  - destruct V. constructor; try assumption; try (cbn; rnum; lra).
    { unfold valid_lava in *. cbn in *. rnum. repeat split; lra. }
    intros tb cbd [E|[E|[E|[]]]]; try discriminate. injection E as <- <-. rnum. lra.
  - cbn. rnum. lra.
  - cbn. rnum. lra.
  - exact (co_crust_max _ _ _ K).
  - cbn. rnum. lra.
  - exact (co_surface_max _ _ _ K).
  - discriminate.
  - repeat constructor; cbn; rnum; lra.
Qed.
Lemma other_losing : losing other_sim (template_state 0) (14 / 10).
Proof.
  assert (K := co_losing _ _ _ (other_cooling 10 ltac:(lra))). revert K.
  replace 10 with (s_dx other_sim) by (cbn; rnum; lra). intros K. exact K.
Qed.

Example template_parameters : exists v0 C, 0 < v0 /\ 0 < C /\ forall N, exists h0, 0 < h0 /\ forall h, 0 < h <= h0 ->
  exists fuel' w w' r r' temp phi v temp' phi' v',
  simulate (step_bound 30000 0 h) (tdx h) start = Some (Ok tt, w) /\
  simulate fuel' (with_step h other_sim) start = Some (Ok tt, w') /\
  nth_error (w_log w) N = Some r /\ nth_error (w_log w') N = Some r' /\
  holds r "core_temperature" temp /\ holds r "crystal_fraction" phi /\ holds r "mean_velocity" v /\
  holds r' "core_temperature" temp' /\ holds r' "crystal_fraction" phi' /\ holds r' "mean_velocity" v' /\
  Rabs (temp - temp') <= C * (2 / 100) /\ Rabs (phi - phi') <= C * (2 / 100) /\ Rabs (v - v') <= C * (2 / 100).
Proof.
  destruct template_fast as (v0 & Hv0 & Fast). destruct other_models_built as (mo & Hmo & Eb).
  destruct (C91_small_errors_in_the_parameters (template 0) _ template_models (template_sim 0) (template_state 0) (14 / 10) (12 / 100) v0
    template_models_built eq_refl template_losing template_smooth Hv0) as (C & PC & GC).
  exists v0, C. split; [exact Hv0|]. split; [exact PC|]. intros N.
  destruct (C80_milder_conditions_flow_further (template 0) other_json _ _ template_models mo (template_sim 0) (template_state 0) (14 / 10) (12 / 100) v0
    other_air other_budget (n_lit 355000 1) template_models_built eq_refl Hmo (eq_sym Eb) template_losing other_losing template_smooth) as (h1 & Hh1 & G);
    [cbn; rnum; lra|exact Hv0|cbn; rnum; lra|cbn; rnum; lra|exact template_milder_too|].
  destruct (template_long v0 Hv0 Fast N) as (h2 & Hh2 & G2).
  exists (Rmin h1 h2). split; [apply Rmin_glb_lt; assumption|]. intros h [Hh Hm].
  assert (h <= h1) by (eapply Rle_trans; [exact Hm|apply Rmin_l]). assert (h <= h2) by (eapply Rle_trans; [exact Hm|apply Rmin_r]).
  destruct (G2 h ltac:(lra)) as (w & E & I & Fw).
  destruct (C63_flow_stops_for_a_reason _ _ _ (other_cooling h Hh)) as (w' & E' & _).
  destruct (G h N _ _ w w' ltac:(lra) E E' I Fw) as [I' M].
  assert (Fw' : flows_freely v0 (12 / 100) (w_log w') N).
  { intros i r' v' phi' Hi Hr' Hv' Hp'. destruct (M i Hi) as (r & r'' & Hr & Hr'' & x & t & p & v & t' & p' & v'' & _ & _ & _ & _ & P1 & P2 & P3 & P4 & _ & P5 & P6).
    rewrite Hr' in Hr''. injection Hr'' as <-. destruct (Fw i r v p Hi Hr P3 P1) as [F1 F2].
    rewrite (holds_fun _ _ _ _ Hv' P4), (holds_fun _ _ _ _ Hp' P2). lra. }
  destruct (GC other_json _ mo other_air other_budget (n_lit 355000 1) (2 / 100) Hmo (eq_sym Eb) other_losing ltac:(lra) template_near
    ltac:(apply within_intro; cbn; rnum; lra) ltac:(apply within_intro; cbn; rnum; lra) h N _ _ w w' Hh E E' I I' Fw Fw')
    as (r & r' & x & temp & phi & v & temp' & phi' & v' & Q1 & Q2 & Q3 & Q4 & Q5 & Q6 & Q7 & Q8 & Q9 & Q10 & Q11).
  eexists _, w, w', r, r', temp, phi, v, temp', phi', v'. split; [exact E|]. split; [exact E'|].
  split; [exact Q1|]. split; [exact Q2|]. repeat (split; [assumption|]). exact Q11.
Qed.

(** The template with another wind, a little weaker or stronger: the two constants
    come first, then the wind, the number of rows and the step. *)
Definition windy (delta : R) : air R :=
  {| air_temp := n_lit 29315 100; air_wind := 5 * (1 + delta); air_ch := n_lit 36 10000; air_rho := n_lit 4412 10000; air_cp := n_lit 1099 1 |}.
Definition windy_sim (delta : R) : sim R := with_losses (windy delta) (s_budget (template_sim 0)) (lv_latent (s_lava (template_sim 0))) (template_sim 0).
Lemma windy_cooling delta h : -1 / 2 <= delta -> 0 < h -> cooling (with_step h (windy_sim delta)) (template_state 0) (14 / 10).
Proof.
  intros Hdel Hh. destruct (tdx_cooling h Hh) as [[V A1 A2 A3 A4 A5 A6 A7] I0]. constructor; [|exact I0]. constructor; try assumption.
  - destruct V. constructor; try assumption.
  - constructor; [|constructor; [|constructor; [|constructor]]]; cbn; rnum; try (split; lra).
    apply Rmult_lt_0_compat; [|lra]. lra.
Qed.
Lemma windy_near delta : Forall2 (near (Rabs delta) (s_air (template_sim 0)) (windy delta)) (s_budget (template_sim 0)) (s_budget (template_sim 0)).
Proof.
  assert (P := Rabs_pos delta).
  apply Forall2_cons; [cbn; rnum; apply within_same; [exact P|lra]|]. apply Forall2_cons; [cbn; rnum; split; [reflexivity|apply within_same; lra]|].
  apply Forall2_cons; [|apply Forall2_nil]. cbn. unfold convection_coefficient, within. cbn. rnum.
  set (k := 36 / 10000 * (4412 / 10000) * 1099). assert (0 <= k) by (unfold k; lra).
  replace (k * (5 * (1 + delta)) - k * 5) with (delta * (k * 5)) by ring.
  rewrite Rabs_mult, (Rabs_right (k * 5)) by lra. lra.
Qed.
Example template_wind : exists eps0 C, 0 < eps0 /\ 0 < C /\ forall delta N, Rabs delta <= eps0 -> exists h0, 0 < h0 /\ forall h, 0 < h <= h0 ->
  exists fuel' w w',
  simulate (step_bound 30000 0 h) (tdx h) start = Some (Ok tt, w) /\
  simulate fuel' (with_step h (windy_sim delta)) start = Some (Ok tt, w') /\ (N < w_iter w')%nat /\
  forall k, (k <= N)%nat -> exists r r', nth_error (w_log w) k = Some r /\ nth_error (w_log w') k = Some r' /\ same_place_within (C * Rabs delta) r r'.
Proof.
  destruct template_fast as (v0 & Hv0 & Fast).
  assert (Sm : smooth (template_sim 0) (13 / 100)) by (constructor; cbn; try exact I; try reflexivity; rnum; try lra; repeat eexists).
  assert (Vd : vent_depth (template_sim 0) (template_state 0) (14 / 10) (14 / 10)).
  { exists start. split; [|reflexivity]. rewrite <- (init_step _ 1). exact (start_ready 1). }
  destruct (C91_slightly_other_parameters_flow_as_far (template 0) _ template_models (template_sim 0) (template_state 0) (14 / 10) (14 / 10) (12 / 100) (13 / 100) v0
    template_models_built eq_refl template_losing) as (eps0 & C & Pe & PC & G);
    [exact Sm|exact Hv0|cbn; rnum; lra|exact Vd|apply template_moves; lra|].
  exists (Rmin (1 / 2) eps0), C. split; [apply Rmin_glb_lt; lra|]. split; [exact PC|]. intros delta N Hd.
  assert (M1 := Rmin_l (1 / 2) eps0). assert (M2 := Rmin_r (1 / 2) eps0).
  assert (Hd2 : -1 / 2 <= delta). { assert (Q := Rle_abs (- delta)). rewrite Rabs_Ropp in Q. lra. }
  destruct (template_long v0 Hv0 Fast N) as (h2 & Hh2 & G2).
  exists h2. split; [exact Hh2|]. intros h Hh. destruct (G2 h Hh) as (w & E & I & Fw).
  destruct (C63_flow_stops_for_a_reason _ _ _ (windy_cooling delta h Hd2 ltac:(lra))) as (w' & E' & _).
  assert (Lw : losing (windy_sim delta) (template_state 0) (14 / 10)).
  { assert (Kw := co_losing _ _ _ (windy_cooling delta 10 Hd2 ltac:(lra))). revert Kw.
    replace 10 with (s_dx (windy_sim delta)) by (cbn; rnum; lra). intros Kw. exact Kw. }
  destruct (G (template 0) _ template_models (windy delta) _ (lv_latent (s_lava (template_sim 0))) (Rabs delta) template_models_built eq_refl Lw
    (conj (Rabs_pos delta) (Rle_trans _ _ _ Hd M2)) (windy_near delta)
    ltac:(apply within_same; [apply Rabs_pos|cbn; rnum; lra]) ltac:(apply within_same; [apply Rabs_pos|cbn; rnum; lra]) h N _ _ w w' ltac:(lra) E E' I Fw) as (I' & _ & Cl).
  eexists _, w, w'. split; [exact E|]. split; [exact E'|]. auto.
Qed.
