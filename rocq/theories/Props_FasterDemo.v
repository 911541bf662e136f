(** * Props_FasterDemo: C86 on the shipped template *)
From Coq Require Import Reals Lra Lia List.
From Verif Require Import Base Num Json Logger World Vesicle MeltVisc RelVisc Bubbles Terrain Lava
  Thermal Flux Integrator Factory Run Frame StepLog Spec RNum RPow StepProps Props_Run Props_Step
  Props_Velocity Props_Rheology Props_Material Props_Thermal Props_Flux Props_Terrain Props_Table Props_RunOuts Props_Recompute
  Safe Valid Props_ValidRun Cooling Props_Cooling Props_Template Recompute Lipschitz ModelLip Refine Losses Props_Refine Props_RefineRun
  Resume Props_Resume Props_ResumeDemo Props_RefineDemo Props_Compare Props_Weaker Faster Props_Faster.
Open Scope R_scope.

(** At the vent of the template the lava moves in any channel at least a
    centimetre deep, which is where the search starts. *)
Lemma template_moves eri d : 1 / 100 <= d -> moves_at_vent (template_sim eri) (template_state eri) d.
Proof.
  intros Hd. eexists _, _. split; [|split].
  - unfold get_yield_strength. cbn. unfold R_pow. rewrite R_power_pos by lra. cbn [rbind]. reflexivity.
  - change (get_basal_shear_stress (s_lava (template_sim eri)) (s_ter (template_sim eri)) d (template_state eri))
      with (basal_body (s_ter (template_sim eri)) d (s_lava (template_sim eri)) (template_state eri)).
    assert (D : get_bulk_density (s_lava (template_sim eri)) (template_state eri) = Ok (2970 * (1 - 64 / 100))) by (cbn; rnum; f_equal; lra).
    unfold basal_body. rewrite D, template_slope. cbn [rbind]. reflexivity.
  - cbn [n_sin RNum]. rewrite sin_PI6. cbn [template_sim s_ter ter_gravity]. rnum.
    assert (H1 : exp (8 / 100 * (138715 / 100 - 138715 / 100) - 1) <= 1).
    { replace 1 with (exp 0) at 2 by apply exp_0. apply Rlt_le, exp_increasing. lra. }
    assert (H2 : Rpower (104 / 1000) (285 / 100) <= 104 / 1000 * (104 / 1000) * (33 / 100)).
    { assert (L : ln (104 / 1000) < 0) by (rewrite <- ln_1; apply ln_increasing; lra).
      apply Rle_trans with (Rpower (104 / 1000) (1 + 1 + / 2)).
      - unfold Rpower. apply Rlt_le, exp_increasing. lra.
      - rewrite !Rpower_plus, Rpower_1, Rpower_sqrt by lra.
        assert (sqrt (104 / 1000) <= 33 / 100).
        { rewrite <- (sqrt_pow2 (33 / 100)) by lra. apply sqrt_le_1; lra. }
        apply Rmult_le_compat_l; lra. }
    lra.
Qed.

Lemma template_tame eri : Forall (tame (template_sim eri)) (s_budget (template_sim eri)).
Proof. repeat constructor; cbn; rnum; lra. Qed.
(** The two emissivities of the Venus file (0.95 for the crust, 0.6 for the molten
    lava) with the template's crust and buffer. *)
Lemma venus_emissivities_tame eri sigma : tame (template_sim eri) (FRadiation (Rad2Emi (95 / 100) (6 / 10)) sigma).
Proof. cbn. rnum. split; [lra|]. eexists. split; [reflexivity|lra]. Qed.
(** The quadratic emissivity with no buffer and a crust at 900 K. *)
Lemma quadratic_emissivity_tame sm sigma : s_crust sm = CtConstant 900 -> lv_buffer (s_lava sm) = 0 ->
  get_solid_temperature (s_cryst sm) = 123715 / 100 -> tame sm (FRadiation RadCont sigma).
Proof. intros Hc Hb Hs. cbn. exists 900. rewrite Hb, Hs. repeat split; [exact Hc|lra|lra]. Qed.

(** A channel two metres deep instead of 1.4: for every number of rows there is a
    step below which both runs reach it, and row by row the deeper channel shows
    the hotter, faster lava. *)
Lemma deep_cooling h : 0 < h -> cooling (tdx h) (template_state 0) 2.
Proof.
  intros Hh. assert (K := tdx_cooling h Hh). destruct K as [K R]. constructor; [|exact R].
  destruct K as [V A1 A2 A3 A4 A5 A6 A7]. constructor; try assumption. destruct V. constructor; try assumption. lra.
Qed.
Example template_deeper : forall N, exists h0, 0 < h0 /\ forall h, 0 < h <= h0 -> exists fuel' w w',
  simulate (step_bound 30000 0 h) (tdx h) start = Some (Ok tt, w) /\
  simulate fuel' (tdx h) (initial_world (template_state 0) [] 2) = Some (Ok tt, w') /\
  (N < w_iter w)%nat /\ (N < w_iter w')%nat /\
  forall i, (i <= N)%nat -> exists r r', nth_error (w_log w) i = Some r /\ nth_error (w_log w') i = Some r' /\ at_least_as_mobile r r'.
Proof.
  intros N. destruct template_fast as (v0 & Hv0 & Fast).
  destruct (C86_deeper_channel_flows_further (template 0) _ template_models (template_sim 0) (template_state 0) (14 / 10) 2 (12 / 100) v0
    template_models_built eq_refl template_losing template_smooth) as (h1 & Hh1 & G);
    [cbn; rnum; lra|exact Hv0|exact (template_tame 0)|cbn; rnum; lra|lra|apply template_moves; lra|].
  destruct (template_long v0 Hv0 Fast N) as (h2 & Hh2 & G2).
  exists (Rmin h1 h2). split; [apply Rmin_glb_lt; assumption|]. intros h [Hh Hm].
  assert (h <= h1) by (eapply Rle_trans; [exact Hm|apply Rmin_l]). assert (h <= h2) by (eapply Rle_trans; [exact Hm|apply Rmin_r]).
  destruct (G2 h ltac:(lra)) as (w & E & I & Fw).
  destruct (C63_flow_stops_for_a_reason _ _ _ (deep_cooling h Hh)) as (w' & E' & _).
  destruct (G h N _ _ w w' ltac:(lra) E E' I Fw) as [I' M].
  eexists _, w, w'. split; [exact E|]. split; [exact E'|]. auto.
Qed.

(** An "effusion_rate_init" that asks for a search: two positive whole rates, the
    smaller first.  With a small enough step both runs write their first row, and
    the second run starts at least as fast. *)
Lemma template_smooth_rate eri : smooth (template_sim eri) (12 / 100).
Proof. assert (S := smooth_rate (template_sim 0) (n_lit eri 1) _ template_smooth). exact S. Qed.
Lemma template_rate eri eri' : with_rate (IZR eri') (template_sim eri) = template_sim eri'.
Proof. unfold with_rate, template_sim. cbn [s_ter ter_eff_init ter_width ter_gravity ter_maxlen ter_default_slope ter_spline s_dx s_lava s_air s_cryst s_crust s_cover s_budget s_mass]. f_equal. f_equal. rnum. lra. Qed.
Lemma template_cooling_step eri h : (0 <= eri)%Z -> 0 < h -> cooling (with_step h (template_sim eri)) (template_state eri) (14 / 10).
Proof.
  intros He Hh. destruct (template_cooling eri He) as [K R]. constructor; [|exact R].
  destruct K as [V A1 A2 A3 A4 A5 A6 A7]. constructor; try assumption. destruct V. constructor; assumption.
Qed.
Lemma template_vent eri : (0 < eri)%Z -> exists w d1, init_effusion_rate (template_sim eri) (initial_world (template_state eri) [] (14 / 10)) = (Ok tt, w) /\
  w_depth w = d1 /\ 1 / 100 <= d1 /\ w_iter w = 0%nat.
Proof.
  intros He. destruct (vent_init _ _ _ (co_admissible _ _ _ (template_cooling eri ltac:(lia))) []) as (w & E & _ & _ & I).
  exists w, (w_depth w). split; [exact E|]. split; [reflexivity|]. split; [|exact I].
  apply C19_search_result in E as (k & _ & _ & _ & _ & _ & Ed & _).
  - rewrite Ed, C19_depth_grid. assert (P := pos_INR k). lra.
  - cbn. rnum. apply IZR_lt in He. lra.
Qed.
Example template_faster : forall eri eri' v0, (0 < eri <= eri')%Z -> 0 < v0 -> exists h0, 0 < h0 /\ forall h, 0 < h <= h0 -> exists fuel fuel' w w',
  simulate fuel (with_step h (template_sim eri)) (initial_world (template_state eri) [] (14 / 10)) = Some (Ok tt, w) /\
  simulate fuel' (with_step h (template_sim eri')) (initial_world (template_state eri') [] (14 / 10)) = Some (Ok tt, w') /\
  forall n, (n < w_iter w)%nat -> flows_freely v0 (12 / 100) (w_log w) n ->
  (n < w_iter w')%nat /\
  forall i, (i <= n)%nat -> exists r r', nth_error (w_log w) i = Some r /\ nth_error (w_log w') i = Some r' /\ at_least_as_mobile r r'.
Proof.
  intros eri eri' v0 He Hv0. destruct (template_vent eri ltac:(lia)) as (w1 & d1 & E1 & D1 & Hd1 & _).
  assert (Hr : 0 < IZR eri <= IZR eri') by (split; [apply IZR_lt; lia|apply IZR_le; lia]).
  destruct (C86_larger_rate_flows_further (template 0) _ template_models (template_sim eri) (template_state eri)
    (st_strain (template_state eri')) (14 / 10) (IZR eri') (12 / 100) v0 d1
    template_models_built eq_refl (co_losing _ _ _ (template_cooling eri ltac:(lia))) (template_smooth_rate eri)) as (h1 & Hh1 & G);
    [cbn; rnum; lra|exact Hv0|exact (template_tame eri)|cbn; rnum; lra| |exists w1; auto|now apply template_moves|].
  { exact (va_strain _ _ _ (co_admissible _ _ _ (template_cooling eri' ltac:(lia)))). }
  exists h1. split; [exact Hh1|]. intros h Hh.
  destruct (C63_flow_stops_for_a_reason _ _ _ (template_cooling_step eri h ltac:(lia) ltac:(lra))) as (w & E & _).
  destruct (C63_flow_stops_for_a_reason _ _ _ (template_cooling_step eri' h ltac:(lia) ltac:(lra))) as (w' & E' & _).
  eexists _, _, w, w'. split; [exact E|]. split; [exact E'|]. intros n Hn Fw.
  rewrite template_rate in G. exact (G h n _ _ w w' Hh E E' Hn Fw).
Qed.

(** The first row is always there, and its velocity does not depend on the step. *)
Lemma template_first eri : (0 < eri)%Z -> exists v0, 0 < v0 /\ forall h fuel w, 0 < h ->
  simulate fuel (with_step h (template_sim eri)) (initial_world (template_state eri) [] (14 / 10)) = Some (Ok tt, w) ->
  (0 < w_iter w)%nat -> flows_freely v0 (12 / 100) (w_log w) 0.
Proof.
  intros He. destruct (template_vent eri He) as (w1 & d1 & E1 & D1 & Hd1 & I1).
  assert (Row : forall h fuel w r, 0 < h ->
    simulate fuel (with_step h (template_sim eri)) (initial_world (template_state eri) [] (14 / 10)) = Some (Ok tt, w) ->
    (0 < w_iter w)%nat -> nth_error (w_log w) 0 = Some r -> exists v new, 0 < v /\ holds r "mean_velocity" v /\ holds r "crystal_fraction" (104 / 1000) /\
      mean_velocity (s_lava (template_sim eri)) (s_ter (template_sim eri)) (w_depth w1) (w_st w1) = Ok (v, new)).
  { intros h fuel w r Hh E Hi Hr.
    destruct (row_world _ _ _ (co_admissible _ _ _ (template_cooling_step eri h ltac:(lia) Hh)) fuel w 0%nat r E Hi Hr) as
      (w0 & wi & wj & v & rho & wd & sl & hb & ra & dT & dt & E0 & _ & _ & _ & Hs & _ & _ & C & _ & _ & _ & _ & _ & H1 & H2 & H3 & _).
    rewrite init_step, E1 in E0. injection E0 as <-. cbn [steps] in Hs. injection Hs as <-.
    destruct (cs_budget _ _ _ _ _ _ _ _ _ _ _ C) as (n & w2 & Hv & _).
    exists v, n. assert (P := cs_vpos _ _ _ _ _ _ _ _ _ _ _ C). rnum. rtests. split; [lra|]. split; [exact H3|]. split; [|exact Hv].
    assert (F := init_keeps_phi _ _ _ _ E1). cbn in F. rewrite F in H2. revert H2. rnum. auto. }
  destruct (mean_velocity (s_lava (template_sim eri)) (s_ter (template_sim eri)) (w_depth w1) (w_st w1)) as [[v0 new0]|e] eqn:Em.
  - destruct (Rlt_le_dec 0 v0) as [P|P].
    + exists v0. split; [exact P|]. intros h fuel w Hh E Hi i r v phi Hn Hr Hv Hp. assert (i = 0%nat) as -> by lia.
      destruct (Row h fuel w r Hh E Hi Hr) as (v' & n' & _ & A & B & Ev). injection Ev as -> ->.
      rewrite (holds_fun _ _ _ _ Hv A), (holds_fun _ _ _ _ Hp B). lra.
    + exists 1. split; [lra|]. intros h fuel w Hh E Hi i r v phi Hn Hr Hv Hp. assert (i = 0%nat) as -> by lia.
      destruct (Row h fuel w r Hh E Hi Hr) as (v' & n' & A & _ & _ & Ev). injection Ev as -> ->. lra.
  - exists 1. split; [lra|]. intros h fuel w Hh E Hi i r v phi Hn Hr Hv Hp. assert (i = 0%nat) as -> by lia.
    destruct (Row h fuel w r Hh E Hi Hr) as (v' & n' & A & _ & _ & Ev). discriminate.
Qed.
Lemma template_started eri h : (0 < eri)%Z -> 0 < h -> exists fuel w,
  simulate fuel (with_step h (template_sim eri)) (initial_world (template_state eri) [] (14 / 10)) = Some (Ok tt, w) /\ (0 < w_iter w)%nat.
Proof.
  intros He Hh. destruct (C63_flow_stops_for_a_reason _ _ _ (template_cooling_step eri h ltac:(lia) Hh)) as (w & E & _ & _ & [(I0 & t & A & B)|(I & _)]); [exfalso|eauto].
  destruct (template_vent eri He) as (w1 & d1 & E1 & D1 & Hd1 & I1).
  destruct (run_rows (with_step h (template_sim eri)) _ _ _ w ltac:(cbn; lra) E) as (w0 & wn & E0 & _ & Hs & _ & Hw).
  rewrite init_step, E1 in E0. injection E0 as <-. rewrite I0 in Hs. cbn [steps] in Hs. injection Hs as <-.
  assert (X := init_state _ _ _ _ E1).
  assert (Y : exists x, w_st w = set_strain_rate x (template_state eri) /\ w_depth w = d1).
  { destruct Hw as [->|S]; [eauto|]. destruct (ss_st _ _ _ S) as [x Ex]. exists x. rewrite Ex, X. split; [reflexivity|]. rewrite (ss_depth _ _ _ S). exact D1. }
  destruct Y as (x & Ex & Ed). rewrite Ex in A, B. rewrite Ed in B.
  destruct (template_moves eri d1 Hd1) as (t0 & tb & A' & B' & L).
  change (get_yield_strength (s_lava (template_sim eri)) (set_strain_rate x (template_state eri)) = Ok t) in A.
  change (get_basal_shear_stress (s_lava (template_sim eri)) (s_ter (template_sim eri)) d1 (set_strain_rate x (template_state eri)) = Ok t) in B.
  assert (Z1 : get_yield_strength (s_lava (template_sim eri)) (set_strain_rate x (template_state eri)) =
     get_yield_strength (s_lava (template_sim eri)) (template_state eri)) by apply yield_strain.
  assert (Z2 : get_basal_shear_stress (s_lava (template_sim eri)) (s_ter (template_sim eri)) d1 (set_strain_rate x (template_state eri)) =
     get_basal_shear_stress (s_lava (template_sim eri)) (s_ter (template_sim eri)) d1 (template_state eri)) by apply basal_strain.
  rewrite Z1, A' in A. rewrite Z2, B' in B. apply Ok_inj in A. apply Ok_inj in B. lra.
Qed.
Lemma simulate_more {T} {N : Num T} (sm : sim T) fuel more w r : simulate fuel sm w = Some r -> simulate (fuel + more) sm w = Some r.
Proof. unfold simulate. destruct (init_effusion_rate sm w) as [[[]|e] w0]; [apply run_loop_more|auto]. Qed.
(** So the comparison is about something: at least the first rows. *)
Example template_faster_rows : forall eri eri', (0 < eri <= eri')%Z -> exists h0, 0 < h0 /\ forall h, 0 < h <= h0 -> exists fuel fuel' w w' r r',
  simulate fuel (with_step h (template_sim eri)) (initial_world (template_state eri) [] (14 / 10)) = Some (Ok tt, w) /\
  simulate fuel' (with_step h (template_sim eri')) (initial_world (template_state eri') [] (14 / 10)) = Some (Ok tt, w') /\
  nth_error (w_log w) 0 = Some r /\ nth_error (w_log w') 0 = Some r' /\ at_least_as_mobile r r'.
Proof.
  intros eri eri' He. destruct (template_first eri ltac:(lia)) as (v0 & Hv0 & F).
  destruct (template_vent eri ltac:(lia)) as (w1 & d1 & E1 & D1 & Hd1 & _).
  destruct (template_faster eri eri' v0 He Hv0) as (h0 & Hh0 & G). exists h0. split; [exact Hh0|]. intros h Hh.
  destruct (G h Hh) as (fuel & fuel' & w & w' & E & E' & H).
  destruct (template_started eri h ltac:(lia) ltac:(lra)) as (fuel2 & w2 & E2 & I2).
  assert (w2 = w) as ->.
  { assert (E3 := simulate_more _ fuel fuel2 _ _ E). assert (E4 := simulate_more _ fuel2 fuel _ _ E2). rewrite Nat.add_comm in E4. congruence. }
  destruct (H 0%nat I2 (F h fuel w ltac:(lra) E I2)) as [_ M]. destruct (M 0%nat ltac:(lia)) as (r & r' & N & N' & Q).
  exists fuel, fuel', w, w', r, r'. auto.
Qed.
