(** * Props_ResumeDemo: C77 on the shipped template with a small step: at least two rows, resumed from the second *)
From Coq Require Import Reals Lra.
From Verif Require Import Base Num Json Logger World Vesicle MeltVisc RelVisc Bubbles Terrain Lava
  Thermal Flux Integrator Factory Run RNum Frame StepProofs StepProps Props_Velocity Props_Run Valid Props_ValidRun Cooling Props_Cooling
  Props_EffArray Props_RunOuts Props_Prefix TableTrace Props_Table Props_Template Resume Props_Resume Refine.
Open Scope R_scope.

Lemma abs_between x a : Rabs x <= a -> - a <= x <= a.
Proof. unfold Rabs. destruct (Rcase_abs x); lra. Qed.

Definition tdx (dx : R) : sim R := with_step dx (template_sim 0).
Definition start : world R := initial_world (template_state 0) [] (14 / 10).

Lemma tdx_cooling dx : 0 < dx -> cooling (tdx dx) (template_state 0) (14 / 10).
Proof.
  intros Hdx. assert (K := template_cooling 0 ltac:(lia)). destruct K as [[V]]. destruct V.
  constructor; [|exact I]. constructor; auto. constructor; auto.
Qed.
Lemma start_ready dx : init_effusion_rate (tdx dx) start = (Ok tt, start).
Proof.
  unfold init_effusion_rate. cbn [tdx with_step template_sim s_ter ter_eff_init]. rnum.
  assert (E0 : R_eqb 0 0 = true) by (apply R_eqb_true; lra). rewrite E0. reflexivity.
Qed.
Lemma yield_small s t0 tb : 138615 / 100 <= st_temp s <= 138715 / 100 -> 0 < st_phi s <= 12 / 100 ->
  get_yield_strength (s_lava (template_sim 0)) s = Ok t0 ->
  get_basal_shear_stress (s_lava (template_sim 0)) (s_ter (template_sim 0)) (14 / 10) s = Ok tb -> t0 < tb.
Proof.
  intros Ht Hp A B.
  unfold get_yield_strength in A. cbn in A. unfold R_pow in A. rewrite R_power_pos in A by lra. cbn [rbind] in A.
  assert (D : get_bulk_density (s_lava (template_sim 0)) s = Ok (2970 * (1 - 64 / 100))) by (cbn; rnum; f_equal; lra).
  change (basal_body (s_ter (template_sim 0)) (14 / 10) (s_lava (template_sim 0)) s = Ok tb) in B.
  unfold basal_body in B. rewrite D, template_slope in B. cbn [rbind n_sin RNum] in B. rewrite sin_PI6 in B.
  cbn [template_sim s_ter ter_gravity] in B. injection B as B. injection A as A. revert A B. rnum. intros A B.
  assert (H1 : exp (8 / 100 * (138715 / 100 - st_temp s) - 1) <= 1).
  { replace 1 with (exp 0) at 2 by apply exp_0. apply Rlt_le, exp_increasing. lra. }
  assert (H2 : Rpower (st_phi s) (285 / 100) <= 1).
  { rewrite <- exp_0. unfold Rpower. apply Rlt_le, exp_increasing.
    assert (ln (st_phi s) < 0) by (rewrite <- ln_1; apply ln_increasing; lra). lra. }
  lra.
Qed.

(** With any step the lava moves. *)
Lemma tdx_flows dx : 0 < dx -> exists w,
  simulate (step_bound 30000 0 dx) (tdx dx) start = Some (Ok tt, w) /\
  (0 < w_iter w)%nat /\ length (w_log w) = w_iter w /\ stopped_because (tdx dx) w.
Proof.
  intros Hdx. destruct (C63_flow_stops_for_a_reason _ _ _ (tdx_cooling dx Hdx)) as (w & E & L & _ & Q).
  assert (E' := E). cbv zeta in E'. revert E'.
  replace (ter_maxlen (s_ter (tdx dx))) with 30000 by (cbn; rnum; lra).
  replace (st_pos (template_state 0)) with 0 by (cbn; rnum; lra).
  change (s_dx (tdx dx)) with dx. intros E'. exists w. split; [exact E'|].
  destruct Q as [(I0 & t & A & B)|(I & Q)]; [exfalso|auto].
  assert (Hs : exists x, w_st w = set_strain_rate x (template_state 0) /\ w_depth w = 14 / 10).
  { unfold simulate in E'. rewrite start_ready in E'. revert E'. generalize (step_bound 30000 0 dx).
    intros [|n] E'; cbn [run_loop has_finished start initial_world w_fin] in E'; [discriminate|].
    destruct (single_step _ _) as [[[]|e] w1] eqn:E1; [|discriminate].
    destruct (step_cases _ _ _ E1) as [S|(v & rho & wd & sl & hb & ra & dT & dt & C)].
    - assert (w1 = w) as <-.
      { destruct n; cbn [run_loop] in E'; unfold has_finished in E'; rewrite (ss_fin _ _ _ S) in E'; injection E' as <-; auto. }
      destruct (ss_st _ _ _ S) as [x Hx]. exists x. split; [exact Hx|exact (ss_depth _ _ _ S)].
    - exfalso. assert (Hi := cs_iter _ _ _ _ _ _ _ _ _ _ _ C). apply run_loop_iter in E'. lia. }
  destruct Hs as (x & Hs & Hd). rewrite Hs in A, B. rewrite Hd in B.
  assert (t < t); [|lra]. apply (yield_small (set_strain_rate x (template_state 0))); [| |exact A|exact B]; cbn; rnum; lra.
Qed.

(** The gradients of the first step do not depend on the step. *)
Lemma first_gradients dx wi wj v rho wd sl hb ra dT dt dx' wj' v' rho' wd' sl' hb' ra' dT' dt' :
  completed_step (tdx dx) wi wj v rho wd sl hb ra dT dt -> completed_step (tdx dx') wi wj' v' rho' wd' sl' hb' ra' dT' dt' ->
  dT = dT' /\ ra = ra'.
Proof.
  intros C C'. destruct (cs_budget _ _ _ _ _ _ _ _ _ _ _ C) as (n & w2 & Hv & Hb).
  destruct (cs_budget _ _ _ _ _ _ _ _ _ _ _ C') as (n' & w2' & Hv' & Hb').
  change (s_lava (tdx dx')) with (s_lava (tdx dx)) in Hv'. change (s_ter (tdx dx')) with (s_ter (tdx dx)) in Hv'.
  assert (v' = v /\ n' = n) as [-> ->] by (split; congruence).
  assert (Hr := cs_rho _ _ _ _ _ _ _ _ _ _ _ C). assert (Hr' := cs_rho _ _ _ _ _ _ _ _ _ _ _ C').
  change (s_lava (tdx dx')) with (s_lava (tdx dx)) in Hr'. assert (rho' = rho) as -> by congruence.
  assert (Hw := cs_width _ _ _ _ _ _ _ _ _ _ _ C). assert (Hw' := cs_width _ _ _ _ _ _ _ _ _ _ _ C').
  change (width_of (tdx dx') v rho wi) with (width_of (tdx dx) v rho wi) in Hw'. assert (wd' = wd) as -> by congruence.
  change (eff_of (tdx dx') v wi) with (eff_of (tdx dx) v wi) in Hb'.
  change (compute_heat_budget (tdx dx') wd (w_depth wi)) with (compute_heat_budget (tdx dx) wd (w_depth wi)) in Hb'.
  assert (hb' = hb) as -> by congruence.
  assert (Hra := cs_rate _ _ _ _ _ _ _ _ _ _ _ C). assert (Hra' := cs_rate _ _ _ _ _ _ _ _ _ _ _ C').
  change (s_cryst (tdx dx')) with (s_cryst (tdx dx)) in Hra'. assert (ra' = ra) as -> by congruence.
  assert (Hd := cs_dtemp _ _ _ _ _ _ _ _ _ _ _ C). assert (Hd' := cs_dtemp _ _ _ _ _ _ _ _ _ _ _ C').
  change (lv_latent (s_lava (tdx dx'))) with (lv_latent (s_lava (tdx dx))) in Hd'.
  change (eff_of (tdx dx') v wi) with (eff_of (tdx dx) v wi) in Hd'. split; congruence.
Qed.

Lemma tdx_first dx fuel w : 0 < dx -> simulate fuel (tdx dx) start = Some (Ok tt, w) -> (0 < w_iter w)%nat ->
  exists wj v rho wd sl hb ra dT dt, completed_step (tdx dx) start wj v rho wd sl hb ra dT dt /\
    (w_iter w = 1%nat -> exists x, w_st w = set_strain_rate x (w_st wj) /\ w_depth w = w_depth wj).
Proof.
  intros Hdx H I. assert (Hd : s_dx (tdx dx) <> 0) by (change (dx <> 0); lra).
  destruct (run_rows (tdx dx) fuel _ _ w Hd H) as (w0 & wn & E0 & _ & HS & HI & HE). fold start in E0.
  rewrite start_ready in E0. injection E0 as <-.
  destruct (w_iter w) as [|n] eqn:En; [lia|]. apply steps_S_inv in HS as [(e & He & _)|(w1 & H1 & H2)]; [discriminate|].
  destruct (step_cases _ _ _ H1) as [S|(v & rho & wd & sl & hb & ra & dT & dt & C)].
  { exfalso. assert (Up := steps_iter_le _ _ _ _ H2). rewrite (ss_iter _ _ _ S) in Up. cbn [start initial_world w_iter] in Up. lia. }
  exists w1, v, rho, wd, sl, hb, ra, dT, dt. split; [exact C|]. intros Hn. injection Hn as ->. injection H2 as <-.
  destruct HE as [->|S]; [exists (st_strain (w_st w1)); split; [destruct (w_st w1)|]; reflexivity|].
  destruct (ss_st _ _ _ S) as [x Hx]. exists x. split; [exact Hx|exact (ss_depth _ _ _ S)].
Qed.

(** So with a small enough step there are at least two rows. *)
Lemma tdx_two : exists dx w, 0 < dx /\
  simulate (step_bound 30000 0 dx) (tdx dx) start = Some (Ok tt, w) /\ (1 < w_iter w)%nat /\ length (w_log w) = w_iter w.
Proof.
  destruct (tdx_flows 1 ltac:(lra)) as (w1 & E1 & I1 & _ & _).
  destruct (tdx_first 1 _ w1 ltac:(lra) E1 I1) as (wj & v & rho & wd & sl & hb & ra & dT & dt & C & _).
  set (m := 1 + Rabs dT + Rabs (dT * ra)).
  assert (P1 := Rabs_pos dT). assert (P2 := Rabs_pos (dT * ra)). assert (Hm : 1 <= m) by (unfold m; lra).
  set (dx := 1 / 100 / m). assert (Hdx : 0 < dx) by (apply Rdiv_lt_0_compat; lra).
  assert (Hdm : dx * m = 1 / 100) by (unfold dx; field; lra).
  destruct (tdx_flows dx Hdx) as (w & E & I & L & Q). exists dx, w. split; [exact Hdx|]. split; [exact E|]. split; [|exact L].
  destruct (tdx_first dx _ w Hdx E I) as (wj' & v' & rho' & wd' & sl' & hb' & ra' & dT' & dt' & C' & F).
  destruct (first_gradients _ _ _ _ _ _ _ _ _ _ _ _ _ _ _ _ _ _ _ _ _ C C') as [<- <-].
  destruct (Nat.eq_dec (w_iter w) 1) as [En|]; [exfalso|lia]. destruct (F En) as (x & Hs & Hd).
  assert (T := cs_temp _ _ _ _ _ _ _ _ _ _ _ C'). assert (P := cs_phi _ _ _ _ _ _ _ _ _ _ _ C').
  assert (X := cs_pos _ _ _ _ _ _ _ _ _ _ _ C'). assert (D := cs_depth _ _ _ _ _ _ _ _ _ _ _ C').
  assert (G := cs_phi_grows _ _ _ _ _ _ _ _ _ _ _ C'). apply R_leb_false in G.
  change (s_dx (tdx dx)) with dx in *. change (w_st start) with (template_state 0) in *.
  assert (T' : st_temp (w_st wj') = 138715 / 100 + dT * dx) by (rewrite T; cbn; rnum; reflexivity).
  assert (P' : st_phi (w_st wj') = 104 / 1000 + dT * - ra * dx) by (rewrite P; cbn; rnum; reflexivity).
  assert (X' : st_pos (w_st wj') = 0 + dx) by (rewrite X; cbn; rnum; lra).
  assert (G' : 104 / 1000 < st_phi (w_st wj')) by (revert G; cbn; rnum; lra).
  assert (D' : w_depth wj' = 14 / 10) by exact D. clear T P X D G.
  assert (B1 : - (1 / 100) <= dT * dx <= 1 / 100).
  { assert (Rabs (dT * dx) <= 1 / 100); [|apply abs_between; assumption].
    rewrite Rabs_mult, (Rabs_right dx) by lra. rewrite <- Hdm. unfold m. nra. }
  assert (B2 : - (1 / 100) <= dT * ra * dx <= 1 / 100).
  { assert (Rabs (dT * ra * dx) <= 1 / 100); [|apply abs_between; assumption].
    rewrite Rabs_mult, (Rabs_right dx) by lra. rewrite <- Hdm. unfold m. nra. }
  assert (Hdx1 : dx <= 1 / 100) by nra.
  (* the lava cools *)
  assert (Hcool : dT * dx <= 0).
  { assert (Hr := cs_rate _ _ _ _ _ _ _ _ _ _ _ C). cbn [tdx with_step template_sim s_cryst compute_crystallization_rate] in Hr.
    revert Hr. rnum. intros Hr. apply R_div_inv in Hr as [_ Hr].
    assert (0 < ra) by (rewrite Hr; lra). nra. }
  unfold stopped_because in Q. rewrite Hs, Hd, D' in Q. cbn [set_strain_rate st_temp st_pos] in Q.
  rewrite T', X' in Q. destruct Q as [Q|[Q|[Q|Q]]].
  - revert Q. cbn. rnum. lra.
  - change (rel_is_notcompatible RelER (set_strain_rate x (w_st wj')) = Ok true) in Q.
    unfold rel_is_notcompatible in Q. cbn [set_strain_rate st_phi] in Q. revert Q. rnum. rewrite R_div_ok by lra. cbn [rbind].
    intros Q. injection Q as Q. apply R_leb_true in Q. nra.
  - destruct Q as (t0 & tb & Q1 & Q2 & Q3).
    assert (t0 < tb); [|lra]. apply (yield_small (set_strain_rate x (w_st wj'))); [| |exact Q1|exact Q2]; cbn [set_strain_rate st_temp st_phi]; nra.
  - revert Q. cbn. rnum. lra.
Qed.

(** The run of the template with that step, cut after its first row and
    resumed from its second row, gives the same remaining rows. *)
Example template_resumed : exists dx w r x temp phi width h time strain w2,
  simulate (step_bound 30000 0 dx) (tdx dx) start = Some (Ok tt, w) /\
  nth_error (w_log w) 1 = Some r /\
  holds r "position" x /\ holds r "core_temperature" temp /\ holds r "crystal_fraction" phi /\
  holds r "channel_width" width /\ holds r "channel_depth" h /\
  simulate (step_bound 30000 0 dx - 1) (with_vent width 0 (tdx dx)) (initial_world (state_of_row x temp phi time strain) [] h) = Some (Ok tt, w2) /\
  w_log w2 = skipn 1 (w_log w) /\ w_log w2 <> [].
Proof.
  destruct tdx_two as (dx & w & Hdx & E & I & L).
  assert (Hd : s_dx (tdx dx) <> 0) by (change (dx <> 0); lra).
  destruct (nth_error (w_log w) 1) as [r|] eqn:Er; [|apply nth_error_None in Er; lia].
  destruct (C72_rows_follow_one_another _ _ _ _ _ Hd E 1%nat r I Er) as (t & ph & a & b & T & P & _).
  destruct (C72_every_row_balances _ _ _ _ _ Hd E) as (eff & h & X).
  destruct (X 1%nat r I Er) as (x & v & width & rho & hb & rate & dtemp & slope & X1 & X2 & X3 & X4 & X5 & X6 & X7 & X8 & X9 & _).
  destruct (C77_resume (tdx dx) _ _ _ w 1 r x t ph width h eq_refl Hd E I Er X1 T P X3 X9) as (time & strain & w2 & E2 & L2 & _).
  exists dx, w, r, x, t, ph, width, h, time, strain, w2.
  split; [exact E|]. split; [exact Er|]. split; [exact X1|]. split; [exact T|]. split; [exact P|]. split; [exact X3|]. split; [exact X9|].
  split; [exact E2|]. split; [exact L2|]. rewrite L2. intros Q.
  assert (K : length (skipn 1 (w_log w)) = 0%nat) by (rewrite Q; reflexivity). rewrite skipn_length in K. lia.
Qed.
