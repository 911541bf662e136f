(** * Props_RecomputeDemo: C76 on the shipped template *)
From Coq Require Import Reals Lra.
From Verif Require Import Base Num Json Logger World Vesicle MeltVisc RelVisc Bubbles Terrain Lava
  Thermal Flux Integrator Factory Run Frame Spec RNum StepProps Props_Run Props_Velocity Valid Props_ValidRun Cooling Props_Cooling
  Props_EffArray Props_Table Props_Template Props_Thermal Props_Flux Recompute Props_Recompute.
Open Scope R_scope.

(** The first row of the template's run, at the vent: density, slope, crust
    temperature and the radiance of a 4.5 m channel in a 30 m pixel, computed
    by hand from the configuration. *)
Example template_row_recomputed : exists w r v f t0 mu width,
  simulate (step_bound 30000 0 10) (template_sim 0) (initial_world (template_state 0) [] (14 / 10)) = Some (Ok tt, w) /\
  nth_error (w_log w) 0 = Some r /\
  holds r "density" (2970 * (36 / 100)) /\
  holds r "mean_velocity" v /\ holds r "viscosity" mu /\ holds r "tho_0" t0 /\ holds r "channel_width" width /\
  (exists h tb, holds r "channel_depth" h /\ holds r "tho_b" tb /\
     tb = h * (2970 * (36 / 100)) * (981 / 100) * (1 / 2) /\ v = jeffreys_bingham h t0 tb mu) /\
  holds r "effective_cover_fraction" f /\ f = exp (- (756 / 100000) * v) /\
  holds r "spectral_radiance"
    (pixel_radiance (RadBasic (95 / 100)) width f (77315 / 100) (138715 / 100 - 140)).
Proof.
  destruct template_flows as (w & E & I & L & _).
  destruct (nth_error (w_log w) 0) as [r|] eqn:Er; [|apply nth_error_None in Er; lia].
  assert (Hdx : s_dx (template_sim 0) <> 0) by (cbn; rnum; lra).
  set (m := {| mo_cryst := s_cryst (template_sim 0); mo_air := s_air (template_sim 0);
     mo_lava := s_lava (template_sim 0); mo_cover := s_cover (template_sim 0); mo_crust := s_crust (template_sim 0);
     mo_budget := s_budget (template_sim 0) |}).
  assert (Em : build_models (template 0) (crust_profile (template_fs 0)) = Ok m) by reflexivity.
  assert (Hsf : strain_free (s_lava (template_sim 0))) by (apply C21_which_models_are_strain_free; reflexivity).
  destruct (C72_rows_follow_one_another _ _ _ _ _ Hdx E 0%nat r I Er) as (t & ph & a & b & T & _ & _ & _ & Z & _).
  destruct (Z eq_refl) as [-> _].
  destruct (C76_every_column_recomputed (template 0) _ m (template_sim 0) _ _ _ w Em eq_refl Hsf Hdx E 0%nat r I Er)
    as (q & vf & mu & rho & v & width & h & slope & tc & f & t0 & tb & rate &
        (H1 & H2 & H3 & H4 & H5 & H6 & H7 & H8 & H9 & H10 & H11 & H12 & H13 & H14 & H15) &
        (M1 & M2 & M3 & M4 & M5 & M6) & Erho & Etb & Ev & Hst & Ef & Hfl & Hrad & _).
  assert (Et : st_temp q = st_temp (template_state 0)).
  { unfold holds in H2, T. rewrite H2 in T. injection T as T. exact T. }
  rewrite template_slope in M6. apply Ok_inj in M6. cbn in M1. apply Ok_inj in M1. cbn in M4. apply Ok_inj in M4.
  subst vf tc slope. cbn [template_sim s_lava s_ter s_cover lv_dre ter_gravity cover_parameters fst snd] in Erho, Etb, Ef.
  rnum. rewrite sin_PI6 in Etb.
  assert (Erho' : rho = 2970 * (36 / 100)) by (rewrite Erho; lra). clear Erho. subst rho.
  exists w, r, v, f, t0, mu, width.
  split; [exact E|]. split; [exact Er|]. split; [exact H6|]. split; [exact H7|]. split; [exact H5|]. split; [exact H13|].
  split; [exact H8|]. split.
  { exists h, tb. split; [exact H9|]. split; [exact H14|]. split; [rewrite Etb; lra|exact Ev]. }
  split; [exact H12|]. split.
  { rewrite Ef. replace (-756 / 100000) with (- (756 / 100000)) by lra. replace (1 / 1) with 1 by lra. rewrite Rmult_1_l. reflexivity. }
  destruct (Hrad (RadBasic (n_lit 95 100)) (n_lit 567 10000000000)) as (te & _ & _ & _ & _ & Q); [left; reflexivity|].
  rewrite Et in Q. cbn [template_sim template_state st_temp s_lava lv_buffer] in Q. rnum. exact Q.
Qed.
