(** * C56 on the shipped configuration with "melts" selected *)
From Verif Require Import Base Num Json Logger World Vesicle MeltVisc RelVisc Bubbles Terrain Lava
  Thermal Flux Integrator Factory Run Frame Spec RNum RPow StepProofs StepProps Props_Run Props_Velocity Props_Material Props_Terrain
  Props_Flux Props_RunOuts Props_Factory Valid Props_ValidRun Cooling Props_Cooling Props_Template Props_Melts.
Open Scope R_scope.

Definition melts_template : json R :=
  JObj (template_fields "melts" 0 ++ [("melts_look-up_table", JStr "Results-melts_MU74.csv")]).
Definition melts_fs : fsys R := fun p =>
  if String.eqb p "resource/template.json" then Some (FJson melts_template)
  else if String.eqb p "resource/example_slope_profile.txt" then Some (FText slope_lines)
  else None.
Definition melts_model : cryst_model R := CrMelts (n_lit 104 1000) (n_lit 123715 100) (n_lit 138715 100) None.
Definition with_cryst (c : cryst_model R) (sm : sim R) : sim R :=
  {| s_dx := s_dx sm; s_lava := s_lava sm; s_air := s_air sm; s_ter := s_ter sm; s_cryst := c; s_crust := s_crust sm;
     s_cover := s_cover sm; s_budget := s_budget sm; s_mass := s_mass sm |}.
Definition melts_sim : sim R := with_cryst melts_model (template_sim 0).

Example melts_prepares :
  prepare mass_flag melts_fs "resource/template.json" =
  Ok (JInt 0, JStr "template", melts_sim, template_state 0, n_lit 14 10).
Proof.
  unfold prepare.
  change (load_json melts_fs "resource/template.json") with (Ok melts_template). cbn [rbind].
  change (jget melts_template "effusion_rate_init") with (Ok (@JInt R 0)). cbn [rbind].
  change (require1 melts_template "lava_name") with (Ok (@JStr R "template")). cbn [rbind].
  change (require1 melts_template "slope_file") with (Ok (@JStr R "resource/example_slope_profile.txt")). cbn [rbind].
  change (require1 melts_template "step_size") with (Ok (num 10 1)). cbn [rbind].
  change (py_float (num 10 1)) with (Ok (@n_lit R RNum 10 1)). cbn [rbind].
  change (mass_raw melts_template) with (Ok (@JBool R false)). cbn [rbind].
  assert (Et : read_terrain melts_template = Ok ({| ter_eff_init := n_lit 0 1; ter_width := n_lit 45 10;
     ter_gravity := n_lit 981 100; ter_maxlen := n_lit 30000 1; ter_default_slope := 2657414 / 1000000 * (PI / 180);
     ter_spline := None |}, n_lit 14 10, Some (n_lit 5 1))).
  { unfold read_terrain, jfloat1, jfloat2, jget2, radians.
    cbn [melts_template template_fields app jget assoc String.eqb Ascii.eqb Bool.eqb rbind num py_float].
    cbn [n_div n_pi RNum n_lit]. rewrite R_div_ok by lra. cbn [rbind].
    replace (PI / (180 / 1)) with (PI / 180) by (field; lra). reflexivity. }
  rewrite Et. cbn [rbind].
  change (read_slope_lines melts_fs (JStr "resource/example_slope_profile.txt")) with (Ok slope_lines). cbn [rbind].
  rewrite template_slopes. cbn [rbind ter_eff_init ter_width ter_gravity ter_maxlen ter_default_slope].
  set (m := {| mo_cryst := melts_model; mo_air := s_air melts_sim;
     mo_lava := s_lava melts_sim; mo_cover := s_cover melts_sim; mo_crust := s_crust melts_sim;
     mo_budget := s_budget melts_sim |}).
  assert (Em : build_models melts_template (crust_profile melts_fs) = Ok m) by reflexivity.
  rewrite Em. cbn [rbind].
  assert (Es : initialize_state (mo_lava m) (mo_cryst m) melts_template = Ok (template_state 0)).
  { unfold initialize_state, jfloat1, jfloat2.
    cbn [melts_template template_fields app jget assoc String.eqb Ascii.eqb Bool.eqb rbind num py_float].
    change (get_crystal_fraction (mo_cryst m) (lv_terupt (mo_lava m))) with (Ok (@n_lit R RNum 104 1000)). cbn [rbind].
    rnum. unfold R_mpow. rewrite R_power_2. cbn [rbind]. rewrite R_div_ok by (simpl; lra). cbn [rbind].
    rewrite R_div_ok by lra. cbn [rbind]. unfold template_state. rnum. reflexivity. }
  rewrite Es. reflexivity.
Qed.

(** The same run as [template_flows], with the crystallization model changed:
    ZeroDivisionError at the first step. *)
Example melts_template_fails : exists w',
  single_step melts_sim (initial_world (template_state 0) [] (14 / 10)) = (Err ZeroDivisionError, w').
Proof.
  destruct template_flows as (w & E & I & _).
  unfold simulate, init_effusion_rate in E. cbn [template_sim s_ter ter_eff_init] in E. rnum.
  assert (E0 : R_eqb 0 0 = true) by (apply R_eqb_true; lra). rewrite E0 in E. unfold ret in E.
  set (w0 := initial_world (template_state 0) [] (14 / 10)) in *.
  revert E. generalize (step_bound 30000 0 10). intros [|n] E; cbn [run_loop] in E; [discriminate|].
  change (has_finished w0) with false in E. cbv iota in E.
  destruct (single_step _ w0) as [[[]|e] w1] eqn:E1; [|discriminate].
  destruct (step_cases _ _ _ E1) as [S|(v & rho & wd & sl & hb & ra & dT & dt & C)].
  { exfalso. assert (w1 = w) as <-.
    { destruct n; cbn [run_loop] in E; unfold has_finished in E; rewrite (ss_fin _ _ _ S) in E; injection E as <-; auto. }
    rewrite (ss_iter _ _ _ S) in I. cbn in I. lia. }
  destruct (cs_budget _ _ _ _ _ _ _ _ _ _ _ C) as (new & w2 & Hv & Hb).
  apply (C56_first_step_divides_by_zero melts_sim _ _ _ w0 v new rho wd sl hb w2 eq_refl Hv).
  - assert (P := cs_vpos _ _ _ _ _ _ _ _ _ _ _ C). unfold zero in P. rnum. rtests. lra.
  - exact (cs_rho _ _ _ _ _ _ _ _ _ _ _ C).
  - exact (cs_width _ _ _ _ _ _ _ _ _ _ _ C).
  - exact (cs_slope _ _ _ _ _ _ _ _ _ _ _ C).
  - exact Hb.
Qed.
