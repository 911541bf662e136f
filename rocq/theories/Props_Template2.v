(** * Props_Template2: the second configuration shipped with the project, whose lava can reach its packing limit *)
From Verif Require Import Base Num Json Logger World Vesicle MeltVisc RelVisc Bubbles Terrain Lava
  Thermal Flux Integrator Factory Run Frame Spec RNum RPow StepProps Props_Run Props_Velocity Props_Material Props_Terrain
  Props_Flux Props_RunOuts Valid Props_ValidRun Cooling Props_Cooling Props_Template.
Open Scope R_scope.

(** /repo/resource/template_2.json, key by key. *)
Definition template2 : json R := JObj [
  ("lava_name", JStr "template2-test");
  ("slope_file", JStr "resource/example_slope_profile.txt");
  ("step_size", num 10 1);
  ("effusion_rate_init", JInt 10);
  ("heat_budget_models", JObj [("radiation", JStr "basic"); ("snyder", JStr "no"); ("conduction", JStr "yes");
     ("convection", JStr "yes"); ("rain", JStr "no"); ("viscous_heating", JStr "no")]);
  ("models", JObj [("crystallization_rate_model", JStr "bimodal"); ("melt_viscosity_model", JStr "vft");
     ("relative_viscosity_model", JStr "kd"); ("relative_viscosity_bubbles_model", JStr "deformable");
     ("yield_strength_model", JStr "basic"); ("crust_temperature_model", JStr "constant");
     ("effective_cover_crust_model", JStr "basic"); ("vesicle_fraction_model", JStr "constant")]);
  ("terrain_conditions", JObj [("width", num 45 10); ("depth", num 7 10); ("gravity", num 981 100);
     ("slope_smoothing_active", JBool false); ("slope_smoothing_number_of_points", JInt 1);
     ("max_channel_length", num 4000 1)]);
  ("eruption_condition", JObj [("eruption_temperature", num 138715 100); ("viscosity_eruption", num 1000 1)]);
  ("lava_state", JObj [("position", num 0 1); ("time", num 1 1); ("crystal_fraction", num 104 1000);
     ("density_dre", num 2970 1); ("vesicle_fraction", num 64 100); ("liquidus_temperature", num 0 1);
     ("critical_distance", num 500 1)]);
  ("radiation_parameters", JObj [("stefan-boltzmann_sigma", num 567 10000000000); ("emissivity_epsilon", num 95 100)]);
  ("conduction_parameters", JObj [("basal_temperature", num 77315 100); ("core_base_distance", num 19 1)]);
  ("rain_parameters", JObj [("rainfall_rate", num 793 10000000000); ("density_water", num 958 1);
     ("latent_heat_vaporization", num 2800000 1)]);
  ("convection_parameters", JObj [("wind_speed", num 5 1); ("ch_air", num 36 10000); ("air_temperature", num 29315 100);
     ("air_density", num 4412 10000); ("air_specific_heat_capacity", num 1099 1)]);
  ("thermal_parameters", JObj [("buffer", num 140 1); ("crust_cover_fraction", num 1 1); ("alpha", num (-756) 100000);
     ("crust_temperature", num 77315 100);
     ("crust_temperature_file", JStr "resource/field_data/example_slope_profile.txt")]);
  ("melt_viscosity_parameters", JObj [("shaw_slope", num 236 100); ("a_vft", num (-452) 100); ("b_vft", JInt 5558);
     ("c_vft", num 5829 10)]);
  ("crystals_parameters", JObj [("crystals_grown_during_cooling", num 896 1000); ("crystallization_rate_1", num 2 100);
     ("crystallization_rate_2", num 3 100); ("solid_temperature", num 123715 100);
     ("latent_heat_of_crystallization", num 350000 1)]);
  ("relative_viscosity_parameters", JObj [("max_packing", num 641 1000); ("einstein_coef", num 327 100); ("strain_rate", num 1 1)])
].
Definition template2_fs : fsys R := fun p =>
  if String.eqb p "resource/template_2.json" then Some (FJson template2)
  else if String.eqb p "resource/example_slope_profile.txt" then Some (FText slope_lines)
  else None.

Definition template2_sim : sim R :=
  {| s_dx := n_lit 10 1;
     s_lava := {| lv_melt := MeltVFT (n_lit (-452) 100) (n_lit 5558 1) (n_lit 5829 10);
                  lv_rel := RelKD (n_lit 641 1000) (n_lit 327 100);
                  lv_bub := BubDefo ves; lv_yield := YBasic (n_lit 138715 100); lv_ves := ves;
                  lv_terupt := n_lit 138715 100; lv_buffer := n_lit 140 1; lv_latent := n_lit 350000 1;
                  lv_dre := n_lit 2970 1; lv_maxpack := n_lit 641 1000 |};
     s_air := s_air (template_sim 10);
     s_ter := {| ter_eff_init := n_lit 10 1; ter_width := n_lit 45 10; ter_gravity := n_lit 981 100;
                 ter_maxlen := n_lit 4000 1; ter_default_slope := 2657414 / 1000000 * (PI / 180);
                 ter_spline := ter_spline (s_ter (template_sim 10)) |};
     s_cryst := CrBimodal (n_lit 104 1000) (n_lit 500 1) (n_lit 2 100) (n_lit 3 100) (n_lit 123715 100) (n_lit 138715 100);
     s_crust := s_crust (template_sim 10); s_cover := s_cover (template_sim 10); s_budget := s_budget (template_sim 10);
     s_mass := false |}.
Definition template2_state : state R :=
  {| st_phi := n_lit 104 1000; st_temp := n_lit 138715 100; st_pos := n_lit 0 1; st_time := n_lit 1 1;
     st_strain := 3 * 10 / (7 / 10) ^ 2 / (45 / 10) |}.

Lemma template2_slopes (t : terrain R) : read_slope_from_file slope_lines None t =
  Ok {| ter_eff_init := ter_eff_init t; ter_width := ter_width t; ter_gravity := ter_gravity t;
        ter_maxlen := ter_maxlen t; ter_default_slope := ter_default_slope t;
        ter_spline := ter_spline (s_ter (template_sim 10)) |}.
Proof.
  unfold read_slope_from_file. rewrite template_profile. cbn [rbind map fst snd].
  unfold make_spline. cbn [length Nat.ltb Nat.leb negb Nat.eqb strictly_increasing combine]. rnum.
  assert (E1 : R_ltb 0 (100005 / 10) = true) by (apply R_ltb_true; lra).
  assert (E2 : R_ltb (100005 / 10) 30000 = true) by (apply R_ltb_true; lra).
  rewrite E1, E2. reflexivity.
Qed.

Example template2_prepares :
  prepare mass_flag template2_fs "resource/template_2.json" =
  Ok (JInt 10, JStr "template2-test", template2_sim, template2_state, n_lit 7 10).
Proof.
  unfold prepare.
  change (load_json template2_fs "resource/template_2.json") with (Ok template2). cbn [rbind].
  change (jget template2 "effusion_rate_init") with (Ok (@JInt R 10)). cbn [rbind].
  change (require1 template2 "lava_name") with (Ok (@JStr R "template2-test")). cbn [rbind].
  change (require1 template2 "slope_file") with (Ok (@JStr R "resource/example_slope_profile.txt")). cbn [rbind].
  change (require1 template2 "step_size") with (Ok (num 10 1)). cbn [rbind].
  change (py_float (num 10 1)) with (Ok (@n_lit R RNum 10 1)). cbn [rbind].
  change (mass_raw template2) with (Ok (@JBool R false)). cbn [rbind].
  assert (Et : read_terrain template2 = Ok ({| ter_eff_init := n_lit 10 1; ter_width := n_lit 45 10;
     ter_gravity := n_lit 981 100; ter_maxlen := n_lit 4000 1; ter_default_slope := 2657414 / 1000000 * (PI / 180);
     ter_spline := None |}, n_lit 7 10, None)).
  { unfold read_terrain, jfloat1, jfloat2, jget2, radians.
    cbn [template2 jget assoc String.eqb Ascii.eqb Bool.eqb rbind num py_float].
    cbn [n_div n_pi RNum n_lit]. rewrite R_div_ok by lra. cbn [rbind].
    replace (PI / (180 / 1)) with (PI / 180) by (field; lra). reflexivity. }
  rewrite Et. cbn [rbind].
  change (read_slope_lines template2_fs (JStr "resource/example_slope_profile.txt")) with (Ok slope_lines). cbn [rbind].
  rewrite template2_slopes. cbn [rbind ter_eff_init ter_width ter_gravity ter_maxlen ter_default_slope].
  set (m := {| mo_cryst := s_cryst template2_sim; mo_air := s_air template2_sim;
     mo_lava := s_lava template2_sim; mo_cover := s_cover template2_sim; mo_crust := s_crust template2_sim;
     mo_budget := s_budget template2_sim |}).
  assert (Em : build_models template2 (crust_profile template2_fs) = Ok m) by reflexivity.
  rewrite Em. cbn [rbind].
  assert (Es : initialize_state (mo_lava m) (mo_cryst m) template2 = Ok template2_state).
  { unfold initialize_state, jfloat1, jfloat2.
    cbn [template2 jget assoc String.eqb Ascii.eqb Bool.eqb rbind num py_float].
    change (get_crystal_fraction (mo_cryst m) (lv_terupt (mo_lava m))) with (Ok (@n_lit R RNum 104 1000)). cbn [rbind].
    rnum. unfold R_mpow. rewrite R_power_2. cbn [rbind]. rewrite R_div_ok by (simpl; lra). cbn [rbind].
    rewrite R_div_ok by lra. cbn [rbind]. unfold template2_state. rnum. reflexivity. }
  rewrite Es. reflexivity.
Qed.

Lemma template2_slope x : get_channel_slope (s_ter template2_sim) x = Ok (PI / 6).
Proof. exact (template_slope 10 x). Qed.

(** It only loses heat, but its lava may crystallize beyond the packing limit
    0.641 of the kd model: 0.104 + 0.03 * 150 = 4.604. *)
Example template2_losing :
  losing template2_sim template2_state (7 / 10) /\
  ~ room_for_crystals (region_of template2_sim template2_state) (lv_rel (s_lava template2_sim)).
Proof.
  assert (V : admissible template2_sim template2_state (7 / 10)).
  { constructor; cbn [template2_sim template_sim template2_state s_dx s_ter s_cryst s_lava s_air s_budget s_mass ter_width ter_gravity ter_maxlen
      st_pos st_temp st_phi st_strain get_solid_temperature air_temp lv_buffer]; try (rnum; lra).
    - exact (va_slope _ _ _ (co_admissible _ _ _ (template_cooling 10 ltac:(lia)))).
    - intros sl E. assert (T := eq_trans (eq_sym (template2_slope (@n_lit R RNum 0 1))) E).
      injection T as <-. rewrite sin_PI6. lra.
    - unfold valid_lava. cbn. rnum. repeat split; lra.
    - cbn. rnum. lra.
    - cbn. rnum. lra.
    - cbn. rnum. lra.
    - intros tb cbd [E|[E|[E|[]]]]; try discriminate. injection E as <- <-. lra. }
  split.
  - constructor; auto; cbn [template2_sim template_sim template2_state s_ter s_cryst s_lava s_air s_budget s_crust
      st_pos st_temp get_solid_temperature air_temp lv_buffer]; rnum; try lra.
    + cbn. rnum. lra.
    + intros s tc _ E. cbn in E. injection E as <-. rnum. lra.
    + discriminate.
    + repeat constructor; cbn; rnum; lra.
  - cbn. rnum. unfold Rmax. destruct (Rle_dec _ _); lra.
Qed.

(** So run() on it ends normally, or raises a math domain error at a step that
    finds the crystal fraction exactly equal to 0.641. *)
Example template2_runs : forall sf sc log folder, exists fuel fs' log',
  run sf sc fuel template2_fs (new_runner log) "resource/template_2.json" folder = Some (Ok tt, fs', log') \/
  (run sf sc fuel template2_fs (new_runner log) "resource/template_2.json" folder =
     Some (Err (ValueError "math domain error"), template2_fs, log') /\
   exists w, w_log w = log' /\ st_phi (w_st w) = 641 / 1000).
Proof.
  intros sf sc log folder.
  destruct (C57_configuration_fails_only_when_packed sf sc template2_fs log "resource/template_2.json" folder _ _ _ _ _
    template2_prepares (co_admissible _ _ _ (proj1 template2_losing))) as (fuel & fs' & log' & [E|(E & w & L & P & _)]);
    exists fuel, fs', log'; [left; exact E|right]. split; [exact E|]. exists w. split; [exact L|exact P].
Qed.
