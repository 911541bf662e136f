(** * Props_Venus: the Venus configuration shipped with the project *)
From Verif Require Import Base Num Json Logger World Vesicle MeltVisc RelVisc Bubbles Terrain Lava
  Thermal Flux Integrator Factory Run Frame Spec RNum RPow StepProps Props_Run Props_Velocity Props_Material Props_Terrain
  Props_Flux Props_RunOuts Valid Props_ValidRun Cooling Props_Cooling Props_Template.
Open Scope R_scope.

(** /repo/Venus/Tolb_1975_Venus.json, key by key. *)
Definition venus_path : string := "/Users/chevrel/Documents/GitHub/pyflowgo/Venus/field_data/venus_c_1.txt".
Definition venus : json R := JObj [
  ("lava_name", JStr "template_test_rad_snyder");
  ("slope_file", JStr venus_path);
  ("step_size", num 10 1);
  ("effusion_rate_init", JInt 700);
  ("heat_budget_models", JObj [("radiation", JStr "no"); ("snyder", JStr "yes"); ("conduction", JStr "yes");
     ("convection", JStr "no"); ("rain", JStr "no"); ("viscous_heating", JStr "no")]);
  ("models", JObj [("crystallization_rate_model", JStr "basic"); ("melt_viscosity_model", JStr "basic");
     ("relative_viscosity_model", JStr "er"); ("relative_viscosity_bubbles_model", JStr "no");
     ("yield_strength_model", JStr "ryerson"); ("crust_temperature_model", JStr "constant");
     ("effective_cover_crust_model", JStr "basic"); ("vesicle_fraction_model", JStr "constant")]);
  ("terrain_conditions", JObj [("width", num 70 1); ("depth", num 8 1); ("gravity", num 887 100);
     ("slope_smoothing_active", JBool false); ("slope_smoothing_number_of_points", JInt 10);
     ("max_channel_length", num 120000 1)]);
  ("eruption_condition", JObj [("eruption_temperature", num 132515 100); ("viscosity_eruption", num 50000 1)]);
  ("lava_state", JObj [("position", num 0 1); ("time", num 1 1); ("crystal_fraction", num 20 100);
     ("density_dre", num 2630 1); ("vesicle_fraction", num 6 100); ("liquidus_temperature", num 0 1)]);
  ("radiation_parameters", JObj [("stefan-boltzmann_sigma", num 567 10000000000); ("emissivity_epsilon", num 95 100);
     ("epsilon_crust", num 95 100); ("epsilon_hot", num 6 10)]);
  ("conduction_parameters", JObj [("basal_temperature", num 77315 100); ("core_base_distance", num 19 1)]);
  ("rain_parameters", JObj [("rainfall_rate", num 793 10000000000); ("density_water", num 958 1);
     ("latent_heat_vaporization", num 2800000 1)]);
  ("convection_parameters", JObj [("wind_speed", num 1 1); ("ch_air", num 36 10000); ("air_temperature", JInt 740);
     ("air_density", JInt 67); ("air_specific_heat_capacity", num 1181 1)]);
  ("thermal_parameters", JObj [("buffer", num 140 1); ("crust_cover_fraction", num 9 10); ("alpha", num (-16) 100);
     ("crust_temperature", num 77315 100)]);
  ("melt_viscosity_parameters", JObj [("shaw_slope", num 236 100); ("a_vft", num (-455) 100); ("b_vft", num 6887303 1000);
     ("c_vft", num 5274 10)]);
  ("crystals_parameters", JObj [("crystals_grown_during_cooling", num 37 100); ("solid_temperature", num 125315 100);
     ("latent_heat_of_crystallization", num 350000 1)]);
  ("relative_viscosity_parameters", JObj [("crystal_aspect_ratio", JInt 1); ("max_packing", num 641 1000);
     ("einstein_coef", num 327 100); ("strain_rate", num 1 1)])
].
(** /repo/Venus/field_data/venus_c_1.txt, line by line. *)
Definition venus_lines : list string :=
  [tabbed "X" "y" "z" "Distance (m)" "Slope (deg)"; tabbed "0" "0" "0" "0" "1"; tabbed "0" "0" "0" "100" "1";
   tabbed "0" "0" "0" "1000" "1"; tabbed "0" "0" "0" "10000" "1"; tabbed "0" "0" "0" "100000" "1";
   tabbed "0" "0" "0" "1000000" "1"].
Definition venus_fs : fsys R := fun p =>
  if String.eqb p "Venus/Tolb_1975_Venus.json" then Some (FJson venus)
  else if String.eqb p venus_path then Some (FText venus_lines)
  else None.

Definition one_degree : R := 1 * (PI / 180).
Definition venus_spline : list (R * R) :=
  [(0, one_degree); (100, one_degree); (1000, one_degree); (10000, one_degree); (100000, one_degree); (1000000, one_degree)].
Definition venus_ves : vesicle_model R := VConstant (n_lit 6 100).
Definition venus_sim : sim R :=
  {| s_dx := n_lit 10 1;
     s_lava := {| lv_melt := MeltBasic (n_lit 50000 1) (n_lit 132515 100); lv_rel := RelER;
                  lv_bub := BubNo venus_ves; lv_yield := YRyerson (n_lit 132515 100); lv_ves := venus_ves;
                  lv_terupt := n_lit 132515 100; lv_buffer := n_lit 140 1; lv_latent := n_lit 350000 1;
                  lv_dre := n_lit 2630 1; lv_maxpack := n_lit 641 1000 |};
     s_air := {| air_temp := n_lit 740 1; air_wind := n_lit 1 1; air_ch := n_lit 36 10000;
                 air_rho := n_lit 67 1; air_cp := n_lit 1181 1 |};
     s_ter := {| ter_eff_init := n_lit 700 1; ter_width := n_lit 70 1; ter_gravity := n_lit 887 100;
                 ter_maxlen := n_lit 120000 1; ter_default_slope := 2657414 / 1000000 * (PI / 180);
                 ter_spline := Some venus_spline |};
     s_cryst := CrBasic (n_lit 20 100) (n_lit 37 100) (n_lit 125315 100) (n_lit 132515 100);
     s_crust := CtConstant (n_lit 77315 100);
     s_cover := CvBasic (n_lit (-16) 100) (n_lit 9 10);
     s_budget := [FConduction (n_lit 77315 100) (n_lit 19 1); FSnyder];
     s_mass := false |}.
Definition venus_state : state R :=
  {| st_phi := n_lit 20 100; st_temp := n_lit 132515 100; st_pos := n_lit 0 1; st_time := n_lit 1 1;
     st_strain := 3 * 700 / 8 ^ 2 / 70 |}.

Lemma venus_profile : read_slope_profile venus_lines = Ok venus_spline.
Proof.
  assert (P0 : @parse_float R RNum "0" = Ok (n_lit 0 1)) by reflexivity.
  assert (P1 : @parse_float R RNum "1" = Ok (n_lit 1 1)) by reflexivity.
  assert (P2 : @parse_float R RNum "100" = Ok (n_lit 100 1)) by reflexivity.
  assert (P3 : @parse_float R RNum "1000" = Ok (n_lit 1000 1)) by reflexivity.
  assert (P4 : @parse_float R RNum "10000" = Ok (n_lit 10000 1)) by reflexivity.
  assert (P5 : @parse_float R RNum "100000" = Ok (n_lit 100000 1)) by reflexivity.
  assert (P6 : @parse_float R RNum "1000000" = Ok (n_lit 1000000 1)) by reflexivity.
  unfold venus_lines. rewrite (C46_profile_exact _ _ [(0, 1); (100, 1); (1000, 1); (10000, 1); (100000, 1); (1000000, 1)]).
  - cbn [filter map fst snd]. assert (E : R_ltb (1 / 10) 1 = true) by (apply R_ltb_true; lra).
    rewrite !E. reflexivity.
  - repeat (apply Forall2_cons; [unfold well_formed, tabbed; vm_compute split_on; 
      eexists _, _, _, _, _, _, (n_lit 0 1), (n_lit 0 1), (n_lit 0 1); (split; [reflexivity|]);
      rewrite ?P0, ?P1, ?P2, ?P3, ?P4, ?P5, ?P6; repeat split; apply f_equal; cbn [fst snd]; rnum; lra|]).
    apply Forall2_nil.
Qed.
Lemma venus_spline_made : make_spline [0; 100; 1000; 10000; 100000; 1000000] (repeat one_degree 6) = Ok venus_spline.
Proof.
  unfold make_spline. cbn [length Nat.ltb Nat.leb negb Nat.eqb strictly_increasing combine repeat]. rnum.
  rewrite !(fun a b H => proj2 (R_ltb_true a b) H) by lra. reflexivity.
Qed.
Lemma venus_slopes (t : terrain R) : read_slope_from_file venus_lines None t =
  Ok {| ter_eff_init := ter_eff_init t; ter_width := ter_width t; ter_gravity := ter_gravity t;
        ter_maxlen := ter_maxlen t; ter_default_slope := ter_default_slope t; ter_spline := Some venus_spline |}.
Proof.
  unfold read_slope_from_file. rewrite venus_profile. cbn [rbind map fst snd venus_spline].
  change [one_degree; one_degree; one_degree; one_degree; one_degree; one_degree] with (repeat one_degree 6).
  rewrite venus_spline_made. reflexivity.
Qed.

(** run() turns the two files into this simulation. *)
Example venus_prepares :
  prepare mass_flag venus_fs "Venus/Tolb_1975_Venus.json" =
  Ok (JInt 700, JStr "template_test_rad_snyder", venus_sim, venus_state, n_lit 8 1).
Proof.
  unfold prepare.
  change (load_json venus_fs "Venus/Tolb_1975_Venus.json") with (Ok venus). cbn [rbind].
  change (jget venus "effusion_rate_init") with (Ok (@JInt R 700)). cbn [rbind].
  change (require1 venus "lava_name") with (Ok (@JStr R "template_test_rad_snyder")). cbn [rbind].
  change (require1 venus "slope_file") with (Ok (@JStr R venus_path)). cbn [rbind].
  change (require1 venus "step_size") with (Ok (num 10 1)). cbn [rbind].
  change (py_float (num 10 1)) with (Ok (@n_lit R RNum 10 1)). cbn [rbind].
  change (mass_raw venus) with (Ok (@JBool R false)). cbn [rbind].
  assert (Et : read_terrain venus = Ok ({| ter_eff_init := n_lit 700 1; ter_width := n_lit 70 1;
     ter_gravity := n_lit 887 100; ter_maxlen := n_lit 120000 1; ter_default_slope := 2657414 / 1000000 * (PI / 180);
     ter_spline := None |}, n_lit 8 1, None)).
  { unfold read_terrain, jfloat1, jfloat2, jget2, radians.
    cbn [venus jget assoc String.eqb Ascii.eqb Bool.eqb rbind num py_float].
    cbn [n_div n_pi RNum n_lit]. rewrite R_div_ok by lra. cbn [rbind].
    replace (PI / (180 / 1)) with (PI / 180) by (field; lra). reflexivity. }
  rewrite Et. cbn [rbind].
  change (read_slope_lines venus_fs (JStr venus_path)) with (Ok venus_lines). cbn [rbind].
  rewrite venus_slopes. cbn [rbind ter_eff_init ter_width ter_gravity ter_maxlen ter_default_slope].
  set (m := {| mo_cryst := s_cryst venus_sim; mo_air := s_air venus_sim;
     mo_lava := s_lava venus_sim; mo_cover := s_cover venus_sim; mo_crust := s_crust venus_sim;
     mo_budget := s_budget venus_sim |}).
  assert (Em : build_models venus (crust_profile venus_fs) = Ok m) by reflexivity.
  rewrite Em. cbn [rbind].
  assert (Es : initialize_state (mo_lava m) (mo_cryst m) venus = Ok venus_state).
  { unfold initialize_state, jfloat1, jfloat2.
    cbn [venus jget assoc String.eqb Ascii.eqb Bool.eqb rbind num py_float].
    change (get_crystal_fraction (mo_cryst m) (lv_terupt (mo_lava m))) with (Ok (@n_lit R RNum 20 100)). cbn [rbind].
    rnum. unfold R_mpow. rewrite R_power_2. cbn [rbind]. rewrite R_div_ok by (simpl; lra). cbn [rbind].
    rewrite R_div_ok by lra. cbn [rbind]. unfold venus_state. rnum. apply f_equal. f_equal; lra. }
  rewrite Es. reflexivity.
Qed.

Lemma one_degree_between : 0 < one_degree < PI.
Proof. unfold one_degree. assert (P := PI_RGT_0). split; lra. Qed.
Lemma venus_slope x : get_channel_slope (s_ter venus_sim) x = Ok one_degree.
Proof.
  unfold get_channel_slope. cbn [venus_sim s_ter ter_spline]. unfold venus_spline, spline_eval. cbn [spline_segment].
  repeat match goal with |- context [n_ltb x ?y] => destruct (n_ltb x y) end; unfold segment; rnum; rewrite !R_div_ok by lra; cbn [rbind rmap]; unfold rmap; f_equal; field.
Qed.

(** It is valid and only loses heat: run() ends normally, and the lava stops
    for one of the four reasons (C57, C63). *)
Example venus_cooling : cooling venus_sim venus_state (8 / 1).
Proof.
  assert (V : admissible venus_sim venus_state (8 / 1)).
  { constructor; cbn [venus_sim venus_state s_dx s_ter s_cryst s_lava s_air s_budget s_mass ter_width ter_gravity ter_maxlen
      st_pos st_temp st_phi st_strain get_solid_temperature air_temp lv_buffer]; try (rnum; lra).
    - exists [0; 100; 1000; 10000; 100000; 1000000], (repeat one_degree 6). exact venus_spline_made.
    - intros sl E. assert (T := eq_trans (eq_sym (venus_slope (@n_lit R RNum 0 1))) E).
      injection T as <-. apply sin_gt_0; apply one_degree_between.
    - unfold valid_lava. cbn. rnum. repeat split; lra.
    - cbn. rnum. lra.
    - cbn. rnum. lra.
    - cbn. rnum. lra.
    - intros tb cbd [E|[E|[]]]; try discriminate; injection E as <- <-; lra. }
  constructor; [|exact I]. constructor; auto; cbn [venus_sim venus_state s_ter s_cryst s_lava s_air s_budget s_crust
      st_pos st_temp get_solid_temperature air_temp lv_buffer]; rnum; try lra.
  - cbn. rnum. lra.
  - intros s tc _ E. cbn in E. injection E as <-. rnum. lra.
  - discriminate.
  - repeat constructor; cbn; rnum; lra.
Qed.
Example venus_runs : forall sf sc log folder,
  exists fuel fs' log', run sf sc fuel venus_fs (new_runner log) "Venus/Tolb_1975_Venus.json" folder = Some (Ok tt, fs', log').
Proof.
  intros sf sc log folder.
  destruct (C57_valid_configuration_runs sf sc venus_fs log "Venus/Tolb_1975_Venus.json" folder _ _ _ _ _
    venus_prepares (co_valid _ _ _ venus_cooling)) as (fuel & fs' & log' & E & _). eauto.
Qed.
