(** * Props_Template: the configuration shipped with the project meets the hypotheses of C57 and C63 *)
From Verif Require Import Base Num Json Logger World Vesicle MeltVisc RelVisc Bubbles Terrain Lava
  Thermal Flux Integrator Factory Run Frame Spec RNum RPow StepProps Props_Run Props_Velocity Props_Material Props_Terrain
  Props_Flux Props_RunOuts Valid Props_ValidRun Cooling Props_Cooling.
Open Scope R_scope.

Definition num (n : Z) (d : positive) : json R := JFloat (n_lit n d).

(** /repo/resource/template.json, key by key; [eri] is its effusion_rate_init
    (3 in the file). *)
Definition template_fields (cryst : string) (eri : Z) : list (string * json R) := [
  ("lava_name", JStr "template");
  ("slope_file", JStr "resource/example_slope_profile.txt");
  ("step_size", num 10 1);
  ("effusion_rate_init", JInt eri);
  ("heat_budget_models", JObj [("radiation", JStr "basic"); ("snyder", JStr "no"); ("conduction", JStr "yes");
     ("convection", JStr "yes"); ("rain", JStr "no"); ("viscous_heating", JStr "no")]);
  ("models", JObj [("crystallization_rate_model", JStr cryst); ("melt_viscosity_model", JStr "vft");
     ("relative_viscosity_model", JStr "er"); ("relative_viscosity_bubbles_model", JStr "no");
     ("yield_strength_model", JStr "basic"); ("crust_temperature_model", JStr "constant");
     ("effective_cover_crust_model", JStr "basic"); ("vesicle_fraction_model", JStr "constant")]);
  ("terrain_conditions", JObj [("width", num 45 10); ("depth", num 14 10); ("gravity", num 981 100);
     ("slope_smoothing_active", JBool true); ("slope_smoothing_number_of_points", JInt 5);
     ("max_channel_length", num 30000 1)]);
  ("eruption_condition", JObj [("eruption_temperature", num 138715 100); ("viscosity_eruption", num 1000 1)]);
  ("lava_state", JObj [("position", num 0 1); ("time", num 1 1); ("crystal_fraction", num 104 1000);
     ("density_dre", num 2970 1); ("vesicle_fraction", num 64 100); ("liquidus_temperature", num 0 1)]);
  ("radiation_parameters", JObj [("stefan-boltzmann_sigma", num 567 10000000000); ("emissivity_epsilon", num 95 100)]);
  ("conduction_parameters", JObj [("basal_temperature", num 77315 100); ("core_base_distance", num 19 1)]);
  ("rain_parameters", JObj [("rainfall_rate", num 793 10000000000); ("density_water", num 958 1);
     ("latent_heat_vaporization", num 2800000 1)]);
  ("convection_parameters", JObj [("wind_speed", num 5 1); ("ch_air", num 36 10000); ("air_temperature", num 29315 100);
     ("air_density", num 4412 10000); ("air_specific_heat_capacity", num 1099 1)]);
  ("thermal_parameters", JObj [("buffer", num 140 1); ("crust_cover_fraction", num 1 1); ("alpha", num (-756) 100000);
     ("crust_temperature", num 77315 100)]);
  ("melt_viscosity_parameters", JObj [("shaw_slope", num 236 100); ("a_vft", num (-452) 100); ("b_vft", JInt 5558);
     ("c_vft", num 5829 10)]);
  ("crystals_parameters", JObj [("crystals_grown_during_cooling", num 896 1000); ("solid_temperature", num 123715 100);
     ("latent_heat_of_crystallization", num 350000 1)]);
  ("relative_viscosity_parameters", JObj [("max_packing", num 641 1000); ("einstein_coef", num 327 100); ("strain_rate", num 1 1)])
].
Definition template (eri : Z) : json R := JObj (template_fields "basic" eri).

(** A slope profile: 30 degrees all the way (the file shipped with the template
    has the same format and some thousand lines). *)
Definition tabbed (a b c d e : string) : string :=
  (a ++ String tab_char (b ++ String tab_char (c ++ String tab_char (d ++ String tab_char e))))%string.
Definition slope_lines : list string :=
  ["X	Y	Z	Distance (m)	Slope (deg)"; tabbed "0" "0" "0" "0" "30"; tabbed "0" "0" "0" "10000.5" "30";
   tabbed "0" "0" "0" "3e4" "30"].

Definition template_fs (eri : Z) : fsys R := fun p =>
  if String.eqb p "resource/template.json" then Some (FJson (template eri))
  else if String.eqb p "resource/example_slope_profile.txt" then Some (FText slope_lines)
  else None.

Definition ves : vesicle_model R := VConstant (n_lit 64 100).
Definition template_sim (eri : Z) : sim R :=
  {| s_dx := n_lit 10 1;
     s_lava := {| lv_melt := MeltVFT (n_lit (-452) 100) (n_lit 5558 1) (n_lit 5829 10); lv_rel := RelER;
                  lv_bub := BubNo ves; lv_yield := YBasic (n_lit 138715 100); lv_ves := ves;
                  lv_terupt := n_lit 138715 100; lv_buffer := n_lit 140 1; lv_latent := n_lit 350000 1;
                  lv_dre := n_lit 2970 1; lv_maxpack := n_lit 641 1000 |};
     s_air := {| air_temp := n_lit 29315 100; air_wind := n_lit 5 1; air_ch := n_lit 36 10000;
                 air_rho := n_lit 4412 10000; air_cp := n_lit 1099 1 |};
     s_ter := {| ter_eff_init := n_lit eri 1; ter_width := n_lit 45 10; ter_gravity := n_lit 981 100;
                 ter_maxlen := n_lit 30000 1; ter_default_slope := 2657414 / 1000000 * (PI / 180);
                 ter_spline := Some [(0, 30 * (PI / 180)); (100005 / 10, 30 * (PI / 180)); (30000, 30 * (PI / 180))] |};
     s_cryst := CrBasic (n_lit 104 1000) (n_lit 896 1000) (n_lit 123715 100) (n_lit 138715 100);
     s_crust := CtConstant (n_lit 77315 100);
     s_cover := CvBasic (n_lit (-756) 100000) (n_lit 1 1);
     s_budget := [FRadiation (RadBasic (n_lit 95 100)) (n_lit 567 10000000000);
                  FConduction (n_lit 77315 100) (n_lit 19 1); FConvection];
     s_mass := false |}.
Definition template_state (eri : Z) : state R :=
  {| st_phi := n_lit 104 1000; st_temp := n_lit 138715 100; st_pos := n_lit 0 1; st_time := n_lit 1 1;
     st_strain := 3 * IZR eri / (14 / 10) ^ 2 / (45 / 10) |}.

Lemma template_profile :
  read_slope_profile slope_lines = Ok [(0, 30 * (PI / 180)); (100005 / 10, 30 * (PI / 180)); (30000, 30 * (PI / 180))].
Proof.
  assert (P0 : @parse_float R RNum "0" = Ok (n_lit 0 1)) by reflexivity.
  assert (P1 : @parse_float R RNum "30" = Ok (n_lit 30 1)) by reflexivity.
  assert (P2 : @parse_float R RNum "10000.5" = Ok (n_lit 100005 10)) by reflexivity.
  assert (P3 : @parse_float R RNum "3e4" = Ok (n_lit 30000 1)) by reflexivity.
  unfold slope_lines. rewrite (C46_profile_exact _ _ [(0, 30); (100005 / 10, 30); (30000, 30)]).
  - cbn [filter map fst snd]. assert (E : R_ltb (1 / 10) 30 = true) by (apply R_ltb_true; lra).
    rewrite !E. reflexivity.
  - apply Forall2_cons; [|apply Forall2_cons; [|apply Forall2_cons; [|apply Forall2_nil]]];
      unfold well_formed, tabbed; vm_compute split_on; 
      eexists _, _, _, _, _, _, (n_lit 0 1), (n_lit 0 1), (n_lit 0 1); (split; [reflexivity|]);
      rewrite ?P0, ?P1, ?P2, ?P3; repeat split; apply f_equal; cbn [fst snd]; rnum; lra.
Qed.
Lemma template_slopes (t : terrain R) : read_slope_from_file slope_lines (Some (n_lit 5 1)) t =
  Ok {| ter_eff_init := ter_eff_init t; ter_width := ter_width t; ter_gravity := ter_gravity t;
        ter_maxlen := ter_maxlen t; ter_default_slope := ter_default_slope t;
        ter_spline := Some [(0, 30 * (PI / 180)); (100005 / 10, 30 * (PI / 180)); (30000, 30 * (PI / 180))] |}.
Proof.
  unfold read_slope_from_file. rewrite template_profile. cbn [rbind map fst snd].
  change [30 * (PI / 180); 30 * (PI / 180); 30 * (PI / 180)] with (repeat (30 * (PI / 180)) 3).
  rewrite C47_constant_profile by (rnum; lra). cbn [rbind repeat].
  unfold make_spline. cbn [length Nat.ltb Nat.leb negb Nat.eqb strictly_increasing combine]. rnum.
  assert (E1 : R_ltb 0 (100005 / 10) = true) by (apply R_ltb_true; lra).
  assert (E2 : R_ltb (100005 / 10) 30000 = true) by (apply R_ltb_true; lra).
  rewrite E1, E2. reflexivity.
Qed.

(** run() turns the two files into this simulation. *)
Example template_prepares : forall eri,
  prepare mass_flag (template_fs eri) "resource/template.json" =
  Ok (JInt eri, JStr "template", template_sim eri, template_state eri, n_lit 14 10).
Proof.
  intros eri. unfold prepare.
  change (load_json (template_fs eri) "resource/template.json") with (Ok (template eri)). cbn [rbind].
  change (jget (template eri) "effusion_rate_init") with (Ok (@JInt R eri)). cbn [rbind].
  change (require1 (template eri) "lava_name") with (Ok (@JStr R "template")). cbn [rbind].
  change (require1 (template eri) "slope_file") with (Ok (@JStr R "resource/example_slope_profile.txt")). cbn [rbind].
  change (require1 (template eri) "step_size") with (Ok (num 10 1)). cbn [rbind].
  change (py_float (num 10 1)) with (Ok (@n_lit R RNum 10 1)). cbn [rbind].
  change (mass_raw (template eri)) with (Ok (@JBool R false)). cbn [rbind].
  assert (Et : read_terrain (template eri) = Ok ({| ter_eff_init := n_lit eri 1; ter_width := n_lit 45 10;
     ter_gravity := n_lit 981 100; ter_maxlen := n_lit 30000 1; ter_default_slope := 2657414 / 1000000 * (PI / 180);
     ter_spline := None |}, n_lit 14 10, Some (n_lit 5 1))).
  { unfold read_terrain, jfloat1, jfloat2, jget2, radians.
    cbn [template template_fields jget assoc String.eqb Ascii.eqb Bool.eqb rbind num py_float].
    cbn [n_div n_pi RNum n_lit]. rewrite R_div_ok by lra. cbn [rbind].
    replace (PI / (180 / 1)) with (PI / 180) by (field; lra). reflexivity. }
  rewrite Et. cbn [rbind].
  change (read_slope_lines (template_fs eri) (JStr "resource/example_slope_profile.txt")) with (Ok slope_lines). cbn [rbind].
  rewrite template_slopes. cbn [rbind ter_eff_init ter_width ter_gravity ter_maxlen ter_default_slope].
  set (m := {| mo_cryst := s_cryst (template_sim eri); mo_air := s_air (template_sim eri);
     mo_lava := s_lava (template_sim eri); mo_cover := s_cover (template_sim eri); mo_crust := s_crust (template_sim eri);
     mo_budget := s_budget (template_sim eri) |}).
  assert (Em : build_models (template eri) (crust_profile (template_fs eri)) = Ok m) by reflexivity.
  rewrite Em. cbn [rbind].
  assert (Es : initialize_state (mo_lava m) (mo_cryst m) (template eri) = Ok (template_state eri)).
  { unfold initialize_state, jfloat1, jfloat2.
    cbn [template template_fields jget assoc String.eqb Ascii.eqb Bool.eqb rbind num py_float].
    change (get_crystal_fraction (mo_cryst m) (lv_terupt (mo_lava m))) with (Ok (@n_lit R RNum 104 1000)). cbn [rbind].
    rnum. unfold R_mpow. rewrite R_power_2. cbn [rbind]. rewrite R_div_ok by (simpl; lra). cbn [rbind].
    rewrite R_div_ok by lra. cbn [rbind]. unfold template_state. rnum. reflexivity. }
  rewrite Es. reflexivity.
Qed.

Lemma template_slope eri x : get_channel_slope (s_ter (template_sim eri)) x = Ok (PI / 6).
Proof.
  unfold get_channel_slope. cbn [template_sim s_ter ter_spline]. unfold spline_eval. cbn [spline_segment].
  replace (30 * (PI / 180)) with (PI / 6) by field.
  destruct (n_ltb x (100005 / 10)); unfold segment; rnum; rewrite !R_div_ok by lra; cbn [rbind rmap]; unfold rmap; f_equal; field.
Qed.

(** The shipped configuration is valid and only loses heat. *)
Example template_cooling : forall eri, (0 <= eri)%Z -> cooling (template_sim eri) (template_state eri) (14 / 10).
Proof.
  intros eri He. apply IZR_le in He.
  assert (V : admissible (template_sim eri) (template_state eri) (14 / 10)).
  { constructor; cbn [template_sim template_state s_dx s_ter s_cryst s_lava s_air s_budget s_mass ter_width ter_gravity ter_maxlen
      st_pos st_temp st_phi st_strain get_solid_temperature air_temp lv_buffer]; rnum; try lra.
    - cbn. exists [0; 100005 / 10; 30000], [30 * (PI / 180); 30 * (PI / 180); 30 * (PI / 180)].
      unfold make_spline. cbn [length Nat.ltb Nat.leb negb Nat.eqb strictly_increasing combine]. rnum.
      assert (E1 : R_ltb 0 (100005 / 10) = true) by (apply R_ltb_true; lra).
      assert (E2 : R_ltb (100005 / 10) 30000 = true) by (apply R_ltb_true; lra).
      rewrite E1, E2. reflexivity.
    - intros sl E. assert (T := template_slope eri (0 / 1)). unfold template_sim in T. cbn [s_ter] in T. rnum.
      rewrite T in E. injection E as <-. rewrite sin_PI6. lra.
    - unfold valid_lava. cbn. rnum. repeat split; lra.
    - cbn. rnum. lra.
    - cbn. rnum. lra.
    - cbn. rnum. lra.
    - intros tb cbd [E|[E|[E|[]]]]; try discriminate. injection E as <- <-. lra. }
  constructor; [|exact I]. constructor; auto; cbn [template_sim template_state s_ter s_cryst s_lava s_air s_budget s_crust
      st_pos st_temp get_solid_temperature air_temp lv_buffer]; rnum; try lra.
  - cbn. rnum. lra.
  - intros s tc _ E. cbn in E. injection E as <-. rnum. lra.
  - discriminate.
  - repeat constructor; cbn; rnum; lra.
Qed.

(** So run() on the two files ends normally and writes its table. *)
Example template_runs : forall sf sc eri log folder, (0 <= eri)%Z ->
  exists fuel fs' log', run sf sc fuel (template_fs eri) (new_runner log) "resource/template.json" folder = Some (Ok tt, fs', log').
Proof.
  intros sf sc eri log folder He.
  destruct (C57_valid_configuration_runs sf sc (template_fs eri) log "resource/template.json" folder _ _ _ _ _
    (template_prepares eri) (co_valid _ _ _ (template_cooling eri He))) as (fuel & fs' & log' & E & _). eauto.
Qed.

(** With effusion_rate_init 0 the channel depth is the configured 1.4 m; the
    lava then moves, and stops for one of the four physical reasons. *)
Example template_flows : exists w,
  simulate (step_bound 30000 0 10) (template_sim 0) (initial_world (template_state 0) [] (14 / 10)) = Some (Ok tt, w) /\
  (0 < w_iter w)%nat /\ length (w_log w) = w_iter w /\ stopped_because (template_sim 0) w.
Proof.
  destruct (C63_flow_stops_for_a_reason _ _ _ (template_cooling 0 ltac:(lia))) as (w & E & L & _ & Q).
  assert (E' := E). cbv zeta in E'. revert E'.
  replace (ter_maxlen (s_ter (template_sim 0))) with 30000 by (cbn; rnum; lra).
  replace (st_pos (template_state 0)) with 0 by (cbn; rnum; lra).
  replace (s_dx (template_sim 0)) with 10 by (cbn; rnum; lra). intros E'. exists w. split; [exact E'|].
  destruct Q as [(I0 & t & A & B)|(I & Q)]; [exfalso|auto].
  (* the stresses at the vent differ *)
  assert (Hs : exists x, w_st w = set_strain_rate x (template_state 0) /\ w_depth w = 14 / 10).
  { unfold simulate, init_effusion_rate in E. cbn [template_sim s_ter ter_eff_init] in E. rnum.
    assert (E0 : R_eqb 0 0 = true) by (apply R_eqb_true; lra). rewrite E0 in E. unfold ret in E.
    revert E. match goal with |- context [step_bound ?a ?b ?c] => generalize (step_bound a b c) end.
    intros [|n] E; cbn [run_loop has_finished initial_world w_fin] in E; [discriminate|].
    destruct (single_step _ _) as [[[]|e] w1] eqn:E1; [|discriminate].
    destruct (step_cases _ _ _ E1) as [S|(v & rho & wd & sl & hb & ra & dT & dt & C)].
    - assert (w1 = w) as <-.
      { destruct n; cbn [run_loop] in E; unfold has_finished in E; rewrite (ss_fin _ _ _ S) in E; injection E as <-; auto. }
      destruct (ss_st _ _ _ S) as [x Hx]. exists x. split; [exact Hx|exact (ss_depth _ _ _ S)].
    - exfalso. assert (Hi := cs_iter _ _ _ _ _ _ _ _ _ _ _ C).
      assert (M : forall n w1 r w', run_loop (template_sim 0) n w1 = Some (r, w') -> r = Ok tt -> (w_iter w1 <= w_iter w')%nat).
      { clear. induction n as [|n IH]; intros w1 r w' H Hr; cbn [run_loop] in H.
        - destruct (has_finished w1); [|discriminate]. injection H as _ <-. lia.
        - destruct (has_finished w1); [injection H as _ <-; lia|].
          destruct (single_step _ _) as [[[]|e] w2] eqn:E2; [|injection H as <- <-; discriminate].
          apply IH in H; [|exact Hr]. destruct (step_cases _ _ _ E2) as [S|(v & rho & wd & sl & hb & ra & dT & dt & C)].
          + rewrite (ss_iter _ _ _ S) in H. lia.
          + rewrite (cs_iter _ _ _ _ _ _ _ _ _ _ _ C) in H. lia. }
      apply M in E; [|reflexivity]. lia. }
  destruct Hs as (x & Hs & Hd). rewrite Hs in A, B. rewrite Hd in B.
  unfold get_yield_strength in A. cbn in A. unfold R_pow in A. rewrite R_power_pos in A by lra. cbn [rbind] in A.
  assert (D : get_bulk_density (s_lava (template_sim 0)) (set_strain_rate x (template_state 0)) = Ok (2970 * (1 - 64 / 100))).
  { cbn. rnum. f_equal; lra. }
  change (basal_body (s_ter (template_sim 0)) (14 / 10) (s_lava (template_sim 0)) (set_strain_rate x (template_state 0)) = Ok t) in B.
  unfold basal_body in B. rewrite D, template_slope in B. cbn [rbind n_sin RNum] in B. rewrite sin_PI6 in B.
  cbn [template_sim s_ter ter_gravity] in B. injection B as B. injection A as A. revert A B. rnum. intros A B.
  assert (H1 : exp (8 / 100 * (138715 / 100 - 138715 / 100) - 1) <= 1).
  { replace 1 with (exp 0) at 2 by apply exp_0. apply Rlt_le, exp_increasing. lra. }
  assert (H2 : Rpower (104 / 1000) (285 / 100) <= 1).
  { rewrite <- exp_0. unfold Rpower. apply Rlt_le, exp_increasing.
    assert (ln (104 / 1000) < 0) by (rewrite <- ln_1; apply ln_increasing; lra). lra. }
  lra.
Qed.
