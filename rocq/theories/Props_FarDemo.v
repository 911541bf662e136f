(** * Props_FarDemo: C85 on the shipped template with two-zone models *)
From Coq Require Import Reals Lra.
From Verif Require Import Base Num Json Logger World Vesicle MeltVisc RelVisc Bubbles Terrain Lava
  Thermal Flux Integrator Factory Run RNum StepProps Props_Budget Props_Factory Props_EffArray Props_Unused Props_Run Props_Terrain
  Valid Props_ValidRun Cooling Props_Cooling Props_Prefix Props_Template Causal Props_Causal Props_Far.
Open Scope R_scope.

(** The template with the bimodal vesicle, crystallization and cover models; the
    critical distance (in metres) and the far values are given. *)
Definition zones (crit vf2 rate2 alpha2 fc2 : Z) : list (string * json R) := [
  ("lava_name", JStr "template");
  ("slope_file", JStr "resource/example_slope_profile.txt");
  ("step_size", num 10 1);
  ("effusion_rate_init", JInt 0);
  ("heat_budget_models", JObj [("radiation", JStr "basic"); ("snyder", JStr "no"); ("conduction", JStr "yes");
     ("convection", JStr "yes"); ("rain", JStr "no"); ("viscous_heating", JStr "no")]);
  ("models", JObj [("crystallization_rate_model", JStr "bimodal"); ("melt_viscosity_model", JStr "vft");
     ("relative_viscosity_model", JStr "er"); ("relative_viscosity_bubbles_model", JStr "no");
     ("yield_strength_model", JStr "basic"); ("crust_temperature_model", JStr "constant");
     ("effective_cover_crust_model", JStr "bimodal"); ("vesicle_fraction_model", JStr "bimodal")]);
  ("terrain_conditions", JObj [("width", num 45 10); ("depth", num 14 10); ("gravity", num 981 100);
     ("slope_smoothing_active", JBool true); ("slope_smoothing_number_of_points", JInt 5);
     ("max_channel_length", num 30000 1)]);
  ("eruption_condition", JObj [("eruption_temperature", num 138715 100); ("viscosity_eruption", num 1000 1)]);
  ("lava_state", JObj [("position", num 0 1); ("time", num 1 1); ("crystal_fraction", num 104 1000);
     ("density_dre", num 2970 1); ("vesicle_fraction_1", num 64 100); ("vesicle_fraction_2", num vf2 100);
     ("critical_distance", num crit 1)]);
  ("radiation_parameters", JObj [("stefan-boltzmann_sigma", num 567 10000000000); ("emissivity_epsilon", num 95 100)]);
  ("conduction_parameters", JObj [("basal_temperature", num 77315 100); ("core_base_distance", num 19 1)]);
  ("convection_parameters", JObj [("wind_speed", num 5 1); ("ch_air", num 36 10000); ("air_temperature", num 29315 100);
     ("air_density", num 4412 10000); ("air_specific_heat_capacity", num 1099 1)]);
  ("thermal_parameters", JObj [("buffer", num 140 1); ("crust_cover_fraction", num 1 1); ("crust_cover_fraction_2", num fc2 100);
     ("alpha_1", num (-756) 100000); ("alpha_2", num alpha2 100000); ("crust_temperature", num 77315 100)]);
  ("melt_viscosity_parameters", JObj [("a_vft", num (-452) 100); ("b_vft", JInt 5558); ("c_vft", num 5829 10)]);
  ("crystals_parameters", JObj [("crystallization_rate_1", num 6 1000); ("crystallization_rate_2", num rate2 1000);
     ("solid_temperature", num 123715 100); ("latent_heat_of_crystallization", num 350000 1)]);
  ("relative_viscosity_parameters", JObj [("max_packing", num 641 1000)])
].
Definition zones_fs : fsys R := fun p =>
  if String.eqb p "resource/example_slope_profile.txt" then Some (FText slope_lines) else None.
Definition zones_sim (crit vf2 rate2 alpha2 fc2 : Z) : sim R :=
  let ves := VBimodal (n_lit crit 1) (n_lit 64 100) (n_lit vf2 100) in
  {| s_dx := n_lit 10 1;
     s_lava := {| lv_melt := MeltVFT (n_lit (-452) 100) (n_lit 5558 1) (n_lit 5829 10); lv_rel := RelER;
                  lv_bub := BubNo ves; lv_yield := YBasic (n_lit 138715 100); lv_ves := ves;
                  lv_terupt := n_lit 138715 100; lv_buffer := n_lit 140 1; lv_latent := n_lit 350000 1;
                  lv_dre := n_lit 2970 1; lv_maxpack := n_lit 641 1000 |};
     s_air := s_air (template_sim 0); s_ter := s_ter (template_sim 0);
     s_cryst := CrBimodal (n_lit 104 1000) (n_lit crit 1) (n_lit 6 1000) (n_lit rate2 1000) (n_lit 123715 100) (n_lit 138715 100);
     s_crust := CtConstant (n_lit 77315 100);
     s_cover := CvBimodal (n_lit crit 1) (n_lit (-756) 100000) (n_lit alpha2 100000) (n_lit 1 1) (n_lit fc2 100);
     s_budget := s_budget (template_sim 0); s_mass := false |}.

Section Zones.
Context (crit vf2 rate2 alpha2 fc2 : Z).
Let Z1 := zones crit vf2 rate2 alpha2 fc2.
Lemma zones_prepares : prepare mass_flag (fs_write "resource/zones.json" (FJson (JObj Z1)) zones_fs) "resource/zones.json" =
  Ok (JInt 0, JStr "template", zones_sim crit vf2 rate2 alpha2 fc2, template_state 0, n_lit 14 10).
Proof.
  set (z := JObj Z1). unfold prepare.
  change (load_json (fs_write "resource/zones.json" (FJson z) zones_fs) "resource/zones.json") with (Ok z). cbn [rbind].
  change (jget z "effusion_rate_init") with (Ok (@JInt R 0)). cbn [rbind].
  change (require1 z "lava_name") with (Ok (@JStr R "template")). cbn [rbind].
  change (require1 z "slope_file") with (Ok (@JStr R "resource/example_slope_profile.txt")). cbn [rbind].
  change (require1 z "step_size") with (Ok (num 10 1)). cbn [rbind].
  change (py_float (num 10 1)) with (Ok (@n_lit R RNum 10 1)). cbn [rbind].
  change (mass_raw z) with (Ok (@JBool R false)). cbn [rbind].
  assert (Et : read_terrain z = Ok ({| ter_eff_init := n_lit 0 1; ter_width := n_lit 45 10;
     ter_gravity := n_lit 981 100; ter_maxlen := n_lit 30000 1; ter_default_slope := 2657414 / 1000000 * (PI / 180);
     ter_spline := None |}, n_lit 14 10, Some (n_lit 5 1))).
  { unfold read_terrain, jfloat1, jfloat2, jget2, radians, z, Z1.
    cbn [zones jget assoc String.eqb Ascii.eqb Bool.eqb rbind num py_float].
    cbn [n_div n_pi RNum n_lit]. rewrite R_div_ok by lra. cbn [rbind].
    replace (PI / (180 / 1)) with (PI / 180) by (field; lra). reflexivity. }
  rewrite Et. cbn [rbind].
  change (read_slope_lines (fs_write "resource/zones.json" (FJson z) zones_fs) (JStr "resource/example_slope_profile.txt"))
    with (Ok slope_lines). cbn [rbind].
  rewrite template_slopes. cbn [rbind ter_eff_init ter_width ter_gravity ter_maxlen ter_default_slope].
  set (sm := zones_sim crit vf2 rate2 alpha2 fc2).
  set (m := {| mo_cryst := s_cryst sm; mo_air := s_air sm; mo_lava := s_lava sm; mo_cover := s_cover sm; mo_crust := s_crust sm;
     mo_budget := s_budget sm |}).
  assert (Em : build_models z (crust_profile (fs_write "resource/zones.json" (FJson z) zones_fs)) = Ok m) by reflexivity.
  rewrite Em. cbn [rbind].
  assert (Es : initialize_state (mo_lava m) (mo_cryst m) z = Ok (template_state 0)).
  { unfold initialize_state, jfloat1, jfloat2, z, Z1.
    cbn [zones jget assoc String.eqb Ascii.eqb Bool.eqb rbind num py_float].
    change (get_crystal_fraction (mo_cryst m) (lv_terupt (mo_lava m))) with (Ok (@n_lit R RNum 104 1000)). cbn [rbind].
    rnum. unfold R_mpow. rewrite R_power_2. cbn [rbind]. rewrite R_div_ok by (simpl; lra). cbn [rbind].
    rewrite R_div_ok by lra. cbn [rbind]. unfold template_state. rnum. reflexivity. }
  rewrite Es. reflexivity.
Qed.

Lemma zones_valid : (0 <= vf2 < 100)%Z -> (0 < rate2)%Z -> (alpha2 <= 0)%Z -> (0 <= fc2 <= 100)%Z ->
  valid (zones_sim crit vf2 rate2 alpha2 fc2) (template_state 0) (14 / 10).
Proof.
  intros [A1 A2] B C [D1 D2]. apply IZR_le in A1, C, D1, D2. apply IZR_lt in A2, B.
  assert (V := co_valid _ _ _ (template_cooling 0 ltac:(lia))).
  constructor; [|exact I].
  constructor; cbn [zones_sim s_ter s_dx s_lava s_cryst s_air s_crust s_cover s_budget s_mass]; try apply V;
    cbn; rnum; try lra.
  unfold valid_lava. cbn. rnum. repeat split; lra.
Qed.
Lemma zones_run sf sc folder : (0 <= vf2 < 100)%Z -> (0 < rate2)%Z -> (alpha2 <= 0)%Z -> (0 <= fc2 <= 100)%Z ->
  exists fuel fs' log', run sf sc fuel (fs_write "resource/zones.json" (FJson (JObj Z1)) zones_fs) (new_runner [])
     "resource/zones.json" folder = Some (Ok tt, fs', log').
Proof.
  intros A B C D. assert (V := zones_valid A B C D). replace (14 / 10) with (@n_lit R RNum 14 10) in V by (rnum; lra).
  destruct (C57_valid_configuration_runs sf sc _ [] "resource/zones.json" folder _ _ _ _ _ zones_prepares V) as (fuel & fs' & log' & E & _). eauto.
Qed.
End Zones.

(** Critical distances of 500 and 800 m, and other values beyond: the rows of the first 500 m are the same. *)
Example C85_template : forall sf sc folder, exists fuel1 fuel2 fs1 fs2 log1 log2,
  let F1 := zones 500 64 6 (-756) 100 in
  let F2 := zones 800 30 9 0 50 in
  run sf sc fuel1 (fs_write "resource/zones.json" (FJson (JObj F1)) zones_fs) (new_runner []) "resource/zones.json" folder = Some (Ok tt, fs1, log1) /\
  run sf sc fuel2 (fs_write "resource/zones.json" (FJson (JObj F2)) zones_fs) (new_runner []) "resource/zones.json" folder = Some (Ok tt, fs2, log2) /\
  exists same more1 more2, log1 = same ++ more1 /\ log2 = same ++ more2 /\
    forall r, In r more1 \/ In r more2 -> exists p, row_position r p /\ 500 < p.
Proof.
  intros sf sc folder.
  destruct (zones_run 500 64 6 (-756) 100 sf sc folder) as (fuel1 & fs1 & log1 & R1); [lia..|].
  destruct (zones_run 800 30 9 0 50 sf sc folder) as (fuel2 & fs2 & log2 & R2); [lia..|].
  exists fuel1, fuel2, fs1, fs2, log1, log2. cbv zeta. split; [exact R1|]. split; [exact R2|].
  assert (C1 : jfloat2 (JObj (zones 500 64 6 (-756) 100)) "lava_state" "critical_distance" = Ok (n_lit 500 1)) by reflexivity.
  assert (C2 : jfloat2 (JObj (zones 800 30 9 0 50)) "lava_state" "critical_distance" = Ok (n_lit 800 1)) by reflexivity.
  assert (Near : forall p, p <= 500 -> before_critical (zones 500 64 6 (-756) 100) (zones 800 30 9 0 50) p).
  { intros p Hp c [E|E]; rewrite ?C1, ?C2 in E; apply Ok_inj in E; subst c; change n_leb with R_leb; apply R_leb_true; rnum; lra. }
  destruct (C85_far_settings_apply_far sf sc (zones 500 64 6 (-756) 100) (zones 800 30 9 0 50) fuel1 fuel2 zones_fs "resource/zones.json" folder
     fs1 fs2 log1 log2 (JInt 0) (JStr "template") (zones_sim 500 64 6 (-756) 100) (template_state 0) (n_lit 14 10))
     as (same & m1 & m2 & A & B & C & _).
  - constructor.
    + constructor; [| |reflexivity|reflexivity|left; reflexivity].
      * assert (G : Forall (fun p => same_at (zones 500 64 6 (-756) 100) (zones 800 30 9 0 50) (fst p) (snd p)) near_keys)
          by (let l := eval vm_compute in near_keys in change near_keys with l; repeat (apply Forall_cons; [reflexivity|]); apply Forall_nil).
        intros s k Hin. rewrite Forall_forall in G. exact (G _ Hin).
      * assert (G : Forall (fun k => assoc k (zones 500 64 6 (-756) 100) = assoc k (zones 800 30 9 0 50)) top_keys) by (repeat constructor).
        intros k Hin. rewrite Forall_forall in G. exact (G _ Hin).
    + right. discriminate.
  - exact (zones_prepares 500 64 6 (-756) 100).
  - cbn. rnum. lra.
  - apply Near. cbn. rnum. lra.
  - exact R1.
  - exact R2.
  - exists same, m1, m2. split; [exact A|]. split; [exact B|]. intros r Hr. destruct (C r Hr) as (p & P1 & P2).
    exists p. split; [exact P1|]. destruct (Rle_lt_dec p 500) as [L|L]; [|exact L]. exfalso. apply P2, Near, L.
Qed.
