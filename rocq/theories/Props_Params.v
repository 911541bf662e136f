(** * Props_Params: where every parameter of a run comes from: C64, C65 *)
From Coq Require Import Reals Lra.
From Verif Require Import Base Num RNum Json Logger World Vesicle MeltVisc RelVisc Bubbles Terrain Lava
  Thermal Flux Integrator Factory Run Props_Budget Props_Factory.

Tactic Notation "inv_read" hyp(H) := repeat match type of H with
  | rbind _ _ = Ok _ => let x := fresh "x" in let E := fresh "E" in let H2 := fresh "H" in
      apply rbind_ok in H; destruct H as [x [E H2]]; rename H2 into H
  end.
Section Params.
Context {T : Type} {N : Num T}.

(** ** Specification: the documented key of every parameter *)
Definition setting : Type := string * string * T.
Definition cryst_settings (m : cryst_model T) : list setting :=
  match m with
  | CrBasic phi grown ts te =>
      [("lava_state", "crystal_fraction", phi); ("crystals_parameters", "crystals_grown_during_cooling", grown);
       ("crystals_parameters", "solid_temperature", ts); ("eruption_condition", "eruption_temperature", te)]
  | CrBimodal phi crit r1 r2 ts te =>
      [("lava_state", "crystal_fraction", phi); ("lava_state", "critical_distance", crit);
       ("crystals_parameters", "crystallization_rate_1", r1); ("crystals_parameters", "crystallization_rate_2", r2);
       ("crystals_parameters", "solid_temperature", ts); ("eruption_condition", "eruption_temperature", te)]
  | CrBimodalTemp phi crit r1 r2 ts te =>
      [("lava_state", "crystal_fraction", phi); ("lava_state", "critical_temperature", crit);
       ("crystals_parameters", "crystallization_rate_1", r1); ("crystals_parameters", "crystallization_rate_2", r2);
       ("crystals_parameters", "solid_temperature", ts); ("eruption_condition", "eruption_temperature", te)]
  | CrMelts phi ts te _ =>
      [("lava_state", "crystal_fraction", phi);
       ("crystals_parameters", "solid_temperature", ts); ("eruption_condition", "eruption_temperature", te)]
  end.
Definition vesicle_settings (m : vesicle_model T) : list setting :=
  match m with
  | VConstant vf => [("lava_state", "vesicle_fraction", vf)]
  | VBimodal crit v1 v2 => [("lava_state", "critical_distance", crit); ("lava_state", "vesicle_fraction_1", v1);
                            ("lava_state", "vesicle_fraction_2", v2)]
  | VVariable vf coef => [("lava_state", "vesicle_fraction", vf); ("lava_state", "vesicle_coef", coef)]
  | VVariableBimodal crit vf coef => [("lava_state", "critical_distance", crit); ("lava_state", "vesicle_fraction", vf);
                                      ("lava_state", "vesicle_coef", coef)]
  | VPoly vf a b => [("lava_state", "vesicle_fraction", vf); ("lava_state", "vesicle_poly_a", a);
                     ("lava_state", "vesicle_poly_b", b)]
  end.
Definition melt_settings (m : melt_model T) : list setting :=
  match m with
  | MeltBasic ve te => [("eruption_condition", "viscosity_eruption", ve); ("eruption_condition", "eruption_temperature", te)]
  | MeltShaw k => [("melt_viscosity_parameters", "shaw_slope", k)]
  | MeltVFT a b c => [("melt_viscosity_parameters", "a_vft", a); ("melt_viscosity_parameters", "b_vft", b);
                      ("melt_viscosity_parameters", "c_vft", c)]
  end.
Definition rel_settings (m : rel_model T) : list setting :=
  let at_ (key : string) (x : T) := [("relative_viscosity_parameters", key, x)] in
  match m with
  | RelER => [] | RelPTP1 _ => [] | RelPTP2 _ => [] | RelPTP3 _ => []
  | RelKD p e => at_ "max_packing" p ++ at_ "einstein_coef" e
  | RelMP p => at_ "max_packing" p
  | RelMueller r => at_ "crystal_aspect_ratio" r
  | RelMader r => at_ "crystal_aspect_ratio" r
  | RelBLL _ _ p bs bg ra su pc =>
      at_ "max_packing" p ++ at_ "Bsolid" bs ++ at_ "Bgas" bg ++ at_ "vesicle_radius" ra
      ++ at_ "surface_tension" su ++ at_ "crit_packing" pc
  | RelCosta1 x => at_ "strain_rate" x | RelCosta2 x => at_ "strain_rate" x | RelCosta x => at_ "strain_rate" x
  end.
Definition bub_settings (m : bubbles_model T) : list setting :=
  match m with
  | BubMader _ _ _ r s => [("relative_viscosity_parameters", "vesicle_radius", r);
                           ("relative_viscosity_parameters", "surface_tension", s)]
  | _ => []
  end.
Definition yield_settings (m : yield_model T) : list setting :=
  match m with
  | YBasic te | YRyerson te | YBLL _ te => [("eruption_condition", "eruption_temperature", te)]
  | YDragoni tl te | YDragoniAlone tl te =>
      [("lava_state", "liquidus_temperature", tl); ("eruption_condition", "eruption_temperature", te)]
  end.
Definition lava_settings (l : lava T) : list setting :=
  melt_settings (lv_melt l) ++ rel_settings (lv_rel l) ++ bub_settings (lv_bub l) ++ yield_settings (lv_yield l) ++
  vesicle_settings (lv_ves l) ++
  [("eruption_condition", "eruption_temperature", lv_terupt l); ("thermal_parameters", "buffer", lv_buffer l);
   ("crystals_parameters", "latent_heat_of_crystallization", lv_latent l); ("lava_state", "density_dre", lv_dre l);
   ("relative_viscosity_parameters", "max_packing", lv_maxpack l)].
Definition crust_settings (m : crust_model T) : list setting :=
  match m with
  | CtConstant tc => [("thermal_parameters", "crust_temperature", tc)]
  | CtBimodal crit tc2 => [("lava_state", "critical_distance", crit); ("thermal_parameters", "crust_temperature_2", tc2)]
  | CtField tc _ => [("thermal_parameters", "crust_temperature", tc)]
  | CtHon => [] | CtHR2001 => []
  end.
Definition cover_settings (m : cover_model T) : list setting :=
  match m with
  | CvBasic a f => [("thermal_parameters", "alpha", a); ("thermal_parameters", "crust_cover_fraction", f)]
  | CvBimodal crit a1 a2 f1 f2 =>
      [("lava_state", "critical_distance", crit); ("thermal_parameters", "alpha_1", a1); ("thermal_parameters", "alpha_2", a2);
       ("thermal_parameters", "crust_cover_fraction", f1); ("thermal_parameters", "crust_cover_fraction_2", f2)]
  end.
Definition air_settings (a : air T) : list setting :=
  [("convection_parameters", "air_temperature", air_temp a); ("convection_parameters", "wind_speed", air_wind a);
   ("convection_parameters", "ch_air", air_ch a); ("convection_parameters", "air_density", air_rho a);
   ("convection_parameters", "air_specific_heat_capacity", air_cp a)].
Definition flux_settings (f : flux T) : list setting :=
  match f with
  | FRadiation k sigma =>
      ("radiation_parameters", "stefan-boltzmann_sigma", sigma) ::
      match k with
      | RadBasic e => [("radiation_parameters", "emissivity_epsilon", e)]
      | Rad2Emi e1 e2 => [("radiation_parameters", "epsilon_crust", e1); ("radiation_parameters", "epsilon_hot", e2)]
      | RadCont => [] | RadLin => []
      end
  | FConduction tb cbd => [("conduction_parameters", "basal_temperature", tb); ("conduction_parameters", "core_base_distance", cbd)]
  | FRain r w l => [("rain_parameters", "rainfall_rate", r); ("rain_parameters", "density_water", w);
                    ("rain_parameters", "latent_heat_vaporization", l)]
  | FConvection => [] | FViscous => [] | FSnyder => []
  end.
Definition settings (mo : models T) : list setting :=
  cryst_settings (mo_cryst mo) ++ air_settings (mo_air mo) ++ lava_settings (mo_lava mo) ++ cover_settings (mo_cover mo) ++
  crust_settings (mo_crust mo) ++ concat (map flux_settings (mo_budget mo)).

(** The configuration holds the number [x] at [section]/[key]. *)
Definition configured (d : json T) (p : setting) : Prop :=
  let '(section, key, x) := p in exists v, jget2 d section key = Ok v /\ py_float v = Ok x.

Lemma configured_float d a b x : jfloat2 d a b = Ok x -> configured d (a, b, x).
Proof.
  unfold jfloat2, configured, jget2. intros H. apply rbind_ok in H as (s & E & H). rewrite E. cbn [rbind]. 
  apply rbind_ok in H as (v & E2 & H). exists v. rewrite E2. auto.
Qed.

Ltac conf := repeat constructor; apply configured_float; assumption.
Ltac inv_ok H := inv_read H; try discriminate H; injection H as <-.

Lemma build_cryst_conf sel d (m : cryst_model T) : build_cryst sel d = Ok m -> Forall (configured d) (cryst_settings m).
Proof.
  unfold build_cryst. intros H.
  repeat match type of H with (if jis ?v ?n then _ else _) = _ => destruct (jis v n) end; [| | | |discriminate H].
  - unfold read_cr_basic in H. inv_ok H. conf.
  - unfold read_cr_bimodal in H. inv_ok H. conf.
  - unfold read_cr_bimodal_f_temp in H. inv_ok H. conf.
  - unfold read_cr_melts in H. apply rbind_ok in H as ([] & _ & H); [|discriminate H]. inv_ok H. conf.
Qed.
Lemma build_vesicle_conf sel d (m : vesicle_model T) : build_vesicle sel d = Ok m -> Forall (configured d) (vesicle_settings m).
Proof.
  unfold build_vesicle. intros H.
  repeat match type of H with (if jis ?v ?n then _ else _) = _ => destruct (jis v n) end; [| | | | |discriminate H];
  unfold read_v_constant, read_v_bimodal, read_v_variable, read_v_variable_bimodal, read_v_poly in H; inv_ok H; conf.
Qed.
Lemma build_melt_conf sel d (m : melt_model T) : build_melt sel d = Ok m -> Forall (configured d) (melt_settings m).
Proof.
  unfold build_melt. intros H.
  repeat match type of H with (if jis ?v ?n then _ else _) = _ => destruct (jis v n) end; [| | |discriminate H];
  unfold read_melt_basic, read_melt_shaw, read_melt_vft in H; inv_ok H; conf.
Qed.
Lemma build_rel_conf sel vm mm d (m : rel_model T) : build_rel sel vm mm d = Ok m -> Forall (configured d) (rel_settings m).
Proof.
  unfold build_rel. intros H.
  repeat match type of H with (if jis ?v ?n then _ else _) = _ => destruct (jis v n) end; try discriminate H;
  unfold read_rel_kd, read_rel_mp, read_rel_mueller, read_rel_mader, read_rel_bll, read_rel_costa1, read_rel_costa2, rvp in H;
  inv_ok H; conf.
Qed.
Lemma build_bub_conf sel vm mm rm d (m : bubbles_model T) : build_bub sel vm mm rm d = Ok m -> Forall (configured d) (bub_settings m).
Proof.
  unfold build_bub. intros H.
  repeat match type of H with (if jis ?v ?n then _ else _) = _ => destruct (jis v n) end; try discriminate H;
  unfold read_bub_mader, rvp in H; inv_ok H; conf.
Qed.
Lemma build_yield_conf sel d (m : yield_model T) : build_yield sel d = Ok m -> Forall (configured d) (yield_settings m).
Proof.
  unfold build_yield. intros H.
  repeat match type of H with (if jis ?v ?n then _ else _) = _ => destruct (jis v n) end; try discriminate H;
  unfold read_y_basic, read_y_dragoni, read_y_dragoni_alone, read_y_ryerson, read_y_bll in H; inv_ok H; conf.
Qed.
Lemma build_cover_conf sel d (m : cover_model T) : build_cover sel d = Ok m -> Forall (configured d) (cover_settings m).
Proof.
  unfold build_cover. intros H.
  repeat match type of H with (if jis ?v ?n then _ else _) = _ => destruct (jis v n) end; try discriminate H;
  unfold read_cv_basic, read_cv_bimodal in H; inv_ok H; conf.
Qed.
Lemma build_crust_conf sel profile d (m : crust_model T) : build_crust sel profile d = Ok m -> Forall (configured d) (crust_settings m).
Proof.
  unfold build_crust. intros H.
  repeat match type of H with (if jis ?v ?n then _ else _) = _ => destruct (jis v n) end; try discriminate H;
  [..|destruct profile as [lines|]; [|discriminate H]; apply rbind_ok in H as (tbl & _ & H)];
  unfold read_ct_constant, read_ct_hon, read_ct_bimodal, read_ct_field in H; inv_ok H; conf.
Qed.
(** A flux reader that only stores configured numbers. *)
Definition good_reader (d : json T) (r : json T -> res (flux T)) : Prop :=
  forall f, r d = Ok f -> Forall (configured d) (flux_settings f).
Lemma fluxes_conf s fr d : choose_fluxes s = Ok fr -> Forall (good_reader d) fr.
Proof.
  unfold choose_fluxes. intros H. inv_read H. injection H as <-. rewrite !Forall_app.
  assert (YN : forall sel r name l, choose_yes_no sel r name = Ok l -> good_reader d r -> Forall (good_reader d) l).
  { intros sel r name l Hc Hr. unfold choose_yes_no in Hc. destruct (jis sel "yes"); [injection Hc as <-; auto|].
    destruct (jis sel "no"); [injection Hc as <-; auto|discriminate]. }
  repeat split.
  - unfold choose_radiation in E.
    repeat match type of E with (if jis ?v ?n then _ else _) = _ => destruct (jis v n) end; try discriminate E; injection E as <-;
    repeat constructor; intros f Hf;
    unfold read_f_rad_basic, read_f_rad_2emi, read_f_rad_cont, read_f_rad_lin in Hf; inv_ok Hf; conf.
  - eapply YN; [eassumption|]. intros f Hf. unfold read_f_conduction in Hf. inv_ok Hf. conf.
  - eapply YN; [eassumption|]. intros f Hf. injection Hf as <-. constructor.
  - eapply YN; [eassumption|]. intros f Hf. unfold read_f_rain in Hf. inv_ok Hf. conf.
  - eapply YN; [eassumption|]. intros f Hf. injection Hf as <-. constructor.
  - unfold choose_snyder in *. destruct (jis (sel_snyder s) "yes" && jis (sel_conv s) "no" && jis (sel_rad s) "no");
      [|destruct (jis (sel_snyder s) "no"); [|discriminate]]; match goal with Q : Ok _ = Ok ?l |- Forall _ ?l => injection Q as <- end; auto.
    repeat constructor. intros f Hf. unfold read_f_snyder in Hf. inv_ok Hf. constructor.
Qed.

(** ** C65: every parameter of the models is the number at its documented key *)
Theorem C65_parameters_come_from_their_keys : forall d profile (mo : models T),
  build_models d profile = Ok mo -> forall p, In p (settings mo) -> configured d p.
Proof.
  intros d profile mo H. apply Forall_forall.
  destruct (build_models_inv _ _ _ H) as (s & vm & mm & rm & bm & ym & fr & Hs & Hcr & Har & Hvm & Hmm & Hrm & Hbm & Hym & Hlv & Hcv & Hct & Hfr & Hfl).
  destruct (read_lava_parts _ _ _ _ _ _ _ Hlv) as (L1 & L2 & L3 & L4 & L5 & L6 & L7 & L8 & L9).
  unfold settings, lava_settings. rewrite !Forall_app, L1, L2, L3, L4, L5. repeat split.
  - eapply build_cryst_conf; eassumption.
  - unfold read_air in Har. inv_ok Har. conf.
  - eapply build_melt_conf; eassumption.
  - eapply build_rel_conf; eassumption.
  - eapply build_bub_conf; eassumption.
  - eapply build_yield_conf; eassumption.
  - eapply build_vesicle_conf; eassumption.
  - unfold read_lava, rvp in Hlv. inv_ok Hlv. cbn [lv_terupt lv_buffer lv_latent lv_dre lv_maxpack]. conf.
  - eapply build_cover_conf; eassumption.
  - eapply build_crust_conf; eassumption.
  - pose proof (fluxes_conf _ _ d Hfr) as G. clear - G Hfl. revert Hfl. generalize (mo_budget mo).
    induction fr as [|r fr IH]; intros fl H; cbn [rmapM] in H.
    + injection H as <-. constructor.
    + apply rbind_ok in H as (f & Hf & H). apply rbind_ok in H as (fs & Hfs & H). injection H as <-.
      inversion G as [|? ? G1 G2]; subst. cbn [map concat]. apply Forall_app. split; [exact (G1 _ Hf)|]. apply IH; auto.
Qed.
End Params.

(** ** C64: the simulation and the state a run starts from *)
Open Scope R_scope.
Definition number1 (d : json R) (key : string) (x : R) : Prop := exists v, jget d key = Ok v /\ py_float v = Ok x.
Lemma number1_float d a x : jfloat1 d a = Ok x -> number1 d a x.
Proof. unfold jfloat1, number1. intros H. apply rbind_ok in H as (v & E & H). eauto. Qed.

Theorem C64_initial_state : forall flag (fs : fsys R) json_file eri name sm st depth,
  prepare flag fs json_file = Ok (eri, name, sm, st, depth) ->
  exists d q width,
    load_json fs json_file = Ok d /\
    number1 d "effusion_rate_init" q /\
    configured d ("terrain_conditions", "width", width) /\
    configured d ("terrain_conditions", "depth", depth) /\
    configured d ("lava_state", "position", st_pos st) /\
    configured d ("lava_state", "time", st_time st) /\
    configured d ("eruption_condition", "eruption_temperature", st_temp st) /\
    configured d ("lava_state", "crystal_fraction", st_phi st) /\
    depth <> 0 /\ width <> 0 /\
    st_strain st = 3 * q / (depth * depth * width) /\
    (* and the fixed data of the run *)
    number1 d "step_size" (s_dx sm) /\
    number1 d "effusion_rate_init" (ter_eff_init (s_ter sm)) /\
    configured d ("terrain_conditions", "width", ter_width (s_ter sm)) /\
    configured d ("terrain_conditions", "gravity", ter_gravity (s_ter sm)) /\
    configured d ("terrain_conditions", "max_channel_length", ter_maxlen (s_ter sm)).
Proof.
  intros flag fs json_file eri name sm st depth H. unfold prepare in H.
  apply rbind_ok in H as (d & Hd & H). apply rbind_ok in H as (x1 & _ & H). apply rbind_ok in H as (x2 & _ & H).
  apply rbind_ok in H as (x3 & _ & H). apply rbind_ok in H as (step & Hstep & H). apply rbind_ok in H as (dx & Hdx & H).
  apply rbind_ok in H as (raw & _ & H). apply rbind_ok in H as ([[ter0 dep] smooth] & Hter & H).
  apply rbind_ok in H as (lines & _ & H). apply rbind_ok in H as (ter & Ht & H).
  apply rbind_ok in H as (m & Hm & H). apply rbind_ok in H as (s0 & Hs & H). injection H as _ _ <- <- <-.
  cbn [s_dx s_ter].
  assert (Et : ter_eff_init ter = ter_eff_init ter0 /\ ter_width ter = ter_width ter0 /\ ter_gravity ter = ter_gravity ter0 /\
               ter_maxlen ter = ter_maxlen ter0).
  { unfold read_slope_from_file in Ht. inv_read Ht. injection Ht as <-. cbn. auto. }
  destruct Et as (-> & -> & -> & ->).
  unfold read_terrain in Hter. inv_read Hter. injection Hter as <- <- _. cbn [ter_eff_init ter_width ter_gravity ter_maxlen].
  assert (Hphi : exists phi, get_crystal_fraction (mo_cryst m) (lv_terupt (mo_lava m)) = Ok phi /\
                             configured d ("lava_state", "crystal_fraction", phi)).
  { destruct (build_models_inv _ _ _ Hm) as (s & vm & mm & rm & bm & ym & fr & _ & Hcr & _).
    pose proof (build_cryst_conf _ _ _ Hcr) as Fc. pose proof Hcr as Hcr2. unfold build_cryst in Hcr2.
    repeat match type of Hcr2 with (if jis ?v ?n then _ else _) = _ => destruct (jis v n) end; [| | | |discriminate Hcr2].
    - unfold read_cr_basic in Hcr2. inv_read Hcr2. injection Hcr2 as Ecr. rewrite <- Ecr in *. cbn in *. inversion Fc; eauto.
    - unfold read_cr_bimodal in Hcr2. inv_read Hcr2. injection Hcr2 as Ecr. rewrite <- Ecr in *. cbn in *. inversion Fc; eauto.
    - unfold read_cr_bimodal_f_temp in Hcr2. inv_read Hcr2. injection Hcr2 as Ecr. rewrite <- Ecr in *. cbn in *. inversion Fc; eauto.
    - unfold read_cr_melts in Hcr2. apply rbind_ok in Hcr2 as ([] & _ & Hcr2); [|discriminate Hcr2]. inv_read Hcr2.
      injection Hcr2 as Ecr. rewrite <- Ecr in *. cbn in *. inversion Fc; eauto. }
  destruct Hphi as (phi & Ephi & Cphi).
  destruct (build_models_inv _ _ _ Hm) as (s & vm & mm & rm & bm & ym & fr & _ & _ & _ & _ & _ & _ & _ & _ & Hlv & _).
  destruct (read_lava_parts _ _ _ _ _ _ _ Hlv) as (_ & _ & _ & _ & _ & L6 & _).
  unfold initialize_state in Hs. rewrite Ephi in Hs.
  apply rbind_ok in Hs as (e0 & He0 & Hs). apply rbind_ok in Hs as (width & Hw & Hs). apply rbind_ok in Hs as (dep2 & Hdep & Hs).
  apply rbind_ok in Hs as (pos & Hpos & Hs). apply rbind_ok in Hs as (time & Htime & Hs). cbn [rbind] in Hs.
  apply rbind_ok in Hs as (d2 & Hd2 & Hs). apply rbind_ok in Hs as (a & Ha & Hs). apply rbind_ok in Hs as (strain & Hst & Hs).
  injection Hs as <-. cbn [st_pos st_time st_temp st_phi st_strain].
  assert (x0 = dep2) by congruence. subst x0.
  revert Hd2 Ha Hst. rnum. intros Hd2 Ha Hst.
  apply R_div_inv in Ha as [Hd2n ->]. apply R_div_inv in Hst as [Hwn ->].
  assert (Hsq : d2 = dep2 * dep2).
  { revert Hd2. replace (2 / 1) with 2 by lra. unfold R_mpow. rewrite R_power_2. intros Hd2. injection Hd2 as <-. ring. }
  subst d2. assert (dep2 <> 0) by (intros ->; apply Hd2n; lra).
  exists d, e0, width.
  unfold require1 in Hstep. apply rbind_ok in Hstep as (b & _ & Hstep). destruct b; [|discriminate].
  repeat match goal with |- _ /\ _ => split end; try (apply configured_float; assumption); try (apply number1_float; assumption); auto.
  - field. auto.
  - exists step. auto.
Qed.
