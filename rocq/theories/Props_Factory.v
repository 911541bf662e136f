(** * Props_Factory: model selection: C49, C59 *)
From Verif Require Import Base Num Json Logger World Vesicle MeltVisc RelVisc Bubbles Terrain Lava
  Thermal Flux Integrator Factory Props_Budget.

Section Factory.
Context {T : Type} {N : Num T}.

(** ** Specification: the documented name of each model class *)
Definition cryst_name (m : cryst_model T) : option string :=
  match m with CrBasic _ _ _ _ => Some "basic" | CrBimodal _ _ _ _ _ _ => Some "bimodal"
             | CrBimodalTemp _ _ _ _ _ _ => Some "bimodal_f_temp" | CrMelts _ _ _ _ => Some "melts" end.
Definition vesicle_name (m : vesicle_model T) : option string :=
  match m with VConstant _ => Some "constant" | VBimodal _ _ _ => Some "bimodal" | VVariable _ _ => Some "variable"
             | VVariableBimodal _ _ _ => Some "variable_bimodal" | VPoly _ _ _ => Some "poly" end.
Definition melt_name (m : melt_model T) : option string :=
  match m with MeltBasic _ _ => Some "basic" | MeltShaw _ => Some "shaw" | MeltVFT _ _ _ => Some "vft" end.
Definition rel_name (m : rel_model T) : option string :=
  match m with
  | RelER => Some "er" | RelKD _ _ => Some "kd" | RelMP _ => Some "mp" | RelMueller _ => Some "mp_mueller"
  | RelMader _ => Some "mader" | RelBLL _ _ _ _ _ _ _ _ => Some "bll" | RelPTP1 _ => Some "ptp1"
  | RelPTP2 _ => Some "ptp2" | RelPTP3 _ => Some "ptp3" | RelCosta1 _ => Some "costa1"
  | RelCosta2 _ => Some "costa2" | RelCosta _ => None (* not selectable *)
  end.
Definition bub_name (m : bubbles_model T) : option string :=
  match m with BubNo _ => Some "no" | BubRigid _ => Some "rigid" | BubDefo _ => Some "deformable"
             | BubMader _ _ _ _ _ => Some "mader" end.
Definition yield_name (m : yield_model T) : option string :=
  match m with YBasic _ => Some "basic" | YDragoni _ _ => Some "dragoni" | YDragoniAlone _ _ => Some "dragoni-alone"
             | YRyerson _ => Some "ryerson" | YBLL _ _ => Some "bll" end.
Definition cover_name (m : cover_model T) : option string :=
  match m with CvBasic _ _ => Some "basic" | CvBimodal _ _ _ _ _ => Some "bimodal" end.
Definition crust_name (m : crust_model T) : option string :=
  match m with CtConstant _ => Some "constant" | CtHon => Some "hon" | CtBimodal _ _ => Some "bimodal"
             | CtField _ (Some _) => Some "field" | CtField _ None => None | CtHR2001 => None end.
Definition rad_name (k : rad_kind T) : string :=
  match k with RadBasic _ => "basic" | Rad2Emi _ _ => "2_emi" | RadCont => "cont" | RadLin => "lin_emi" end.

(** The configuration holds the string [s] at [section]/[key]. *)
Definition says (d : json T) (section key s : string) : Prop := jget2 d section key = Ok (JStr s).
Definition says_name (d : json T) (key : string) (n : option string) : Prop :=
  exists s, n = Some s /\ says d "models" key s.

(** A yes/no selector and the presence of its flux. *)
Definition says_yes_no (d : json T) (key : string) (present : Prop) : Prop :=
  (says d "heat_budget_models" key "yes" /\ present) \/ (says d "heat_budget_models" key "no" /\ ~ present).

(** ** Helpers *)
Lemma jis_str (v : json T) s : jis v s = true -> v = JStr s.
Proof. destruct v; try discriminate. cbn. intros H. apply String.eqb_eq in H. now subst. Qed.
Tactic Notation "inv_read" hyp(H) := repeat match type of H with
  | rbind _ _ = Ok _ => let x := fresh "x" in let E := fresh "E" in let H2 := fresh "H" in
      apply rbind_ok in H; destruct H as [x [E H2]]; rename H2 into H
  end.
Tactic Notation "pick" hyp(H) ident(E) constr(name) :=
  match type of H with
  | (if jis ?v name then _ else _) = _ => destruct (jis v name) eqn:E; [apply jis_str in E|]
  end.

Lemma build_cryst_name sel d (m : cryst_model T) : build_cryst sel d = Ok m ->
  exists s, cryst_name m = Some s /\ sel = JStr s.
Proof.
  unfold build_cryst. intros H. 
  pick H E "basic"; [unfold read_cr_basic in H; inv_read H; injection H as <-; cbn; eauto|].
  pick H E2 "bimodal"; [unfold read_cr_bimodal in H; inv_read H; injection H as <-; cbn; eauto|].
  pick H E3 "bimodal_f_temp"; [unfold read_cr_bimodal_f_temp in H; inv_read H; injection H as <-; cbn; eauto|].
  pick H E4 "melts"; [|discriminate]. unfold read_cr_melts in H.
  apply rbind_ok in H as ([] & _ & H); [|discriminate]. inv_read H. injection H as <-. cbn. eauto.
Qed.
Lemma build_vesicle_name sel d (m : vesicle_model T) : build_vesicle sel d = Ok m ->
  exists s, vesicle_name m = Some s /\ sel = JStr s.
Proof.
  unfold build_vesicle. intros H.
  pick H E "constant"; [unfold read_v_constant in H; inv_read H; injection H as <-; cbn; eauto|].
  pick H E2 "bimodal"; [unfold read_v_bimodal in H; inv_read H; injection H as <-; cbn; eauto|].
  pick H E3 "variable"; [unfold read_v_variable in H; inv_read H; injection H as <-; cbn; eauto|].
  pick H E4 "variable_bimodal"; [unfold read_v_variable_bimodal in H; inv_read H; injection H as <-; cbn; eauto|].
  pick H E5 "poly"; [|discriminate]. unfold read_v_poly in H. inv_read H. injection H as <-. cbn. eauto.
Qed.
Lemma build_melt_name sel d (m : melt_model T) : build_melt sel d = Ok m ->
  exists s, melt_name m = Some s /\ sel = JStr s.
Proof.
  unfold build_melt. intros H.
  pick H E "basic"; [unfold read_melt_basic in H; inv_read H; injection H as <-; cbn; eauto|].
  pick H E2 "shaw"; [unfold read_melt_shaw in H; inv_read H; injection H as <-; cbn; eauto|].
  pick H E3 "vft"; [|discriminate]. unfold read_melt_vft in H. inv_read H. injection H as <-. cbn. eauto.
Qed.
Lemma build_rel_name sel vm mm d (m : rel_model T) : build_rel sel vm mm d = Ok m ->
  exists s, rel_name m = Some s /\ sel = JStr s.
Proof.
  unfold build_rel. intros H.
  pick H E "er"; [injection H as <-; cbn; eauto|].
  pick H E2 "kd"; [unfold read_rel_kd in H; inv_read H; injection H as <-; cbn; eauto|].
  pick H E3 "mp"; [unfold read_rel_mp in H; inv_read H; injection H as <-; cbn; eauto|].
  pick H E4 "mp_mueller"; [unfold read_rel_mueller in H; inv_read H; injection H as <-; cbn; eauto|].
  pick H E5 "mader"; [unfold read_rel_mader in H; inv_read H; injection H as <-; cbn; eauto|].
  pick H E6 "bll"; [unfold read_rel_bll in H; inv_read H; injection H as <-; cbn; eauto|].
  pick H E7 "ptp1"; [injection H as <-; cbn; eauto|].
  pick H E8 "ptp2"; [injection H as <-; cbn; eauto|].
  pick H E9 "ptp3"; [injection H as <-; cbn; eauto|].
  pick H E10 "costa1"; [unfold read_rel_costa1 in H; inv_read H; injection H as <-; cbn; eauto|].
  pick H E11 "costa2"; [|discriminate]. unfold read_rel_costa2 in H. inv_read H. injection H as <-. cbn. eauto.
Qed.
Lemma build_bub_name sel vm mm rm d (m : bubbles_model T) : build_bub sel vm mm rm d = Ok m ->
  exists s, bub_name m = Some s /\ sel = JStr s.
Proof.
  unfold build_bub. intros H.
  pick H E "rigid"; [injection H as <-; cbn; eauto|].
  pick H E2 "deformable"; [injection H as <-; cbn; eauto|].
  pick H E3 "no"; [injection H as <-; cbn; eauto|].
  pick H E4 "mader"; [|discriminate]. unfold read_bub_mader in H. inv_read H. injection H as <-. cbn. eauto.
Qed.
Lemma build_yield_name sel d (m : yield_model T) : build_yield sel d = Ok m ->
  exists s, yield_name m = Some s /\ sel = JStr s.
Proof.
  unfold build_yield. intros H.
  pick H E "basic"; [unfold read_y_basic in H; inv_read H; injection H as <-; cbn; eauto|].
  pick H E2 "dragoni"; [unfold read_y_dragoni in H; inv_read H; injection H as <-; cbn; eauto|].
  pick H E3 "dragoni-alone"; [unfold read_y_dragoni_alone in H; inv_read H; injection H as <-; cbn; eauto|].
  pick H E4 "ryerson"; [unfold read_y_ryerson in H; inv_read H; injection H as <-; cbn; eauto|].
  pick H E5 "bll"; [|discriminate]. unfold read_y_bll in H. inv_read H. injection H as <-. cbn. eauto.
Qed.
Lemma build_cover_name sel d (m : cover_model T) : build_cover sel d = Ok m ->
  exists s, cover_name m = Some s /\ sel = JStr s.
Proof.
  unfold build_cover. intros H.
  pick H E "basic"; [unfold read_cv_basic in H; inv_read H; injection H as <-; cbn; eauto|].
  pick H E2 "bimodal"; [|discriminate]. unfold read_cv_bimodal in H. inv_read H. injection H as <-. cbn. eauto.
Qed.
Lemma build_crust_name sel p d (m : crust_model T) : build_crust sel p d = Ok m ->
  exists s, crust_name m = Some s /\ sel = JStr s.
Proof.
  unfold build_crust. intros H.
  pick H E "constant"; [unfold read_ct_constant in H; inv_read H; injection H as <-; cbn; eauto|].
  pick H E2 "hon"; [unfold read_ct_hon in H; inv_read H; injection H as <-; cbn; eauto|].
  pick H E3 "bimodal"; [unfold read_ct_bimodal in H; inv_read H; injection H as <-; cbn; eauto|].
  pick H E4 "field"; [|discriminate]. destruct p as [lines|]; [|discriminate].
  apply rbind_ok in H as (tbl & _ & H). unfold read_ct_field in H. inv_read H. injection H as <-. cbn. eauto.
Qed.

Lemma read_lava_parts mm rm bm ym vm d (l : lava T) : read_lava mm rm bm ym vm d = Ok l ->
  lv_melt l = mm /\ lv_rel l = rm /\ lv_bub l = bm /\ lv_yield l = ym /\ lv_ves l = vm /\
  jfloat2 d "eruption_condition" "eruption_temperature" = Ok (lv_terupt l) /\
  jfloat2 d "thermal_parameters" "buffer" = Ok (lv_buffer l) /\
  jfloat2 d "crystals_parameters" "latent_heat_of_crystallization" = Ok (lv_latent l) /\
  jfloat2 d "lava_state" "density_dre" = Ok (lv_dre l).
Proof.
  unfold read_lava. intros H. apply rbind_ok in H as (te & H1 & H). apply rbind_ok in H as (bu & H2 & H).
  apply rbind_ok in H as (la & H3 & H). apply rbind_ok in H as (de & H4 & H).
  apply rbind_ok in H as (mp & _ & H). injection H as <-. cbn. auto 10.
Qed.

(** Inversion of the factory. *)
Lemma build_models_inv d profile (mo : models T) : build_models d profile = Ok mo ->
  exists s vm mm rm bm ym fr,
    read_selectors d = Ok s /\
    build_cryst (sel_cryst s) d = Ok (mo_cryst mo) /\ read_air d = Ok (mo_air mo) /\
    build_vesicle (sel_ves s) d = Ok vm /\ build_melt (sel_melt s) d = Ok mm /\
    build_rel (sel_rel s) vm mm d = Ok rm /\ build_bub (sel_bub s) vm mm rm d = Ok bm /\
    build_yield (sel_yield s) d = Ok ym /\ read_lava mm rm bm ym vm d = Ok (mo_lava mo) /\
    build_cover (sel_cover s) d = Ok (mo_cover mo) /\ build_crust (sel_crust s) profile d = Ok (mo_crust mo) /\
    choose_fluxes s = Ok fr /\ rmapM (fun r => r d) fr = Ok (mo_budget mo).
Proof.
  unfold build_models. intros H.
  apply rbind_ok in H as (s & Hs & H). apply rbind_ok in H as (cr & Hcr & H). apply rbind_ok in H as (ar & Har & H).
  apply rbind_ok in H as (vm & Hvm & H). apply rbind_ok in H as (mm & Hmm & H). apply rbind_ok in H as (rm & Hrm & H).
  apply rbind_ok in H as (bm & Hbm & H). apply rbind_ok in H as (ym & Hym & H). apply rbind_ok in H as (lv & Hlv & H).
  apply rbind_ok in H as (cv & Hcv & H). apply rbind_ok in H as (ct & Hct & H). apply rbind_ok in H as (fr & Hfr & H).
  apply rbind_ok in H as (fl & Hfl & H). injection H as <-. cbn [mo_cryst mo_air mo_lava mo_cover mo_crust mo_budget].
  exists s, vm, mm, rm, bm, ym, fr. auto 20.
Qed.
Lemma read_selectors_inv d (s : selectors T) : read_selectors d = Ok s ->
  jget2 d "models" "crystallization_rate_model" = Ok (sel_cryst s) /\
  jget2 d "models" "melt_viscosity_model" = Ok (sel_melt s) /\
  jget2 d "models" "relative_viscosity_model" = Ok (sel_rel s) /\
  jget2 d "models" "relative_viscosity_bubbles_model" = Ok (sel_bub s) /\
  jget2 d "models" "yield_strength_model" = Ok (sel_yield s) /\
  jget2 d "models" "crust_temperature_model" = Ok (sel_crust s) /\
  jget2 d "models" "effective_cover_crust_model" = Ok (sel_cover s) /\
  jget2 d "models" "vesicle_fraction_model" = Ok (sel_ves s) /\
  jget2 d "heat_budget_models" "radiation" = Ok (sel_rad s) /\
  jget2 d "heat_budget_models" "snyder" = Ok (sel_snyder s) /\
  jget2 d "heat_budget_models" "conduction" = Ok (sel_cond s) /\
  jget2 d "heat_budget_models" "convection" = Ok (sel_conv s) /\
  jget2 d "heat_budget_models" "rain" = Ok (sel_rain s) /\
  jget2 d "heat_budget_models" "viscous_heating" = Ok (sel_visc s).
Proof.
  unfold read_selectors. intros H.
  do 14 (apply rbind_ok in H as (? & ? & H)). injection H as <-. cbn. auto 20.
Qed.

(** ** C49 *)
(** Accepted configurations: every selector holds the documented name of the
    class that was built. *)
Theorem C49_accepted_names_select_their_model : forall d profile (mo : models T),
  build_models d profile = Ok mo ->
  says_name d "crystallization_rate_model" (cryst_name (mo_cryst mo)) /\
  says_name d "vesicle_fraction_model" (vesicle_name (lv_ves (mo_lava mo))) /\
  says_name d "melt_viscosity_model" (melt_name (lv_melt (mo_lava mo))) /\
  says_name d "relative_viscosity_model" (rel_name (lv_rel (mo_lava mo))) /\
  says_name d "relative_viscosity_bubbles_model" (bub_name (lv_bub (mo_lava mo))) /\
  says_name d "yield_strength_model" (yield_name (lv_yield (mo_lava mo))) /\
  says_name d "effective_cover_crust_model" (cover_name (mo_cover mo)) /\
  says_name d "crust_temperature_model" (crust_name (mo_crust mo)).
Proof.
  intros d profile mo H.
  destruct (build_models_inv _ _ _ H) as (s & vm & mm & rm & bm & ym & fr & Hs & Hcr & _ & Hvm & Hmm & Hrm & Hbm & Hym & Hlv & Hcv & Hct & _).
  apply read_selectors_inv in Hs as (S1 & S2 & S3 & S4 & S5 & S6 & S7 & S8 & _).
  destruct (read_lava_parts _ _ _ _ _ _ _ Hlv) as (L1 & L2 & L3 & L4 & L5 & _).
  rewrite L1, L2, L3, L4, L5.
  apply build_cryst_name in Hcr as (a & Ha & Ea). apply build_vesicle_name in Hvm as (b & Hb & Eb).
  apply build_melt_name in Hmm as (c & Hc & Ec). apply build_rel_name in Hrm as (e & He & Ee).
  apply build_bub_name in Hbm as (f & Hf & Ef). apply build_yield_name in Hym as (g & Hg & Eg).
  apply build_cover_name in Hcv as (h & Hh & Eh). apply build_crust_name in Hct as (i & Hi & Ei).
  unfold says_name, says. rewrite S1, S2, S3, S4, S5, S6, S7, S8, Ea, Eb, Ec, Ee, Ef, Eg, Eh, Ei.
  repeat match goal with |- _ /\ _ => split end; eauto.
Qed.

(** ... and every flux selector agrees with the heat budget. *)
Theorem C49_accepted_names_select_their_fluxes : forall d profile (mo : models T),
  build_models d profile = Ok mo ->
  ((says d "heat_budget_models" "radiation" "no" /\ ~ exists k s, In (FRadiation k s) (mo_budget mo)) \/
   (exists k s, In (FRadiation k s) (mo_budget mo) /\ says d "heat_budget_models" "radiation" (rad_name k))) /\
  says_yes_no d "conduction" (exists a b, In (FConduction a b) (mo_budget mo)) /\
  says_yes_no d "convection" (In FConvection (mo_budget mo)) /\
  says_yes_no d "rain" (exists a b c, In (FRain a b c) (mo_budget mo)) /\
  says_yes_no d "viscous_heating" (In FViscous (mo_budget mo)) /\
  says_yes_no d "snyder" (In FSnyder (mo_budget mo)).
Proof.
  intros d profile mo H.
  destruct (build_models_inv _ _ _ H) as (s & vm & mm & rm & bm & ym & fr & Hs & _ & _ & _ & _ & _ & _ & _ & _ & _ & _ & Hfr & Hfl).
  apply read_selectors_inv in Hs as (_ & _ & _ & _ & _ & _ & _ & _ & S9 & S10 & S11 & S12 & S13 & S14).
  unfold says_yes_no, says. rewrite S9, S10, S11, S12, S13, S14.
  unfold choose_fluxes in Hfr.
  apply rbind_ok in Hfr as (a & Ha & Hfr). apply rbind_ok in Hfr as (b & Hb & Hfr).
  apply rbind_ok in Hfr as (c & Hc & Hfr). apply rbind_ok in Hfr as (e & He & Hfr).
  apply rbind_ok in Hfr as (f & Hf & Hfr). apply rbind_ok in Hfr as (g & Hg & Hfr). injection Hfr as <-.
  rewrite !rmapM_app in Hfl.
  apply rbind_ok in Hfl as (qa & Qa & Hfl). apply rbind_ok in Hfl as (r1 & R1 & Hfl). injection Hfl as Emo.
  apply rbind_ok in R1 as (qb & Qb & R1). apply rbind_ok in R1 as (r2 & R2 & R1). injection R1 as <-.
  apply rbind_ok in R2 as (qc & Qc & R2). apply rbind_ok in R2 as (r3 & R3 & R2). injection R2 as <-.
  apply rbind_ok in R3 as (qe & Qe & R3). apply rbind_ok in R3 as (r4 & R4 & R3). injection R3 as <-.
  apply rbind_ok in R4 as (qf & Qf & R4). apply rbind_ok in R4 as (qg & Qg & R4). injection R4 as <-.
  rewrite <- Emo. clear Emo H.
  assert (Pa : (sel_rad s = JStr "no" /\ qa = []) \/ exists k x, qa = [FRadiation k x] /\ sel_rad s = JStr (rad_name k)).
  { unfold choose_radiation in Ha.
    destruct (jis (sel_rad s) "basic") eqn:E1.
    { injection Ha as <-. cbn [rmapM] in Qa. apply rbind_ok in Qa as (y & Hy & Qa). cbn in Qa. injection Qa as <-.
      unfold read_f_rad_basic in Hy. inv_read Hy. injection Hy as <-. apply jis_str in E1. right; do 2 eexists; split; [reflexivity|]; cbn; auto. }
    destruct (jis (sel_rad s) "2_emi") eqn:E2.
    { injection Ha as <-. cbn [rmapM] in Qa. apply rbind_ok in Qa as (y & Hy & Qa). cbn in Qa. injection Qa as <-.
      unfold read_f_rad_2emi in Hy. inv_read Hy. injection Hy as <-. apply jis_str in E2. right; do 2 eexists; split; [reflexivity|]; cbn; auto. }
    destruct (jis (sel_rad s) "cont") eqn:E3.
    { injection Ha as <-. cbn [rmapM] in Qa. apply rbind_ok in Qa as (y & Hy & Qa). cbn in Qa. injection Qa as <-.
      unfold read_f_rad_cont in Hy. inv_read Hy. injection Hy as <-. apply jis_str in E3. right; do 2 eexists; split; [reflexivity|]; cbn; auto. }
    destruct (jis (sel_rad s) "lin_emi") eqn:E4.
    { injection Ha as <-. cbn [rmapM] in Qa. apply rbind_ok in Qa as (y & Hy & Qa). cbn in Qa. injection Qa as <-.
      unfold read_f_rad_lin in Hy. inv_read Hy. injection Hy as <-. apply jis_str in E4. right; do 2 eexists; split; [reflexivity|]; cbn; auto. }
    destruct (jis (sel_rad s) "no") eqn:E5; [|discriminate]. injection Ha as <-. cbn in Qa. injection Qa as <-.
    apply jis_str in E5. auto. }
  assert (Pb : (sel_cond s = JStr "no" /\ qb = []) \/ exists x y, qb = [FConduction x y] /\ sel_cond s = JStr "yes").
  { destruct (yes_no_reader _ _ _ _ Hb) as [[-> E]|[-> E]]; apply jis_str in E.
    - cbn in Qb. injection Qb as <-. auto.
    - cbn [rmapM] in Qb. apply rbind_ok in Qb as (y & Hy & Qb). cbn in Qb. injection Qb as <-.
      unfold read_f_conduction in Hy. inv_read Hy. injection Hy as <-. right; eauto 6. }
  assert (Pc : (sel_conv s = JStr "no" /\ qc = []) \/ (qc = [FConvection] /\ sel_conv s = JStr "yes")).
  { destruct (yes_no_reader _ _ _ _ Hc) as [[-> E]|[-> E]]; apply jis_str in E; cbn in Qc; injection Qc as <-; auto. }
  assert (Pe : (sel_rain s = JStr "no" /\ qe = []) \/ exists x y z, qe = [FRain x y z] /\ sel_rain s = JStr "yes").
  { destruct (yes_no_reader _ _ _ _ He) as [[-> E]|[-> E]]; apply jis_str in E.
    - cbn in Qe. injection Qe as <-. auto.
    - cbn [rmapM] in Qe. apply rbind_ok in Qe as (y & Hy & Qe). cbn in Qe. injection Qe as <-.
      unfold read_f_rain in Hy. inv_read Hy. injection Hy as <-. right; eauto 6. }
  assert (Pf : (sel_visc s = JStr "no" /\ qf = []) \/ (qf = [FViscous] /\ sel_visc s = JStr "yes")).
  { destruct (yes_no_reader _ _ _ _ Hf) as [[-> E]|[-> E]]; apply jis_str in E; cbn in Qf; injection Qf as <-; auto. }
  assert (Pg : (sel_snyder s = JStr "no" /\ qg = []) \/ (qg = [FSnyder] /\ sel_snyder s = JStr "yes")).
  { unfold choose_snyder in Hg. destruct (jis (sel_snyder s) "yes" && jis (sel_conv s) "no" && jis (sel_rad s) "no") eqn:E.
    - apply andb_prop in E as [E _]. apply andb_prop in E as [E _]. apply jis_str in E.
      injection Hg as <-. cbn [rmapM] in Qg. apply rbind_ok in Qg as (y & Hy & Qg). cbn in Qg. injection Qg as <-.
      unfold read_f_snyder in Hy. inv_read Hy. injection Hy as <-. auto.
    - destruct (jis (sel_snyder s) "no") eqn:E2; [|discriminate]. apply jis_str in E2.
      injection Hg as <-. cbn in Qg. injection Qg as <-. auto. }
  clear -Pa Pb Pc Pe Pf Pg.
  assert (Na : forall f, In f qa -> exists k x, f = FRadiation k x).
  { destruct Pa as [[_ ->]|(k & x & -> & _)]; cbn; [tauto|]. intros f [<-|[]]; eauto. }
  assert (Nb : forall f, In f qb -> exists x y, f = FConduction x y).
  { destruct Pb as [[_ ->]|(k & x & -> & _)]; cbn; [tauto|]. intros f [<-|[]]; eauto. }
  assert (Nc : forall f, In f qc -> f = FConvection).
  { destruct Pc as [[_ ->]|[-> _]]; cbn; [tauto|]. intros f [<-|[]]; eauto. }
  assert (Ne : forall f, In f qe -> exists x y z, f = FRain x y z).
  { destruct Pe as [[_ ->]|(k & x & z & -> & _)]; cbn; [tauto|]. intros f [<-|[]]; eauto. }
  assert (Nf : forall f, In f qf -> f = FViscous).
  { destruct Pf as [[_ ->]|[-> _]]; cbn; [tauto|]. intros f [<-|[]]; eauto. }
  assert (Ng : forall f, In f qg -> f = FSnyder).
  { destruct Pg as [[_ ->]|[-> _]]; cbn; [tauto|]. intros f [<-|[]]; eauto. }
  assert (NI : forall f, In f (qa ++ qb ++ qc ++ qe ++ qf ++ qg) <->
     In f qa \/ In f qb \/ In f qc \/ In f qe \/ In f qf \/ In f qg) by (intros; rewrite !in_app_iff; tauto).
  assert (Kill : forall f, In f (qa ++ qb ++ qc ++ qe ++ qf ++ qg) ->
     match f with FRadiation _ _ => In f qa | FConduction _ _ => In f qb | FConvection => In f qc
                | FRain _ _ _ => In f qe | FViscous => In f qf | FSnyder => In f qg end).
  { intros f Hf. apply NI in Hf as [Q|[Q|[Q|[Q|[Q|Q]]]]].
    - destruct (Na f Q) as (k & x & ->). exact Q.
    - destruct (Nb f Q) as (k & x & ->). exact Q.
    - pose proof (Nc f Q) as ->. exact Q.
    - destruct (Ne f Q) as (k & x & z & ->). exact Q.
    - pose proof (Nf f Q) as ->. exact Q.
    - pose proof (Ng f Q) as ->. exact Q. }
  repeat match goal with |- _ /\ _ => split end.
  - destruct Pa as [[E ->]|(k & x & -> & E)].
    + left. split; [congruence|]. intros (k & x & Hk). apply Kill in Hk. exact Hk.
    + right. exists k, x. split; [apply NI; left; now left|congruence].
  - destruct Pb as [[E ->]|(k & x & -> & E)].
    + right. split; [congruence|]. intros (k & x & Hk). apply Kill in Hk. exact Hk.
    + left. split; [congruence|]. exists k, x. apply NI. right; left; now left.
  - destruct Pc as [[E ->]|[-> E]].
    + right. split; [congruence|]. intros Hk. apply Kill in Hk. exact Hk.
    + left. split; [congruence|]. apply NI. right; right; left; now left.
  - destruct Pe as [[E ->]|(k & x & z & -> & E)].
    + right. split; [congruence|]. intros (k & x & z & Hk). apply Kill in Hk. exact Hk.
    + left. split; [congruence|]. exists k, x, z. apply NI. right; right; right; left; now left.
  - destruct Pf as [[E ->]|[-> E]].
    + right. split; [congruence|]. intros Hk. apply Kill in Hk. exact Hk.
    + left. split; [congruence|]. apply NI. right; right; right; right; left; now left.
  - destruct Pg as [[E ->]|[-> E]].
    + right. split; [congruence|]. intros Hk. apply Kill in Hk. exact Hk.
    + left. split; [congruence|]. apply NI. right; right; right; right; right; now left.
Qed.

(** The documented values of each selector. *)
Definition documented (key : string) : list string :=
  if String.eqb key "crystallization_rate_model" then ["basic"; "bimodal"; "bimodal_f_temp"; "melts"]
  else if String.eqb key "vesicle_fraction_model" then ["constant"; "bimodal"; "variable"; "variable_bimodal"; "poly"]
  else if String.eqb key "melt_viscosity_model" then ["basic"; "shaw"; "vft"]
  else if String.eqb key "relative_viscosity_model" then
    ["er"; "kd"; "mp"; "mp_mueller"; "mader"; "bll"; "ptp1"; "ptp2"; "ptp3"; "costa1"; "costa2"]
  else if String.eqb key "relative_viscosity_bubbles_model" then ["rigid"; "deformable"; "no"; "mader"]
  else if String.eqb key "yield_strength_model" then ["basic"; "dragoni"; "dragoni-alone"; "ryerson"; "bll"]
  else if String.eqb key "effective_cover_crust_model" then ["basic"; "bimodal"]
  else if String.eqb key "crust_temperature_model" then ["constant"; "hon"; "bimodal"; "field"]
  else if String.eqb key "radiation" then ["basic"; "2_emi"; "cont"; "lin_emi"; "no"]
  else ["yes"; "no"].
Definition model_keys : list string :=
  ["crystallization_rate_model"; "vesicle_fraction_model"; "melt_viscosity_model"; "relative_viscosity_model";
   "relative_viscosity_bubbles_model"; "yield_strength_model"; "effective_cover_crust_model"; "crust_temperature_model"].
Definition budget_keys : list string :=
  ["radiation"; "conduction"; "convection"; "rain"; "viscous_heating"; "snyder"].

(** Any other value of any of the fourteen selectors, and the absence of a
    selector, is refused. *)
Theorem C49_other_names_refused : forall d profile (mo : models T) section key,
  (section = "models" /\ In key model_keys) \/ (section = "heat_budget_models" /\ In key budget_keys) ->
  build_models d profile = Ok mo -> exists s, says d section key s /\ In s (documented key).
Proof.
  intros d profile mo section key Hk H.
  destruct (C49_accepted_names_select_their_model _ _ _ H) as (A1 & A2 & A3 & A4 & A5 & A6 & A7 & A8).
  destruct (C49_accepted_names_select_their_fluxes _ _ _ H) as (B1 & B2 & B3 & B4 & B5 & B6).
  destruct Hk as [[-> Hk]|[-> Hk]].
  - cbn in Hk. repeat (destruct Hk as [<-|Hk]); [..|contradiction].
    + destruct A1 as (s & E & S). exists s. split; [exact S|]. destruct (mo_cryst mo); cbn in E; injection E as <-; cbn; tauto.
    + destruct A2 as (s & E & S). exists s. split; [exact S|]. destruct (lv_ves (mo_lava mo)); cbn in E; injection E as <-; cbn; tauto.
    + destruct A3 as (s & E & S). exists s. split; [exact S|]. destruct (lv_melt (mo_lava mo)); cbn in E; injection E as <-; cbn; tauto.
    + destruct A4 as (s & E & S). exists s. split; [exact S|].
      destruct (lv_rel (mo_lava mo)); cbn in E; try discriminate E; injection E as <-; cbn; tauto.
    + destruct A5 as (s & E & S). exists s. split; [exact S|]. destruct (lv_bub (mo_lava mo)); cbn in E; injection E as <-; cbn; tauto.
    + destruct A6 as (s & E & S). exists s. split; [exact S|]. destruct (lv_yield (mo_lava mo)); cbn in E; injection E as <-; cbn; tauto.
    + destruct A7 as (s & E & S). exists s. split; [exact S|]. destruct (mo_cover mo); cbn in E; injection E as <-; cbn; tauto.
    + destruct A8 as (s & E & S). exists s. split; [exact S|].
      destruct (mo_crust mo) as [| | |? []|]; cbn in E; try discriminate E; injection E as <-; cbn; tauto.
  - cbn in Hk. repeat (destruct Hk as [<-|Hk]); [..|contradiction].
    + destruct B1 as [[S _]|(k & s & _ & S)]; eexists; (split; [exact S|]); [cbn; tauto|destruct k; cbn; tauto].
    + destruct B2 as [[S _]|[S _]]; eexists; (split; [exact S|]); cbn; tauto.
    + destruct B3 as [[S _]|[S _]]; eexists; (split; [exact S|]); cbn; tauto.
    + destruct B4 as [[S _]|[S _]]; eexists; (split; [exact S|]); cbn; tauto.
    + destruct B5 as [[S _]|[S _]]; eexists; (split; [exact S|]); cbn; tauto.
    + destruct B6 as [[S _]|[S _]]; eexists; (split; [exact S|]); cbn; tauto.
Qed.

(** Conversely: a configuration that has every documented numeric parameter and
    a documented value for every selector (Snyder only without radiation and
    convection) is accepted. *)
Definition parameters : list (string * string) :=
  [ ("lava_state", "crystal_fraction"); ("lava_state", "critical_distance"); ("lava_state", "critical_temperature");
    ("lava_state", "vesicle_fraction"); ("lava_state", "vesicle_fraction_1"); ("lava_state", "vesicle_fraction_2");
    ("lava_state", "vesicle_coef"); ("lava_state", "vesicle_poly_a"); ("lava_state", "vesicle_poly_b");
    ("lava_state", "liquidus_temperature"); ("lava_state", "density_dre");
    ("crystals_parameters", "crystals_grown_during_cooling"); ("crystals_parameters", "solid_temperature");
    ("crystals_parameters", "crystallization_rate_1"); ("crystals_parameters", "crystallization_rate_2");
    ("crystals_parameters", "latent_heat_of_crystallization");
    ("eruption_condition", "eruption_temperature"); ("eruption_condition", "viscosity_eruption");
    ("melt_viscosity_parameters", "shaw_slope"); ("melt_viscosity_parameters", "a_vft");
    ("melt_viscosity_parameters", "b_vft"); ("melt_viscosity_parameters", "c_vft");
    ("relative_viscosity_parameters", "max_packing"); ("relative_viscosity_parameters", "einstein_coef");
    ("relative_viscosity_parameters", "crystal_aspect_ratio"); ("relative_viscosity_parameters", "Bsolid");
    ("relative_viscosity_parameters", "Bgas"); ("relative_viscosity_parameters", "vesicle_radius");
    ("relative_viscosity_parameters", "surface_tension"); ("relative_viscosity_parameters", "crit_packing");
    ("relative_viscosity_parameters", "strain_rate");
    ("thermal_parameters", "buffer"); ("thermal_parameters", "crust_temperature");
    ("thermal_parameters", "crust_temperature_1"); ("thermal_parameters", "crust_temperature_2");
    ("thermal_parameters", "alpha"); ("thermal_parameters", "alpha_1"); ("thermal_parameters", "alpha_2");
    ("thermal_parameters", "crust_cover_fraction"); ("thermal_parameters", "crust_cover_fraction_2");
    ("convection_parameters", "air_temperature"); ("convection_parameters", "wind_speed");
    ("convection_parameters", "ch_air"); ("convection_parameters", "air_density");
    ("convection_parameters", "air_specific_heat_capacity");
    ("radiation_parameters", "stefan-boltzmann_sigma"); ("radiation_parameters", "emissivity_epsilon");
    ("radiation_parameters", "epsilon_crust"); ("radiation_parameters", "epsilon_hot");
    ("conduction_parameters", "basal_temperature"); ("conduction_parameters", "core_base_distance");
    ("rain_parameters", "rainfall_rate"); ("rain_parameters", "density_water");
    ("rain_parameters", "latent_heat_vaporization") ].
Definition all_parameters (d : json T) : Prop :=
  forall sec key, In (sec, key) parameters -> exists x, jfloat2 d sec key = Ok x.

Lemma require2_of_float d sec key (x : T) : jfloat2 d sec key = Ok x -> require2 d sec key = Ok tt.
Proof.
  unfold jfloat2, require2. intros H. apply rbind_ok in H as (s & -> & H). cbn [rbind].
  unfold jget in H. destruct s; try discriminate H. cbn [jmem rbind].
  destruct (assoc key fields); [reflexivity|discriminate H].
Qed.

Ltac readf F := repeat match goal with
    | |- context [jfloat2 _ ?s ?k] => let x := fresh "x" in let E := fresh "E" in
         destruct (F s k eq_refl) as (x & E); rewrite ?E, ?(require2_of_float _ _ _ _ E); cbn [rbind]
    | |- context [require2 _ ?s ?k] => let x := fresh "x" in let E := fresh "E" in
         destruct (F s k eq_refl) as (x & E); rewrite ?E, ?(require2_of_float _ _ _ _ E); cbn [rbind]
    end.
Theorem C49_documented_names_accepted : forall d profile,
  all_parameters d ->
  (forall key, In key model_keys -> exists s, says d "models" key s /\ In s (documented key)) ->
  (forall key, In key budget_keys -> exists s, says d "heat_budget_models" key s /\ In s (documented key)) ->
  (says d "heat_budget_models" "snyder" "yes" ->
     says d "heat_budget_models" "radiation" "no" /\ says d "heat_budget_models" "convection" "no") ->
  (says d "models" "crystallization_rate_model" "melts" -> jmem d "melts_look-up_table" = Ok true) ->
  (says d "models" "crust_temperature_model" "field" ->
     require2 d "thermal_parameters" "crust_temperature_file" = Ok tt /\
     exists lines tbl, profile = Some lines /\ read_crust_temperature_table lines = Ok tbl) ->
  exists mo, build_models d profile = Ok mo.
Proof.
  intros d profile HP HM HB HS HC HF.
  assert (F : forall sec key, existsb (fun p => String.eqb (fst p) sec && String.eqb (snd p) key) parameters = true ->
            exists x, jfloat2 d sec key = Ok x).
  { intros sec key Hin. apply HP. apply existsb_exists in Hin as ([a b] & Hin & E). cbn in E.
    apply andb_prop in E as [E1 E2]. apply String.eqb_eq in E1. apply String.eqb_eq in E2. now subst. }
  assert (HMk : forall key, existsb (String.eqb key) model_keys = true -> exists s, says d "models" key s /\ In s (documented key)).
  { intros key E. apply HM. apply existsb_exists in E as (k & Hin & E). apply String.eqb_eq in E. now subst. }
  assert (HBk : forall key, existsb (String.eqb key) budget_keys = true -> exists s, says d "heat_budget_models" key s /\ In s (documented key)).
  { intros key E. apply HB. apply existsb_exists in E as (k & Hin & E). apply String.eqb_eq in E. now subst. }
  destruct (HMk "crystallization_rate_model" eq_refl) as (n1 & S1 & I1).
  destruct (HMk "vesicle_fraction_model" eq_refl) as (n2 & S2 & I2).
  destruct (HMk "melt_viscosity_model" eq_refl) as (n3 & S3 & I3).
  destruct (HMk "relative_viscosity_model" eq_refl) as (n4 & S4 & I4).
  destruct (HMk "relative_viscosity_bubbles_model" eq_refl) as (n5 & S5 & I5).
  destruct (HMk "yield_strength_model" eq_refl) as (n6 & S6 & I6).
  destruct (HMk "effective_cover_crust_model" eq_refl) as (n7 & S7 & I7).
  destruct (HMk "crust_temperature_model" eq_refl) as (n8 & S8 & I8).
  destruct (HBk "radiation" eq_refl) as (m1 & R1 & J1).
  destruct (HBk "conduction" eq_refl) as (m2 & R2 & J2).
  destruct (HBk "convection" eq_refl) as (m3 & R3 & J3).
  destruct (HBk "rain" eq_refl) as (m4 & R4 & J4).
  destruct (HBk "viscous_heating" eq_refl) as (m5 & R5 & J5).
  destruct (HBk "snyder" eq_refl) as (m6 & R6 & J6).
  unfold says in *.
  unfold build_models, read_selectors. rewrite S1, S2, S3, S4, S5, S6, S7, S8, R1, R2, R3, R4, R5, R6. cbn [rbind].
  cbn [sel_cryst sel_melt sel_rel sel_bub sel_yield sel_crust sel_cover sel_ves sel_rad sel_snyder sel_cond sel_conv sel_rain sel_visc].
  assert (B1 : exists m, build_cryst (JStr n1) d = Ok m).
  { cbn in I1. destruct I1 as [<-|[<-|[<-|[<-|[]]]]]; unfold build_cryst; cbn [jis String.eqb Ascii.eqb Bool.eqb].
    - unfold read_cr_basic. readf F. eauto.
    - unfold read_cr_bimodal. readf F. eauto.
    - unfold read_cr_bimodal_f_temp. readf F. eauto.
    - unfold read_cr_melts. rewrite (HC S1). cbn [rbind]. readf F. eauto. }
  destruct B1 as (c1 & ->). cbn [rbind].
  assert (B1 : exists m, read_air d = Ok m) by (unfold read_air; readf F; eauto). destruct B1 as (c2 & ->). cbn [rbind].
  assert (B1 : exists m, build_vesicle (JStr n2) d = Ok m).
  { cbn in I2. repeat (destruct I2 as [<-|I2]); [..|contradiction]; unfold build_vesicle; cbn [jis String.eqb Ascii.eqb Bool.eqb];
    unfold read_v_constant, read_v_bimodal, read_v_variable, read_v_variable_bimodal, read_v_poly; readf F; eauto. }
  destruct B1 as (c3 & ->). cbn [rbind].
  assert (B1 : exists m, build_melt (JStr n3) d = Ok m).
  { cbn in I3. repeat (destruct I3 as [<-|I3]); [..|contradiction]; unfold build_melt; cbn [jis String.eqb Ascii.eqb Bool.eqb];
    unfold read_melt_basic, read_melt_shaw, read_melt_vft; readf F; eauto. }
  destruct B1 as (c4 & ->). cbn [rbind].
  assert (B1 : exists m, build_rel (JStr n4) c3 c4 d = Ok m).
  { cbn in I4. repeat (destruct I4 as [<-|I4]); [..|contradiction]; unfold build_rel; cbn [jis String.eqb Ascii.eqb Bool.eqb];
    unfold read_rel_kd, read_rel_mp, read_rel_mueller, read_rel_mader, read_rel_bll, read_rel_costa1, read_rel_costa2, rvp;
    readf F; eauto. }
  destruct B1 as (c5 & ->). cbn [rbind].
  assert (B1 : exists m, build_bub (JStr n5) c3 c4 c5 d = Ok m).
  { cbn in I5. repeat (destruct I5 as [<-|I5]); [..|contradiction]; unfold build_bub; cbn [jis String.eqb Ascii.eqb Bool.eqb];
    unfold read_bub_mader, rvp; readf F; eauto. }
  destruct B1 as (c6 & ->). cbn [rbind].
  assert (B1 : exists m, build_yield (JStr n6) d = Ok m).
  { cbn in I6. repeat (destruct I6 as [<-|I6]); [..|contradiction]; unfold build_yield; cbn [jis String.eqb Ascii.eqb Bool.eqb];
    unfold read_y_basic, read_y_dragoni, read_y_dragoni_alone, read_y_ryerson, read_y_bll; readf F; eauto. }
  destruct B1 as (c7 & ->). cbn [rbind].
  assert (B1 : exists m, read_lava c4 c5 c6 c7 c3 d = Ok m) by (unfold read_lava, rvp; readf F; eauto).
  destruct B1 as (c8 & ->). cbn [rbind].
  assert (B1 : exists m, build_cover (JStr n7) d = Ok m).
  { cbn in I7. repeat (destruct I7 as [<-|I7]); [..|contradiction]; unfold build_cover; cbn [jis String.eqb Ascii.eqb Bool.eqb];
    unfold read_cv_basic, read_cv_bimodal; readf F; eauto. }
  destruct B1 as (c9 & ->). cbn [rbind].
  assert (B1 : exists m, build_crust (JStr n8) profile d = Ok m).
  { cbn in I8. repeat (destruct I8 as [<-|I8]); [..|contradiction]; unfold build_crust; cbn [jis String.eqb Ascii.eqb Bool.eqb];
    unfold read_ct_constant, read_ct_hon, read_ct_bimodal; readf F; eauto.
    destruct (HF S8) as (Q & lines & tbl & -> & ->). cbn [rbind]. unfold read_ct_field. rewrite Q. cbn [rbind]. readf F. eauto. }
  destruct B1 as (c10 & ->). cbn [rbind].
  assert (B1 : exists fr, choose_fluxes {| sel_cryst := JStr n1; sel_melt := JStr n3; sel_rel := JStr n4; sel_bub := JStr n5;
       sel_yield := JStr n6; sel_crust := JStr n8; sel_cover := JStr n7; sel_ves := JStr n2; sel_rad := JStr m1;
       sel_snyder := JStr m6; sel_cond := JStr m2; sel_conv := JStr m3; sel_rain := JStr m4; sel_visc := JStr m5 |} = Ok fr
       /\ exists fl, rmapM (fun r => r d) fr = Ok fl).
  { unfold choose_fluxes.
    cbn [sel_cryst sel_melt sel_rel sel_bub sel_yield sel_crust sel_cover sel_ves sel_rad sel_snyder sel_cond sel_conv sel_rain sel_visc].
    assert (A1 : exists l, choose_radiation (JStr m1) = Ok l /\ exists fl, rmapM (fun r => r d) l = Ok fl).
    { cbn in J1. repeat (destruct J1 as [<-|J1]); [..|contradiction]; unfold choose_radiation; cbn [jis String.eqb Ascii.eqb Bool.eqb];
      eexists; (split; [reflexivity|]); cbn [rmapM];
      unfold read_f_rad_basic, read_f_rad_2emi, read_f_rad_cont, read_f_rad_lin; readf F; eauto. }
    assert (Y : forall m r name, In m ["yes"; "no"] -> (exists q : flux T, r d = Ok q) ->
        exists l, choose_yes_no (JStr m) r name = Ok l /\ exists fl, rmapM (fun r => r d) l = Ok fl).
    { intros m r name Hm (q & Hq). destruct Hm as [<-|[<-|[]]]; unfold choose_yes_no; cbn [jis String.eqb Ascii.eqb Bool.eqb];
      eexists; (split; [reflexivity|]); cbn [rmapM]; rewrite ?Hq; cbn; eauto. }
    destruct A1 as (l1 & -> & f1 & F1). cbn [rbind].
    destruct (Y m2 read_f_conduction "conduction") as (l2 & -> & f2 & F2).
    { exact J2. } { unfold read_f_conduction. readf F. eauto. } cbn [rbind].
    destruct (Y m3 (fun _ => Ok FConvection) "convection") as (l3 & -> & f3 & F3); [exact J3|eauto|]. cbn [rbind].
    destruct (Y m4 read_f_rain "rain") as (l4 & -> & f4 & F4).
    { exact J4. } { unfold read_f_rain. readf F. eauto. } cbn [rbind].
    destruct (Y m5 (fun _ => Ok FViscous) "viscous_heating") as (l5 & -> & f5 & F5); [exact J5|eauto|]. cbn [rbind].
    assert (A6 : exists l, choose_snyder {| sel_cryst := JStr n1; sel_melt := JStr n3; sel_rel := JStr n4; sel_bub := JStr n5;
       sel_yield := JStr n6; sel_crust := JStr n8; sel_cover := JStr n7; sel_ves := JStr n2; sel_rad := JStr m1;
       sel_snyder := JStr m6; sel_cond := JStr m2; sel_conv := JStr m3; sel_rain := JStr m4; sel_visc := JStr m5 |} = Ok l /\
       exists fl, rmapM (fun r => r d) l = Ok fl).
    { unfold choose_snyder. cbn [sel_snyder sel_conv sel_rad]. cbn in J6. destruct J6 as [<-|[<-|[]]].
      - destruct (HS R6) as [X1 X2]. rewrite R1 in X1. injection X1 as ->. rewrite R3 in X2. injection X2 as ->.
        cbn [jis String.eqb Ascii.eqb Bool.eqb andb]. eexists; split; [reflexivity|]. cbn [rmapM]. unfold read_f_snyder. readf F. eauto.
      - cbn [jis String.eqb Ascii.eqb Bool.eqb andb]. eexists; split; [reflexivity|]. cbn. eauto. }
    destruct A6 as (l6 & -> & f6 & F6). cbn [rbind].
    eexists; split; [reflexivity|]. rewrite !rmapM_app, F1, F2, F3, F4, F5, F6. cbn [rbind]. eauto. }
  destruct B1 as (fr & -> & fl & Hfl). cbn [rbind]. rewrite Hfl. cbn [rbind]. eauto.
Qed.

(** An undocumented value that is reached raises NameError (whatever its JSON
    type), and a configuration without the section raises KeyError. *)
Theorem C49_name_error : forall (v d : json T) profile vm mm rm,
  (~ (exists s, v = JStr s /\ In s (documented "crystallization_rate_model")) ->
     exists m, build_cryst v d = Err (NameError m)) /\
  (~ (exists s, v = JStr s /\ In s (documented "vesicle_fraction_model")) ->
     exists m, build_vesicle v d = Err (NameError m)) /\
  (~ (exists s, v = JStr s /\ In s (documented "melt_viscosity_model")) ->
     exists m, build_melt v d = Err (NameError m)) /\
  (~ (exists s, v = JStr s /\ In s (documented "relative_viscosity_model")) ->
     exists m, build_rel v vm mm d = Err (NameError m)) /\
  (~ (exists s, v = JStr s /\ In s (documented "relative_viscosity_bubbles_model")) ->
     exists m, build_bub v vm mm rm d = Err (NameError m)) /\
  (~ (exists s, v = JStr s /\ In s (documented "yield_strength_model")) ->
     exists m, build_yield v d = Err (NameError m)) /\
  (~ (exists s, v = JStr s /\ In s (documented "effective_cover_crust_model")) ->
     exists m, build_cover v d = Err (NameError m)) /\
  (~ (exists s, v = JStr s /\ In s (documented "crust_temperature_model")) ->
     exists m, build_crust v profile d = Err (NameError m)).
Proof.
  intros v d profile vm mm rm.
  assert (A : forall key, ~ (exists s, v = JStr s /\ In s (documented key)) ->
     forall s, existsb (String.eqb s) (documented key) = true -> jis v s = false).
  { intros key Hn s Hs. destruct (jis v s) eqn:E; [|reflexivity]. exfalso. apply jis_str in E. apply Hn.
    exists s. split; [exact E|]. apply existsb_exists in Hs as (x & Hx & Ex). apply String.eqb_eq in Ex. now subst. }
  repeat match goal with |- _ /\ _ => split end; intros Hn; pose proof (A _ Hn) as Hj;
    unfold build_cryst, build_vesicle, build_melt, build_rel, build_bub, build_yield, build_cover, build_crust;
    rewrite !Hj by reflexivity; eauto.
Qed.
Theorem C49_missing_sections : forall fields profile,
  (assoc "models" fields = None -> build_models (T:=T) (JObj fields) profile = Err (KeyError "models")).
Proof. intros fields profile H. unfold build_models, read_selectors, jget2, jget. now rewrite H. Qed.

(** ** C59: models built from one configuration agree *)
(** One eruption temperature, one solidus source, one vesicle model and one
    melt model are shared by everything that uses them (the bll yield strength
    excepted: it keeps its own vesicle fraction 0.1). *)
Definition cryst_terupt (m : cryst_model T) : T :=
  match m with CrBasic _ _ _ te => te | CrBimodal _ _ _ _ _ te => te | CrBimodalTemp _ _ _ _ _ te => te
             | CrMelts _ _ te _ => te end.
Definition yield_terupt (m : yield_model T) : T :=
  match m with YBasic te => te | YDragoni _ te => te | YDragoniAlone _ te => te | YRyerson te => te | YBLL _ te => te end.
Definition rel_vesicles (m : rel_model T) : option (vesicle_model T) :=
  match m with RelBLL vm _ _ _ _ _ _ _ => Some vm | RelPTP1 vm => Some vm | RelPTP2 vm => Some vm | RelPTP3 vm => Some vm
             | _ => None end.
Definition bub_vesicles (m : bubbles_model T) : vesicle_model T :=
  match m with BubNo vm => vm | BubRigid vm => vm | BubDefo vm => vm | BubMader vm _ _ _ _ => vm end.

Theorem C59_models_agree : forall d profile (mo : models T),
  build_models d profile = Ok mo ->
  let l := mo_lava mo in
  cryst_terupt (mo_cryst mo) = lv_terupt l /\
  yield_terupt (lv_yield l) = lv_terupt l /\
  (forall v te, lv_melt l = MeltBasic v te -> te = lv_terupt l) /\
  (forall vm, rel_vesicles (lv_rel l) = Some vm -> vm = lv_ves l) /\
  bub_vesicles (lv_bub l) = lv_ves l /\
  (forall vm mm a b c e f g, lv_rel l = RelBLL vm mm a b c e f g -> mm = lv_melt l) /\
  (forall vm mm rm a b, lv_bub l = BubMader vm mm rm a b -> mm = lv_melt l /\ rm = lv_rel l) /\
  (forall vm te, lv_yield l = YBLL vm te -> vm = VConstant (n_lit 1 10)).
Proof.
  intros d profile mo H l.
  destruct (build_models_inv _ _ _ H) as (s & vm & mm & rm & bm & ym & fr & _ & Hcr & _ & _ & Hmm & Hrm & Hbm & Hym & Hlv & _).
  destruct (read_lava_parts _ _ _ _ _ _ _ Hlv) as (L1 & L2 & L3 & L4 & L5 & L6 & _). fold l in L1, L2, L3, L4, L5, L6.
  rewrite L1, L2, L3, L4, L5. clear L1 L2 L3 L4 L5 Hlv H.
  repeat match goal with |- _ /\ _ => split end.
  - unfold build_cryst in Hcr.
    pick Hcr P1 "basic"; [unfold read_cr_basic in Hcr; inv_read Hcr; injection Hcr as <-; cbn; congruence|].
    pick Hcr P2 "bimodal"; [unfold read_cr_bimodal in Hcr; inv_read Hcr; injection Hcr as <-; cbn; congruence|].
    pick Hcr P3 "bimodal_f_temp"; [unfold read_cr_bimodal_f_temp in Hcr; inv_read Hcr; injection Hcr as <-; cbn; congruence|].
    pick Hcr P4 "melts"; [|discriminate Hcr]. unfold read_cr_melts in Hcr.
    apply rbind_ok in Hcr as ([] & _ & Hcr); [|discriminate Hcr]. inv_read Hcr; injection Hcr as <-; cbn; congruence.
  - unfold build_yield in Hym.
    pick Hym P1 "basic"; [unfold read_y_basic in Hym; inv_read Hym; injection Hym as <-; cbn; congruence|].
    pick Hym P2 "dragoni"; [unfold read_y_dragoni in Hym; inv_read Hym; injection Hym as <-; cbn; congruence|].
    pick Hym P3 "dragoni-alone"; [unfold read_y_dragoni_alone in Hym; inv_read Hym; injection Hym as <-; cbn; congruence|].
    pick Hym P4 "ryerson"; [unfold read_y_ryerson in Hym; inv_read Hym; injection Hym as <-; cbn; congruence|].
    pick Hym P5 "bll"; [|discriminate Hym]. unfold read_y_bll in Hym. inv_read Hym; injection Hym as <-; cbn; congruence.
  - intros v te ->. unfold build_melt in Hmm.
    pick Hmm P1 "basic"; [unfold read_melt_basic in Hmm; inv_read Hmm; injection Hmm; intros; congruence|].
    pick Hmm P2 "shaw"; [unfold read_melt_shaw in Hmm; inv_read Hmm; discriminate Hmm|].
    pick Hmm P3 "vft"; [|discriminate Hmm]. unfold read_melt_vft in Hmm. inv_read Hmm; discriminate Hmm.
  - intros vm' E. unfold build_rel in Hrm.
    repeat match type of Hrm with (if jis ?v ?n then _ else _) = _ => destruct (jis v n) end;
      unfold read_rel_kd, read_rel_mp, read_rel_mueller, read_rel_mader, read_rel_bll, read_rel_costa1, read_rel_costa2 in Hrm;
      try (inv_read Hrm); try discriminate Hrm; injection Hrm as <-; cbn in E; congruence.
  - unfold build_bub in Hbm.
    repeat match type of Hbm with (if jis ?v ?n then _ else _) = _ => destruct (jis v n) end;
      unfold read_bub_mader in Hbm; try (inv_read Hbm); try discriminate Hbm; injection Hbm as <-; reflexivity.
  - intros vm' mm' a b c e f g E. subst rm. unfold build_rel in Hrm.
    repeat match type of Hrm with (if jis ?v ?n then _ else _) = _ => destruct (jis v n) end;
      unfold read_rel_kd, read_rel_mp, read_rel_mueller, read_rel_mader, read_rel_bll, read_rel_costa1, read_rel_costa2 in Hrm;
      try (inv_read Hrm); try discriminate Hrm; injection Hrm; intros; congruence.
  - intros vm' mm' rm' a b E. subst bm. unfold build_bub in Hbm.
    repeat match type of Hbm with (if jis ?v ?n then _ else _) = _ => destruct (jis v n) end;
      unfold read_bub_mader in Hbm; try (inv_read Hbm); try discriminate Hbm; injection Hbm; intros; split; congruence.
  - intros vm' te E. subst ym. unfold build_yield in Hym.
    repeat match type of Hym with (if jis ?v ?n then _ else _) = _ => destruct (jis v n) end;
      unfold read_y_basic, read_y_dragoni, read_y_dragoni_alone, read_y_ryerson, read_y_bll in Hym;
      try (inv_read Hym); try discriminate Hym; injection Hym; intros; subst; reflexivity.
Qed.
End Factory.
