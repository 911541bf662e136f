(** * Props_FactoryErr: how the factory refuses a configuration (C49, at the level of the whole
    constructor), and the any-arithmetic forms of C28 and C32 *)
From Verif Require Import Base Num Json Logger World Vesicle MeltVisc RelVisc Bubbles Terrain Lava
  Thermal Flux Integrator Factory Props_Budget Props_Factory.

Section FactoryErr.
Context {T : Type} {N : Num T}.

(** Succeeds, or refuses with a NameError. *)
Definition fine_or_name_error {A} (r : res A) : Prop :=
  (exists a, r = Ok a) \/ (exists m, r = Err (NameError m)).

Lemma fine_bind {A B} (r : res A) (f : A -> res B) :
  fine_or_name_error r -> (forall a, r = Ok a -> fine_or_name_error (f a)) -> fine_or_name_error (rbind r f).
Proof. intros [(a & ->)|(m & ->)] H; cbn [rbind]; [now apply H|]. right. eauto. Qed.
Lemma fine_ok {A} (a : A) : fine_or_name_error (Ok a).
Proof. left. eauto. Qed.
Lemma fine_err {A} m : fine_or_name_error (A := A) (Err (NameError m)).
Proof. right. eauto. Qed.

Ltac readf F := repeat match goal with
    | |- context [jfloat2 _ ?s ?k] => let x := fresh "x" in let E := fresh "E" in
         destruct (F s k eq_refl) as (x & E); rewrite ?E, ?(require2_of_float _ _ _ _ E); cbn [rbind]
    | |- context [require2 _ ?s ?k] => let x := fresh "x" in let E := fresh "E" in
         destruct (F s k eq_refl) as (x & E); rewrite ?E, ?(require2_of_float _ _ _ _ E); cbn [rbind]
    end.
Ltac sel F := repeat match goal with
    | |- fine_or_name_error (if jis ?v ?n then _ else _) => destruct (jis v n) eqn:?
    | |- fine_or_name_error (Ok _) => apply fine_ok
    | |- fine_or_name_error (Err (NameError _)) => apply fine_err
    end.

(** With every documented parameter present and every selector present (with any JSON value at
    all), the constructor either succeeds or raises NameError: no other exception is possible. *)
Theorem C49_only_name_errors : forall (d : json T) profile,
  all_parameters d ->
  (forall key, In key model_keys -> exists v, jget2 d "models" key = Ok v) ->
  (forall key, In key budget_keys -> exists v, jget2 d "heat_budget_models" key = Ok v) ->
  (says d "models" "crystallization_rate_model" "melts" -> jmem d "melts_look-up_table" = Ok true) ->
  (says d "models" "crust_temperature_model" "field" ->
     require2 d "thermal_parameters" "crust_temperature_file" = Ok tt /\
     exists lines tbl, profile = Some lines /\ read_crust_temperature_table lines = Ok tbl) ->
  (exists mo, build_models d profile = Ok mo) \/ (exists m, build_models d profile = Err (NameError m)).
Proof.
  intros d profile HP HM HB HC HF.
  assert (F : forall sec key, existsb (fun p => String.eqb (fst p) sec && String.eqb (snd p) key) parameters = true ->
            exists x, jfloat2 d sec key = Ok x).
  { intros sec key Hin. apply HP. apply existsb_exists in Hin as ([a b] & Hin & E). cbn in E.
    apply andb_prop in E as [E1 E2]. apply String.eqb_eq in E1. apply String.eqb_eq in E2. now subst. }
  assert (HMk : forall key, existsb (String.eqb key) model_keys = true -> exists v, jget2 d "models" key = Ok v).
  { intros key Hin. apply HM. apply existsb_exists in Hin as (x & Hin & E). apply String.eqb_eq in E. now subst. }
  assert (HBk : forall key, existsb (String.eqb key) budget_keys = true -> exists v, jget2 d "heat_budget_models" key = Ok v).
  { intros key Hin. apply HB. apply existsb_exists in Hin as (x & Hin & E). apply String.eqb_eq in E. now subst. }
  change (fine_or_name_error (build_models d profile)). unfold build_models.
  unfold read_selectors.
  destruct (HMk "crystallization_rate_model" eq_refl) as (v1 & E1).
  destruct (HMk "melt_viscosity_model" eq_refl) as (v2 & E2).
  destruct (HMk "relative_viscosity_model" eq_refl) as (v3 & E3).
  destruct (HMk "relative_viscosity_bubbles_model" eq_refl) as (v4 & E4).
  destruct (HMk "yield_strength_model" eq_refl) as (v5 & E5).
  destruct (HMk "crust_temperature_model" eq_refl) as (v6 & E6).
  destruct (HMk "effective_cover_crust_model" eq_refl) as (v7 & E7).
  destruct (HMk "vesicle_fraction_model" eq_refl) as (v8 & E8).
  destruct (HBk "radiation" eq_refl) as (w1 & G1).
  destruct (HBk "snyder" eq_refl) as (w2 & G2).
  destruct (HBk "conduction" eq_refl) as (w3 & G3).
  destruct (HBk "convection" eq_refl) as (w4 & G4).
  destruct (HBk "rain" eq_refl) as (w5 & G5).
  destruct (HBk "viscous_heating" eq_refl) as (w6 & G6).
  rewrite E1, E2, E3, E4, E5, E6, E7, E8, G1, G2, G3, G4, G5, G6. cbn [rbind].
  cbn [sel_cryst sel_melt sel_rel sel_bub sel_yield sel_crust sel_cover sel_ves].
  apply fine_bind.
  { unfold build_cryst. sel F.
    - unfold read_cr_basic. readf F. apply fine_ok.
    - unfold read_cr_bimodal. readf F. apply fine_ok.
    - unfold read_cr_bimodal_f_temp. readf F. apply fine_ok.
    - unfold read_cr_melts. rewrite HC by (apply jis_str in Heqb2; subst; exact E1).
      cbn [rbind]. readf F. apply fine_ok. }
  intros cr _. apply fine_bind.
  { unfold read_air. readf F. apply fine_ok. }
  intros ar _. apply fine_bind.
  { unfold build_vesicle. sel F;
      [unfold read_v_constant|unfold read_v_bimodal|unfold read_v_variable|unfold read_v_variable_bimodal|unfold read_v_poly];
      readf F; apply fine_ok. }
  intros vm _. apply fine_bind.
  { unfold build_melt. sel F; [unfold read_melt_basic|unfold read_melt_shaw|unfold read_melt_vft]; readf F; apply fine_ok. }
  intros mm _. apply fine_bind.
  { unfold build_rel. sel F; unfold read_rel_kd, read_rel_mp, read_rel_mueller, read_rel_mader, read_rel_bll, read_rel_costa1, read_rel_costa2;
      readf F; apply fine_ok. }
  intros rm _. apply fine_bind.
  { unfold build_bub. sel F; unfold read_bub_mader; readf F; apply fine_ok. }
  intros bm _. apply fine_bind.
  { unfold build_yield. sel F; unfold read_y_basic, read_y_dragoni, read_y_dragoni_alone, read_y_ryerson, read_y_bll; readf F; apply fine_ok. }
  intros ym _. apply fine_bind.
  { unfold read_lava. readf F. apply fine_ok. }
  intros lv _. apply fine_bind.
  { unfold build_cover. sel F; unfold read_cv_basic, read_cv_bimodal; readf F; apply fine_ok. }
  intros cv _. apply fine_bind.
  { unfold build_crust. sel F.
    - unfold read_ct_constant. readf F. apply fine_ok.
    - unfold read_ct_hon. readf F. apply fine_ok.
    - unfold read_ct_bimodal. readf F. apply fine_ok.
    - match goal with H : jis v6 "field" = true |- _ => apply jis_str in H; subst end.
      destruct (HF E6) as (R & lines & tbl & -> & ->). cbn [rbind]. unfold read_ct_field. rewrite ?R. cbn [rbind].
      readf F. apply fine_ok. }
  intros ct _.
  assert (A : fine_or_name_error (choose_fluxes {| sel_cryst := v1; sel_melt := v2; sel_rel := v3; sel_bub := v4;
      sel_yield := v5; sel_crust := v6; sel_cover := v7; sel_ves := v8; sel_rad := w1; sel_snyder := w2;
      sel_cond := w3; sel_conv := w4; sel_rain := w5; sel_visc := w6 |}) /\
     forall fr, choose_fluxes {| sel_cryst := v1; sel_melt := v2; sel_rel := v3; sel_bub := v4;
      sel_yield := v5; sel_crust := v6; sel_cover := v7; sel_ves := v8; sel_rad := w1; sel_snyder := w2;
      sel_cond := w3; sel_conv := w4; sel_rain := w5; sel_visc := w6 |} = Ok fr ->
      exists fl, rmapM (fun r => r d) fr = Ok fl).
  { unfold choose_fluxes. cbn [sel_rad sel_cond sel_conv sel_rain sel_visc].
    unfold choose_radiation, choose_yes_no, choose_snyder. cbn [sel_rad sel_conv sel_snyder].
    split.
    - repeat (apply fine_bind; [|intros ? _]); try (sel F); try apply fine_ok.
      destruct (jis w2 "yes" && jis w4 "no" && jis w1 "no"); sel F.
    - intros fr H.
      apply rbind_ok in H as (a & Ha & H). apply rbind_ok in H as (b & Hb & H).
      apply rbind_ok in H as (c & Hc & H). apply rbind_ok in H as (e & He & H).
      apply rbind_ok in H as (f & Hf & H). apply rbind_ok in H as (g & Hg & H). injection H as <-.
      assert (Q : forall l, (forall r, In r l -> In r [read_f_rad_basic; read_f_rad_2emi; read_f_rad_cont; read_f_rad_lin;
          read_f_conduction; (fun _ => Ok FConvection); read_f_rain; (fun _ => Ok FViscous); read_f_snyder]) ->
          exists fl, rmapM (fun r => r d) l = Ok fl).
      { intros l Hl. induction l as [|r l IH]; [cbn; eauto|].
        destruct IH as (fl & IH); [intros; apply Hl; now right|].
        cbn [rmapM]. rewrite IH.
        assert (X : exists y, r d = Ok y).
        { specialize (Hl r (or_introl eq_refl)). cbn in Hl.
          repeat (destruct Hl as [<-|Hl]); try contradiction;
            unfold read_f_rad_basic, read_f_rad_2emi, read_f_rad_cont, read_f_rad_lin, read_f_conduction, read_f_rain, read_f_snyder;
            readf F; eauto. }
        destruct X as (y & ->). cbn [rbind]. eauto. }
      apply Q. intros r Hr. rewrite !in_app_iff in Hr.
      assert (SP : forall (c : bool) (x y : res (list (json T -> res (flux T)))) z, (if c then x else y) = z -> x = z \/ y = z)
        by (intros [] x y z; tauto).
      destruct Hr as [Hr|[Hr|[Hr|[Hr|[Hr|Hr]]]]];
        match goal with H : _ = Ok ?l, Hr : In r ?l |- _ =>
          repeat (apply SP in H; destruct H as [H|H]); try discriminate H; injection H as <-; cbn in Hr; cbn; tauto end. }
  destruct A as [A1 A2]. apply fine_bind; [exact A1|]. intros fr Hfr. destruct (A2 fr Hfr) as (fl & ->). apply fine_ok.
Qed.

(** Hence an undocumented value of any of the fourteen selectors raises NameError out of the
    constructor, and so does the Snyder flux together with radiation or convection. *)
Theorem C49_undocumented_is_name_error : forall (d : json T) profile section key v,
  all_parameters d ->
  (forall key, In key model_keys -> exists v, jget2 d "models" key = Ok v) ->
  (forall key, In key budget_keys -> exists v, jget2 d "heat_budget_models" key = Ok v) ->
  (says d "models" "crystallization_rate_model" "melts" -> jmem d "melts_look-up_table" = Ok true) ->
  (says d "models" "crust_temperature_model" "field" ->
     require2 d "thermal_parameters" "crust_temperature_file" = Ok tt /\
     exists lines tbl, profile = Some lines /\ read_crust_temperature_table lines = Ok tbl) ->
  (section = "models" /\ In key model_keys) \/ (section = "heat_budget_models" /\ In key budget_keys) ->
  jget2 d section key = Ok v -> (forall s, In s (documented key) -> v <> JStr s) ->
  exists m, build_models d profile = Err (NameError m).
Proof.
  intros d profile section key v HP HM HB HC HF Hk Hv Hn.
  destruct (C49_only_name_errors d profile HP HM HB HC HF) as [(mo & H)|H]; [|exact H]. exfalso.
  destruct (C49_other_names_refused _ _ _ _ _ Hk H) as (s & Hs & Hin). unfold says in Hs.
  apply (Hn s Hin). congruence.
Qed.
Theorem C49_snyder_conflict_is_name_error : forall (d : json T) profile,
  all_parameters d ->
  (forall key, In key model_keys -> exists v, jget2 d "models" key = Ok v) ->
  (forall key, In key budget_keys -> exists v, jget2 d "heat_budget_models" key = Ok v) ->
  (says d "models" "crystallization_rate_model" "melts" -> jmem d "melts_look-up_table" = Ok true) ->
  (says d "models" "crust_temperature_model" "field" ->
     require2 d "thermal_parameters" "crust_temperature_file" = Ok tt /\
     exists lines tbl, profile = Some lines /\ read_crust_temperature_table lines = Ok tbl) ->
  says d "heat_budget_models" "snyder" "yes" ->
  (~ says d "heat_budget_models" "radiation" "no" \/ ~ says d "heat_budget_models" "convection" "no") ->
  exists m, build_models d profile = Err (NameError m).
Proof.
  intros d profile HP HM HB HC HF Hs Hn.
  destruct (C49_only_name_errors d profile HP HM HB HC HF) as [(mo & H)|H]; [|exact H]. exfalso.
  destruct (build_models_inv _ _ _ H) as (s & vm & mm & rm & bm & ym & fr & Hsel & R).
  assert (Hfr : choose_fluxes s = Ok fr) by (repeat match goal with H : _ /\ _ |- _ => destruct H end; assumption).
  unfold read_selectors in Hsel. unfold says in *.
  repeat (apply rbind_ok in Hsel as (? & ? & Hsel)). injection Hsel as <-.
  unfold choose_fluxes in Hfr. repeat (apply rbind_ok in Hfr as (? & ? & Hfr)).
  match goal with H : choose_snyder _ = Ok _ |- _ => unfold choose_snyder in H; cbn [sel_snyder sel_conv sel_rad] in H; rename H into HS end.
  match goal with H : jget2 d "heat_budget_models" "snyder" = Ok ?x, H' : jget2 d "heat_budget_models" "snyder" = Ok (JStr "yes") |- _ =>
     assert (x = JStr "yes") by congruence; subst x end.
  cbn [jis String.eqb Ascii.eqb Bool.eqb andb] in HS.
  match type of HS with (if jis ?a "no" && jis ?b "no" then _ else _) = _ =>
    destruct (jis a "no") eqn:Ea; [|discriminate HS]; destruct (jis b "no") eqn:Eb; [|discriminate HS] end.
  apply jis_str in Ea, Eb. subst. tauto.
Qed.

(** A missing section or a missing selector raises KeyError, naming something that is missing. *)
Theorem C49_missing_selector : forall (fields ms hs : list (string * json T)) profile,
  assoc "models" fields = Some (JObj ms) -> assoc "heat_budget_models" fields = Some (JObj hs) ->
  (exists key, In key model_keys /\ assoc key ms = None) \/ (exists key, In key budget_keys /\ assoc key hs = None) ->
  exists key, build_models (JObj fields) profile = Err (KeyError key) /\
    ((In key model_keys /\ assoc key ms = None) \/ (In key budget_keys /\ assoc key hs = None)).
Proof.
  intros fields ms hs profile Em Eh H. unfold build_models, read_selectors, jget2, jget. rewrite Em, Eh. cbn [rbind].
  repeat match goal with
  | |- context [assoc ?k ?l] => destruct (assoc k l) eqn:?; cbn [rbind];
       [|exists k; split; [reflexivity|]; first [left; split; [cbn; tauto|assumption]|right; split; [cbn; tauto|assumption]]]
  end.
  exfalso. destruct H as [(key & Hin & E)|(key & Hin & E)]; cbn in Hin;
    repeat (destruct Hin as [<-|Hin]; [congruence|]); exact Hin.
Qed.
Theorem C49_missing_budget_section : forall (fields ms : list (string * json T)) profile,
  assoc "models" fields = Some (JObj ms) -> assoc "heat_budget_models" fields = None ->
  (forall key, In key model_keys -> assoc key ms <> None) ->
  build_models (JObj fields) profile = Err (KeyError "heat_budget_models").
Proof.
  intros fields ms profile Em Eh H. unfold build_models, read_selectors, jget2, jget. rewrite Em, Eh. cbn [rbind].
  repeat match goal with
  | |- context [assoc ?k ?l] => destruct (assoc k l) eqn:?; cbn [rbind];
       [|exfalso; eapply (H k); [cbn; tauto|assumption]]
  end. reflexivity.
Qed.

(** ** The hypotheses are met: a configuration with every parameter and the selectors [ms], [hs] *)
Definition section_of (sec : string) : json T :=
  JObj (map (fun p => (snd p, JInt 1)) (filter (fun p => String.eqb (fst p) sec) parameters)).
Definition full_configuration (ms hs : list (string * json T)) : json T :=
  JObj (("models", JObj ms) :: ("heat_budget_models", JObj hs) ::
        map (fun sec => (sec, section_of sec))
          ["lava_state"; "crystals_parameters"; "eruption_condition"; "melt_viscosity_parameters";
           "relative_viscosity_parameters"; "thermal_parameters"; "convection_parameters"; "radiation_parameters";
           "conduction_parameters"; "rain_parameters"]).
Lemma full_parameters ms hs : all_parameters (full_configuration ms hs).
Proof.
  intros sec key H. unfold parameters in H. cbn [In] in H.
  repeat (destruct H as [H|H]; [injection H as <- <-; eexists; reflexivity|]). contradiction.
Qed.
Definition usual_models (melt : json T) : list (string * json T) :=
  [ ("crystallization_rate_model", JStr "basic"); ("melt_viscosity_model", melt);
    ("relative_viscosity_model", JStr "er"); ("relative_viscosity_bubbles_model", JStr "no");
    ("yield_strength_model", JStr "basic"); ("crust_temperature_model", JStr "constant");
    ("effective_cover_crust_model", JStr "basic"); ("vesicle_fraction_model", JStr "constant") ].
Definition usual_budget (snyder rain : json T) : list (string * json T) :=
  [ ("radiation", JStr "basic"); ("snyder", snyder); ("conduction", JStr "yes"); ("convection", JStr "yes");
    ("rain", rain); ("viscous_heating", JStr "no") ].
(** A misspelt melt model, a JSON boolean where "yes" was meant, and Snyder next to radiation: the
    theorems above apply and the constructor raises NameError. *)
Example C49_misspelt :
  (exists m, build_models (full_configuration (usual_models (JStr "Shaw")) (usual_budget (JStr "no") (JStr "no"))) None
     = Err (NameError m)) /\
  (exists m, build_models (full_configuration (usual_models (JStr "shaw")) (usual_budget (JStr "no") (JBool true))) None
     = Err (NameError m)) /\
  (exists m, build_models (full_configuration (usual_models (JStr "shaw")) (usual_budget (JStr "yes") (JStr "no"))) None
     = Err (NameError m)).
Proof.
  assert (HM : forall melt bud key, In key model_keys -> exists v, jget2 (full_configuration (usual_models melt) bud) "models" key = Ok v).
  { intros melt bud key H. cbn in H. repeat (destruct H as [<-|H]; [eexists; reflexivity|]). contradiction. }
  assert (HB : forall mo a b key, In key budget_keys -> exists v, jget2 (full_configuration mo (usual_budget a b)) "heat_budget_models" key = Ok v).
  { intros mo a b key H. cbn in H. repeat (destruct H as [<-|H]; [eexists; reflexivity|]). contradiction. }
  split; [|split].
  - apply (C49_undocumented_is_name_error _ _ "models" "melt_viscosity_model" (JStr "Shaw")); auto using full_parameters;
      try (intros H; discriminate H); try reflexivity; [left; cbn; tauto|].
    intros s Hs. cbn in Hs. intros E; injection E as <-. repeat (destruct Hs as [E|Hs]; [discriminate E|]). contradiction.
  - apply (C49_undocumented_is_name_error _ _ "heat_budget_models" "rain" (JBool true)); auto using full_parameters;
      try (intros H; discriminate H); try reflexivity; [right; cbn; tauto|]. intros s Hs E. discriminate E.
  - apply C49_snyder_conflict_is_name_error; auto using full_parameters; try (intros H; discriminate H); try reflexivity.
    left. intros H. discriminate H.
Qed.
Example C49_forgotten : build_models (full_configuration [] []) None = Err (KeyError "crystallization_rate_model").
Proof. reflexivity. Qed.

(** ** C28 and C32 in any arithmetic *)
(** The product, in whatever arithmetic the program computes with (in particular binary64). *)
Theorem C28_product_any_arithmetic : forall (l : lava T) (s : state T) mu,
  computes_bulk_viscosity l s = Ok mu <->
  exists melt crystals bubbles,
    compute_melt_viscosity (lv_melt l) s = Ok melt /\
    compute_relative_viscosity (lv_rel l) s = Ok crystals /\
    compute_relative_viscosity_bubbles (lv_bub l) s = Ok bubbles /\
    mu = (melt * crystals * bubbles)%num.
Proof.
  intros l s mu. unfold computes_bulk_viscosity. split.
  - intros H. apply rbind_ok in H as (a & Ha & H). apply rbind_ok in H as (b & Hb & H).
    apply rbind_ok in H as (c & Hc & H). injection H as <-. exists a, b, c. auto.
  - intros (a & b & c & -> & -> & -> & ->). reflexivity.
Qed.
Theorem C32_stop_criterion_any_arithmetic : forall (l : lava T) (t : terrain T) depth (s : state T) t0 tb,
  get_yield_strength l s = Ok t0 -> get_basal_shear_stress l t depth s = Ok tb ->
  yield_strength_notcompatible l t depth s = Ok (tb <=? t0)%num.
Proof.
  intros l t depth s t0 tb H0 Hb.
  unfold yield_strength_notcompatible, model_yield_notcompatible.
  unfold get_yield_strength in H0. unfold get_basal_shear_stress in Hb. rewrite H0, Hb. reflexivity.
Qed.
(** The basal stress is the same product for every yield-strength model. *)
Theorem C32_basal_stress_any_arithmetic : forall (l : lava T) (t : terrain T) depth (s : state T) tb,
  get_basal_shear_stress l t depth s = Ok tb <->
  exists rho slope sn, get_bulk_density l s = Ok rho /\ get_channel_slope t (st_pos s) = Ok slope /\
    n_sin slope = Ok sn /\ tb = (depth * rho * ter_gravity t * sn)%num.
Proof.
  intros l t depth s tb.
  assert (E : get_basal_shear_stress l t depth s = basal_body t depth l s)
    by (unfold get_basal_shear_stress, compute_basal_shear_stress; destruct (lv_yield l); reflexivity).
  rewrite E. unfold basal_body. split.
  - intros H. apply rbind_ok in H as (a & Ha & H). apply rbind_ok in H as (b & Hb & H).
    apply rbind_ok in H as (c & Hc & H). injection H as <-. exists a, b, c. auto.
  - intros (a & b & c & -> & -> & H & ->). cbn [rbind]. rewrite H. reflexivity.
Qed.
End FactoryErr.
