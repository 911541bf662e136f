(** * Props_Unused: nothing else in the configuration matters: C66 *)
From Verif Require Import Base Num Json Logger World Vesicle MeltVisc RelVisc Bubbles Terrain Lava
  Thermal Flux Integrator Factory Run Props_Budget Props_Factory Props_EffArray.

Section Unused.
Context {T : Type} {N : Num T}.
Context (sf : T -> string) (sc : json T -> string).
Implicit Types F : list (string * json T).

(** ** Specification: the entries that matter *)
Definition selector_keys : list (string * string) :=
  map (pair "models") ["crystallization_rate_model"; "melt_viscosity_model"; "relative_viscosity_model";
    "relative_viscosity_bubbles_model"; "yield_strength_model"; "crust_temperature_model"; "effective_cover_crust_model";
    "vesicle_fraction_model"] ++
  map (pair "heat_budget_models") ["radiation"; "snyder"; "conduction"; "convection"; "rain"; "viscous_heating"].
Definition terrain_keys : list (string * string) :=
  map (pair "terrain_conditions") ["depth"; "width"; "gravity"; "max_channel_length"; "slope_smoothing_active";
    "slope_smoothing_number_of_points"; "mass_conservation"] ++ [("lava_state", "position"); ("lava_state", "time")].
(** [parameters] (Props_Factory) lists the numbers the models are built from. *)
Definition consulted : list (string * string) :=
  filter (fun p => negb (String.eqb (snd p) "crust_temperature_1")) parameters ++ selector_keys ++ terrain_keys.
Definition top_keys : list string := ["effusion_rate_init"; "lava_name"; "slope_file"; "step_size"].

(** The two documents have the same value at [section]/[key], or neither has one. *)
Definition same_at F1 F2 (section key : string) : Prop :=
  match assoc section F1, assoc section F2 with
  | Some (JObj g1), Some (JObj g2) => assoc key g1 = assoc key g2
  | a, b => a = b
  end.
Definition present (o : option (json T)) : bool := match o with Some _ => true | None => false end.
(** An entry that is only checked for presence. *)
Definition same_presence F1 F2 (section key : string) : Prop :=
  match assoc section F1, assoc section F2 with
  | Some (JObj g1), Some (JObj g2) => present (assoc key g1) = present (assoc key g2)
  | a, b => a = b
  end.
Definition a_number F (section key : string) : Prop := exists x, jfloat2 (JObj F) section key = Ok x.

Record same_settings (keys : list (string * string)) (tops : list string) F1 F2 : Prop := {
  srs_entries : forall section key, In (section, key) keys -> same_at F1 F2 section key;
  srs_top : forall key, In key tops -> assoc key F1 = assoc key F2;
  (* checked, never used *)
  srs_table : present (assoc "melts_look-up_table" F1) = present (assoc "melts_look-up_table" F2);
  srs_file : same_presence F1 F2 "thermal_parameters" "crust_temperature_file";
  srs_tc1 : same_at F1 F2 "thermal_parameters" "crust_temperature_1" \/
            (a_number F1 "thermal_parameters" "crust_temperature_1" /\ a_number F2 "thermal_parameters" "crust_temperature_1")
}.

Definition same_run_settings F1 F2 : Prop := same_settings consulted top_keys F1 F2.
(** All of them but the starting time. *)
Definition but_time (keys : list (string * string)) : list (string * string) :=
  filter (fun p => negb (String.eqb (fst p) "lava_state" && String.eqb (snd p) "time")) keys.
Lemma but_time_sub keys p : In p (but_time keys) -> In p keys.
Proof. intros H. apply filter_In in H as [H _]. exact H. Qed.
Lemma same_but_time keys tops F1 F2 : same_settings keys tops F1 F2 -> same_settings (but_time keys) tops F1 F2.
Proof.
  intros [A B C D E]. constructor; [|exact B|exact C|exact D|exact E]. intros s k H. apply A, but_time_sub, H.
Qed.
Lemma same_run_untimed F1 F2 : same_run_settings F1 F2 -> same_settings (but_time consulted) top_keys F1 F2.
Proof. exact (same_but_time consulted top_keys F1 F2). Qed.
(** Those the models are built from: all but the terrain and the initial
    position and time. *)
Definition for_models (keys : list (string * string)) : list (string * string) :=
  filter (fun p => negb (String.eqb (fst p) "terrain_conditions")) (but_time keys).
Lemma for_models_sub keys p : In p (for_models keys) -> In p (but_time keys).
Proof. intros H. apply filter_In in H as [H _]. exact H. Qed.
Lemma same_for_models keys tops F1 F2 : same_settings (but_time keys) tops F1 F2 -> same_settings (for_models keys) [] F1 F2.
Proof.
  intros [A B C D E]. constructor; [|intros k []|exact C|exact D|exact E]. intros s k H. apply A, for_models_sub, H.
Qed.

Lemma same_jget2 F1 F2 s k : same_at F1 F2 s k -> jget2 (JObj F1) s k = jget2 (JObj F2) s k.
Proof.
  unfold same_at, jget2, jget. destruct (assoc s F1) as [[]|], (assoc s F2) as [[]|]; intros H; cbn [rbind]; try congruence.
  now rewrite H.
Qed.
Lemma jfloat2_jget2 (d : json T) s k : jfloat2 d s k = rbind (jget2 d s k) py_float.
Proof. unfold jfloat2, jget2. destruct (jget d s); reflexivity. Qed.
Lemma same_jfloat2 F1 F2 s k : same_at F1 F2 s k -> jfloat2 (JObj F1) s k = jfloat2 (JObj F2) s k.
Proof. intros H. rewrite !jfloat2_jget2. now rewrite (same_jget2 _ _ _ _ H). Qed.
Lemma same_presence_require2 F1 F2 s k : same_presence F1 F2 s k -> require2 (JObj F1) s k = require2 (JObj F2) s k.
Proof.
  unfold same_presence, require2, jget. destruct (assoc s F1) as [[]|], (assoc s F2) as [[]|]; intros H; cbn [rbind jmem]; try congruence.
  unfold present in H. repeat match goal with |- context [assoc k ?f] => destruct (assoc k f) end; (discriminate || reflexivity).
Qed.
Lemma same_at_presence F1 F2 s k : same_at F1 F2 s k -> same_presence F1 F2 s k.
Proof.
  unfold same_at, same_presence. destruct (assoc s F1) as [[]|], (assoc s F2) as [[]|]; congruence.
Qed.

Definition listed (l : list (string * string)) (s k : string) : bool :=
  existsb (fun p => String.eqb (fst p) s && String.eqb (snd p) k) l.
Lemma listed_in l s k : listed l s k = true -> In (s, k) l.
Proof.
  unfold listed. intros H. apply existsb_exists in H as ([a b] & Hin & E). cbn in E.
  apply andb_prop in E as [E1 E2]. apply String.eqb_eq in E1. apply String.eqb_eq in E2. now subst.
Qed.

Lemma listed_not l s k : listed l s k = false -> ~ In (s, k) l.
Proof.
  intros H Hin. enough (listed l s k = true) by congruence. apply existsb_exists. exists (s, k). split; [exact Hin|].
  cbn [fst snd]. now rewrite !String.eqb_refl.
Qed.
Lemma listed1_not (l : list string) k : existsb (String.eqb k) l = false -> ~ In k l.
Proof.
  intros H Hin. enough (existsb (String.eqb k) l = true) by congruence. apply existsb_exists. exists k. split; [exact Hin|].
  apply String.eqb_refl.
Qed.

Section SameModels.
Context (F1 F2 : list (string * json T)) (S : same_settings (for_models consulted) [] F1 F2).
Let d1 := JObj F1.
Let d2 := JObj F2.
Lemma mm_at s k : listed (for_models consulted) s k = true -> same_at F1 F2 s k.
Proof. intros H. apply (srs_entries _ _ _ _ S). apply listed_in. exact H. Qed.
Lemma mm_float s k : listed (for_models consulted) s k = true -> jfloat2 d1 s k = jfloat2 d2 s k.
Proof. intros H. apply same_jfloat2, mm_at, H. Qed.
Lemma mm_get s k : listed (for_models consulted) s k = true -> jget2 d1 s k = jget2 d2 s k.
Proof. intros H. apply same_jget2, mm_at, H. Qed.
Lemma mm_req s k : listed (for_models consulted) s k = true -> require2 d1 s k = require2 d2 s k.
Proof. intros H. apply same_presence_require2, same_at_presence, mm_at, H. Qed.

Ltac same := repeat first
  [ rewrite mm_float by reflexivity | rewrite mm_get by reflexivity | rewrite mm_req by reflexivity ]; reflexivity.

Lemma same_selectors : read_selectors d1 = read_selectors d2.
Proof. unfold read_selectors. same. Qed.
Lemma same_cryst sel : build_cryst sel d1 = build_cryst sel d2.
Proof.
  unfold build_cryst, read_cr_basic, read_cr_bimodal, read_cr_bimodal_f_temp, read_cr_melts.
  assert (E : jmem d1 "melts_look-up_table" = jmem d2 "melts_look-up_table").
  { cbn [jmem d1 d2]. pose proof (srs_table _ _ _ _ S) as H. unfold present in H. unfold d1, d2. cbn [jmem].
    destruct (assoc "melts_look-up_table" F1), (assoc "melts_look-up_table" F2); (discriminate || reflexivity). }
  rewrite E. same.
Qed.
Lemma same_vesicle sel : build_vesicle sel d1 = build_vesicle sel d2.
Proof. unfold build_vesicle, read_v_constant, read_v_bimodal, read_v_variable, read_v_variable_bimodal, read_v_poly. same. Qed.
Lemma same_melt sel : build_melt sel d1 = build_melt sel d2.
Proof. unfold build_melt, read_melt_basic, read_melt_shaw, read_melt_vft. same. Qed.
Lemma same_rel sel vm mm : build_rel sel vm mm d1 = build_rel sel vm mm d2.
Proof.
  unfold build_rel, read_rel_kd, read_rel_mp, read_rel_mueller, read_rel_mader, read_rel_bll, read_rel_costa1, read_rel_costa2, rvp. same.
Qed.
Lemma same_bub sel vm mm rm : build_bub sel vm mm rm d1 = build_bub sel vm mm rm d2.
Proof. unfold build_bub, read_bub_mader, rvp. same. Qed.
Lemma same_yield sel : build_yield sel d1 = build_yield sel d2.
Proof. unfold build_yield, read_y_basic, read_y_dragoni, read_y_dragoni_alone, read_y_ryerson, read_y_bll. same. Qed.
Lemma same_lava mm rm bm ym vm : read_lava mm rm bm ym vm d1 = read_lava mm rm bm ym vm d2.
Proof. unfold read_lava, rvp. same. Qed.
Lemma same_cover sel : build_cover sel d1 = build_cover sel d2.
Proof. unfold build_cover, read_cv_basic, read_cv_bimodal. same. Qed.
Lemma same_air : read_air d1 = read_air d2.
Proof. unfold read_air. same. Qed.
Lemma same_crust sel profile : build_crust sel profile d1 = build_crust sel profile d2.
Proof.
  unfold build_crust, read_ct_constant, read_ct_hon, read_ct_bimodal, read_ct_field.
  pose proof (same_presence_require2 _ _ _ _ (srs_file _ _ _ _ S)) as E. fold d1 d2 in E. rewrite E. clear E.
  destruct (srs_tc1 _ _ _ _ S) as [A|[A1 A2]].
  - pose proof (same_presence_require2 _ _ _ _ (same_at_presence _ _ _ _ A)) as E1.
    pose proof (same_jfloat2 _ _ _ _ A) as E2. fold d1 d2 in E1, E2. rewrite E1, E2. same.
  - destruct A1 as (x1 & A1). destruct A2 as (x2 & A2). fold d1 in A1. fold d2 in A2.
    rewrite (require2_of_float _ _ _ _ A1), (require2_of_float _ _ _ _ A2), A1, A2. cbn [rbind]. same.
Qed.
Lemma same_fluxes s fr : choose_fluxes s = Ok fr -> rmapM (fun r => r d1) fr = rmapM (fun r => r d2) fr.
Proof.
  intros H.
  assert (G : Forall (fun r => r d1 = r d2) fr).
  { unfold choose_fluxes in H.
    apply rbind_ok in H as (l1 & H1 & H). apply rbind_ok in H as (l2 & H2 & H). apply rbind_ok in H as (l3 & H3 & H).
    apply rbind_ok in H as (l4 & H4 & H). apply rbind_ok in H as (l5 & H5 & H). apply rbind_ok in H as (l6 & H6 & H).
    injection H as <-. rewrite !Forall_app.
    assert (YN : forall sel r name l, choose_yes_no sel r name = Ok l -> r d1 = r d2 -> Forall (fun r => r d1 = r d2) l).
    { intros sel r name l Hc Hr. unfold choose_yes_no in Hc. destruct (jis sel "yes"); [injection Hc as <-; auto|].
      destruct (jis sel "no"); [injection Hc as <-; auto|discriminate]. }
    repeat split.
    - unfold choose_radiation in H1.
      repeat match type of H1 with (if jis ?v ?n then _ else _) = _ => destruct (jis v n) end; try discriminate H1; injection H1 as <-;
      repeat constructor; unfold read_f_rad_basic, read_f_rad_2emi, read_f_rad_cont, read_f_rad_lin; same.
    - eapply YN; [eassumption|]. unfold read_f_conduction. same.
    - eapply YN; [eassumption|]. reflexivity.
    - eapply YN; [eassumption|]. unfold read_f_rain. same.
    - eapply YN; [eassumption|]. reflexivity.
    - unfold choose_snyder in H6. destruct (jis (sel_snyder s) "yes" && jis (sel_conv s) "no" && jis (sel_rad s) "no");
        [|destruct (jis (sel_snyder s) "no"); [|discriminate]]; injection H6 as <-; auto.
      repeat constructor. unfold read_f_snyder. same. }
  clear H. induction G as [|r fr E G IH]; [reflexivity|]. cbn [rmapM]. rewrite E, IH. reflexivity.
Qed.
Lemma same_models profile : build_models d1 profile = build_models d2 profile.
Proof.
  unfold build_models. rewrite same_selectors, same_air. apply rbind_ext; [reflexivity|]. intros s _.
  rewrite same_cryst, same_vesicle, same_melt, same_yield, same_cover, same_crust.
  apply rbind_ext; [reflexivity|]. intros cr _. apply rbind_ext; [reflexivity|]. intros ar _.
  apply rbind_ext; [reflexivity|]. intros vm _. apply rbind_ext; [reflexivity|]. intros mm _.
  apply rbind_ext; [apply same_rel|]. intros rm _. apply rbind_ext; [apply same_bub|]. intros bm _.
  apply rbind_ext; [reflexivity|]. intros ym _. apply rbind_ext; [apply same_lava|]. intros lv _.
  apply rbind_ext; [reflexivity|]. intros cv _. apply rbind_ext; [reflexivity|]. intros ct _.
  apply rbind_ext; [reflexivity|]. intros fr Hfr. apply rbind_ext; [exact (same_fluxes _ _ Hfr)|]. reflexivity.
Qed.
End SameModels.

Section Same.
Context (F1 F2 : list (string * json T)) (S : same_settings (but_time consulted) top_keys F1 F2).
Let d1 := JObj F1.
Let d2 := JObj F2.
Lemma sm_at s k : listed (but_time consulted) s k = true -> same_at F1 F2 s k.
Proof. intros H. apply (srs_entries _ _ _ _ S). apply listed_in. exact H. Qed.
Lemma sm_float s k : listed (but_time consulted) s k = true -> jfloat2 d1 s k = jfloat2 d2 s k.
Proof. intros H. apply same_jfloat2, sm_at, H. Qed.
Lemma sm_get s k : listed (but_time consulted) s k = true -> jget2 d1 s k = jget2 d2 s k.
Proof. intros H. apply same_jget2, sm_at, H. Qed.
Lemma sm_req s k : listed (but_time consulted) s k = true -> require2 d1 s k = require2 d2 s k.
Proof. intros H. apply same_presence_require2, same_at_presence, sm_at, H. Qed.

Ltac same := repeat first
  [ rewrite sm_float by reflexivity | rewrite sm_get by reflexivity | rewrite sm_req by reflexivity ]; reflexivity.
Lemma same_top k : existsb (String.eqb k) top_keys = true -> assoc k F1 = assoc k F2.
Proof.
  intros H. apply (srs_top _ _ _ _ S). apply existsb_exists in H as (x & Hx & E). apply String.eqb_eq in E. now subst.
Qed.
Lemma same_jget_top k : existsb (String.eqb k) top_keys = true -> jget d1 k = jget d2 k.
Proof. intros H. unfold jget, d1, d2. now rewrite (same_top k H). Qed.
Lemma same_require1 k : existsb (String.eqb k) top_keys = true -> require1 d1 k = require1 d2 k.
Proof. intros H. unfold require1, jmem, jget, d1, d2. now rewrite (same_top k H). Qed.
Lemma same_terrain : read_terrain d1 = read_terrain d2.
Proof.
  unfold read_terrain, jfloat1. rewrite same_jget_top by reflexivity. same.
Qed.
Lemma same_mass : mass_raw d1 = mass_raw d2.
Proof.
  unfold mass_raw, jget, d1, d2. pose proof (sm_at "terrain_conditions" "mass_conservation" eq_refl) as H. unfold same_at in H.
  destruct (assoc "terrain_conditions" F1) as [[]|], (assoc "terrain_conditions" F2) as [[]|]; cbn [rbind]; try congruence.
  now rewrite H.
Qed.
(** What prepare does, up to the initial state: the same for both documents. *)
Definition prepare_models (flag : json T -> bool) (fs : fsys T) (d : json T) : res (json T * json T * sim T * T) :=
  let? eri := jget d "effusion_rate_init" in
  let? name := require1 d "lava_name" in
  let? slope_file := require1 d "slope_file" in
  let? step := require1 d "step_size" in
  let? dx := py_float step in
  let? raw := mass_raw d in
  let? tds := read_terrain d in
  let '(ter0, depth, smooth) := tds in
  let? lines := read_slope_lines fs slope_file in
  let? ter := read_slope_from_file lines smooth ter0 in
  let? m := build_models d (crust_profile fs) in
  Ok (eri, name, {| s_dx := dx; s_lava := mo_lava m; s_air := mo_air m; s_ter := ter;
               s_cryst := mo_cryst m; s_crust := mo_crust m; s_cover := mo_cover m;
               s_budget := mo_budget m; s_mass := flag raw |}, depth).

Lemma same_prepare_models flag (fs : fsys T) jf :
  prepare_models flag (fs_write jf (FJson d1) fs) d1 = prepare_models flag (fs_write jf (FJson d2) fs) d2.
Proof.
  unfold prepare_models.
  rewrite same_jget_top by reflexivity. rewrite !same_require1 by reflexivity. rewrite same_mass, same_terrain.
  apply rbind_ext; [reflexivity|]. intros eri _. apply rbind_ext; [reflexivity|]. intros nm _.
  apply rbind_ext; [reflexivity|]. intros sl _. apply rbind_ext; [reflexivity|]. intros stp _.
  apply rbind_ext; [reflexivity|]. intros dx _. apply rbind_ext; [reflexivity|]. intros raw _.
  apply rbind_ext; [reflexivity|]. intros [[ter0 dep] smooth] _.
  apply rbind_ext.
  { unfold read_slope_lines. apply rbind_ext; [reflexivity|]. intros p _. unfold fs_write. destruct (String.eqb p jf); reflexivity. }
  intros lines _. apply rbind_ext; [reflexivity|]. intros ter _.
  assert (Ep : crust_profile (fs_write jf (FJson d1) fs) = crust_profile (fs_write jf (FJson d2) fs)).
  { unfold crust_profile, fs_write. destruct (String.eqb _ jf); reflexivity. }
  rewrite Ep. apply rbind_ext; [apply (same_models F1 F2), (same_for_models _ _ _ _ S)|]. reflexivity.
Qed.
End Same.

Lemma prepare_split flag (fs : fsys T) jf d :
  prepare flag (fs_write jf (FJson d) fs) jf =
  let? p := prepare_models flag (fs_write jf (FJson d) fs) d in
  let '(eri, name, sm, depth) := p in
  let? st := initialize_state (s_lava sm) (s_cryst sm) d in
  Ok (eri, name, sm, st, depth).
Proof.
  unfold prepare, prepare_models, load_json. unfold fs_write at 1. rewrite String.eqb_refl. cbn [rbind].
  do 7 match goal with |- rbind ?r _ = _ => destruct r; cbn [rbind]; [|reflexivity] end.
  destruct a5 as [[ter0 dep] smooth].
  do 3 match goal with |- rbind ?r _ = _ => destruct r; cbn [rbind]; [|reflexivity] end. reflexivity.
Qed.

Lemma same_init F1 F2 l cr : same_run_settings F1 F2 -> initialize_state l cr (JObj F1) = initialize_state l cr (JObj F2).
Proof.
  intros S. unfold initialize_state, jfloat1. pose proof (same_run_untimed _ _ S) as U. rewrite (same_jget_top F1 F2 U) by reflexivity.
  rewrite !(sm_float F1 F2 U) by reflexivity.
  rewrite (same_jfloat2 F1 F2 "lava_state" "time") by (apply (srs_entries _ _ _ _ S), listed_in; reflexivity). reflexivity.
Qed.

(** The documents are the only difference between the two file systems. *)
Lemma same_prepare F1 F2 (S : same_run_settings F1 F2) flag (fs : fsys T) jf :
  prepare flag (fs_write jf (FJson (JObj F1)) fs) jf = prepare flag (fs_write jf (FJson (JObj F2)) fs) jf.
Proof.
  rewrite !prepare_split. rewrite (same_prepare_models F1 F2 (same_run_untimed _ _ S)). apply rbind_ext; [reflexivity|].
  intros [[[eri name] sm] depth] _. rewrite (same_init F1 F2 _ _ S). reflexivity.
Qed.

(** ** C66: two configurations that agree on the consulted entries give the same run *)
(** Same result or exception, same log, same files apart from the configuration itself. *)
Definition same_outcome (json_file : string) (o1 o2 : option (res unit * fsys T * table T)) : Prop :=
  match o1, o2 with
  | None, None => True
  | Some (r1, fs1, log1), Some (r2, fs2, log2) =>
      r1 = r2 /\ log1 = log2 /\ forall q, q <> json_file -> fs1 q = fs2 q
  | _, _ => False
  end.

Theorem C66_other_entries_do_not_matter : forall F1 F2 fuel (fs : fsys T) log json_file folder,
  same_run_settings F1 F2 ->
  same_outcome json_file
    (run sf sc fuel (fs_write json_file (FJson (JObj F1)) fs) log json_file folder)
    (run sf sc fuel (fs_write json_file (FJson (JObj F2)) fs) log json_file folder).
Proof.
  intros F1 F2 fuel fs log jf folder S. unfold run, same_outcome. rewrite (same_prepare F1 F2 S).
  destruct (prepare mass_flag (fs_write jf (FJson (JObj F2)) fs) jf) as [[[[[eri name] sm] st] depth]|e].
  2:{ repeat split; auto. intros q Hq. unfold fs_write. apply String.eqb_neq in Hq. now rewrite Hq. }
  destruct (simulate fuel sm (initial_world st log depth)) as [[[[]|e] w]|]; [| |exact I].
  2:{ repeat split; auto. intros q Hq. unfold fs_write. apply String.eqb_neq in Hq. now rewrite Hq. }
  unfold write_table. destruct (w_log w) as [|first rest].
  { repeat split; auto. intros q Hq. unfold fs_write. apply String.eqb_neq in Hq. now rewrite Hq. }
  destruct (write_values_to_file (first :: rest)); (repeat split; auto); intros q Hq; unfold fs_write;
    apply String.eqb_neq in Hq; rewrite Hq; reflexivity.
Qed.

(** In particular: comments and extra sections; the path of the MELTS table;
    the path of the crust temperature file; the value of crust_temperature_1. *)
Definition known_top : list string :=
  ["models"; "heat_budget_models"; "terrain_conditions"; "lava_state"; "crystals_parameters"; "eruption_condition";
   "melt_viscosity_parameters"; "relative_viscosity_parameters"; "thermal_parameters"; "convection_parameters";
   "radiation_parameters"; "conduction_parameters"; "rain_parameters"; "melts_look-up_table"] ++ top_keys.
Lemma known_top_in k : existsb (String.eqb k) known_top = true -> In k known_top.
Proof. intros H. apply existsb_exists in H as (x & Hx & E). apply String.eqb_eq in E. now subst. Qed.
Lemma consulted_known : Forall (fun p => existsb (String.eqb (fst p)) known_top = true) consulted.
Proof. apply Forall_forall. apply forallb_forall. reflexivity. Qed.
Lemma same_at_refl F1 F2 s k : assoc s F2 = assoc s F1 -> same_at F1 F2 s k.
Proof. intros E. unfold same_at. rewrite E. destruct (assoc s F1) as [[]|]; reflexivity. Qed.

Lemma top_level_set F x v :
  ~ In x (filter (fun k => negb (String.eqb k "melts_look-up_table")) known_top) ->
  (x = "melts_look-up_table" -> present (assoc x F) = true) ->
  same_run_settings F (assoc_set x v F).
Proof.
  intros Hn Hm.
  assert (Q : forall k, existsb (String.eqb k) (filter (fun k => negb (String.eqb k "melts_look-up_table")) known_top) = true ->
       assoc k (assoc_set x v F) = assoc k F).
  { intros k Hk. apply assoc_set_other. intros ->. apply Hn. apply existsb_exists in Hk as (y & Hy & E). apply String.eqb_eq in E. now subst. }
  split.
  - intros s k Hin. apply same_at_refl. apply Q.
    assert (A : Forall (fun p => existsb (String.eqb (fst p)) (filter (fun k => negb (String.eqb k "melts_look-up_table")) known_top) = true) consulted)
      by (apply Forall_forall; apply forallb_forall; reflexivity).
    rewrite Forall_forall in A. exact (A _ Hin).
  - intros k Hk. symmetry. apply Q. cbn in Hk. repeat destruct Hk as [<-|Hk]; try reflexivity. contradiction.
  - destruct (String.eqb_spec x "melts_look-up_table") as [->|E].
    + rewrite assoc_set_same. rewrite Hm by reflexivity. reflexivity.
    + rewrite assoc_set_other by congruence. reflexivity.
  - apply same_at_presence, same_at_refl, Q. reflexivity.
  - left. apply same_at_refl, Q. reflexivity.
Qed.

Theorem C66_extra_top_level_entries : forall F extra v fuel (fs : fsys T) log json_file folder,
  ~ In extra known_top ->
  same_outcome json_file
    (run sf sc fuel (fs_write json_file (FJson (JObj F)) fs) log json_file folder)
    (run sf sc fuel (fs_write json_file (FJson (JObj (assoc_set extra v F))) fs) log json_file folder).
Proof.
  intros F extra v fuel fs log jf folder Hn. apply C66_other_entries_do_not_matter. apply top_level_set.
  - intros H. apply filter_In in H as [H _]. auto.
  - intros ->. exfalso. apply Hn. apply known_top_in. reflexivity.
Qed.

Theorem C66_melts_table_path_is_ignored : forall F v fuel (fs : fsys T) log json_file folder,
  In "melts_look-up_table" (map fst F) ->
  same_outcome json_file
    (run sf sc fuel (fs_write json_file (FJson (JObj F)) fs) log json_file folder)
    (run sf sc fuel (fs_write json_file (FJson (JObj (assoc_set "melts_look-up_table" v F))) fs) log json_file folder).
Proof.
  intros F v fuel fs log jf folder Hin. apply C66_other_entries_do_not_matter. apply top_level_set.
  - apply listed1_not. reflexivity.
  - intros _. clear - Hin. revert Hin. generalize "melts_look-up_table". intros x Hin. induction F as [|[k w] F IH]; [contradiction|].
    cbn [assoc]. destruct (String.eqb x k) eqn:E; [reflexivity|]. destruct Hin as [H|H]; [|auto].
    cbn in H. subst. rewrite String.eqb_refl in E. discriminate.
Qed.

Lemma thermal_set F g key v :
  assoc "thermal_parameters" F = Some (JObj g) ->
  ~ In ("thermal_parameters", key) consulted ->
  (key = "crust_temperature_file" -> present (assoc key g) = true) ->
  (key = "crust_temperature_1" -> a_number F "thermal_parameters" key /\ exists x, py_float v = Ok x) ->
  same_run_settings F (assoc_set "thermal_parameters" (JObj (assoc_set key v g)) F).
Proof.
  intros Eg Hn Hp H1. set (F2 := assoc_set "thermal_parameters" _ F).
  assert (O : forall s, s <> "thermal_parameters" -> assoc s F2 = assoc s F) by (intros s Hs; unfold F2; apply assoc_set_other; congruence).
  assert (E2 : assoc "thermal_parameters" F2 = Some (JObj (assoc_set key v g))) by (unfold F2; apply assoc_set_same).
  assert (K : forall k, k <> key -> same_at F F2 "thermal_parameters" k).
  { intros k Hk. unfold same_at. rewrite Eg, E2. symmetry. apply assoc_set_other. congruence. }
  split.
  - intros s k Hin. destruct (String.eqb_spec s "thermal_parameters") as [->|Hs].
    + apply K. intros ->. contradiction.
    + apply same_at_refl, O, Hs.
  - intros k Hk. symmetry. apply O. intros ->. revert Hk. apply listed1_not. reflexivity.
  - rewrite O by discriminate. reflexivity.
  - unfold same_presence. rewrite Eg, E2. destruct (String.eqb_spec key "crust_temperature_file") as [->|E].
    + rewrite assoc_set_same, Hp by reflexivity. reflexivity.
    + rewrite assoc_set_other by congruence. reflexivity.
  - destruct (String.eqb_spec key "crust_temperature_1") as [->|E].
    + destruct (H1 eq_refl) as [A [x Hx]]. right. split; [exact A|]. exists x.
      unfold jfloat2, jget. rewrite E2. cbn [rbind]. rewrite assoc_set_same. exact Hx.
    + left. apply K. congruence.
Qed.

Theorem C66_crust_temperature_file_is_ignored : forall F g v fuel (fs : fsys T) log json_file folder,
  assoc "thermal_parameters" F = Some (JObj g) -> present (assoc "crust_temperature_file" g) = true ->
  same_outcome json_file
    (run sf sc fuel (fs_write json_file (FJson (JObj F)) fs) log json_file folder)
    (run sf sc fuel (fs_write json_file (FJson (JObj
       (assoc_set "thermal_parameters" (JObj (assoc_set "crust_temperature_file" v g)) F))) fs) log json_file folder).
Proof.
  intros F g v fuel fs log jf folder Eg Hp. apply C66_other_entries_do_not_matter. apply thermal_set; auto.
  - apply listed_not. reflexivity.
  - discriminate.
Qed.
Theorem C66_crust_temperature_1_is_ignored : forall F g x y v fuel (fs : fsys T) log json_file folder,
  assoc "thermal_parameters" F = Some (JObj g) ->
  jfloat2 (JObj F) "thermal_parameters" "crust_temperature_1" = Ok x -> py_float v = Ok y ->
  same_outcome json_file
    (run sf sc fuel (fs_write json_file (FJson (JObj F)) fs) log json_file folder)
    (run sf sc fuel (fs_write json_file (FJson (JObj
       (assoc_set "thermal_parameters" (JObj (assoc_set "crust_temperature_1" v g)) F))) fs) log json_file folder).
Proof.
  intros F g x y v fuel fs log jf folder Eg Hp Hv. apply C66_other_entries_do_not_matter. apply thermal_set; auto.
  - apply listed_not. reflexivity.
  - discriminate.
  - intros _. split; [exists x; exact Hp|exists y; exact Hv].
Qed.
End Unused.
