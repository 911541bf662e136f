(** * Props_Width: a channel k times as wide, fed k times as fast (C74) *)
From Coq Require Import Reals Lra.
From Verif Require Import Base Num Json Logger World Vesicle MeltVisc RelVisc Bubbles Terrain Lava
  Thermal Flux Integrator Factory Run RNum Spec Props_Factory Props_EffArray Props_Unused WidthScale.
Open Scope R_scope.

(** C74.  [wider k sm] is the simulation with the channel width and the
    effusion rate multiplied by [k > 0] (WidthScale).  It ends in the same way
    after the same number of steps, in the same state and at the same depth;
    its table is [scale_table k] of the other one. *)
Theorem C74_wider_simulation : forall k (sm : sim R) fuel s log depth, 0 < k ->
  simulate fuel (wider k sm) (initial_world s (scale_table k log) depth) =
  match simulate fuel sm (initial_world s log depth) with
  | None => None
  | Some (r, w) => Some (r, scale_world k w)
  end.
Proof.
  intros k sm fuel s log depth Hk. unfold simulate.
  assert (E0 : initial_world s (scale_table k log) depth = scale_world k (initial_world s log depth)).
  { unfold scale_world, initial_world. cbn. f_equal. rnum. ring. }
  rewrite E0, (mir_init k Hk). destruct (init_effusion_rate sm (initial_world s log depth)) as [[[]|e] w0]; cbn [fst snd rmap]; [|reflexivity].
  revert w0. induction fuel as [|fuel IH]; intros w; cbn [run_loop].
  - change (has_finished (scale_world k w)) with (has_finished w). destruct (has_finished w); reflexivity.
  - change (has_finished (scale_world k w)) with (has_finished w). destruct (has_finished w); [reflexivity|].
    rewrite (mir_step k Hk). destruct (single_step sm w) as [[[]|e] w1]; cbn [fst snd rmap]; [apply IH|reflexivity].
Qed.

(** What [scale_table] and [scale_world] mean, column by column. *)
Theorem C74_columns : forall k (t : table R) i r, nth_error t i = Some r ->
  exists r', nth_error (scale_table k t) i = Some r' /\ map fst r' = map fst r /\
    (forall name x, assoc name r = Some (CNum x) ->
       In name ["channel_width"; "heat_budget"; "flowgofluxradiationheat"; "flowgofluxconductionheat";
                "flowgofluxforcedconvectionheat"; "flowgofluxheatlossrain"; "flowgofluxviscousheating"; "flowgofluxsnyderheat"] ->
       assoc name r' = Some (CNum (k * x))) /\
    (forall x, assoc "effusion_rate" r = Some (CStr x) -> assoc "effusion_rate" r' = Some (CStr (k * x))) /\
    (forall x, assoc "spectral_radiance" r = Some (CNum x) ->
       exists y, assoc "spectral_radiance" r' = Some (CNum y) /\ y - background = k * (x - background)) /\
    (forall name, ~ In name scaled_columns -> name <> "spectral_radiance" -> assoc name r' = assoc name r).
Proof.
  intros k t i r Hr. exists (scale_row k r). split; [unfold scale_table; now rewrite nth_error_map, Hr|].
  split; [unfold scale_row; rewrite map_map; reflexivity|]. repeat split.
  - intros name x Hx Hin. rewrite assoc_scale, Hx. cbn [option_map]. f_equal. unfold scale_cell.
    cbn in Hin. repeat (destruct Hin as [<-|Hin]; [reflexivity|]). contradiction.
  - intros x Hx. rewrite assoc_scale, Hx. reflexivity.
  - intros x Hx. rewrite assoc_scale, Hx. eexists. split; [reflexivity|]. lra.
  - intros name Hn Hs. rewrite assoc_scale. destruct (assoc name r) as [c|]; [|reflexivity]. cbn [option_map]. f_equal. unfold scale_cell.
    destruct (in_strings name scaled_columns) eqn:E.
    + exfalso. apply Hn. unfold in_strings in E. apply existsb_exists in E as (y & Hy & Ey). apply String.eqb_eq in Ey. now subst.
    + apply String.eqb_neq in Hs. now rewrite Hs.
Qed.
Theorem C74_rest_of_the_world : forall k (w : world R),
  w_st (scale_world k w) = w_st w /\ w_depth (scale_world k w) = w_depth w /\ w_iter (scale_world k w) = w_iter w /\
  w_fin (scale_world k w) = w_fin w /\ w_eff (scale_world k w) = k * w_eff w.
Proof. intros. repeat split. Qed.

(** ** From the configuration file *)
Section Config.
Context (sf : R -> string) (sc : json R -> string).
Context (k : R) (Hk : 0 < k) (F g : list (string * json R)) (v u : json R) (e0 wd : R).
Hypothesis Hg : assoc "terrain_conditions" F = Some (JObj g).
Hypothesis He : jfloat1 (JObj F) "effusion_rate_init" = Ok e0.
Hypothesis Hw : jfloat2 (JObj F) "terrain_conditions" "width" = Ok wd.
Hypothesis Hv : py_float v = Ok (k * e0).
Hypothesis Hu : py_float u = Ok (k * wd).
Let F2 := assoc_set "effusion_rate_init" v (assoc_set "terrain_conditions" (JObj (assoc_set "width" u g)) F).

Lemma F2_other s : s <> "effusion_rate_init" -> s <> "terrain_conditions" -> assoc s F2 = assoc s F.
Proof. intros H1 H2. unfold F2. rewrite !assoc_set_other by congruence. reflexivity. Qed.
Lemma F2_ter : assoc "terrain_conditions" F2 = Some (JObj (assoc_set "width" u g)).
Proof. unfold F2. rewrite assoc_set_other by discriminate. apply assoc_set_same. Qed.
Lemma F2_eff : assoc "effusion_rate_init" F2 = Some v.
Proof. unfold F2. apply assoc_set_same. Qed.
Lemma F2_get2 key : key <> "width" -> jget2 (JObj F2) "terrain_conditions" key = jget2 (JObj F) "terrain_conditions" key.
Proof. intros H. unfold jget2, jget. rewrite F2_ter, Hg. cbn [rbind]. now rewrite assoc_set_other by congruence. Qed.
Lemma F2_float key : key <> "width" -> jfloat2 (JObj F2) "terrain_conditions" key = jfloat2 (JObj F) "terrain_conditions" key.
Proof. intros H. rewrite !jfloat2_jget2. now rewrite F2_get2. Qed.
Lemma F2_width : jfloat2 (JObj F2) "terrain_conditions" "width" = Ok (k * wd).
Proof. unfold jfloat2, jget. rewrite F2_ter. cbn [rbind]. rewrite assoc_set_same. exact Hu. Qed.
Lemma F2_rate : jfloat1 (JObj F2) "effusion_rate_init" = Ok (k * e0).
Proof. unfold jfloat1, jget. rewrite F2_eff. exact Hv. Qed.
Lemma F2_require key : key <> "effusion_rate_init" -> key <> "terrain_conditions" -> require1 (JObj F2) key = require1 (JObj F) key.
Proof. intros H1 H2. unfold require1, jmem, jget. now rewrite F2_other. Qed.

Lemma models_not keys s key : In (s, key) (for_models keys) -> s <> "terrain_conditions".
Proof. intros H ->. unfold for_models in H. apply filter_In in H as [_ H]. discriminate H. Qed.
Lemma consulted_not_eff : Forall (fun p => negb (String.eqb (fst p) "effusion_rate_init") = true) consulted.
Proof. apply Forall_forall. apply forallb_forall. reflexivity. Qed.
Lemma wider_models : same_settings (for_models consulted) [] F F2.
Proof.
  constructor.
  - intros s key Hin. apply same_at_refl, F2_other; [|exact (models_not _ _ _ Hin)].
    apply for_models_sub, but_time_sub in Hin. assert (Q := consulted_not_eff). rewrite Forall_forall in Q.
    apply Q in Hin. intros ->. discriminate Hin.
  - intros key [].
  - rewrite F2_other by discriminate. reflexivity.
  - apply same_at_presence, same_at_refl, F2_other; discriminate.
  - left. apply same_at_refl, F2_other; discriminate.
Qed.

Lemma wider_terrain_read :
  read_terrain (JObj F2) = rmap (fun '(t, d, sm) => (wider_terrain k t, d, sm)) (read_terrain (JObj F)).
Proof.
  unfold read_terrain. rewrite F2_rate, He, F2_width, Hw, F2_get2, !F2_float by discriminate. cbn [rbind].
  repeat (match goal with |- context [rbind ?r _] => destruct r; cbn [rbind rmap]; [|reflexivity] end); reflexivity.
Qed.
Lemma wider_slope lines smooth t :
  read_slope_from_file lines smooth (wider_terrain k t) = rmap (wider_terrain k) (read_slope_from_file lines smooth t).
Proof.
  unfold read_slope_from_file.
  repeat (match goal with |- context [rbind ?r _] => destruct r; cbn [rbind rmap]; [|reflexivity] end); reflexivity.
Qed.
Lemma wider_mass : mass_raw (JObj F2) = mass_raw (JObj F).
Proof. unfold mass_raw, jget. rewrite F2_ter, Hg. cbn [rbind]. now rewrite assoc_set_other by discriminate. Qed.
Lemma wider_init l cr : initialize_state l cr (JObj F2) = initialize_state l cr (JObj F).
Proof.
  unfold initialize_state. rewrite F2_rate, He, F2_width, Hw, F2_float by discriminate. cbn [rbind].
  assert (P : forall key, jfloat2 (JObj F2) "lava_state" key = jfloat2 (JObj F) "lava_state" key).
  { intros key. unfold jfloat2, jget. now rewrite F2_other by discriminate. }
  rewrite !P. destruct (jfloat2 (JObj F) "terrain_conditions" "depth") as [depth|]; [|reflexivity]. cbn [rbind].
  destruct (jfloat2 (JObj F) "lava_state" "position"); [|reflexivity]. cbn [rbind].
  destruct (jfloat2 (JObj F) "lava_state" "time"); [|reflexivity]. cbn [rbind].
  destruct (get_crystal_fraction cr (lv_terupt l)); [|reflexivity]. cbn [rbind].
  destruct (n_mpow depth (n_lit 2 1)) as [d2|]; [|reflexivity]. cbn [rbind]. rnum.
  replace (3 * (k * e0)) with (k * (3 * e0)) by ring. rewrite div_scale_num.
  destruct (R_div (3 * e0) d2) as [a3|]; [|reflexivity]. cbn [rbind rmap]. rewrite (div_scale_both k Hk). reflexivity.
Qed.

Lemma wider_prepare flag (fs : fsys R) jf :
  prepare flag (fs_write jf (FJson (JObj F2)) fs) jf =
  rmap (fun '(_, name, sm, st, depth) => (v, name, wider k sm, st, depth)) (prepare flag (fs_write jf (FJson (JObj F)) fs) jf).
Proof.
  rewrite !prepare_split. unfold prepare_models.
  assert (E1 : jget (JObj F2) "effusion_rate_init" = Ok v) by (unfold jget; now rewrite F2_eff).
  assert (E2 : exists v0, jget (JObj F) "effusion_rate_init" = Ok v0).
  { unfold jfloat1 in He. apply rbind_ok in He as (v0 & E & _). eauto. }
  destruct E2 as (v0 & E2). rewrite E1, E2, !F2_require, wider_mass, wider_terrain_read by discriminate. cbn [rbind].
  do 5 (match goal with |- context [rbind ?r _] => destruct r; cbn [rbind rmap]; [|reflexivity] end).
  destruct (read_terrain (JObj F)) as [[[ter0 dep] smooth]|]; [|reflexivity]. cbn [rbind rmap].
  assert (El : forall sl, read_slope_lines (fs_write jf (FJson (JObj F2)) fs) sl = read_slope_lines (fs_write jf (FJson (JObj F)) fs) sl).
  { intros sl. unfold read_slope_lines. destruct (match sl with JStr s => Ok s | JNull => _ | _ => _ end) as [p|]; [|reflexivity].
    cbn [rbind]. unfold fs_write. destruct (String.eqb p jf); reflexivity. }
  rewrite El. match goal with |- context [rbind (read_slope_lines ?a ?b) _] => destruct (read_slope_lines a b) as [lines|]; [|reflexivity] end.
  cbn [rbind]. rewrite wider_slope. destruct (read_slope_from_file lines smooth ter0) as [ter|]; [|reflexivity]. cbn [rbind rmap].
  assert (Ec : crust_profile (fs_write jf (FJson (JObj F2)) fs) = crust_profile (fs_write jf (FJson (JObj F)) fs)).
  { unfold crust_profile, fs_write. destruct (String.eqb _ jf); reflexivity. }
  rewrite Ec, <- (same_models F F2 wider_models).
  destruct (build_models (JObj F) _) as [m|]; [|reflexivity]. cbn [rbind rmap s_lava s_cryst]. rewrite wider_init.
  destruct (initialize_state _ _ _) as [st|]; reflexivity.
Qed.

Lemma csv_scale t fields :
  match rmapM (csv_of_row fields) t, rmapM (csv_of_row fields) (scale_table k t) with
  | Ok _, Ok _ => True | Err a, Err b => a = b | _, _ => False end.
Proof.
  induction t as [|r t IH]; [exact Logic.I|]. cbn [scale_table map rmapM]. fold (scale_table k t).
  assert (X : has_extra fields (scale_row k r) = has_extra fields r).
  { unfold has_extra, scale_row. clear. induction r as [|[n c] r IH]; [reflexivity|]. cbn [map existsb fst]. now rewrite IH. }
  assert (Y : csv_of_row fields (scale_row k r) = if has_extra fields r then Err (ValueError "dict contains fields not in fieldnames") else Ok (csv_line fields (scale_row k r)))
    by (unfold csv_of_row; now rewrite X).
  assert (Z : csv_of_row fields r = if has_extra fields r then Err (ValueError "dict contains fields not in fieldnames") else Ok (csv_line fields r)) by reflexivity.
  rewrite Y, Z. destruct (has_extra fields r); cbn [rbind]; [reflexivity|].
  destruct (rmapM (csv_of_row fields) t), (rmapM (csv_of_row fields) (scale_table k t)); cbn [rbind]; auto.
Qed.
Lemma write_scale p1 p2 t fs1 fs2 : fst (write_table p2 (scale_table k t) fs2) = fst (write_table p1 t fs1).
Proof.
  unfold write_table. destruct t as [|r t]; [reflexivity|]. cbn [scale_table map]. fold (scale_table k t).
  assert (Q := csv_scale (r :: t) (map fst r)). cbn [scale_table map] in Q. fold (scale_table k t) in Q.
  unfold write_values_to_file.
  assert (Ef : map fst (scale_row k r) = map fst r) by (unfold scale_row; rewrite map_map; reflexivity). rewrite Ef.
  destruct (rmapM (csv_of_row (map fst r)) (r :: t)), (rmapM (csv_of_row (map fst r)) (scale_row k r :: scale_table k t));
    cbn [rbind fst]; try contradiction; congruence.
Qed.

(** C74.  Editing a configuration so that effusion_rate_init and
    terrain_conditions.width are both [k] times as large: the same result or
    exception, and the table of one run is the scaled table of the other. *)
Theorem C74_wider_configuration : forall fuel (fs : fsys R) json_file folder,
  match run sf sc fuel (fs_write json_file (FJson (JObj F)) fs) [] json_file folder,
        run sf sc fuel (fs_write json_file (FJson (JObj
          (assoc_set "effusion_rate_init" v (assoc_set "terrain_conditions" (JObj (assoc_set "width" u g)) F)))) fs) [] json_file folder with
  | None, None => True
  | Some (r1, _, table1), Some (r2, _, table2) => r2 = r1 /\ table2 = scale_table k table1
  | _, _ => False
  end.
Proof.
  intros fuel fs jf folder. fold F2. unfold run. rewrite wider_prepare.
  destruct (prepare mass_flag (fs_write jf (FJson (JObj F)) fs) jf) as [[[[[eri name] sm] st] depth]|e]; cbn [rmap]; [|split; reflexivity].
  assert (S := C74_wider_simulation k sm fuel st [] depth Hk). cbn [scale_table map] in S. rewrite S.
  destruct (simulate fuel sm (initial_world st [] depth)) as [[[[]|e] w]|]; [|split; reflexivity|exact Logic.I].
  cbn [scale_world w_log].
  assert (Q := write_scale (result_path sf sc folder name eri) (result_path sf sc folder name v) (w_log w)
     (fs_write jf (FJson (JObj F)) fs) (fs_write jf (FJson (JObj F2)) fs)).
  destruct (write_table (result_path sf sc folder name v) (scale_table k (w_log w)) _) as [r2 fs2].
  destruct (write_table (result_path sf sc folder name eri) (w_log w) _) as [r1 fs1]. cbn [fst] in Q. auto.
Qed.
End Config.
