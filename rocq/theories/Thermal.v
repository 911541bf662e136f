(** * Thermal: crystallization, crust temperature, crust cover, air *)
From Verif Require Import Base Num Json Logger World Vesicle MeltVisc RelVisc Bubbles Terrain Lava.

Inductive cryst_model (T : Type) : Type :=
| CrBasic (phi0 grown t_solid t_erupt : T)        (* flowgo_crystallization_rate_model_basic.py:23-71 *)
| CrBimodal (phi0 crit r1 r2 t_solid t_erupt : T) (* flowgo_crystallization_rate_model_bimodal.py:23-103 *)
| CrBimodalTemp (phi0 crit r1 r2 t_solid t_erupt : T)
                                                  (* flowgo_crystallization_rate_model_bimodal_f_temp.py:24-94 *)
| CrMelts (phi0 t_solid t_erupt : T) (tbl : option (list (T * T))).
                                                  (* flowgo_crystallization_rate_model_melts.py:25-98 *)
Arguments CrBasic {T}. Arguments CrBimodal {T}. Arguments CrBimodalTemp {T}. Arguments CrMelts {T}.

Inductive crust_model (T : Type) : Type :=
| CtConstant (tc : T)                (* flowgo_crust_temperature_model_constant.py:24-51 *)
| CtHon                              (* flowgo_crust_temperature_model_hon.py:25-86; the attribute
                                        _crust_temperature is overwritten at every call before it is
                                        returned, so it is not part of the model *)
| CtBimodal (crit tc2 : T)           (* flowgo_crust_temperature_model_bimodal.py:24-109 *)
| CtField (tc : T) (tbl : option (list (T * T)))
                                     (* flowgo_crust_temperature_model_field.py:26-93 *)
| CtHR2001.                          (* flowgo_crust_temperature_model_hr2001.py:25-75, not in the factory *)
Arguments CtConstant {T}. Arguments CtHon {T}. Arguments CtBimodal {T}. Arguments CtField {T}.
Arguments CtHR2001 {T}.

Inductive cover_model (T : Type) : Type :=
| CvBasic (alpha fc : T)                   (* flowgo_effective_cover_crust_model_basic.py:24-83 *)
| CvBimodal (crit alpha1 alpha2 fc1 fc2 : T). (* flowgo_effective_cover_crust_model_bimodal.py:24-104 *)
Arguments CvBasic {T}. Arguments CvBimodal {T}.

(** flowgo_material_air.py:24-41 *)
Record air (T : Type) : Type := {
  air_temp : T; air_wind : T; air_ch : T; air_rho : T; air_cp : T
}.
Arguments air_temp {T}. Arguments air_wind {T}. Arguments air_ch {T}.
Arguments air_rho {T}. Arguments air_cp {T}.

Section Thermal.
Context {T : Type} {N : Num T}.
Open Scope num_scope.

(** get_crystal_fraction(temperature): basic.py:62-63, bimodal.py:82-83,
    bimodal_f_temp.py:77-78, melts.py:84-88 *)
Definition get_crystal_fraction (m : cryst_model T) (temp : T) : res T :=
  match m with
  | CrBasic phi0 _ _ _ => Ok phi0
  | CrBimodal phi0 _ _ _ _ _ => Ok phi0
  | CrBimodalTemp phi0 _ _ _ _ _ => Ok phi0
  | CrMelts phi0 _ _ None => Ok phi0
  | CrMelts _ _ _ (Some tbl) => spline_eval tbl temp
  end.

(** compute_crystallization_rate(state) *)
Definition compute_crystallization_rate (m : cryst_model T) (s : state T) : res T :=
  match m with
  | CrBasic _ grown ts te => grown / (te - ts)                      (* basic.py:65-68 *)
  | CrBimodal _ crit r1 r2 _ _ =>                                   (* bimodal.py:85-100 *)
      if st_pos s <=? crit then Ok r1 else Ok r2
  | CrBimodalTemp _ crit r1 r2 _ _ =>                               (* bimodal_f_temp.py:80-90 *)
      if crit <=? st_temp s then Ok r1 else Ok r2
  | CrMelts _ _ _ _ =>                                              (* melts.py:90-95 *)
      let? p := get_crystal_fraction m (st_temp s + one) in
      let? q := get_crystal_fraction m (st_temp s - one) in
      (- (p - q)) / n_lit 2 1
  end.

(** get_solid_temperature: basic.py:70-71, bimodal.py:102-103,
    bimodal_f_temp.py:93-94, melts.py:97-98 *)
Definition get_solid_temperature (m : cryst_model T) : T :=
  match m with
  | CrBasic _ _ ts _ => ts
  | CrBimodal _ _ _ _ ts _ => ts
  | CrBimodalTemp _ _ _ _ ts _ => ts
  | CrMelts _ ts _ _ => ts
  end.

(** -140. * math.log10(current_time / 3600.) + 303. + 273.15:
    hon.py:82, bimodal.py:107 *)
Definition hon_temperature (time : T) : res T :=
  let? q := time / n_lit 3600 1 in
  let? l := n_log10 q in
  Ok (n_lit (-140) 1 * l + n_lit 303 1 + n_lit 27315 100).

(** compute_crust_temperature(state) *)
Definition compute_crust_temperature (m : crust_model T) (s : state T) : res T :=
  match m with
  | CtConstant tc => Ok tc                                          (* constant.py:50-51 *)
  | CtHon => hon_temperature (st_time s)                            (* hon.py:76-86 *)
  | CtBimodal crit tc2 =>                                           (* bimodal.py:100-109 *)
      if st_pos s <=? crit then hon_temperature (st_time s) else Ok tc2
  | CtField tc None => Ok tc                                        (* field.py:83-93 *)
  | CtField _ (Some tbl) => rmap n_pyf (spline_eval tbl (st_pos s))
  | CtHR2001 => Ok (st_temp s - n_lit 712 1)                        (* hr2001.py:62-75 *)
  end.

(** compute_effective_cover_fraction(state): basic.py:77-83, bimodal.py:96-104.
    It recomputes the mean velocity, so it updates the state's strain rate. *)
Definition compute_effective_cover_fraction (m : cover_model T) (l : lava T) (t : terrain T) : M (T:=T) T :=
  match m with
  | CvBasic alpha fc =>
      let! v := compute_mean_velocity l t in
      let! e := lift (n_exp (alpha * v)) in
      ret (fc * e)
  | CvBimodal crit a1 a2 fc1 fc2 =>
      let! pos := get (fun w => st_pos (w_st w)) in
      let! v := compute_mean_velocity l t in
      if pos <=? crit
      then let! e := lift (n_exp (a1 * v)) in ret (fc1 * e)
      else let! e := lift (n_exp (a2 * v)) in ret (fc2 * e)
  end.

(** flowgo_material_air.py:43-45 *)
Definition compute_conv_heat_transfer_coef (a : air T) : T :=
  air_ch a * air_rho a * air_cp a * air_wind a.

(** read_initial_condition_from_json_file *)
Definition read_cr_basic (d : json T) : res (cryst_model T) :=           (* basic.py:53-60 *)
  let? p := jfloat2 d "lava_state" "crystal_fraction" in
  let? g := jfloat2 d "crystals_parameters" "crystals_grown_during_cooling" in
  let? ts := jfloat2 d "crystals_parameters" "solid_temperature" in
  let? te := jfloat2 d "eruption_condition" "eruption_temperature" in
  Ok (CrBasic p g ts te).
Definition read_cr_bimodal (d : json T) : res (cryst_model T) :=         (* bimodal.py:58-80 *)
  let? _ := require2 d "lava_state" "critical_distance" in
  let? _ := require2 d "crystals_parameters" "crystallization_rate_1" in
  let? _ := require2 d "crystals_parameters" "crystallization_rate_2" in
  let? p := jfloat2 d "lava_state" "crystal_fraction" in
  let? c := jfloat2 d "lava_state" "critical_distance" in
  let? r1 := jfloat2 d "crystals_parameters" "crystallization_rate_1" in
  let? r2 := jfloat2 d "crystals_parameters" "crystallization_rate_2" in
  let? ts := jfloat2 d "crystals_parameters" "solid_temperature" in
  let? te := jfloat2 d "eruption_condition" "eruption_temperature" in
  Ok (CrBimodal p c r1 r2 ts te).
Definition read_cr_bimodal_f_temp (d : json T) : res (cryst_model T) :=  (* bimodal_f_temp.py:53-75 *)
  let? _ := require2 d "lava_state" "critical_temperature" in
  let? _ := require2 d "crystals_parameters" "crystallization_rate_1" in
  let? _ := require2 d "crystals_parameters" "crystallization_rate_2" in
  let? p := jfloat2 d "lava_state" "crystal_fraction" in
  let? c := jfloat2 d "lava_state" "critical_temperature" in
  let? r1 := jfloat2 d "crystals_parameters" "crystallization_rate_1" in
  let? r2 := jfloat2 d "crystals_parameters" "crystallization_rate_2" in
  let? ts := jfloat2 d "crystals_parameters" "solid_temperature" in
  let? te := jfloat2 d "eruption_condition" "eruption_temperature" in
  Ok (CrBimodalTemp p c r1 r2 ts te).
Definition read_cr_melts (d : json T) : res (cryst_model T) :=           (* melts.py:55-68 *)
  let? b := jmem d "melts_look-up_table" in
  if b then
    let? p := jfloat2 d "lava_state" "crystal_fraction" in
    let? ts := jfloat2 d "crystals_parameters" "solid_temperature" in
    let? te := jfloat2 d "eruption_condition" "eruption_temperature" in
    Ok (CrMelts p ts te None)
  else Err (ValueError "melts_look-up_table").

(** melts.py:70-82 — read_crystal_from_melts on parsed rows (temperature in
    Celsius, fraction); never called by the factory. *)
Definition read_crystal_from_melts (rows : list (T * T)) (m : cryst_model T) : res (cryst_model T) :=
  match m with
  | CrMelts p ts te _ =>
      let? sp := make_spline (map (fun r => fst r + n_lit 27315 100) rows) (map snd rows) in
      Ok (CrMelts p ts te (Some sp))
  | _ => Err (AttributeError "read_crystal_from_melts")
  end.

Definition read_ct_constant (d : json T) : res (crust_model T) :=        (* constant.py:45-48 *)
  let? t := jfloat2 d "thermal_parameters" "crust_temperature" in Ok (CtConstant t).
Definition read_ct_hon (d : json T) : res (crust_model T) :=             (* hon.py:70-74 *)
  let? _ := jfloat2 d "thermal_parameters" "crust_temperature" in Ok CtHon.
Definition read_ct_bimodal (d : json T) : res (crust_model T) :=         (* bimodal.py:79-98 *)
  let? _ := require2 d "lava_state" "critical_distance" in
  let? _ := require2 d "thermal_parameters" "crust_temperature_1" in
  let? _ := require2 d "thermal_parameters" "crust_temperature_2" in
  let? c := jfloat2 d "lava_state" "critical_distance" in
  let? _ := jfloat2 d "thermal_parameters" "crust_temperature_1" in
  let? t2 := jfloat2 d "thermal_parameters" "crust_temperature_2" in
  Ok (CtBimodal c t2).
(** field.py:55-81 on the lines of the profile file: the factory loads the
    table first (flowgo_model_factory.py:343-346), then reads the json. *)
Definition read_ct_line (text : string) : res (T * T) :=
  let line := split_on tab_char text in
  let? x := column line 0 in
  let? y := column line 1 in
  Ok (x, y + n_lit 27315 100).
Definition read_crust_temperature_table (lines : list string) : res (list (T * T)) :=
  let? rows := rmapM read_ct_line (tl lines) in
  make_spline (map fst rows) (map snd rows).
Definition read_ct_field (tbl : list (T * T)) (d : json T) : res (crust_model T) :=
  let? _ := require2 d "thermal_parameters" "crust_temperature_file" in
  let? t := jfloat2 d "thermal_parameters" "crust_temperature" in
  Ok (CtField t (Some tbl)).

Definition read_cv_basic (d : json T) : res (cover_model T) :=           (* basic.py:70-75 *)
  let? a := jfloat2 d "thermal_parameters" "alpha" in
  let? f := jfloat2 d "thermal_parameters" "crust_cover_fraction" in
  Ok (CvBasic a f).
Definition read_cv_bimodal (d : json T) : res (cover_model T) :=         (* bimodal.py:76-94 *)
  let? _ := require2 d "lava_state" "critical_distance" in
  let? _ := require2 d "thermal_parameters" "alpha_1" in
  let? _ := require2 d "thermal_parameters" "alpha_2" in
  let? c := jfloat2 d "lava_state" "critical_distance" in
  let? a1 := jfloat2 d "thermal_parameters" "alpha_1" in
  let? a2 := jfloat2 d "thermal_parameters" "alpha_2" in
  let? f1 := jfloat2 d "thermal_parameters" "crust_cover_fraction" in
  let? f2 := jfloat2 d "thermal_parameters" "crust_cover_fraction_2" in
  Ok (CvBimodal c a1 a2 f1 f2).

Definition read_air (d : json T) : res (air T) :=                        (* flowgo_material_air.py:33-41 *)
  let? t := jfloat2 d "convection_parameters" "air_temperature" in
  let? w := jfloat2 d "convection_parameters" "wind_speed" in
  let? c := jfloat2 d "convection_parameters" "ch_air" in
  let? r := jfloat2 d "convection_parameters" "air_density" in
  let? p := jfloat2 d "convection_parameters" "air_specific_heat_capacity" in
  Ok {| air_temp := t; air_wind := w; air_ch := c; air_rho := r; air_cp := p |}.
End Thermal.
