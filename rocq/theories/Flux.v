(** * Flux: heat fluxes and pyflowgo/flowgo_heat_budget.py *)
From Verif Require Import Base Num Json Logger World Vesicle MeltVisc RelVisc Bubbles Terrain Lava Thermal.

(** The four radiation classes (all named FlowGoFluxRadiationHeat) differ in
    their emissivity and pixel size. *)
Inductive rad_kind (T : Type) : Type :=
| RadBasic (eps : T)       (* flowgo_flux_radiation_heat.py:32-140 *)
| Rad2Emi (eps1 eps2 : T)  (* flowgo_flux_radiation_heat_emissivity.py:43-160 *)
| RadCont                  (* flowgo_flux_radiation_heat_emissivity_cont.py:50-180 *)
| RadLin.                  (* flowgo_flux_radiation_heat_lin_emi.py:43-180 *)
Arguments RadBasic {T}. Arguments Rad2Emi {T}. Arguments RadCont {T}. Arguments RadLin {T}.

Inductive flux (T : Type) : Type :=
| FRadiation (k : rad_kind T) (sigma : T)
| FConduction (t_base cbd : T)      (* flowgo_flux_conduction_heat.py:29-85 *)
| FConvection                       (* flowgo_flux_forced_convection_heat.py:25-70 *)
| FRain (rate dens latent : T)      (* flowgo_flux_heat_loss_rain.py:29-46 *)
| FViscous                          (* flowgo_flux_viscous_heating.py:24-40 *)
| FSnyder.                          (* flowgo_flux_snyder2002fig4_heat.py:38-97; its _air_temperature
                                       attribute is never used *)
Arguments FRadiation {T}. Arguments FConduction {T}. Arguments FConvection {T}.
Arguments FRain {T}. Arguments FViscous {T}. Arguments FSnyder {T}.

(** The objects wired together by the factory and the integrator
    (flowgo_integrator.py:29-45): immutable during a run. *)
Record sim (T : Type) : Type := {
  s_dx     : T;
  s_lava   : lava T;
  s_air    : air T;
  s_ter    : terrain T;
  s_cryst  : cryst_model T;
  s_crust  : crust_model T;
  s_cover  : cover_model T;
  s_budget : list (flux T);
  s_mass   : bool            (* the truth value of [mass_conservation == True] *)
}.
Arguments s_dx {T}. Arguments s_lava {T}. Arguments s_air {T}. Arguments s_ter {T}.
Arguments s_cryst {T}. Arguments s_crust {T}. Arguments s_cover {T}. Arguments s_budget {T}.
Arguments s_mass {T}.

Section Flux.
Context {T : Type} {N : Num T}.
Open Scope num_scope.

Definition cover (sm : sim T) : M (T:=T) T :=
  compute_effective_cover_fraction (s_cover sm) (s_lava sm) (s_ter sm).
Definition crust_temp (sm : sim T) : M (T:=T) T :=
  reads (fun w => compute_crust_temperature (s_crust sm) (w_st w)).
Definition molten_temp (sm : sim T) : M (T:=T) T :=
  get (fun w => computes_molten_material_temperature (s_lava sm) (w_st w)).

(** _compute_effective_radiation_temperature: radiation_heat.py:51-73,
    emissivity.py:65-90, emissivity_cont.py:81-103, lin_emi.py:62-87 *)
Definition effective_radiation_temperature (sm : sim T) : M (T:=T) T :=
  let! f := cover sm in
  let! tc := crust_temp sm in
  let! th := molten_temp sm in
  let ta := air_temp (s_air sm) in
  let! tc4 := lift (n_pow tc (n_lit 4 1)) in
  let! ta4 := lift (n_pow ta (n_lit 4 1)) in
  let! th4 := lift (n_pow th (n_lit 4 1)) in
  let! te := lift (n_mpow (f * (tc4 - ta4) + (one - f) * (th4 - ta4)) (n_lit 1 4)) in
  do! log_var "effective_radiation_temperature" (CNum te);
  ret te.

(** emissivity_cont.py:69-79 *)
Definition cont_emissivity (t : T) : res T :=
  let? t2 := n_pow t (n_lit 2 1) in
  Ok (n_lit 474709 1000000 + t * n_lit 719320 1000000000 + t2 * n_lit (-340085) 1000000000000).
(** lin_emi.py:89-97,105 *)
Definition lin_emissivity (t : T) : T :=
  n_lit 10463014 10000000 + t * n_lit (-148144) 1000000000.

(** _compute_emissivity_crust / _compute_emissivity_molten *)
Definition emissivity_crust (k : rad_kind T) (sm : sim T) : M (T:=T) T :=
  match k with
  | RadBasic e => ret e
  | Rad2Emi e1 _ => ret e1
  | RadCont => let! tc := crust_temp sm in lift (cont_emissivity tc)
  | RadLin => let! tc := crust_temp sm in ret (lin_emissivity tc)
  end.
Definition emissivity_molten (k : rad_kind T) (sm : sim T) : M (T:=T) T :=
  match k with
  | RadBasic e => ret e
  | Rad2Emi _ e2 => ret e2
  | RadCont => let! th := molten_temp sm in lift (cont_emissivity th)
  | RadLin => let! th := molten_temp sm in ret (lin_emissivity th)
  end.

(** _compute_epsilon_effective: radiation_heat.py:75-78, emissivity.py:92-99,
    emissivity_cont.py:105-115, lin_emi.py:100-109 *)
Definition epsilon_effective (k : rad_kind T) (sm : sim T) : M (T:=T) T :=
  match k with
  | RadBasic e => do! log_var "epsilon_effective" (CNum e); ret e
  | Rad2Emi e1 e2 =>
      let! f := cover sm in
      let e := f * e1 + (one - f) * e2 in
      do! log_var "epsilon_effective" (CNum e); ret e
  | RadCont =>
      let! f := cover sm in
      let! ec := emissivity_crust k sm in
      let! em := emissivity_molten k sm in
      let e := f * ec + (one - f) * em in
      do! log_var "epsilon_effective" (CNum e); ret e
  | RadLin =>
      let! te := effective_radiation_temperature sm in
      let e := lin_emissivity te in
      do! log_var "epsilon_effective" (CNum e); ret e
  end.

(** Lpixel: radiation_heat.py:88, emissivity.py:109, emissivity_cont.py:128,
    lin_emi.py:124 *)
Definition pixel_length (k : rad_kind T) : T :=
  match k with
  | RadBasic _ => n_lit 30 1
  | Rad2Emi _ _ => n_lit 30 1
  | RadCont => n_lit 1 10
  | RadLin => n_lit 1 10
  end.

(** The physical constants of _compute_spectral_radiance
    (radiation_heat.py:101-106 and the same lines of the other files); the
    powers of ten are folded into the literals. *)
Definition sr_lamda : T := n_lit 8675 10000 * n_lit 1 1000000.
Definition sr_h : T := n_lit 66256 10000 * n_lit 1 10000000000000000000000000000000000.
Definition sr_c : T := n_lit 29979 10000 * n_lit 100000000 1.
Definition sr_C1 : res T :=
  let? c2 := n_pow sr_c (n_lit 2 1) in Ok (n_lit 2 1 * n_pi * sr_h * c2).
Definition sr_kapa : T := n_lit 138 100 * n_lit 1 100000000000000000000000.
Definition sr_C2 : res T := sr_h * sr_c / sr_kapa.

(** Planck term C1*lamda**(-5)/(exp(C2/(lamda*t))-1): radiation_heat.py:109-115 *)
Definition planck (t : T) : res T :=
  let? c1 := sr_C1 in
  let? c2 := sr_C2 in
  let? l5 := n_pow sr_lamda (n_lit (-5) 1) in
  let? x := c2 / (sr_lamda * t) in
  let? e := n_exp x in
  c1 * l5 / (e - one).

(** _compute_spectral_radiance: radiation_heat.py:80-127, emissivity.py:101-148,
    emissivity_cont.py:117-168, lin_emi.py:112-166.  The result is logged and
    otherwise unused. *)
Definition spectral_radiance (k : rad_kind T) (sm : sim T) (width : T) : M (T:=T) T :=
  let! f := cover sm in
  let! tc := crust_temp sm in
  let! th := molten_temp sm in
  let! ec := emissivity_crust k sm in
  let! em := emissivity_molten k sm in
  let lp := pixel_length k in
  let a_pixel := lp * lp in
  let a_lava := lp * width in
  let a_hot := a_lava * (one - f) in
  let a_crust := a_lava * f in
  let! p_hot := lift (a_hot / a_pixel) in
  let! p_crust := lift (a_crust / a_pixel) in
  let! sc := lift (planck tc) in
  let! sh := lift (planck th) in
  let! sb := lift (planck (n_lit 258 1)) in
  let m := n_lit 8 10 * (em * p_hot * sh + ec * p_crust * sc
                         + (one - p_hot - p_crust) * n_lit 1 10 * sb) in
  let r := m * n_lit 1 1000000 in
  do! log_var "spectral_radiance" (CNum r);
  ret r.

(** compute_flux of the radiation classes: radiation_heat.py:129-140,
    emissivity.py:150-160, emissivity_cont.py:170-180, lin_emi.py:169-180 *)
Definition radiation_flux (k : rad_kind T) (sigma : T) (sm : sim T) (width : T) : M (T:=T) T :=
  let! te := effective_radiation_temperature sm in
  let! e := epsilon_effective k sm in
  let! te4 := lift (n_pow te (n_lit 4 1)) in
  let q := sigma * e * te4 * width in
  let! _sr := spectral_radiance k sm width in
  ret q.

(** conduction_heat.py:77-85 *)
Definition conduction_flux (t_base cbd : T) (sm : sim T) (width depth : T) : M (T:=T) T :=
  let! tcore := get (fun w => st_temp (w_st w)) in
  let! vf := reads (fun w => lava_vesicle_fraction (s_lava sm) (w_st w)) in
  let! k := lift (n_pow (n_lit 1929 1000 - n_lit 1554 1000 * vf) (n_lit 2 1)) in
  let! c := lift (cbd / n_lit 100 1) in
  let h_base := c * depth in
  let! q := lift ((tcore - t_base) / h_base) in
  ret (k * q * width).

(** forced_convection_heat.py:35-45 *)
Definition characteristic_surface_temperature (sm : sim T) : M (T:=T) T :=
  let! tc := crust_temp sm in
  let! f := cover sm in
  let! th := molten_temp sm in
  let! a := lift (n_pow tc (n_lit 1333 1000)) in
  let! b := lift (n_pow th (n_lit 1333 1000)) in
  let! r := lift (n_mpow (f * a + (one - f) * b) (n_lit 3 4)) in
  do! log_var "characteristic_surface_temperature" (CNum r);
  ret r.

(** forced_convection_heat.py:47-65 *)
Definition convection_flux (sm : sim T) (width : T) : M (T:=T) T :=
  let hc := compute_conv_heat_transfer_coef (s_air sm) in
  let ta := air_temp (s_air sm) in
  let! tconv := characteristic_surface_temperature sm in
  let q := hc * (tconv - ta) * width in
  do! log_var "effective_temperature_snyder" (CNum zero);
  do! log_var "flowgofluxsnyderheat" (CNum zero);
  ret q.

(** heat_loss_rain.py:44-46 *)
Definition rain_flux (rate dens latent width : T) : T := rate * dens * latent * width.

(** viscous_heating.py:31-35 *)
Definition viscous_flux (sm : sim T) (width depth : T) : M (T:=T) T :=
  let! mu := reads (fun w => computes_bulk_viscosity (s_lava sm) (w_st w)) in
  let! v := compute_mean_velocity (s_lava sm) (s_ter sm) in
  let! g := lift (v / depth) in
  let! g2 := lift (n_pow g (n_lit 2 1)) in
  ret (mu * g2 * width).

(** snyder2002fig4_heat.py:56-72 *)
Definition effective_temperature_snyder (sm : sim T) : M (T:=T) T :=
  let! tc := crust_temp sm in
  let! f := cover sm in
  let! th := molten_temp sm in
  let t := f * tc + (one - f) * th in
  do! log_var "effective_temperature_snyder" (CNum t);
  ret t.

(** snyder2002fig4_heat.py:75-97 *)
Definition snyder_flux (sm : sim T) (width : T) : M (T:=T) T :=
  let! t := effective_temperature_snyder sm in
  let! p := lift (n_pow t (n_lit 485 100)) in
  let q := n_lit 107 100 * n_lit 1 10000000000000 * p * width * n_lit 1000 1 in
  do! log_var "characteristic_surface_temperature" (CNum zero);
  do! log_var "effective_radiation_temperature" (CNum zero);
  do! log_var "flowgofluxforcedconvectionheat" (CNum zero);
  do! log_var "flowgofluxradiationheat" (CNum zero);
  ret q.

(** compute_flux(state, channel_width, channel_depth) *)
Definition compute_flux (f : flux T) (sm : sim T) (width depth : T) : M (T:=T) T :=
  match f with
  | FRadiation k sigma => radiation_flux k sigma sm width
  | FConduction tb cbd => conduction_flux tb cbd sm width depth
  | FConvection => convection_flux sm width
  | FRain r d l => ret (rain_flux r d l width)
  | FViscous => viscous_flux sm width depth
  | FSnyder => snyder_flux sm width
  end.

(** str(flux.__class__.__name__).lower(): heat_budget.py:44 *)
Definition flux_name (f : flux T) : string :=
  match f with
  | FRadiation _ _ => "flowgofluxradiationheat"
  | FConduction _ _ => "flowgofluxconductionheat"
  | FConvection => "flowgofluxforcedconvectionheat"
  | FRain _ _ _ => "flowgofluxheatlossrain"
  | FViscous => "flowgofluxviscousheating"
  | FSnyder => "flowgofluxsnyderheat"
  end.

(** heat_budget.py:42-45 — the loop; each flux is computed twice, once for the
    sum and once for the log. *)
Fixpoint budget_loop (fl : list (flux T)) (sm : sim T) (width depth acc : T) : M (T:=T) T :=
  match fl with
  | [] => ret acc
  | f :: r =>
      let! q := compute_flux f sm width depth in
      let acc' := acc + q in
      let! q2 := compute_flux f sm width depth in
      do! log_var (flux_name f) (CNum q2);
      budget_loop r sm width depth acc'
  end.

(** heat_budget.py:39-49 — compute_heat_budget *)
Definition compute_heat_budget (sm : sim T) (width depth : T) : M (T:=T) T :=
  let! q := budget_loop (s_budget sm) sm width depth zero in
  do! log_var "heat_budget" (CNum q);
  ret q.

(** read_initial_condition_from_json_file of the fluxes *)
Definition read_f_rad_basic (d : json T) : res (flux T) :=               (* radiation_heat.py:44-49 *)
  let? s := jfloat2 d "radiation_parameters" "stefan-boltzmann_sigma" in
  let? e := jfloat2 d "radiation_parameters" "emissivity_epsilon" in
  Ok (FRadiation (RadBasic e) s).
Definition read_f_rad_2emi (d : json T) : res (flux T) :=                (* emissivity.py:57-63 *)
  let? s := jfloat2 d "radiation_parameters" "stefan-boltzmann_sigma" in
  let? e1 := jfloat2 d "radiation_parameters" "epsilon_crust" in
  let? e2 := jfloat2 d "radiation_parameters" "epsilon_hot" in
  Ok (FRadiation (Rad2Emi e1 e2) s).
Definition read_f_rad_cont (d : json T) : res (flux T) :=                (* emissivity_cont.py:63-67 *)
  let? s := jfloat2 d "radiation_parameters" "stefan-boltzmann_sigma" in
  Ok (FRadiation RadCont s).
Definition read_f_rad_lin (d : json T) : res (flux T) :=                 (* lin_emi.py:56-60 *)
  let? s := jfloat2 d "radiation_parameters" "stefan-boltzmann_sigma" in
  Ok (FRadiation RadLin s).
Definition read_f_conduction (d : json T) : res (flux T) :=              (* conduction_heat.py:70-75 *)
  let? b := jfloat2 d "conduction_parameters" "basal_temperature" in
  let? c := jfloat2 d "conduction_parameters" "core_base_distance" in
  Ok (FConduction b c).
Definition read_f_rain (d : json T) : res (flux T) :=                    (* heat_loss_rain.py:36-42 *)
  let? r := jfloat2 d "rain_parameters" "rainfall_rate" in
  let? w := jfloat2 d "rain_parameters" "density_water" in
  let? l := jfloat2 d "rain_parameters" "latent_heat_vaporization" in
  Ok (FRain r w l).
Definition read_f_snyder (d : json T) : res (flux T) :=                  (* snyder2002fig4_heat.py:50-54 *)
  let? _ := jfloat2 d "convection_parameters" "air_temperature" in
  Ok FSnyder.
(** convection (forced_convection_heat.py:67-70) and viscous heating
    (viscous_heating.py:37-40) load the file and read nothing. *)
End Flux.
