(** * Integrator: pyflowgo/flowgo_integrator.py *)
From Verif Require Import Base Num Json Logger World Vesicle MeltVisc RelVisc Bubbles Terrain Lava Thermal Flux.

Section Integrator.
Context {T : Type} {N : Num T}.
Open Scope num_scope.

(** np.arange(0.01, 50.0, 0.001) (integrator.py:52): 49990 numpy float64
    values.  numpy stores start and start + step, then fills element i with
    start + i * delta where delta = (start + step) - start. *)
Definition depth_start : T := n_lit 1 100.
Definition depth_step : T := n_lit 1 1000.
Definition depth_delta : T := (depth_start + depth_step) - depth_start.
Definition depth_at (i : nat) : T :=
  n_np (match i with
        | O => depth_start
        | S O => depth_start + depth_step
        | _ => depth_start + num_of_nat i * depth_delta
        end).
Definition depth_count : nat := Z.to_nat 49990.

(** integrator.py:54-62 — one iteration of the search: returns whether the
    effusion rate reaches the target. *)
Definition try_depth (sm : sim T) (d : T) : M (T:=T) bool :=
  do! modify (set_depth d);
  let! v := compute_mean_velocity (s_lava sm) (s_ter sm) in
  let width := ter_width (s_ter sm) in
  let eff := v * width * d in
  do! modify (set_eff eff);
  let! rho := reads (fun w => get_bulk_density (s_lava sm) (w_st w)) in
  do! modify (set_flux (eff * rho));
  ret (ter_eff_init (s_ter sm) <=? eff).

(** integrator.py:52-65 — the loop with break. *)
Fixpoint search_depth (sm : sim T) (i n : nat) : M (T:=T) unit :=
  match n with
  | O => ret tt
  | S n' =>
      let! hit := try_depth sm (depth_at i) in
      if hit then ret tt else search_depth sm (S i) n'
  end.

(** integrator.py:47-65 — init_effusion_rate *)
Definition init_effusion_rate (sm : sim T) : M (T:=T) unit :=
  if ter_eff_init (s_ter sm) =? zero then ret tt
  else search_depth sm 0 depth_count.

(** What single_step computes before it logs and updates
    (integrator.py:75-146). *)
Record step_vals : Type := {
  sv_v : T; sv_depth : T; sv_rho : T; sv_width : T; sv_slope : T;
  sv_rate : T; sv_dtemp_dx : T; sv_dtemp_dt : T; sv_dphi_dx : T;
  sv_new_phi : T; sv_new_temp : T
}.

(** integrator.py:97-100 — the channel width *)
Definition channel_width (sm : sim T) (v depth rho : T) : M (T:=T) T :=
  if s_mass sm then
    let! fr := reads (fun w => match w_flux w with
                               | Some f => Ok f
                               | None => Err (AttributeError "flux_rate")
                               end) in
    let! a := lift (fr / (v * depth)) in
    lift (a / rho)
  else
    let! eff := get w_eff in
    lift (eff / (v * depth)).

(** integrator.py:84-88 — first iteration: the effusion rate is computed from
    the configured width. *)
Definition first_effusion_rate (sm : sim T) (v depth : T) : M (T:=T) unit :=
  fun w => match w_iter w with
           | O => (Ok tt, set_eff (v * ter_width (s_ter sm) * depth) w)
           | S _ => (Ok tt, w)
           end.

(** integrator.py:83-135 — everything computed after the velocity test. *)
Definition step_compute (sm : sim T) (v : T) : M (T:=T) step_vals :=
  let! depth := get w_depth in
  do! first_effusion_rate sm v depth;
  let! rho := reads (fun w => get_bulk_density (s_lava sm) (w_st w)) in
  let! width := channel_width sm v depth rho in
  let! slope := reads (fun w => get_channel_slope (s_ter sm) (st_pos (w_st w))) in
  let! hb := compute_heat_budget sm width depth in
  let rhs := - hb in
  let! rate := reads (fun w => compute_crystallization_rate (s_cryst sm) (w_st w)) in
  let latent := lv_latent (s_lava sm) in
  let! eff := get w_eff in
  let! dtemp_dx := lift (rhs / (eff * rho * latent * rate)) in
  let dtemp_dt := - dtemp_dx * v * n_lit 60 1 in
  let dphi_dx := dtemp_dx * (- rate) in
  let! phi := get (fun w => st_phi (w_st w)) in
  let new_phi := phi + dphi_dx * s_dx sm in
  let! temp := get (fun w => st_temp (w_st w)) in
  let new_temp := temp + dtemp_dx * s_dx sm in
  ret {| sv_v := v; sv_depth := depth; sv_rho := rho; sv_width := width; sv_slope := slope;
         sv_rate := rate; sv_dtemp_dx := dtemp_dx; sv_dtemp_dt := dtemp_dt; sv_dphi_dx := dphi_dx;
         sv_new_phi := new_phi; sv_new_temp := new_temp |}.

(** integrator.py:149-181 — logging, in order. *)
Definition step_log (sm : sim T) (x : step_vals) : M (T:=T) unit :=
  do! log_var "channel_width" (CNum (sv_width x));
  let! s := get w_st in
  do! log_var "crystal_fraction" (CNum (st_phi s));
  do! log_var "core_temperature" (CNum (st_temp s));
  do! log_var "strain_rate" (CNum (st_strain s));
  let! vf := reads (fun w => lava_vesicle_fraction (s_lava sm) (w_st w)) in
  do! log_var "vesicle_fraction" (CNum vf);
  let! mu := reads (fun w => computes_bulk_viscosity (s_lava sm) (w_st w)) in
  do! log_var "viscosity" (CNum mu);
  let! rho := reads (fun w => get_bulk_density (s_lava sm) (w_st w)) in
  do! log_var "density" (CNum rho);
  do! log_var "mean_velocity" (CNum (sv_v x));
  let! tc := reads (fun w => compute_crust_temperature (s_crust sm) (w_st w)) in
  do! log_var "crust_temperature" (CNum tc);
  let! f := compute_effective_cover_fraction (s_cover sm) (s_lava sm) (s_ter sm) in
  do! log_var "effective_cover_fraction" (CNum f);
  do! log_var "dphi_dx" (CNum (sv_dphi_dx x));
  do! log_var "dtemp_dx" (CNum (sv_dtemp_dx x));
  do! log_var "dphi_dtemp" (CNum (sv_rate x));
  do! log_var "dtemp_dt" (CNum (sv_dtemp_dt x));
  do! log_var "slope" (CNum (sv_slope x));
  let! eff := get w_eff in
  do! log_var "effusion_rate" (CStr eff);
  do! log_var "channel_depth" (CNum (sv_depth x));
  let! t0 := reads (fun w => get_yield_strength (s_lava sm) (w_st w)) in
  do! log_var "tho_0" (CNum t0);
  let! tb := reads (fun w => get_basal_shear_stress (s_lava sm) (s_ter sm) (w_depth w) (w_st w)) in
  log_var "tho_b" (CNum tb).

(** integrator.py:184-192 — the state update and the iteration counter. *)
Definition step_update (sm : sim T) (x : step_vals) : M (T:=T) unit :=
  do! modify (fun w => set_st (set_crystal_fraction (sv_new_phi x) (w_st w)) w);
  do! modify (fun w => set_st (set_core_temperature (sv_new_temp x) (w_st w)) w);
  do! modify (fun w => set_st (set_current_position (st_pos (w_st w) + s_dx sm) (w_st w)) w);
  let! dt := lift (s_dx sm / sv_v x) in
  do! modify (fun w => set_st (set_current_time (st_time (w_st w) + dt) (w_st w)) w);
  let! sr := lift (n_lit 3 1 * sv_v x / sv_depth x) in
  do! modify (fun w => set_st (set_strain_rate sr (w_st w)) w);
  modify incr_iter.

(** integrator.py:194-212 — the four stopping tests, in order. *)
Definition step_checks (sm : sim T) (x : step_vals) : M (T:=T) unit :=
  if sv_new_temp x <=? get_solid_temperature (s_cryst sm) then modify set_finished
  else
    let! nc := reads (fun w => is_notcompatible (s_lava sm) (w_st w)) in
    if nc then modify set_finished
    else
      let! yc := reads (fun w => yield_strength_notcompatible (s_lava sm) (s_ter sm) (w_depth w) (w_st w)) in
      if yc then modify set_finished
      else
        let! pos := get (fun w => st_pos (w_st w)) in
        if ter_maxlen (s_ter sm) <=? pos then modify set_finished else ret tt.

(** integrator.py:68-212 — single_step *)
Definition single_step (sm : sim T) : M (T:=T) unit :=
  let! v := compute_mean_velocity (s_lava sm) (s_ter sm) in
  if v <=? zero then modify set_finished
  else
    let! x := step_compute sm v in
    let! phi := get (fun w => st_phi (w_st w)) in
    if sv_new_phi x <=? phi then modify set_finished
    else
      do! step_log sm x;
      do! step_update sm x;
      step_checks sm x.

(** integrator.py:216-217 — has_finished *)
Definition has_finished (w : world T) : bool := w_fin w.

(** run_flowgo.py:105-106 — [while not integrator.has_finished():
    integrator.single_step(state)].  Python has no bound; the model takes fuel
    and returns [None] when it runs out, [Some r] when the loop ends (normally
    or by an exception). *)
Fixpoint run_loop (sm : sim T) (fuel : nat) (w : world T) : option (res unit * world T) :=
  if has_finished w then Some (Ok tt, w)
  else match fuel with
       | O => None
       | S f => match single_step sm w with
                | (Ok _, w') => run_loop sm f w'
                | (Err e, w') => Some (Err e, w')
                end
       end.

(** [n] calls of single_step, whatever has_finished says. *)
Fixpoint steps (sm : sim T) (n : nat) (w : world T) : res unit * world T :=
  match n with
  | O => (Ok tt, w)
  | S k => match single_step sm w with
           | (Ok _, w') => steps sm k w'
           | (Err e, w') => (Err e, w')
           end
  end.

(** integrator.py:219-224 and 228-238, flowgo_state.py:81-86 — the state at
    the start of a run.  [eff0 width depth] are the integrator's
    _effusion_rate_init, _width, _depth. *)
Definition initialize_state (l : lava T) (cr : cryst_model T) (d : json T) : res (state T) :=
  let? e0 := jfloat1 d "effusion_rate_init" in
  let? width := jfloat2 d "terrain_conditions" "width" in
  let? depth := jfloat2 d "terrain_conditions" "depth" in
  let? pos := jfloat2 d "lava_state" "position" in
  let? time := jfloat2 d "lava_state" "time" in
  let temp := lv_terupt l in
  let? phi := get_crystal_fraction cr temp in
  let? d2 := n_mpow depth (n_lit 2 1) in
  let? a := n_lit 3 1 * e0 / d2 in
  let? strain := a / width in
  Ok {| st_phi := phi; st_temp := temp; st_pos := pos; st_time := time; st_strain := strain |}.

(** flowgo_integrator.py:35-37 — the world at the start of a run. *)
Definition initial_world (s : state T) (log : table T) (depth : T) : world T :=
  {| w_st := s; w_log := log; w_depth := depth; w_eff := zero; w_flux := None;
     w_iter := 0; w_fin := false |}.
End Integrator.
Arguments step_vals : clear implicits.
