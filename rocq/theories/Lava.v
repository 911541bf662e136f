(** * Lava: yield strength models and pyflowgo/flowgo_material_lava.py *)
From Verif Require Import Base Num Json Logger World Vesicle MeltVisc RelVisc Bubbles Terrain.

Inductive yield_model (T : Type) : Type :=
| YBasic (t_erupt : T)                   (* flowgo_yield_strength_model_basic.py:26-68 *)
| YDragoni (t_liq t_erupt : T)           (* flowgo_yield_strength_model_dragoni.py:25-71 *)
| YDragoniAlone (t_liq t_erupt : T)      (* flowgo_yield_strength_model_dragoni_alone.py:25-111 *)
| YRyerson (t_erupt : T)                 (* flowgo_yield_strength_model_ryerson.py:26-107 *)
| YBLL (vm : vesicle_model T) (t_erupt : T). (* flowgo_yield_strength_model_bll.py:26-126 *)
Arguments YBasic {T}. Arguments YDragoni {T}. Arguments YDragoniAlone {T}.
Arguments YRyerson {T}. Arguments YBLL {T}.

(** flowgo_material_lava.py:30-75 — FlowGoMaterialLava's attributes. *)
Record lava (T : Type) : Type := {
  lv_melt   : melt_model T;
  lv_rel    : rel_model T;
  lv_bub    : bubbles_model T;
  lv_yield  : yield_model T;
  lv_ves    : vesicle_model T;
  lv_terupt : T;      (* _eruption_temperature *)
  lv_buffer : T;      (* _buffer *)
  lv_latent : T;      (* _latent_heat_of_crystallization *)
  lv_dre    : T;      (* _density_dre *)
  lv_maxpack : T      (* _max_packing (only returned by get_max_packing) *)
}.
Arguments lv_melt {T}. Arguments lv_rel {T}. Arguments lv_bub {T}. Arguments lv_yield {T}.
Arguments lv_ves {T}. Arguments lv_terupt {T}. Arguments lv_buffer {T}. Arguments lv_latent {T}.
Arguments lv_dre {T}. Arguments lv_maxpack {T}.

Section Lava.
Context {T : Type} {N : Num T}.
Open Scope num_scope.

(** flowgo_material_lava.py:86-87 *)
Definition computes_molten_material_temperature (l : lava T) (s : state T) : T :=
  st_temp s - lv_buffer l.

(** flowgo_material_lava.py:89-93 *)
Definition computes_bulk_viscosity (l : lava T) (s : state T) : res T :=
  let? a := compute_melt_viscosity (lv_melt l) s in
  let? b := compute_relative_viscosity (lv_rel l) s in
  let? c := compute_relative_viscosity_bubbles (lv_bub l) s in
  Ok (a * b * c).

(** flowgo_material_lava.py:95-97 *)
Definition is_notcompatible (l : lava T) (s : state T) : res bool :=
  rel_is_notcompatible (lv_rel l) s.

(** flowgo_material_lava.py:173-175 *)
Definition lava_vesicle_fraction (l : lava T) (s : state T) : res T :=
  computes_vesicle_fraction (lv_ves l) s.

(** flowgo_material_lava.py:177-180 *)
Definition get_bulk_density (l : lava T) (s : state T) : res T :=
  let? vf := lava_vesicle_fraction l s in
  Ok (lv_dre l * (one - vf)).

(** compute_yield_strength(state, eruption_temperature); the second argument is
    ignored by all five models. *)
Definition compute_yield_strength (y : yield_model T) (s : state T) : res T :=
  match y with
  | YBasic te =>                                                   (* basic.py:38-47 *)
      let? e := n_exp (n_lit 8 100 * (te - st_temp s) - one) in
      let? p := n_pow (st_phi s) (n_lit 285 100) in
      Ok (n_lit 1 100 * e + n_lit 6500 1 * p)
  | YDragoni tl _ =>                                               (* dragoni.py:40-50 *)
      let? e := n_exp (n_lit 8 100 * (tl - st_temp s) - one) in
      let? p := n_pow (st_phi s) (n_lit 285 100) in
      Ok (n_lit 1 100 * e + n_lit 6500 1 * p)
  | YDragoniAlone tl _ =>                                          (* dragoni_alone.py:61-70 *)
      let? e := n_exp (n_lit 8 100 * (tl - st_temp s) - one) in
      Ok (n_lit 1 100 * e)
  | YRyerson _ =>                                                  (* ryerson.py:64-68 *)
      let? p := n_pow (st_phi s) (n_lit 285 100) in
      Ok (n_lit 6500 1 * p)
  | YBLL vm _ =>                                                   (* bll.py:73-84 *)
      let? vf := computes_vesicle_fraction vm s in
      let? a := n_mpow (n_lit 10 1) (n_lit 80 1 * (st_phi s - n_lit 35 100)) in
      let? b := n_mpow (n_lit 10 1) (n_lit 198 100 * (st_phi s + vf - n_lit 35 100)) in
      Ok (a + b)
  end.

(** compute_basal_shear_stress(state, terrain_condition, material_lava): the
    same body in basic.py:49-60, bll.py:86-118, dragoni.py:52-63,
    dragoni_alone.py:72-103, ryerson.py:70-99 (one branch each). *)
Definition basal_body (t : terrain T) (depth : T) (l : lava T) (s : state T) : res T :=
  let g := ter_gravity t in
  let? rho := get_bulk_density l s in
  let? slope := get_channel_slope t (st_pos s) in
  let? sn := n_sin slope in
  Ok (depth * rho * g * sn).
Definition compute_basal_shear_stress (y : yield_model T) (t : terrain T) (depth : T) (l : lava T)
    (s : state T) : res T :=
  match y with
  | YBasic _ => basal_body t depth l s
  | YDragoni _ _ => basal_body t depth l s
  | YDragoniAlone _ _ => basal_body t depth l s
  | YRyerson _ => basal_body t depth l s
  | YBLL _ _ => basal_body t depth l s
  end.

(** yield_strength_notcompatible: basic.py:62-68, bll.py:120-126,
    dragoni.py:65-71, dragoni_alone.py:105-111, ryerson.py:101-107 *)
Definition model_yield_notcompatible (y : yield_model T) (t : terrain T) (depth : T) (l : lava T)
    (s : state T) : res bool :=
  let? t0 := compute_yield_strength y s in
  let? tb := compute_basal_shear_stress y t depth l s in
  Ok (tb <=? t0).

(** flowgo_material_lava.py:99-101 *)
Definition get_yield_strength (l : lava T) (s : state T) : res T :=
  compute_yield_strength (lv_yield l) s.
(** flowgo_material_lava.py:103-105 *)
Definition get_basal_shear_stress (l : lava T) (t : terrain T) (depth : T) (s : state T) : res T :=
  compute_basal_shear_stress (lv_yield l) t depth l s.
(** flowgo_material_lava.py:107-109 *)
Definition yield_strength_notcompatible (l : lava T) (t : terrain T) (depth : T) (s : state T) : res bool :=
  model_yield_notcompatible (lv_yield l) t depth l s.

(** flowgo_material_lava.py:151-152 — the velocity expression *)
Definition velocity_formula (depth tho_0 tho_b mu : T) : res T :=
  let? a := depth * tho_b / (n_lit 3 1 * mu) in
  let? r := tho_0 / tho_b in
  let? r3 := n_pow r (n_lit 3 1) in
  Ok (a * (one - n_lit 3 2 * r + n_lit 1 2 * r3)).

(** flowgo_material_lava.py:148-167 — the convergence loop.  [strain] is the
    local variable; the viscosity is computed from the (unchanged) state at
    every iteration.  [fuel] counts the iterations left before
    [n >= max_iter] raises; it starts at max_iter = 50. *)
Fixpoint velocity_loop (fuel : nat) (l : lava T) (s : state T) (depth tho_0 tho_b strain : T)
  : res (T * T) :=
  match fuel with
  | O => Err (RuntimeError "compute_mean_velocity failed to converge")
  | S f =>
      let? mu := computes_bulk_viscosity l s in
      let? v := velocity_formula depth tho_0 tho_b mu in
      let? new := n_lit 3 1 * v / depth in
      let delta := n_abs (new - strain) in
      if delta <=? py_max (n_lit 1 100 * n_abs new) (n_lit 1 100000000)
      then Ok (v, new)
      else velocity_loop f l s depth tho_0 tho_b new
  end.

(** flowgo_material_lava.py:133-171 — compute_mean_velocity (this second
    definition replaces the one at lines 111-131 in the class body): returns
    v_mean and stores the strain rate in the state. *)
Definition mean_velocity (l : lava T) (t : terrain T) (depth : T) (s : state T) : res (T * T) :=
  let strain := py_or (st_strain s) (n_lit 1 100000000) in
  let? tho_0 := compute_yield_strength (lv_yield l) s in
  let? tho_b := compute_basal_shear_stress (lv_yield l) t depth l s in
  velocity_loop 50 l s depth tho_0 tho_b strain.

Definition compute_mean_velocity (l : lava T) (t : terrain T) : M (T:=T) T :=
  fun w =>
    match mean_velocity l t (w_depth w) (w_st w) with
    | Ok (v, new) => (Ok v, set_st (set_strain_rate new (w_st w)) w)
    | Err e => (Err e, w)
    end.

(** read_initial_condition_from_json_file of the yield models *)
Definition read_y_basic (d : json T) : res (yield_model T) :=          (* basic.py:32-36 *)
  let? t := jfloat2 d "eruption_condition" "eruption_temperature" in Ok (YBasic t).
Definition read_y_dragoni (d : json T) : res (yield_model T) :=        (* dragoni.py:33-38 *)
  let? q := jfloat2 d "lava_state" "liquidus_temperature" in
  let? t := jfloat2 d "eruption_condition" "eruption_temperature" in Ok (YDragoni q t).
Definition read_y_dragoni_alone (d : json T) : res (yield_model T) :=  (* dragoni_alone.py:54-59 *)
  let? q := jfloat2 d "lava_state" "liquidus_temperature" in
  let? t := jfloat2 d "eruption_condition" "eruption_temperature" in Ok (YDragoniAlone q t).
Definition read_y_ryerson (d : json T) : res (yield_model T) :=        (* ryerson.py:58-62 *)
  let? t := jfloat2 d "eruption_condition" "eruption_temperature" in Ok (YRyerson t).
(** bll.py:67-71; the vesicle model is the constructor's default because the
    factory passes none (flowgo_model_factory.py:288-289). *)
Definition read_y_bll (vm : vesicle_model T) (d : json T) : res (yield_model T) :=
  let? t := jfloat2 d "eruption_condition" "eruption_temperature" in Ok (YBLL vm t).

(** flowgo_material_lava.py:68-75 *)
Definition read_lava (mm : melt_model T) (rm : rel_model T) (bm : bubbles_model T)
    (ym : yield_model T) (vm : vesicle_model T) (d : json T) : res (lava T) :=
  let? te := jfloat2 d "eruption_condition" "eruption_temperature" in
  let? bu := jfloat2 d "thermal_parameters" "buffer" in
  let? la := jfloat2 d "crystals_parameters" "latent_heat_of_crystallization" in
  let? de := jfloat2 d "lava_state" "density_dre" in
  let? mp := jfloat2 d rvp "max_packing" in
  Ok {| lv_melt := mm; lv_rel := rm; lv_bub := bm; lv_yield := ym; lv_ves := vm;
        lv_terupt := te; lv_buffer := bu; lv_latent := la; lv_dre := de; lv_maxpack := mp |}.
End Lava.
