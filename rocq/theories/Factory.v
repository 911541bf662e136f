(** * Factory: pyflowgo/flowgo_model_factory.py *)
From Verif Require Import Base Num Json Logger World Vesicle MeltVisc RelVisc Bubbles Terrain Lava
  Thermal Flux.

(** flowgo_model_factory.py:470-488 — the fourteen selectors. *)
Record selectors (T : Type) : Type := {
  sel_cryst : json T; sel_melt : json T; sel_rel : json T; sel_bub : json T; sel_yield : json T;
  sel_crust : json T; sel_cover : json T; sel_ves : json T;
  sel_rad : json T; sel_snyder : json T; sel_cond : json T; sel_conv : json T; sel_rain : json T;
  sel_visc : json T
}.
Arguments sel_cryst {T}. Arguments sel_melt {T}. Arguments sel_rel {T}. Arguments sel_bub {T}.
Arguments sel_yield {T}. Arguments sel_crust {T}. Arguments sel_cover {T}. Arguments sel_ves {T}.
Arguments sel_rad {T}. Arguments sel_snyder {T}. Arguments sel_cond {T}. Arguments sel_conv {T}.
Arguments sel_rain {T}. Arguments sel_visc {T}.

(** What the factory hands out (getters, lines 452-468). *)
Record models (T : Type) : Type := {
  mo_cryst : cryst_model T; mo_air : air T; mo_lava : lava T; mo_cover : cover_model T;
  mo_crust : crust_model T; mo_budget : list (flux T)
}.
Arguments mo_cryst {T}. Arguments mo_air {T}. Arguments mo_lava {T}. Arguments mo_cover {T}.
Arguments mo_crust {T}. Arguments mo_budget {T}.

Section Factory.
Context {T : Type} {N : Num T}.

Definition read_selectors (d : json T) : res (selectors T) :=
  let? a := jget2 d "models" "crystallization_rate_model" in
  let? b := jget2 d "models" "melt_viscosity_model" in
  let? c := jget2 d "models" "relative_viscosity_model" in
  let? e := jget2 d "models" "relative_viscosity_bubbles_model" in
  let? f := jget2 d "models" "yield_strength_model" in
  let? g := jget2 d "models" "crust_temperature_model" in
  let? h := jget2 d "models" "effective_cover_crust_model" in
  let? i := jget2 d "models" "vesicle_fraction_model" in
  let? j := jget2 d "heat_budget_models" "radiation" in
  let? k := jget2 d "heat_budget_models" "snyder" in
  let? l := jget2 d "heat_budget_models" "conduction" in
  let? m := jget2 d "heat_budget_models" "convection" in
  let? n := jget2 d "heat_budget_models" "rain" in
  let? o := jget2 d "heat_budget_models" "viscous_heating" in
  Ok {| sel_cryst := a; sel_melt := b; sel_rel := c; sel_bub := e; sel_yield := f; sel_crust := g;
        sel_cover := h; sel_ves := i; sel_rad := j; sel_snyder := k; sel_cond := l; sel_conv := m;
        sel_rain := n; sel_visc := o |}.

(** lines 114-136 *)
Definition build_cryst (sel : json T) (d : json T) : res (cryst_model T) :=
  if jis sel "basic" then read_cr_basic d
  else if jis sel "bimodal" then read_cr_bimodal d
  else if jis sel "bimodal_f_temp" then read_cr_bimodal_f_temp d
  else if jis sel "melts" then read_cr_melts d
  else Err (NameError "crystallization_rate_model").

(** lines 147-169 *)
Definition build_vesicle (sel : json T) (d : json T) : res (vesicle_model T) :=
  if jis sel "constant" then read_v_constant d
  else if jis sel "bimodal" then read_v_bimodal d
  else if jis sel "variable" then read_v_variable d
  else if jis sel "variable_bimodal" then read_v_variable_bimodal d
  else if jis sel "poly" then read_v_poly d
  else Err (NameError "vesicle_fraction_model").

(** lines 178-192 *)
Definition build_melt (sel : json T) (d : json T) : res (melt_model T) :=
  if jis sel "basic" then read_melt_basic d
  else if jis sel "shaw" then read_melt_shaw d
  else if jis sel "vft" then read_melt_vft d
  else Err (NameError "melt_viscosity_model").

(** lines 197-239 *)
Definition build_rel (sel : json T) (vm : vesicle_model T) (mm : melt_model T) (d : json T)
  : res (rel_model T) :=
  if jis sel "er" then Ok RelER
  else if jis sel "kd" then read_rel_kd d
  else if jis sel "mp" then read_rel_mp d
  else if jis sel "mp_mueller" then read_rel_mueller d
  else if jis sel "mader" then read_rel_mader d
  else if jis sel "bll" then read_rel_bll vm mm d
  else if jis sel "ptp1" then Ok (RelPTP1 vm)
  else if jis sel "ptp2" then Ok (RelPTP2 vm)
  else if jis sel "ptp3" then Ok (RelPTP3 vm)
  else if jis sel "costa1" then read_rel_costa1 d
  else if jis sel "costa2" then read_rel_costa2 d
  else Err (NameError "relative_viscosity_model").

(** lines 244-275 *)
Definition build_bub (sel : json T) (vm : vesicle_model T) (mm : melt_model T) (rm : rel_model T)
    (d : json T) : res (bubbles_model T) :=
  if jis sel "rigid" then Ok (BubRigid vm)
  else if jis sel "deformable" then Ok (BubDefo vm)
  else if jis sel "no" then Ok (BubNo vm)
  else if jis sel "mader" then read_bub_mader vm mm rm d
  else Err (NameError "relative_viscosity_bubbles_model").

(** lines 280-297; note line 289: the bll model is built without the vesicle
    model, so it uses its own default (constant 0.1, never read from the json). *)
Definition build_yield (sel : json T) (d : json T) : res (yield_model T) :=
  if jis sel "basic" then read_y_basic d
  else if jis sel "dragoni" then read_y_dragoni d
  else if jis sel "dragoni-alone" then read_y_dragoni_alone d
  else if jis sel "ryerson" then read_y_ryerson d
  else if jis sel "bll" then read_y_bll default_vesicle d
  else Err (NameError "yield_strength_model").

(** lines 314-326 *)
Definition build_cover (sel : json T) (d : json T) : res (cover_model T) :=
  if jis sel "basic" then read_cv_basic d
  else if jis sel "bimodal" then read_cv_bimodal d
  else Err (NameError "effective_cover_crust_model").

(** lines 331-353; [profile] are the lines of
    'resources/crust_temperature_profile.txt' if that file exists
    (flowgo_crust_temperature_model_field.py:64-66). *)
Definition build_crust (sel : json T) (profile : option (list string)) (d : json T)
  : res (crust_model T) :=
  if jis sel "constant" then read_ct_constant d
  else if jis sel "hon" then read_ct_hon d
  else if jis sel "bimodal" then read_ct_bimodal d
  else if jis sel "field" then
    match profile with
    | None => Err (FileNotFoundError "resources/crust_temperature_profile.txt")
    | Some lines => let? tbl := read_crust_temperature_table lines in read_ct_field tbl d
    end
  else Err (NameError "crust_temperature_model").

(** lines 358-448: the fluxes appended, as readers that line 450 applies to the
    configuration afterwards (heat_budget.py:34-37). *)
Definition flux_reader : Type := json T -> res (flux T).
Definition choose_radiation (sel : json T) : res (list flux_reader) :=      (* 360-396 *)
  if jis sel "basic" then Ok [read_f_rad_basic]
  else if jis sel "2_emi" then Ok [read_f_rad_2emi]
  else if jis sel "cont" then Ok [read_f_rad_cont]
  else if jis sel "lin_emi" then Ok [read_f_rad_lin]
  else if jis sel "no" then Ok []
  else Err (NameError "radiation").
Definition choose_yes_no (sel : json T) (r : flux_reader) (name : string) : res (list flux_reader) :=
  if jis sel "yes" then Ok [r]
  else if jis sel "no" then Ok []
  else Err (NameError name).
Definition choose_snyder (s : selectors T) : res (list flux_reader) :=      (* 436-448 *)
  if jis (sel_snyder s) "yes" && jis (sel_conv s) "no" && jis (sel_rad s) "no"
  then Ok [read_f_snyder]
  else if jis (sel_snyder s) "no" then Ok []
  else Err (NameError "snyder").
Definition choose_fluxes (s : selectors T) : res (list flux_reader) :=
  let? a := choose_radiation (sel_rad s) in
  let? b := choose_yes_no (sel_cond s) read_f_conduction "conduction" in    (* 398-404 *)
  let? c := choose_yes_no (sel_conv s) (fun _ => Ok FConvection) "convection" in (* 406-417 *)
  let? e := choose_yes_no (sel_rain s) read_f_rain "rain" in                (* 419-425 *)
  let? f := choose_yes_no (sel_visc s) (fun _ => Ok FViscous) "viscous_heating" in (* 427-434 *)
  let? g := choose_snyder s in
  Ok (a ++ b ++ c ++ e ++ f ++ g).

(** lines 92-450 — FlowgoModelFactory.__init__ *)
Definition build_models (d : json T) (profile : option (list string)) : res (models T) :=
  let? s := read_selectors d in
  let? cr := build_cryst (sel_cryst s) d in
  let? ar := read_air d in                                                  (* 141-142 *)
  let? vm := build_vesicle (sel_ves s) d in
  let? mm := build_melt (sel_melt s) d in
  let? rm := build_rel (sel_rel s) vm mm d in
  let? bm := build_bub (sel_bub s) vm mm rm d in
  let? ym := build_yield (sel_yield s) d in
  let? lv := read_lava mm rm bm ym vm d in                                  (* 302-309 *)
  let? cv := build_cover (sel_cover s) d in
  let? ct := build_crust (sel_crust s) profile d in
  let? fr := choose_fluxes s in
  let? fl := rmapM (fun r => r d) fr in                                     (* 450 *)
  Ok {| mo_cryst := cr; mo_air := ar; mo_lava := lv; mo_cover := cv; mo_crust := ct;
        mo_budget := fl |}.
End Factory.
