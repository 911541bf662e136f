(** * RelVisc: effect of crystals on viscosity *)
From Verif Require Import Base Num Json Logger World Vesicle MeltVisc.

Inductive rel_model (T : Type) : Type :=
| RelER                                       (* flowgo_relative_viscosity_model_er.py:23-77 *)
| RelKD (phimax einstein : T)                 (* flowgo_relative_viscosity_model_kd.py:24-78 *)
| RelMP (phimax : T)                          (* flowgo_relative_viscosity_model_mp.py:24-55 *)
| RelMueller (rp : T)                         (* flowgo_relative_viscosity_model_mp_mueller2010.py:24-70 *)
| RelMader (rp : T)                           (* flowgo_relative_viscosity_model_mader.py:26-101 *)
| RelBLL (vm : vesicle_model T) (mm : melt_model T)
         (phimax bsolid bgas radius surf phicrit : T)
                                              (* flowgo_relative_viscosity_model_bll.py:27-174 *)
| RelPTP1 (vm : vesicle_model T)              (* flowgo_relative_viscosity_model_ptp1.py:26-64 *)
| RelPTP2 (vm : vesicle_model T)              (* flowgo_relative_viscosity_model_ptp2.py:26-64 *)
| RelPTP3 (vm : vesicle_model T)              (* flowgo_relative_viscosity_model_ptp3.py:26-63 *)
| RelCosta1 (strain : T)                      (* flowgo_relative_viscosity_model_costa1.py:24-99 *)
| RelCosta2 (strain : T)                      (* flowgo_relative_viscosity_model_costa2.py:24-94 *)
| RelCosta (strain : T).                      (* flowgo_relative_viscosity_model_costa.py:24-117,
                                                 not reachable from the factory *)
Arguments RelER {T}. Arguments RelKD {T}. Arguments RelMP {T}. Arguments RelMueller {T}.
Arguments RelMader {T}. Arguments RelBLL {T}. Arguments RelPTP1 {T}. Arguments RelPTP2 {T}.
Arguments RelPTP3 {T}. Arguments RelCosta1 {T}. Arguments RelCosta2 {T}. Arguments RelCosta {T}.

Section Rel.
Context {T : Type} {N : Num T}.
Open Scope num_scope.

(** phimax of Mueller 2010 / Mader 2013, phim1 = 0.55 and b = 1:
    mp_mueller2010.py:55-57 and 64-66, mader.py:68-71 and 95-97. *)
Definition mueller_phimax (rp : T) : res T :=
  let? l := n_log10 rp in
  let? l2 := n_pow l (n_lit 2 1) in
  let? h := l2 / n_lit 2 1 in
  let? b2 := n_pow one (n_lit 2 1) in
  let? e := n_exp (- (h * b2)) in
  Ok (n_lit 55 100 * e).

(** The common formula of the three Costa files for one parameter set:
    costa1.py:73-79, 90-96; costa2.py:69-75, 85-91; costa.py:62-69, 93-114. *)
Definition costa_formula (delta gama phi_star epsilon phi : T) : res T :=
  let? sp := n_sqrt n_pi in
  let? k := sp / (n_lit 2 1 * (one - epsilon)) in
  let? r := phi / phi_star in
  let? rg := n_mpow r gama in
  let? er := n_erf (py_min (n_lit 25 1) (k * r * (one + rg))) in
  let f := (one - epsilon) * er in
  let? rd := n_mpow r delta in
  let? den := n_mpow (one - f) (n_lit 5 2 * phi_star) in
  (one + rd) / den.

(** compute_relative_viscosity.  A Costa model whose strain-rate parameter is
    neither 1.0 nor 0.0001 falls through and returns None; its only callers
    multiply the result by a float, which raises TypeError: reported here. *)
Definition compute_relative_viscosity (m : rel_model T) (s : state T) : res T :=
  let phi := st_phi s in
  match m with
  | RelER =>                                                        (* er.py:64-69 *)
      let r := n_lit 151 100 in
      let? _ := one / r in
      n_mpow (one - r * phi) (n_lit (-5) 2)
  | RelKD phimax b =>                                               (* kd.py:65-70 *)
      let? q := phi / phimax in
      n_mpow (one - q) (- b * phimax)
  | RelMP phimax =>                                                 (* mp.py:43-48 *)
      let? q := phi / phimax in
      n_mpow (one - q) (n_lit (-2) 1)
  | RelMueller rp =>                                                (* mp_mueller2010.py:52-60 *)
      let? phimax := mueller_phimax rp in
      let? q := phi / phimax in
      n_mpow (one - q) (n_lit (-2) 1)
  | RelMader rp =>                                                  (* mader.py:65-91 *)
      let? phimax := mueller_phimax rp in
      let? q := phi / phimax in
      let? q4 := n_pow q (n_lit 4 1) in
      let n := one - n_lit 2 10 * rp * q4 in
      if n_lit 1 2 <=? q then
        if n <? n_lit 9 10 then
          if st_strain s <=? zero
          then Err (ValueError "strain_rate must be > 0 when n < 1 (non-Newtonian case)")
          else
            let? a := n_mpow (one - q) (n_lit (-2) 1) in
            let? b := n_pow (st_strain s) (n - one) in
            Ok (a * b)
        else n_mpow (one - q) (n_lit (-2) 1)
      else n_mpow (one - q) (n_lit (-2) 1)
  | RelBLL vm mm phimax bsolid bgas radius surf phicrit =>          (* bll.py:122-165 *)
      let? vf := computes_vesicle_fraction vm s in
      let? mv := compute_melt_viscosity mm s in
      let? relax := radius * mv / surf in
      let ca0 := relax * st_strain s in
      let phi_eff := phi * (one - vf) + vf in
      if one <=? vf then n_inf
      else
        let strain := if st_strain s <=? zero then n_lit 1 1000000000000 else st_strain s in
        let? q := phi / phimax in
        if phicrit <? phi_eff then
          let ca := if n_lit 10 1 <? ca0 then n_lit 10 1 else ca0 in
          let n0 := one + (n_lit 7 10 - n_lit 55 100 * ca) * (phicrit - phi * (one - vf) - vf) in
          let n := py_min (n_lit 12 10) (py_max (n_lit 2 10) n0) in
          let? a := n_pow (one - q) (- bsolid) in
          let? b := n_pow (one - vf) (- bgas) in
          let? c := n_pow strain (n - one) in
          if strain <=? zero then Err (ValueError "strain_rate <= 0") else Ok (a * b * c)
        else
          let? a := n_pow (one - q) (- bsolid) in
          let? b := n_pow (one - vf) (- bgas) in
          if strain <=? zero then Err (ValueError "strain_rate <= 0") else Ok (a * b)
  | RelPTP1 vm =>                                                   (* ptp1.py:49-55 *)
      let? vf := computes_vesicle_fraction vm s in
      let? q := phi / (one - vf) in
      let? a := n_pow (one - q) (n_lit (-5) 2) in
      let? b := n_pow (one - vf) (n_lit (-1) 1) in
      Ok (a * b)
  | RelPTP2 vm =>                                                   (* ptp2.py:48-55 *)
      let? vf := computes_vesicle_fraction vm s in
      let? e := (n_lit 5 1 * phi + n_lit 2 1 * vf) / (n_lit 2 1 * (phi + vf)) in
      n_mpow (one - phi - vf) (- e)
  | RelPTP3 vm =>                                                   (* ptp3.py:48-54 *)
      let? vf := computes_vesicle_fraction vm s in
      let? q := vf / (one - phi) in
      let? a := n_pow (one - q) (n_lit (-1) 1) in
      let? b := n_pow (one - phi) (n_lit (-5) 2) in
      Ok (a * b)
  | RelCosta1 sr =>                                                 (* costa1.py:60-96 *)
      if sr =? one then costa_formula (n_lit 114 10) (n_lit 16 10) (n_lit 67 100) (n_lit 1 100) phi
      else if sr =? n_lit 1 10000
      then costa_formula (n_lit 1148 100) (n_lit 152 100) (n_lit 62 100) (n_lit 5 1000) phi
      else Err TypeError
  | RelCosta2 sr =>                                                 (* costa2.py:59-91 *)
      if sr =? one then costa_formula (n_lit 445 100) (n_lit 855 100) (n_lit 28 100) (n_lit 1 1000) phi
      else if sr =? n_lit 1 10000
      then costa_formula (n_lit 75 10) (n_lit 55 10) (n_lit 26 100) (n_lit 2 10000) phi
      else Err TypeError
  | RelCosta sr =>                                                  (* costa.py:52-114 *)
      if sr =? one then costa_formula (n_lit 114 10) (n_lit 16 10) (n_lit 67 100) (n_lit 1 100) phi
      else if sr =? n_lit 1 10000
      then costa_formula (n_lit 1148 100) (n_lit 152 100) (n_lit 62 100) (n_lit 5 1000) phi
      else Err TypeError
  end.

(** is_notcompatible *)
Definition rel_is_notcompatible (m : rel_model T) (s : state T) : res bool :=
  let phi := st_phi s in
  match m with
  | RelER => let? l := one / n_lit 151 100 in Ok (l <=? phi)        (* er.py:71-77 *)
  | RelKD phimax _ => let? q := phi / phimax in Ok (one <? q)       (* kd.py:72-78 *)
  | RelMP phimax => let? q := phi / phimax in Ok (one <? q)         (* mp.py:50-55 *)
  | RelMueller rp =>                                                (* mp_mueller2010.py:62-70 *)
      let? phimax := mueller_phimax rp in let? q := phi / phimax in Ok (one <? q)
  | RelMader rp =>                                                  (* mader.py:93-101 *)
      let? phimax := mueller_phimax rp in let? q := phi / phimax in Ok (q =? one)
  | RelBLL vm _ phimax _ _ _ _ _ =>                                 (* bll.py:168-174 *)
      let? vf := computes_vesicle_fraction vm s in Ok (phimax * (one - vf) <? phi)
  | RelPTP1 vm =>                                                   (* ptp1.py:57-64 *)
      let? vf := computes_vesicle_fraction vm s in Ok (one - vf <? phi)
  | RelPTP2 vm =>                                                   (* ptp2.py:57-64 *)
      let? vf := computes_vesicle_fraction vm s in Ok (one - vf <? phi)
  | RelPTP3 vm =>                                                   (* ptp3.py:56-63 *)
      let? vf := computes_vesicle_fraction vm s in Ok (one - vf <? phi)
  | RelCosta1 _ => Ok false                                         (* costa1.py:98-99 *)
  | RelCosta2 _ => Ok false                                         (* costa2.py:93-94 *)
  | RelCosta _ => Ok false                                          (* costa.py:116-117 *)
  end.

(** read_initial_condition_from_json_file.  er/ptp1..3 load the file and
    read nothing (er.py:60-62, ptp1.py:44-47, ptp2.py:44-46, ptp3.py:44-46). *)
Definition rvp := "relative_viscosity_parameters".
Definition read_rel_kd (d : json T) : res (rel_model T) :=              (* kd.py:59-63 *)
  let? p := jfloat2 d rvp "max_packing" in
  let? e := jfloat2 d rvp "einstein_coef" in Ok (RelKD p e).
Definition read_rel_mp (d : json T) : res (rel_model T) :=              (* mp.py:36-41 *)
  let? _ := require2 d rvp "max_packing" in
  let? p := jfloat2 d rvp "max_packing" in Ok (RelMP p).
Definition read_rel_mueller (d : json T) : res (rel_model T) :=         (* mp_mueller2010.py:45-50 *)
  let? _ := require2 d rvp "crystal_aspect_ratio" in
  let? r := jfloat2 d rvp "crystal_aspect_ratio" in Ok (RelMueller r).
Definition read_rel_mader (d : json T) : res (rel_model T) :=           (* mader.py:57-62 *)
  let? _ := require2 d rvp "crystal_aspect_ratio" in
  let? r := jfloat2 d rvp "crystal_aspect_ratio" in Ok (RelMader r).
Definition read_rel_bll (vm : vesicle_model T) (mm : melt_model T) (d : json T) : res (rel_model T) :=
  let? _ := require2 d rvp "max_packing" in                             (* bll.py:99-120 *)
  let? _ := require2 d rvp "Bsolid" in
  let? _ := require2 d rvp "Bgas" in
  let? _ := require2 d rvp "vesicle_radius" in
  let? _ := require2 d rvp "surface_tension" in
  let? _ := require2 d rvp "crit_packing" in
  let? p := jfloat2 d rvp "max_packing" in
  let? bs := jfloat2 d rvp "Bsolid" in
  let? bg := jfloat2 d rvp "Bgas" in
  let? ra := jfloat2 d rvp "vesicle_radius" in
  let? su := jfloat2 d rvp "surface_tension" in
  let? pc := jfloat2 d rvp "crit_packing" in
  Ok (RelBLL vm mm p bs bg ra su pc).
Definition read_rel_costa1 (d : json T) : res (rel_model T) :=          (* costa1.py:54-58 *)
  let? x := jfloat2 d rvp "strain_rate" in Ok (RelCosta1 x).
Definition read_rel_costa2 (d : json T) : res (rel_model T) :=          (* costa2.py:53-57 *)
  let? x := jfloat2 d rvp "strain_rate" in Ok (RelCosta2 x).
End Rel.
