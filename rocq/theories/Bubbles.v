(** * Bubbles: effect of bubbles on viscosity *)
From Verif Require Import Base Num Json Logger World Vesicle MeltVisc RelVisc.

Inductive bubbles_model (T : Type) : Type :=
| BubNo (vm : vesicle_model T)         (* flowgo_relative_viscosity_bubbles_model_no.py:27-49 *)
| BubRigid (vm : vesicle_model T)      (* flowgo_relative_viscosity_bubbles_model_rigid.py:27-68 *)
| BubDefo (vm : vesicle_model T)       (* flowgo_relative_viscosity_bubbles_model_defo.py:27-68 *)
| BubMader (vm : vesicle_model T) (mm : melt_model T) (rm : rel_model T) (radius surf : T).
                                       (* flowgo_relative_viscosity_bubbles_model_mader.py:25-103 *)
Arguments BubNo {T}. Arguments BubRigid {T}. Arguments BubDefo {T}. Arguments BubMader {T}.

Section Bub.
Context {T : Type} {N : Num T}.
Open Scope num_scope.

(** compute_relative_viscosity_bubbles; (5. / 3.) is the literal 5/3. *)
Definition compute_relative_viscosity_bubbles (m : bubbles_model T) (s : state T) : res T :=
  match m with
  | BubNo vm =>                                                     (* no.py:44-49 *)
      let? _ := computes_vesicle_fraction vm s in Ok one
  | BubRigid vm =>                                                  (* rigid.py:63-68 *)
      let? vf := computes_vesicle_fraction vm s in
      n_mpow (one - vf) (n_lit (-1) 1)
  | BubDefo vm =>                                                   (* defo.py:64-68 *)
      let? vf := computes_vesicle_fraction vm s in
      n_mpow (one - vf) (n_lit 5 3)
  | BubMader vm mm rm radius surf =>                                (* mader.py:82-103 *)
      let? vf := computes_vesicle_fraction vm s in
      let? mv := compute_melt_viscosity mm s in
      let? rv := compute_relative_viscosity rm s in
      let? relax := radius * (mv * rv) / surf in
      let ca := relax * st_strain s in
      if ca <? one then n_pow (one - vf) (n_lit (-1) 1)
      else n_pow (one - vf) (n_lit 5 3)
  end.

(** read_initial_condition_from_json_file: mader.py:70-80; the other three
    read nothing. *)
Definition read_bub_mader (vm : vesicle_model T) (mm : melt_model T) (rm : rel_model T) (d : json T)
  : res (bubbles_model T) :=
  let? _ := require2 d rvp "vesicle_radius" in
  let? _ := require2 d rvp "surface_tension" in
  let? r := jfloat2 d rvp "vesicle_radius" in
  let? t := jfloat2 d rvp "surface_tension" in
  Ok (BubMader vm mm rm r t).
End Bub.
