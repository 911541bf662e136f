(** * Vesicle: the vesicle fraction models *)
From Verif Require Import Base Num Json Logger World.

(** One constructor per model class, with the attributes its
    read_initial_condition_from_json_file sets. *)
Inductive vesicle_model (T : Type) : Type :=
| VConstant (vf : T)                       (* flowgo_vesicle_fraction_model_constant.py:22-37 *)
| VBimodal (crit vf1 vf2 : T)              (* flowgo_vesicle_fraction_model_bimodal.py:23-58 *)
| VVariable (vf coef : T)                  (* flowgo_vesicle_fraction_model_variable.py:22-71 *)
| VVariableBimodal (crit vf coef : T)      (* flowgo_vesicle_fraction_model_variable_bimodal.py:22-83 *)
| VPoly (vf a b : T).                      (* flowgo_vesicle_fraction_model_poly.py:23-78 *)
Arguments VConstant {T}. Arguments VBimodal {T}. Arguments VVariable {T}.
Arguments VVariableBimodal {T}. Arguments VPoly {T}.

Section Vesicle.
Context {T : Type} {N : Num T}.
Open Scope num_scope.

(** computes_vesicle_fraction.  The int 0 returned at
    variable.py:68 and poly.py:75 is identified with the float 0. *)
Definition computes_vesicle_fraction (m : vesicle_model T) (s : state T) : res T :=
  match m with
  | VConstant vf => Ok vf                                          (* constant.py:35-37 *)
  | VBimodal crit vf1 vf2 =>                                       (* bimodal.py:52-58 *)
      if st_pos s <=? crit then Ok vf1 else Ok vf2
  | VVariable vf coef =>                                           (* variable.py:61-71 *)
      let x := vf - coef * st_pos s in
      if x <=? zero then Ok zero else Ok x
  | VVariableBimodal crit vf coef =>                               (* variable_bimodal.py:74-83 *)
      if st_pos s <=? crit then Ok (vf - coef * st_pos s)
      else Ok (vf - coef * crit)
  | VPoly vf a b =>                                                (* poly.py:67-78 *)
      let? p2 := n_mpow (st_pos s) (n_lit 2 1) in
      let x := vf + b * (st_pos s + one) + a * p2 in
      if x <=? zero then Ok zero else Ok x
  end.

(** The default constructed when no vesicle model is passed
    (constant.py:27). *)
Definition default_vesicle : vesicle_model T := VConstant (n_lit 1 10).

(** read_initial_condition_from_json_file of each class. *)
Definition read_v_constant (d : json T) : res (vesicle_model T) :=     (* constant.py:29-33 *)
  let? vf := jfloat2 d "lava_state" "vesicle_fraction" in Ok (VConstant vf).
Definition read_v_bimodal (d : json T) : res (vesicle_model T) :=      (* bimodal.py:34-50 *)
  let? _ := require2 d "lava_state" "critical_distance" in
  let? _ := require2 d "lava_state" "vesicle_fraction_1" in
  let? _ := require2 d "lava_state" "vesicle_fraction_2" in
  let? c := jfloat2 d "lava_state" "critical_distance" in
  let? v1 := jfloat2 d "lava_state" "vesicle_fraction_1" in
  let? v2 := jfloat2 d "lava_state" "vesicle_fraction_2" in
  Ok (VBimodal c v1 v2).
Definition read_v_variable (d : json T) : res (vesicle_model T) :=     (* variable.py:50-59 *)
  let? _ := require2 d "lava_state" "vesicle_coef" in
  let? vf := jfloat2 d "lava_state" "vesicle_fraction" in
  let? co := jfloat2 d "lava_state" "vesicle_coef" in
  Ok (VVariable vf co).
Definition read_v_variable_bimodal (d : json T) : res (vesicle_model T) := (* variable_bimodal.py:53-66 *)
  let? _ := require2 d "lava_state" "vesicle_coef" in
  let? _ := require2 d "lava_state" "critical_distance" in
  let? c := jfloat2 d "lava_state" "critical_distance" in
  let? vf := jfloat2 d "lava_state" "vesicle_fraction" in
  let? co := jfloat2 d "lava_state" "vesicle_coef" in
  Ok (VVariableBimodal c vf co).
Definition read_v_poly (d : json T) : res (vesicle_model T) :=         (* poly.py:58-65 *)
  let? vf := jfloat2 d "lava_state" "vesicle_fraction" in
  let? a := jfloat2 d "lava_state" "vesicle_poly_a" in
  let? b := jfloat2 d "lava_state" "vesicle_poly_b" in
  Ok (VPoly vf a b).
End Vesicle.
