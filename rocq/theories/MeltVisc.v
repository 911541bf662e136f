(** * MeltVisc: the melt viscosity models *)
From Verif Require Import Base Num Json Logger World.

Inductive melt_model (T : Type) : Type :=
| MeltBasic (visc_erupt t_erupt : T)   (* flowgo_melt_viscosity_model_basic.py:23-71 *)
| MeltShaw (slope : T)                 (* flowgo_melt_viscosity_model_shaw.py:51-68 *)
| MeltVFT (a b c : T).                 (* flowgo_melt_viscosity_model_vft.py:24-76 *)
Arguments MeltBasic {T}. Arguments MeltShaw {T}. Arguments MeltVFT {T}.

Section Melt.
Context {T : Type} {N : Num T}.
Open Scope num_scope.

(** compute_melt_viscosity *)
Definition compute_melt_viscosity (m : melt_model T) (s : state T) : res T :=
  match m with
  | MeltBasic ve te =>                                              (* basic.py:64-71 *)
      let? e := n_exp (n_lit 4 100 * (te - st_temp s)) in
      Ok (ve * e)
  | MeltShaw k =>                                                   (* shaw.py:63-68 *)
      let? q := n_lit 10000 1 / st_temp s in
      let? x := (k * q - (n_lit 3 2 * k) - n_lit 64 10) / n_lit 2303 1000 in
      n_pow (n_lit 10 1) (x - one)
  | MeltVFT a b c =>                                                (* vft.py:71-76 *)
      let? q := b / (st_temp s - c) in
      n_pow (n_lit 10 1) (a + q)
  end.

Definition read_melt_basic (d : json T) : res (melt_model T) :=         (* basic.py:56-62 *)
  let? v := jfloat2 d "eruption_condition" "viscosity_eruption" in
  let? t := jfloat2 d "eruption_condition" "eruption_temperature" in
  Ok (MeltBasic v t).
Definition read_melt_shaw (d : json T) : res (melt_model T) :=          (* shaw.py:56-61 *)
  let? k := jfloat2 d "melt_viscosity_parameters" "shaw_slope" in
  Ok (MeltShaw k).
Definition read_melt_vft (d : json T) : res (melt_model T) :=           (* vft.py:57-69 *)
  let? _ := require2 d "melt_viscosity_parameters" "a_vft" in
  let? _ := require2 d "melt_viscosity_parameters" "b_vft" in
  let? _ := require2 d "melt_viscosity_parameters" "c_vft" in
  let? a := jfloat2 d "melt_viscosity_parameters" "a_vft" in
  let? b := jfloat2 d "melt_viscosity_parameters" "b_vft" in
  let? c := jfloat2 d "melt_viscosity_parameters" "c_vft" in
  Ok (MeltVFT a b c).
End Melt.
