(** * Props_TableDemo: C72 on the shipped template *)
From Coq Require Import Reals Lra.
From Verif Require Import Base Num Json Logger World Vesicle MeltVisc RelVisc Bubbles Terrain Lava
  Thermal Flux Integrator Factory Run RNum StepProps Props_Run Valid Props_ValidRun Cooling Props_Cooling
  Props_EffArray Props_Table Props_Template.
Open Scope R_scope.

(** The template's flow advances at least one step; its first row holds the
    initial state and satisfies the mass and heat balances. *)
Example template_first_row : exists w r eff h v width,
  simulate (step_bound 30000 0 10) (template_sim 0) (initial_world (template_state 0) [] (14 / 10)) = Some (Ok tt, w) /\
  nth_error (w_log w) 0 = Some r /\
  holds r "core_temperature" (st_temp (template_state 0)) /\
  holds r "mean_velocity" v /\ holds r "channel_width" width /\ holds r "channel_depth" h /\
  assoc "effusion_rate" r = Some (CStr eff) /\ 0 < v /\ v * width * h = eff.
Proof.
  destruct template_flows as (w & E & I & L & _).
  destruct (nth_error (w_log w) 0) as [r|] eqn:Er; [|apply nth_error_None in Er; lia].
  assert (Hdx : s_dx (template_sim 0) <> 0) by (cbn; rnum; lra).
    destruct (C72_rows_follow_one_another _ _ _ _ _ Hdx E 0%nat r I Er) as (t & ph & a & b & T & _ & _ & _ & Z & _).
  destruct (Z eq_refl) as [-> _].
  destruct (C72_every_row_balances _ _ _ _ _ Hdx E) as (eff & h & X).
  destruct (X 0%nat r I Er) as (x & v & width & rho & hb & rate & dtemp & slope & X1 & X2 & X3 & X4 & X5 & X6 & X7 & X8 & X9 & X10 & _ & _ & Hv & _ & HM & _).
  exists w, r, eff, h, v, width.
  split; [exact E|]. split; [exact Er|]. split; [exact T|]. split; [exact X2|]. split; [exact X3|]. split; [exact X9|].
  split; [exact X10|]. split; [exact Hv|]. exact (HM eq_refl).
Qed.
