(** * StepProofs: inversion of one integration step (any arithmetic) *)
From Verif Require Import Base Num Json Logger World Vesicle MeltVisc RelVisc Bubbles Terrain Lava
  Thermal Flux Integrator Frame StepLog.

Section Step.
Context {T : Type} {N : Num T}.
Open Scope num_scope.

Lemma step_update_spec sm x (w : world T) u w' :
  step_update sm x w = (Ok u, w') ->
  exists dt sr, s_dx sm / sv_v x = Ok dt /\ n_lit 3 1 * sv_v x / sv_depth x = Ok sr /\
    w' = incr_iter (set_st {| st_phi := sv_new_phi x; st_temp := sv_new_temp x;
                              st_pos := st_pos (w_st w) + s_dx sm;
                              st_time := st_time (w_st w) + dt; st_strain := sr |} w).
Proof.
  intros H. unfold step_update in H.
  apply bind_ok in H as (? & w1 & L & H). injection L as _ <-.
  apply bind_ok in H as (? & w1 & L & H). injection L as _ <-.
  apply bind_ok in H as (? & w1 & L & H). injection L as _ <-.
  apply bind_ok in H as (dt & w1 & L & H). apply lift_ok in L as [Hdt ->].
  apply bind_ok in H as (? & w1 & L & H). injection L as _ <-.
  apply bind_ok in H as (sr & w1 & L & H). apply lift_ok in L as [Hsr ->].
  apply bind_ok in H as (? & w1 & L & H). injection L as _ <-.
  injection H as _ <-. exists dt, sr. auto.
Qed.

(** The four tests after a completed step. *)
Definition passes (sm : sim T) (w : world T) : Prop :=
  (st_temp (w_st w) <=? get_solid_temperature (s_cryst sm)) = false /\
  is_notcompatible (s_lava sm) (w_st w) = Ok false /\
  yield_strength_notcompatible (s_lava sm) (s_ter sm) (w_depth w) (w_st w) = Ok false /\
  (ter_maxlen (s_ter sm) <=? st_pos (w_st w)) = false.

Lemma step_checks_spec sm x (w : world T) u w' :
  sv_new_temp x = st_temp (w_st w) ->
  step_checks sm x w = (Ok u, w') ->
  (w' = set_finished w /\ ~ passes sm w) \/ (w' = w /\ passes sm w).
Proof.
  intros Ht H. unfold step_checks in H. rewrite Ht in H. unfold passes.
  destruct (st_temp (w_st w) <=? get_solid_temperature (s_cryst sm)) eqn:E1.
  { injection H as _ <-. left. split; auto. intros [H _]; discriminate. }
  apply bind_ok in H as (nc & w1 & L & H). apply reads_ok in L as [Hnc ->].
  destruct nc. { injection H as _ <-. left. split; auto. intros (_ & H & _). congruence. }
  apply bind_ok in H as (yc & w1 & L & H). apply reads_ok in L as [Hyc ->].
  destruct yc. { injection H as _ <-. left. split; auto. intros (_ & _ & H & _). congruence. }
  apply bind_ok in H as (pos & w1 & L & H). apply get_ok in L as [-> ->].
  destruct (ter_maxlen (s_ter sm) <=? st_pos (w_st w)) eqn:E4.
  - injection H as _ <-. left. split; auto. intros (_ & _ & _ & H). discriminate.
  - injection H as _ <-. right. auto.
Qed.

(** What one step computes, in terms of the world [w] on entry (velocity
    already known), with [w1] the world before the heat budget. *)
Definition eff_of (sm : sim T) (v : T) (w : world T) : T :=
  match w_iter w with O => v * ter_width (s_ter sm) * w_depth w | S _ => w_eff w end.

Definition width_of (sm : sim T) (v rho : T) (w : world T) : res T :=
  if s_mass sm then
    match w_flux w with
    | Some fr => let? a := fr / (v * w_depth w) in a / rho
    | None => Err (AttributeError "flux_rate")
    end
  else eff_of sm v w / (v * w_depth w).

Lemma eff_of_spec sm v (w : world T) u w' :
  first_effusion_rate sm v (w_depth w) w = (Ok u, w') -> w' = set_eff (eff_of sm v w) w.
Proof.
  unfold first_effusion_rate, eff_of. destruct (w_iter w) eqn:E; intros H; injection H as _ <-; auto.
  destruct w; reflexivity.
Qed.

Lemma step_compute_spec sm v (w : world T) x w' :
  step_compute sm v w = (Ok x, w') ->
  let w1 := set_eff (eff_of sm v w) w in
  exists rho width slope hb rate dtemp,
    get_bulk_density (s_lava sm) (w_st w) = Ok rho /\
    width_of sm v rho w = Ok width /\
    get_channel_slope (s_ter sm) (st_pos (w_st w)) = Ok slope /\
    compute_heat_budget sm width (w_depth w) w1 = (Ok hb, w') /\
    compute_crystallization_rate (s_cryst sm) (w_st w) = Ok rate /\
    (- hb) / (eff_of sm v w * rho * lv_latent (s_lava sm) * rate) = Ok dtemp /\
    x = {| sv_v := v; sv_depth := w_depth w; sv_rho := rho; sv_width := width; sv_slope := slope;
           sv_rate := rate; sv_dtemp_dx := dtemp; sv_dtemp_dt := - dtemp * v * n_lit 60 1;
           sv_dphi_dx := dtemp * (- rate);
           sv_new_phi := st_phi (w_st w) + (dtemp * (- rate)) * s_dx sm;
           sv_new_temp := st_temp (w_st w) + dtemp * s_dx sm |} /\
    exists strain calls, w' = touched strain calls w1 /\ map fst calls = budget_names (s_budget sm).
Proof.
  intros H w1. unfold step_compute in H.
  apply bind_ok in H as (depth & w2 & L & H). apply get_ok in L as [-> ->].
  apply bind_ok in H as (? & w2 & L & H). apply eff_of_spec in L. subst w2.
  apply bind_ok in H as (rho & w2 & L & H). apply reads_ok in L as [Hrho ->].
  apply bind_ok in H as (width & w2 & L & H).
  assert (Hw : width_of sm v rho w = Ok width /\ w2 = w1).
  { unfold channel_width in L. unfold width_of. destruct (s_mass sm).
    - apply bind_ok in L as (fr & w3 & L1 & L). apply reads_ok in L1 as [Hfr ->].
      apply bind_ok in L as (a & w3 & L1 & L). apply lift_ok in L1 as [Ha ->].
      apply lift_ok in L as [Hwd ->]. split; auto.
      cbn [set_eff w_flux] in Hfr. destruct (w_flux w); [|discriminate].
      injection Hfr as ->. rewrite Ha. exact Hwd.
    - apply bind_ok in L as (e & w3 & L1 & L). apply get_ok in L1 as [-> ->].
      apply lift_ok in L as [Hwd ->]. auto. }
  destruct Hw as [Hw ->]. clear L.
  apply bind_ok in H as (slope & w2 & L & H). apply reads_ok in L as [Hslope ->].
  apply bind_ok in H as (hb & w2 & Hhb & H).
  assert (F := Hhb). eapply framed_ok in F as (strain & calls & Ew2 & Hcalls); [|apply framed_budget].
  apply bind_ok in H as (rate & w3 & L & H). apply reads_ok in L as [Hrate ->].
  apply bind_ok in H as (eff & w3 & L & H). apply get_ok in L as [-> ->].
  apply bind_ok in H as (dtemp & w3 & L & H). apply lift_ok in L as [Hdt ->].
  apply bind_ok in H as (phi & w3 & L & H). apply get_ok in L as [-> ->].
  apply bind_ok in H as (temp & w3 & L & H). apply get_ok in L as [-> ->].
  injection H as <- <-.
  assert (Hst : w_st w2 = set_strain_rate strain (w_st w)) by (rewrite Ew2; reflexivity).
  assert (Heff : w_eff w2 = eff_of sm v w) by (rewrite Ew2; reflexivity).
  exists rho, width, slope, hb, rate, dtemp.
  rewrite Heff in Hdt. rewrite Hst, cryst_strain in Hrate.
  repeat match goal with |- _ /\ _ => split end; auto.
  - rewrite Hst. reflexivity.
  - exists strain, calls. auto.
Qed.

(** ** One step: the three outcomes *)
Definition after_velocity (new : T) (w : world T) : world T :=
  set_st (set_strain_rate new (w_st w)) w.

(** [computed sm w v x w2]: the step's velocity is positive and its quantities
    [x] are computed, leaving [w2]. *)
Definition computed (sm : sim T) (w : world T) (v : T) (x : step_vals T) (w2 : world T) : Prop :=
  exists new, mean_velocity (s_lava sm) (s_ter sm) (w_depth w) (w_st w) = Ok (v, new) /\
    (v <=? zero) = false /\ step_compute sm v (after_velocity new w) = (Ok x, w2).

Inductive step_outcome (sm : sim T) (w w' : world T) : Prop :=
| Stop_velocity v new :
    mean_velocity (s_lava sm) (s_ter sm) (w_depth w) (w_st w) = Ok (v, new) ->
    (v <=? zero) = true ->
    w' = set_finished (after_velocity new w) ->
    step_outcome sm w w'
| Stop_phi v x w2 :
    computed sm w v x w2 ->
    (sv_new_phi x <=? st_phi (w_st w)) = true ->
    w' = set_finished w2 ->
    step_outcome sm w w'
| Completed v x w2 w3 w4 :
    computed sm w v x w2 ->
    (sv_new_phi x <=? st_phi (w_st w)) = false ->
    step_log sm x w2 = (Ok tt, w3) ->
    step_update sm x w3 = (Ok tt, w4) ->
    (w' = set_finished w4 /\ ~ passes sm w4) \/ (w' = w4 /\ passes sm w4) ->
    step_outcome sm w w'.

Lemma computed_st sm w v x w2 :
  computed sm w v x w2 ->
  exists strain calls, w2 = touched strain calls (set_eff (eff_of sm v w) w) /\
    map fst calls = budget_names (s_budget sm).
Proof.
  intros (new & _ & _ & H). apply step_compute_spec in H.
  destruct H as (rho & width & slope & hb & rate & dtemp & _ & _ & _ & _ & _ & _ & _ & strain & calls & E & Hn).
  exists strain, calls. split; auto.
Qed.

Lemma single_step_inv sm w w' :
  single_step sm w = (Ok tt, w') -> step_outcome sm w w'.
Proof.
  intros H. unfold single_step in H.
  apply bind_ok in H as (v & w1 & L & H). apply mean_velocity_M in L as (new & Hv & ->).
  destruct (v <=? zero) eqn:Ev.
  { injection H as <-. eapply Stop_velocity; eauto. }
  apply bind_ok in H as (x & w2 & Hx & H).
  assert (C : computed sm w v x w2) by (exists new; auto).
  destruct (computed_st _ _ _ _ _ C) as (strain & calls & E2 & Hn).
  apply bind_ok in H as (phi & w3 & L & H). apply get_ok in L as [-> ->].
  assert (Ephi : st_phi (w_st w2) = st_phi (w_st w)) by (rewrite E2; reflexivity).
  rewrite Ephi in H.
  destruct (sv_new_phi x <=? st_phi (w_st w)) eqn:Ep.
  { injection H as <-. eapply Stop_phi; eauto. }
  apply bind_ok in H as ([] & w3 & Hl & H). apply bind_ok in H as ([] & w4 & Hu & H).
  eapply Completed; eauto.
  apply step_checks_spec in H; auto.
  apply step_update_spec in Hu as (dt & sr & _ & _ & ->). reflexivity.
Qed.

End Step.
