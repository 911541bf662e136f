(** * StepLog: what the logging block of a step does (any arithmetic) *)
From Verif Require Import Base Num Json Logger World Vesicle MeltVisc RelVisc Bubbles Terrain Lava
  Thermal Flux Integrator Frame.

Section Step.
Context {T : Type} {N : Num T}.
Open Scope num_scope.

Lemma mean_velocity_M l t (w : world T) v w' :
  compute_mean_velocity l t w = (Ok v, w') ->
  exists new, mean_velocity l t (w_depth w) (w_st w) = Ok (v, new) /\
    w' = set_st (set_strain_rate new (w_st w)) w.
Proof.
  unfold compute_mean_velocity. destruct (mean_velocity _ _ _ _) as [[v' new]|e]; intros H; [|discriminate].
  injection H as <- <-. eauto.
Qed.

Lemma reads_ok {A} (f : world T -> res A) w a w' :
  reads f w = (Ok a, w') -> f w = Ok a /\ w' = w.
Proof. unfold reads. intros H. injection H as -> <-. auto. Qed.
Lemma lift_ok {A} (r : res A) (w : world T) a w' :
  lift r w = (Ok a, w') -> r = Ok a /\ w' = w.
Proof. unfold lift. intros H. injection H as -> <-. auto. Qed.
Lemma get_ok {A} (f : world T -> A) w a w' :
  get f w = (Ok a, w') -> a = f w /\ w' = w.
Proof. unfold get. intros H. injection H as <- <-. auto. Qed.
Lemma log_ok name v (w : world T) u w' :
  log_var name v w = (Ok u, w') -> w' = touched (st_strain (w_st w)) [(name, v)] w.
Proof. intros H. injection H as _ <-. destruct w as [[]]; reflexivity. Qed.

(** The logged values of a completed step: names of step_log in order. *)
Definition step_calls (x : step_vals T) (s : state T) (vf mu rho tc f eff t0 tb : T)
  : list (string * cell T) :=
  [ ("channel_width", CNum (sv_width x)); ("crystal_fraction", CNum (st_phi s));
    ("core_temperature", CNum (st_temp s)); ("strain_rate", CNum (st_strain s));
    ("vesicle_fraction", CNum vf); ("viscosity", CNum mu); ("density", CNum rho);
    ("mean_velocity", CNum (sv_v x)); ("crust_temperature", CNum tc);
    ("effective_cover_fraction", CNum f); ("dphi_dx", CNum (sv_dphi_dx x));
    ("dtemp_dx", CNum (sv_dtemp_dx x)); ("dphi_dtemp", CNum (sv_rate x));
    ("dtemp_dt", CNum (sv_dtemp_dt x)); ("slope", CNum (sv_slope x));
    ("effusion_rate", CStr eff); ("channel_depth", CNum (sv_depth x));
    ("tho_0", CNum t0); ("tho_b", CNum tb) ].

Definition step_names : list string :=
  [ "channel_width"; "crystal_fraction"; "core_temperature"; "strain_rate"; "vesicle_fraction";
    "viscosity"; "density"; "mean_velocity"; "crust_temperature"; "effective_cover_fraction";
    "dphi_dx"; "dtemp_dx"; "dphi_dtemp"; "dtemp_dt"; "slope"; "effusion_rate"; "channel_depth";
    "tho_0"; "tho_b" ].

Lemma step_log_spec sm x (w : world T) u w' :
  step_log sm x w = (Ok u, w') ->
  exists vf mu rho tc f t0 tb strain wc,
    lava_vesicle_fraction (s_lava sm) (w_st w) = Ok vf /\
    computes_bulk_viscosity (s_lava sm) (w_st w) = Ok mu /\
    get_bulk_density (s_lava sm) (w_st w) = Ok rho /\
    compute_crust_temperature (s_crust sm) (w_st w) = Ok tc /\
    (exists cs, compute_effective_cover_fraction (s_cover sm) (s_lava sm) (s_ter sm)
       (touched (st_strain (w_st w)) cs w) = (Ok f, wc)) /\
    get_yield_strength (s_lava sm) (w_st w) = Ok t0 /\
    get_basal_shear_stress (s_lava sm) (s_ter sm) (w_depth w) (w_st w) = Ok tb /\
    w' = touched strain (step_calls x (w_st w) vf mu rho tc f (w_eff w) t0 tb) w.
Proof.
  intros H. unfold step_log in H.
  apply bind_ok in H as (? & w1 & L & H). apply log_ok in L; subst w1.
  apply bind_ok in H as (s & w1 & L & H). apply get_ok in L as [-> ->].
  do 3 (apply bind_ok in H as (? & w1 & L & H); apply log_ok in L; subst w1;
        rewrite ?touched_touched in H; cbn [app] in H).
  apply bind_ok in H as (vf & w1 & L & H). apply reads_ok in L as [Hvf ->].
  apply bind_ok in H as (? & w1 & L & H); apply log_ok in L; subst w1;
        rewrite ?touched_touched in H; cbn [app] in H.
  apply bind_ok in H as (mu & w1 & L & H). apply reads_ok in L as [Hmu ->].
  apply bind_ok in H as (? & w1 & L & H); apply log_ok in L; subst w1;
        rewrite ?touched_touched in H; cbn [app] in H.
  apply bind_ok in H as (rho & w1 & L & H). apply reads_ok in L as [Hrho ->].
  do 2 (apply bind_ok in H as (? & w1 & L & H); apply log_ok in L; subst w1;
        rewrite ?touched_touched in H; cbn [app] in H).
  apply bind_ok in H as (tc & w1 & L & H). apply reads_ok in L as [Htc ->].
  apply bind_ok in H as (? & w1 & L & H); apply log_ok in L; subst w1;
        rewrite ?touched_touched in H; cbn [app] in H.
  apply bind_ok in H as (f & wc & Hf & H).
  assert (Hf' := Hf). eapply framed_ok in Hf' as (strain & cs & -> & Hcs); [|apply framed_cover].
  destruct cs; [|discriminate Hcs]. rewrite touched_touched in H. cbn [app] in H.
  do 6 (apply bind_ok in H as (? & w1 & L & H); apply log_ok in L; subst w1;
        rewrite ?touched_touched in H; cbn [app] in H).
  apply bind_ok in H as (eff & w1 & L & H). apply get_ok in L as [-> ->].
  do 2 (apply bind_ok in H as (? & w1 & L & H); apply log_ok in L; subst w1;
        rewrite ?touched_touched in H; cbn [app] in H).
  apply bind_ok in H as (t0 & w1 & L & H). apply reads_ok in L as [Ht0 ->].
  apply bind_ok in H as (? & w1 & L & H); apply log_ok in L; subst w1;
        rewrite ?touched_touched in H; cbn [app] in H.
  apply bind_ok in H as (tb & w1 & L & H). apply reads_ok in L as [Htb ->].
  apply log_ok in H. rewrite touched_touched in H. cbn [app] in H.
  cbn [touched set_log set_st w_st w_depth w_eff st_phi st_temp st_strain set_strain_rate] in *.
  exists vf, mu, rho, tc, f, t0, tb, strain. eexists.
  repeat match goal with |- _ /\ _ => split end.
  - exact Hvf.
  - exact Hmu.
  - exact Hrho.
  - exact Htc.
  - eexists. exact Hf.
  - unfold get_yield_strength in *.
    etransitivity; [|exact Ht0].
    destruct (w_st w); exact (eq_sym (yield_strain _ _ _)).
  - unfold get_basal_shear_stress in *. etransitivity; [|exact Htb].
    destruct (w_st w); exact (eq_sym (basal_strain _ _ _ _ _ _)).
  - exact H.
Qed.
End Step.
