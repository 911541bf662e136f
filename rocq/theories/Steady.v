(** * Steady: with a rheology that ignores the strain rate, evaluating the same
      flux twice gives the same value (any arithmetic) *)
From Verif Require Import Base Num Json Logger World Vesicle MeltVisc RelVisc Bubbles Terrain Lava
  Thermal Flux Integrator Frame StepLog.

Section Steady.
Context {T : Type} {N : Num T}.

(** Wherever [m] returns, in worlds that differ only in the strain rate and in
    what was logged, it returns the same value. *)
Definition steady {A} (m : M (T:=T) A) : Prop :=
  forall w x1 c1 x2 c2 a1 a2 u1 u2,
  m (touched x1 c1 w) = (Ok a1, u1) -> m (touched x2 c2 w) = (Ok a2, u2) -> a1 = a2.

Lemma steady_ret {A} (a : A) : steady (ret a).
Proof. intros w x1 c1 x2 c2 a1 a2 u1 u2 H1 H2. injection H1 as <- _. injection H2 as <- _. reflexivity. Qed.
Lemma steady_lift {A} (r : res A) : steady (lift r).
Proof. intros w x1 c1 x2 c2 a1 a2 u1 u2 H1 H2. apply lift_ok in H1 as [H1 _]. apply lift_ok in H2 as [H2 _]. congruence. Qed.
Lemma steady_log name v : steady (log_var name v).
Proof. intros w x1 c1 x2 c2 a1 a2 u1 u2 H1 H2. destruct a1, a2. reflexivity. Qed.
Lemma steady_reads {A} (f : world T -> res A) :
  (forall w x1 c1 x2 c2, f (touched x1 c1 w) = f (touched x2 c2 w)) -> steady (reads f).
Proof.
  intros H w x1 c1 x2 c2 a1 a2 u1 u2 H1 H2. apply reads_ok in H1 as [H1 _]. apply reads_ok in H2 as [H2 _].
  rewrite (H w x1 c1 x2 c2) in H1. congruence.
Qed.
Lemma steady_get {A} (f : world T -> A) :
  (forall w x1 c1 x2 c2, f (touched x1 c1 w) = f (touched x2 c2 w)) -> steady (get f).
Proof.
  intros H w x1 c1 x2 c2 a1 a2 u1 u2 H1 H2. apply get_ok in H1 as [-> _]. apply get_ok in H2 as [-> _]. apply H.
Qed.
Lemma steady_bind {A B} names (m : M (T:=T) A) (f : A -> M B) :
  framed names m -> steady m -> (forall a, steady (f a)) -> steady (bind m f).
Proof.
  intros F Hm Hf w x1 c1 x2 c2 a1 a2 u1 u2 H1 H2.
  apply bind_ok in H1 as (b1 & v1 & E1 & H1). apply bind_ok in H2 as (b2 & v2 & E2 & H2).
  assert (b1 = b2) by (eapply Hm; eauto). subst b2.
  apply (framed_ok _ _ _ _ _ F) in E1 as (y1 & d1 & -> & _). apply (framed_ok _ _ _ _ _ F) in E2 as (y2 & d2 & -> & _).
  rewrite touched_touched in H1, H2. eapply Hf; eauto.
Qed.
Lemma steady_velocity l t : strain_free l -> steady (compute_mean_velocity l t).
Proof.
  intros Hf w x1 c1 x2 c2 a1 a2 u1 u2 H1 H2.
  apply mean_velocity_M in H1 as (n1 & H1 & _). apply mean_velocity_M in H2 as (n2 & H2 & _).
  cbn [w_st w_depth touched set_log set_st] in H1, H2.
  replace (set_strain_rate x2 (w_st w)) with (set_strain_rate x2 (set_strain_rate x1 (w_st w))) in H2 by reflexivity.
  destruct (mean_velocity_same l t (w_depth w) (set_strain_rate x1 (w_st w)) x2 a1 n1 a2 n2 Hf H1 H2) as [-> _].
  reflexivity.
Qed.
Lemma steady_cover (sm : sim T) : strain_free (s_lava sm) -> steady (cover sm).
Proof.
  intros Hf. unfold cover, compute_effective_cover_fraction. destruct (s_cover sm).
  - eapply steady_bind; [apply framed_velocity|apply steady_velocity, Hf|intros v].
    eapply steady_bind; [apply framed_lift|apply steady_lift|intros e]. apply steady_ret.
  - eapply steady_bind; [apply framed_get|apply steady_get; reflexivity|intros p].
    eapply steady_bind; [apply framed_velocity|apply steady_velocity, Hf|intros v].
    destruct (n_leb p crit); (eapply steady_bind; [apply framed_lift|apply steady_lift|intros e]; apply steady_ret).
Qed.
Lemma steady_crust (sm : sim T) : steady (crust_temp sm).
Proof.
  apply steady_reads. intros. cbn [w_st touched set_log set_st]. now rewrite !crust_strain.
Qed.
Lemma steady_molten (sm : sim T) : steady (molten_temp sm).
Proof. apply steady_get. reflexivity. Qed.

Section Free.
Variable sm : sim T.
Hypothesis Hf : strain_free (s_lava sm).
Let Scov := steady_cover sm Hf.
Ltac st1 := first [ eapply steady_bind; [apply framed_cover'|exact Scov|intros]
  | eapply steady_bind; [apply framed_crust|apply steady_crust|intros]
  | eapply steady_bind; [apply framed_molten|apply steady_molten|intros]
  | eapply steady_bind; [apply framed_lift|apply steady_lift|intros]
  | eapply steady_bind; [apply framed_log|apply steady_log|intros]
  | apply steady_ret | apply steady_lift ].
Lemma steady_ert : steady (effective_radiation_temperature sm).
Proof. unfold effective_radiation_temperature. repeat st1. Qed.
Lemma steady_ec k : steady (emissivity_crust k sm).
Proof. destruct k; cbn [emissivity_crust]; repeat st1. Qed.
Lemma steady_em k : steady (emissivity_molten k sm).
Proof. destruct k; cbn [emissivity_molten]; repeat st1. Qed.
Ltac st2 := first [ eapply steady_bind; [apply framed_ert|apply steady_ert|intros]
  | eapply steady_bind; [apply framed_ec|apply steady_ec|intros]
  | eapply steady_bind; [apply framed_em|apply steady_em|intros] | st1 ].
Lemma steady_eps k : steady (epsilon_effective k sm).
Proof. destruct k; cbn [epsilon_effective]; repeat st2. Qed.
Lemma steady_sr k width : steady (spectral_radiance k sm width).
Proof. unfold spectral_radiance. repeat st2. Qed.
Lemma steady_flux f width depth : steady (compute_flux f sm width depth).
Proof.
  destruct f; cbn [compute_flux].
  - unfold radiation_flux. st2. eapply steady_bind; [apply framed_eps|apply steady_eps|intros].
    st2. eapply steady_bind; [apply framed_sr|apply steady_sr|intros]. st2.
  - unfold conduction_flux. eapply steady_bind; [apply framed_get|apply steady_get; reflexivity|intros].
    eapply steady_bind; [apply framed_pure|apply steady_reads|intros].
    { intros. cbn [w_st touched set_log set_st]. unfold lava_vesicle_fraction. now rewrite !ves_strain. }
    repeat st1.
  - unfold convection_flux, characteristic_surface_temperature.
    eapply (steady_bind ["characteristic_surface_temperature"]); [|repeat st1|intros; repeat st1].
    repeat (first [ apply framed_ret | apply framed_log | apply framed_lift | apply framed_crust | apply framed_cover'
      | apply framed_molten | eapply framed_bind'; [| intros |]]); reflexivity.
  - apply steady_ret.
  - unfold viscous_flux. eapply steady_bind; [apply framed_pure|apply steady_reads|intros].
    { intros. cbn [w_st touched set_log set_st]. now rewrite !Hf. }
    eapply steady_bind; [apply framed_velocity|apply steady_velocity, Hf|intros]. repeat st1.
  - unfold snyder_flux, effective_temperature_snyder.
    eapply (steady_bind ["effective_temperature_snyder"]); [|repeat st1|intros; repeat st1].
    repeat (first [ apply framed_ret | apply framed_log | apply framed_lift | apply framed_crust | apply framed_cover'
      | apply framed_molten | eapply framed_bind'; [| intros |]]); reflexivity.
Qed.
End Free.
End Steady.
