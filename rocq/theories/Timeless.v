(** * Timeless: the clock of the state influences nothing but itself, unless
    the crust cools with time *)
From Verif Require Import Base Num Json Logger World Vesicle MeltVisc RelVisc Bubbles Terrain Lava
  Thermal Flux Integrator Factory Run.

Section Timeless.
Context {T : Type} {N : Num T}.

Definition at_time (t : T) (w : world T) : world T := set_st (set_current_time t (w_st w)) w.

(** Setting the clock first makes no difference, except to the clock. *)
Definition timeless {A} (m : M (T:=T) A) : Prop :=
  forall w t, exists t', m (at_time t w) = (fst (m w), at_time t' (snd (m w))).

Lemma tml_reads {A} (f : world T -> res A) : (forall w t, f (at_time t w) = f w) -> timeless (reads f).
Proof. intros H w t. exists t. unfold reads. rewrite H. reflexivity. Qed.
Lemma tml_get {A} (f : world T -> A) : (forall w t, f (at_time t w) = f w) -> timeless (get f).
Proof. intros H w t. exists t. unfold get. rewrite H. reflexivity. Qed.
Lemma tml_lift {A} (a : res A) : timeless (lift a).
Proof. intros w t. exists t. reflexivity. Qed.
Lemma tml_ret {A} (a : A) : timeless (ret a).
Proof. intros w t. exists t. reflexivity. Qed.
Lemma tml_modify (f : world T -> world T) : (forall w t, f (at_time t w) = at_time t (f w)) -> timeless (modify f).
Proof. intros H w t. exists t. unfold modify. rewrite H. reflexivity. Qed.
Lemma tml_log name v : timeless (log_var name v).
Proof. intros w t. exists t. reflexivity. Qed.
Lemma tml_bind {A B} (m : M A) (f : A -> M B) : timeless m -> (forall a, timeless (f a)) -> timeless (bind m f).
Proof.
  intros Hm Hf w t. destruct (Hm w t) as (t1 & E). unfold bind. rewrite E.
  destruct (m w) as [[a|e] w1]; cbn [fst snd].
  - apply Hf.
  - exists t1. reflexivity.
Qed.
Lemma tml_get_st {B} (f : state T -> M B) : (forall s t, f (set_current_time t s) = f s) -> (forall s, timeless (f s)) ->
  timeless (bind (get w_st) f).
Proof. intros H Hf w t. unfold bind, get. cbn [at_time set_st w_st]. rewrite H. apply Hf. Qed.
Lemma tml_if {A} (b : bool) (m1 m2 : M A) : timeless m1 -> timeless m2 -> timeless (if b then m1 else m2).
Proof. destruct b; auto. Qed.
End Timeless.

Ltac tml := repeat first
  [ apply tml_bind; [|intros]
  | apply tml_log | apply tml_lift | apply tml_ret
  | apply tml_reads; reflexivity | apply tml_get; reflexivity | apply tml_modify; reflexivity
  | apply tml_if ].

(** The crust temperature does not depend on the time (all models but hon and
    bimodal, whose crust near the vent is hon's). *)
Definition clock_free {T} (m : crust_model T) : Prop :=
  match m with CtHon => False | CtBimodal _ _ => False | _ => True end.

Section Timeless2.
Context {T : Type} {N : Num T}.
Lemma tml_loop fuel (l : lava T) s t depth t0 tb : forall strain,
  velocity_loop fuel l (set_current_time t s) depth t0 tb strain = velocity_loop fuel l s depth t0 tb strain.
Proof.
  induction fuel as [|f IH]; intros strain; cbn [velocity_loop]; [reflexivity|].
  change (computes_bulk_viscosity l (set_current_time t s)) with (computes_bulk_viscosity l s).
  repeat (match goal with |- rbind ?r _ = _ => destruct r; cbn [rbind]; [|reflexivity] end).
  destruct (_ <=? _)%num; [reflexivity|apply IH].
Qed.
Lemma tml_velocity (l : lava T) t : timeless (compute_mean_velocity l t).
Proof.
  intros w u. exists u. unfold compute_mean_velocity.
  assert (E : mean_velocity l t (w_depth (at_time u w)) (w_st (at_time u w)) = mean_velocity l t (w_depth w) (w_st w)).
  { unfold mean_velocity. cbn [at_time w_st w_depth set_st].
    change (st_strain (set_current_time u (w_st w))) with (st_strain (w_st w)).
    change (compute_yield_strength (lv_yield l) (set_current_time u (w_st w))) with (compute_yield_strength (lv_yield l) (w_st w)).
    change (compute_basal_shear_stress (lv_yield l) t (w_depth w) l (set_current_time u (w_st w)))
      with (compute_basal_shear_stress (lv_yield l) t (w_depth w) l (w_st w)).
    repeat (match goal with |- rbind ?r _ = _ => destruct r; cbn [rbind]; [|reflexivity] end). apply tml_loop. }
  rewrite E. destruct (mean_velocity l t (w_depth w) (w_st w)) as [[v new]|e]; reflexivity.
Qed.
Lemma tml_cover m (l : lava T) t : timeless (compute_effective_cover_fraction m l t).
Proof. destruct m; cbn [compute_effective_cover_fraction]; repeat (tml; try apply tml_velocity). Qed.
Lemma tml_crust (sm : sim T) : clock_free (s_crust sm) -> timeless (reads (fun w => compute_crust_temperature (s_crust sm) (w_st w))).
Proof. intros C. apply tml_reads. intros w t. destruct (s_crust sm); try contradiction; reflexivity. Qed.

Section Sim.
Context (sm : sim T) (C : clock_free (s_crust sm)).
Ltac tml2 := repeat (tml; try apply tml_velocity; try apply tml_cover; try apply (tml_crust sm C)).
Lemma tml_ert : timeless (effective_radiation_temperature sm).
Proof. unfold effective_radiation_temperature, cover, crust_temp, molten_temp. tml2. Qed.
Lemma tml_ec k : timeless (emissivity_crust k sm).
Proof. destruct k; unfold emissivity_crust, crust_temp; tml2. Qed.
Lemma tml_em k : timeless (emissivity_molten k sm).
Proof. destruct k; unfold emissivity_molten, molten_temp; tml2. Qed.
Ltac tml3 := repeat (tml2; try apply tml_ert; try apply tml_ec; try apply tml_em).
Lemma tml_flux f width depth : timeless (compute_flux f sm width depth).
Proof.
  destruct f as [k sigma|tb cbd| |r d l| |]; cbn [compute_flux].
  - unfold radiation_flux, spectral_radiance, cover, crust_temp, molten_temp. tml3.
    destruct k; cbn [epsilon_effective]; unfold cover; tml3.
  - unfold conduction_flux. tml3.
  - unfold convection_flux, characteristic_surface_temperature, cover, crust_temp, molten_temp. tml3.
  - tml3.
  - unfold viscous_flux. tml3.
  - unfold snyder_flux, effective_temperature_snyder, cover, crust_temp, molten_temp. tml3.
Qed.
Lemma tml_budget_loop width depth fl : forall acc, timeless (budget_loop fl sm width depth acc).
Proof.
  induction fl as [|f fl IH]; intros acc; cbn [budget_loop]; [tml|].
  apply tml_bind; [apply tml_flux|intros]. apply tml_bind; [apply tml_flux|intros]. apply tml_bind; [apply tml_log|intros]. apply IH.
Qed.
Lemma tml_clock dt : timeless (modify (fun w : world T => set_st (set_current_time (st_time (w_st w) + dt)%num (w_st w)) w)).
Proof. intros w t. eexists. reflexivity. Qed.
Lemma tml_step : timeless (single_step sm).
Proof.
  unfold single_step. apply tml_bind; [apply tml_velocity|intros v]. apply tml_if; [tml|].
  apply tml_bind; [|intros x].
  - unfold step_compute. tml.
    + intros w t. exists t. unfold first_effusion_rate. cbn [at_time w_iter set_st]. destruct (w_iter w); reflexivity.
    + apply tml_budget_loop.
  - apply tml_bind; [tml|intros phi]. apply tml_if; [tml|]. apply tml_bind; [|intros _; apply tml_bind; [|intros _]].
    + unfold step_log. apply tml_bind; [tml|intros _]. apply tml_get_st; [reflexivity|intros s]. tml2.
    + unfold step_update. repeat (tml; try apply tml_clock).
    + unfold step_checks. tml.
Qed.
Lemma tml_search n : forall i, timeless (search_depth sm i n).
Proof.
  induction n as [|n IH]; intros i; cbn [search_depth]; [tml|]. apply tml_bind; [|intros hit; apply tml_if; [tml|apply IH]].
  unfold try_depth. repeat (tml; try apply tml_velocity).
Qed.
Lemma tml_init : timeless (init_effusion_rate sm).
Proof. unfold init_effusion_rate. apply tml_if; [tml|apply tml_search]. Qed.

Definition same_ending (o1 o2 : option (res unit * world T)) : Prop :=
  match o1, o2 with
  | None, None => True
  | Some (r1, w1), Some (r2, w2) => r1 = r2 /\ exists t, w2 = at_time t w1
  | _, _ => False
  end.
Lemma tml_run fuel : forall w t, same_ending (run_loop sm fuel w) (run_loop sm fuel (at_time t w)).
Proof.
  induction fuel as [|f IH]; intros w t; cbn [run_loop]; unfold has_finished; cbn [at_time set_st w_fin]; destruct (w_fin w); cbn [same_ending].
  - eauto.
  - exact Logic.I.
  - eauto.
  - fold (at_time t w). destruct (tml_step w t) as (t' & E). rewrite E. destruct (single_step sm w) as [[u|e] w1]; cbn [fst snd].
    + apply IH.
    + cbn [same_ending]. eauto.
Qed.
Lemma tml_simulate fuel w t : same_ending (simulate fuel sm w) (simulate fuel sm (at_time t w)).
Proof.
  unfold simulate. destruct (tml_init w t) as (t' & E). rewrite E. destruct (init_effusion_rate sm w) as [[u|e] w1]; cbn [fst snd].
  - apply tml_run.
  - cbn [same_ending]. eauto.
Qed.
End Sim.
End Timeless2.
