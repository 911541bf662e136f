(** * Gives: evaluation of the flux code when the rheology ignores the strain
      rate (exact reals) *)
From Verif Require Import Base Num Json Logger World Vesicle MeltVisc RelVisc Bubbles Terrain Lava
  Thermal Flux Integrator Frame StepLog Spec RNum Props_Velocity Props_Thermal.
Open Scope R_scope.

(** [m] returns [a] in every world that differs from [w] only in the strain
    rate and the log, and changes nothing else. *)
Definition gives {A} (m : M (T:=R) A) (w : world R) (a : A) : Prop :=
  forall x c, exists x' c', m (touched x c w) = (Ok a, touched x' c' w).

Lemma gives_here {A} (m : M (T:=R) A) w a :
  gives m w a -> exists x c, m w = (Ok a, touched x c w).
Proof.
  intros H. destruct (H (st_strain (w_st w)) []) as (x & c & E). rewrite touched_nil in E. eauto.
Qed.
Lemma gives_bind {A B} (m : M (T:=R) A) (f : A -> M B) w a b :
  gives m w a -> gives (f a) w b -> gives (bind m f) w b.
Proof.
  intros Hm Hf x c. destruct (Hm x c) as (x1 & c1 & E1). destruct (Hf x1 c1) as (x2 & c2 & E2).
  exists x2, c2. unfold bind. rewrite E1. exact E2.
Qed.
Lemma gives_ret {A} (a : A) w : gives (ret a) w a.
Proof. intros x c. exists x, c. reflexivity. Qed.
Lemma gives_lift {A} (r : res A) a w : r = Ok a -> gives (lift r) w a.
Proof. intros -> x c. exists x, c. reflexivity. Qed.
Lemma gives_reads {A} (f : world R -> res A) a w :
  (forall x c, f (touched x c w) = Ok a) -> gives (reads f) w a.
Proof. intros H x c. exists x, c. unfold reads. now rewrite H. Qed.
Lemma gives_get {A} (f : world R -> A) a w :
  (forall x c, f (touched x c w) = a) -> gives (get f) w a.
Proof. intros H x c. exists x, c. unfold get. now rewrite H. Qed.
Lemma gives_log name v w : gives (log_var name v) w tt.
Proof.
  intros x c. exists x, (c ++ [(name, v)]). unfold log_var, modify. f_equal.
  rewrite <- (touched_touched x c x [(name, v)]). reflexivity.
Qed.
(** After the first call the strain rate has changed: a computation that gives
    its value wherever it gives a value. *)
Lemma gives_velocity (sm : sim R) w v w1 :
  strain_free (s_lava sm) -> compute_mean_velocity (s_lava sm) (s_ter sm) w = (Ok v, w1) ->
  gives (compute_mean_velocity (s_lava sm) (s_ter sm)) w v.
Proof.
  intros Hf H x c. apply mean_velocity_M in H as (new & Hv & _).
  apply C20_velocity_only_if in Hv as (mu & t0 & tb & Hmu & H0 & Hb & Hm & Hb0 & Hd & Ev & _).
  exists (3 * v / w_depth w), c. unfold compute_mean_velocity.
  change (w_depth (touched x c w)) with (w_depth w).
  change (w_st (touched x c w)) with (set_strain_rate x (w_st w)).
  assert (A1 : computes_bulk_viscosity (s_lava sm) (set_strain_rate x (w_st w)) = Ok mu) by (rewrite Hf; exact Hmu).
  assert (A2 : get_yield_strength (s_lava sm) (set_strain_rate x (w_st w)) = Ok t0)
    by (unfold get_yield_strength; rewrite yield_strain; exact H0).
  assert (A3 : get_basal_shear_stress (s_lava sm) (s_ter sm) (w_depth w) (set_strain_rate x (w_st w)) = Ok tb)
    by (unfold get_basal_shear_stress; rewrite basal_strain; exact Hb).
  rewrite (C20_velocity_is_jeffreys _ _ _ _ _ _ _ A1 A2 A3 Hm Hb0 Hd).
  cbv zeta. rewrite <- Ev. destruct w as [[]]; reflexivity.
Qed.
Lemma gives_cover (sm : sim R) w f w1 :
  strain_free (s_lava sm) -> cover sm w = (Ok f, w1) -> gives (cover sm) w f.
Proof.
  intros Hf H x c. unfold cover in *. apply C36_cover_formula in H as (v & Hv & E).
  destruct (gives_velocity sm w v w1 Hf Hv x c) as (x' & c' & E').
  exists x', c'. apply C36_cover_formula. exists v. split; [exact E'|exact E].
Qed.
Lemma gives_crust (sm : sim R) w tc :
  compute_crust_temperature (s_crust sm) (w_st w) = Ok tc -> gives (crust_temp sm) w tc.
Proof.
  intros H. apply gives_reads. intros x c.
  change (w_st (touched x c w)) with (set_strain_rate x (w_st w)). now rewrite crust_strain.
Qed.
Lemma gives_molten (sm : sim R) w :
  gives (molten_temp sm) w (computes_molten_material_temperature (s_lava sm) (w_st w)).
Proof. apply gives_get. reflexivity. Qed.

(** ** The log never influences what is computed (any arithmetic) *)
Section LogBlind.
Context {T : Type} {N : Num T}.
Definition log_blind {A} (m : M (T:=T) A) : Prop :=
  forall w l, exists l', m (set_log l w) = (fst (m w), set_log l' (snd (m w))).
Lemma set_log_log (l1 l2 : table T) w : set_log l1 (set_log l2 w) = set_log l1 w.
Proof. reflexivity. Qed.
Lemma lb_bind {A B} (m : M (T:=T) A) (f : A -> M B) :
  log_blind m -> (forall a, log_blind (f a)) -> log_blind (bind m f).
Proof.
  intros Hm Hf w l. destruct (Hm w l) as (l1 & E). unfold bind. rewrite E.
  destruct (m w) as [[a|e] w1]; cbn [fst snd].
  - destruct (Hf a w1 l1) as (l2 & E2). exists l2. exact E2.
  - exists l1. reflexivity.
Qed.
Lemma lb_ret {A} (a : A) : log_blind (ret a).
Proof. intros w l. exists l. reflexivity. Qed.
Lemma lb_lift {A} (r : res A) : log_blind (lift r).
Proof. intros w l. exists l. reflexivity. Qed.
Lemma lb_get {A} (f : world T -> A) : (forall l w, f (set_log l w) = f w) -> log_blind (get f).
Proof. intros H w l. exists l. unfold get. now rewrite H. Qed.
Lemma lb_reads {A} (f : world T -> res A) : (forall l w, f (set_log l w) = f w) -> log_blind (reads f).
Proof. intros H w l. exists l. unfold reads. now rewrite H. Qed.
Lemma lb_log name v : log_blind (log_var name v).
Proof. intros w l. eexists. reflexivity. Qed.
Lemma lb_velocity l t : log_blind (compute_mean_velocity l t).
Proof.
  intros w lg. exists lg. unfold compute_mean_velocity. cbn [w_depth w_st set_log].
  destruct (mean_velocity l t (w_depth w) (w_st w)) as [[v n]|e]; reflexivity.
Qed.
Lemma lb_cover (sm : sim T) : log_blind (cover sm).
Proof.
  unfold cover, compute_effective_cover_fraction. destruct (s_cover sm).
  - repeat (apply lb_bind; [first [apply lb_velocity|apply lb_lift]|intros]). apply lb_ret.
  - apply lb_bind; [apply lb_get; reflexivity|intros p].
    apply lb_bind; [apply lb_velocity|intros v].
    destruct (n_leb p crit); (apply lb_bind; [apply lb_lift|intros; apply lb_ret]).
Qed.
Lemma lb_crust (sm : sim T) : log_blind (crust_temp sm).
Proof. apply lb_reads. reflexivity. Qed.
Lemma lb_molten (sm : sim T) : log_blind (molten_temp sm).
Proof. apply lb_get. reflexivity. Qed.
Ltac lb := repeat (first
  [ apply lb_ret | apply lb_lift | apply lb_log | apply lb_velocity | apply lb_cover | apply lb_crust
  | apply lb_molten | apply lb_get; reflexivity | apply lb_reads; reflexivity
  | apply lb_bind; [|intros] ]).
Lemma lb_ert (sm : sim T) : log_blind (effective_radiation_temperature sm).
Proof. unfold effective_radiation_temperature. lb. Qed.
Lemma lb_ec k (sm : sim T) : log_blind (emissivity_crust k sm).
Proof. destruct k; simpl; lb. Qed.
Lemma lb_em k (sm : sim T) : log_blind (emissivity_molten k sm).
Proof. destruct k; simpl; lb. Qed.
Lemma lb_eps k (sm : sim T) : log_blind (epsilon_effective k sm).
Proof.
  pose proof (fun k' => lb_ec k' sm) as H1. pose proof (fun k' => lb_em k' sm) as H2. pose proof (lb_ert sm) as H3.
  destruct k; cbn [epsilon_effective]; repeat first [apply H1|apply H2|apply H3|lb; fail|
    apply lb_bind; [first [apply H1|apply H2|apply H3|apply lb_cover|apply lb_log]|intros]]; lb.
Qed.
Lemma lb_sr k (sm : sim T) width : log_blind (spectral_radiance k sm width).
Proof.
  unfold spectral_radiance. apply lb_bind; [apply lb_cover|intros f]. apply lb_bind; [apply lb_crust|intros].
  apply lb_bind; [apply lb_molten|intros]. apply lb_bind; [apply lb_ec|intros].
  apply lb_bind; [apply lb_em|intros]. lb.
Qed.
Lemma lb_flux f (sm : sim T) width depth : log_blind (compute_flux f sm width depth).
Proof.
  destruct f; cbn [compute_flux].
  - unfold radiation_flux. apply lb_bind; [apply lb_ert|intros]. apply lb_bind; [apply lb_eps|intros].
    apply lb_bind; [apply lb_lift|intros]. apply lb_bind; [apply lb_sr|intros]. lb.
  - unfold conduction_flux. lb.
  - unfold convection_flux, characteristic_surface_temperature. lb.
  - lb.
  - unfold viscous_flux. lb.
  - unfold snyder_flux, effective_temperature_snyder. lb.
Qed.
Lemma lb_budget_loop fl (sm : sim T) width depth : forall acc, log_blind (budget_loop fl sm width depth acc).
Proof.
  induction fl as [|f r IH]; intros acc; cbn [budget_loop]; [apply lb_ret|].
  apply lb_bind; [apply lb_flux|intros q]. apply lb_bind; [apply lb_flux|intros q2].
  apply lb_bind; [apply lb_log|intros]. apply IH.
Qed.
Lemma lb_budget (sm : sim T) width depth : log_blind (compute_heat_budget sm width depth).
Proof. unfold compute_heat_budget. apply lb_bind; [apply lb_budget_loop|intros]. lb. Qed.
End LogBlind.
