(** * Resume: what a step depends on — not on the step counter, the mass flux, or the configured vent *)
From Verif Require Import Base Num Json Logger World Vesicle MeltVisc RelVisc Bubbles Terrain Lava
  Thermal Flux Integrator Factory Run StepProps.

Section Resume.
Context {T : Type} {N : Num T}.

(** The same world [k] steps later in the count, with another flux_rate. *)
Definition later (k : nat) (f : option T) (w : world T) : world T :=
  {| w_st := w_st w; w_log := w_log w; w_depth := w_depth w; w_eff := w_eff w; w_flux := f;
     w_iter := w_iter w + k; w_fin := w_fin w |}.

(** The same set-up with another vent: channel width and requested rate. *)
Definition with_vent (width rate : T) (sm : sim T) : sim T :=
  {| s_dx := s_dx sm; s_lava := s_lava sm; s_air := s_air sm;
     s_ter := {| ter_eff_init := rate; ter_width := width; ter_gravity := ter_gravity (s_ter sm);
                 ter_maxlen := ter_maxlen (s_ter sm); ter_default_slope := ter_default_slope (s_ter sm);
                 ter_spline := ter_spline (s_ter sm) |};
     s_cryst := s_cryst sm; s_crust := s_crust sm; s_cover := s_cover sm; s_budget := s_budget sm;
     s_mass := s_mass sm |}.

(** A program of the new set-up and one of the old: same results and effects,
    up to the counter and flux_rate. *)
Definition follows {A} (m' m : M (T:=T) A) : Prop :=
  forall k f w, m (later k f w) = (fst (m' w), later k f (snd (m' w))).
Lemma fo_reads {A} (g' g : world T -> res A) : (forall k f w, g (later k f w) = g' w) -> follows (reads g') (reads g).
Proof. intros H k f w. unfold reads. rewrite H. reflexivity. Qed.
Lemma fo_get {A} (g' g : world T -> A) : (forall k f w, g (later k f w) = g' w) -> follows (get g') (get g).
Proof. intros H k f w. unfold get. rewrite H. reflexivity. Qed.
Lemma fo_lift {A} (a : res A) : follows (lift a) (lift a). Proof. intros k f w. reflexivity. Qed.
Lemma fo_ret {A} (a : A) : follows (ret a) (ret a). Proof. intros k f w. reflexivity. Qed.
Lemma fo_modify (g : world T -> world T) : (forall k f w, g (later k f w) = later k f (g w)) -> follows (modify g) (modify g).
Proof. intros H k f w. unfold modify. rewrite H. reflexivity. Qed.
Lemma fo_log name v : follows (log_var name v) (log_var name v). Proof. intros k f w. reflexivity. Qed.
Lemma fo_bind {A B} (m' m : M A) (g' g : A -> M B) :
  follows m' m -> (forall a, follows (g' a) (g a)) -> follows (bind m' g') (bind m g).
Proof.
  intros Hm Hg k f w. unfold bind. rewrite Hm. destruct (m' w) as [[a|e] w1]; cbn [fst snd]; [|reflexivity].
  apply Hg.
Qed.
Lemma fo_if {A} (b : bool) (m1' m2' m1 m2 : M A) : follows m1' m1 -> follows m2' m2 ->
  follows (if b then m1' else m2') (if b then m1 else m2).
Proof. destruct b; auto. Qed.
End Resume.

Ltac fo := repeat first
  [ apply fo_bind; [|intros]
  | apply fo_log | apply fo_lift | apply fo_ret
  | apply fo_reads; reflexivity | apply fo_get; reflexivity | apply fo_modify; reflexivity
  | apply fo_if ].

Section Resume2.
Context {T : Type} {N : Num T} (sm : sim T) (width rate : T).
Let sm' := with_vent width rate sm.

Lemma fo_velocity : follows (compute_mean_velocity (s_lava sm') (s_ter sm')) (compute_mean_velocity (s_lava sm) (s_ter sm)).
Proof.
  intros k f w. unfold compute_mean_velocity. cbn [later w_depth w_st].
  change (mean_velocity (s_lava sm') (s_ter sm') (w_depth w) (w_st w)) with (mean_velocity (s_lava sm) (s_ter sm) (w_depth w) (w_st w)).
  destruct (mean_velocity _ _ _ _) as [[v new]|e]; reflexivity.
Qed.
Lemma fo_cover : follows (compute_effective_cover_fraction (s_cover sm') (s_lava sm') (s_ter sm'))
  (compute_effective_cover_fraction (s_cover sm) (s_lava sm) (s_ter sm)).
Proof.
  change (s_cover sm') with (s_cover sm).
  destruct (s_cover sm); cbn [compute_effective_cover_fraction]; repeat (fo; try apply fo_velocity).
Qed.
Ltac fo2 := repeat (fo; try apply fo_velocity; try apply fo_cover).
Lemma fo_ert : follows (effective_radiation_temperature sm') (effective_radiation_temperature sm).
Proof. unfold effective_radiation_temperature, cover, crust_temp, molten_temp. fo2. Qed.
Lemma fo_ec k : follows (emissivity_crust k sm') (emissivity_crust k sm).
Proof. destruct k; unfold emissivity_crust, crust_temp; fo2. Qed.
Lemma fo_em k : follows (emissivity_molten k sm') (emissivity_molten k sm).
Proof. destruct k; unfold emissivity_molten, molten_temp; fo2. Qed.
Ltac fo3 := repeat (fo2; try apply fo_ert; try apply fo_ec; try apply fo_em).
Lemma fo_flux g wd depth : follows (compute_flux g sm' wd depth) (compute_flux g sm wd depth).
Proof.
  destruct g as [k sigma|tb cbd| |r d l| |]; cbn [compute_flux].
  - unfold radiation_flux, spectral_radiance, cover, crust_temp, molten_temp. fo3.
    destruct k; cbn [epsilon_effective]; unfold cover; fo3.
  - unfold conduction_flux. fo3.
  - unfold convection_flux, characteristic_surface_temperature, cover, crust_temp, molten_temp.
    change (s_air sm') with (s_air sm). fo3.
  - fo3.
  - unfold viscous_flux. fo3.
  - unfold snyder_flux, effective_temperature_snyder, cover, crust_temp, molten_temp. fo3.
Qed.
Lemma fo_budget_loop wd depth fl : forall acc, follows (budget_loop fl sm' wd depth acc) (budget_loop fl sm wd depth acc).
Proof.
  induction fl as [|f fl IH]; intros acc; cbn [budget_loop]; [fo|].
  apply fo_bind; [apply fo_flux|intros]. apply fo_bind; [apply fo_flux|intros]. apply fo_bind; [apply fo_log|intros]. apply IH.
Qed.

(** integrator.py:89-135 — what follows the first effusion rate. *)
Definition after_rate (sm : sim T) (v depth : T) : M (T:=T) (step_vals T) :=
  (let! rho := reads (fun w => get_bulk_density (s_lava sm) (w_st w)) in
  let! width := channel_width sm v depth rho in
  let! slope := reads (fun w => get_channel_slope (s_ter sm) (st_pos (w_st w))) in
  let! hb := compute_heat_budget sm width depth in
  let rhs := - hb in
  let! rate := reads (fun w => compute_crystallization_rate (s_cryst sm) (w_st w)) in
  let latent := lv_latent (s_lava sm) in
  let! eff := get w_eff in
  let! dtemp_dx := lift (rhs / (eff * rho * latent * rate)) in
  let dtemp_dt := - dtemp_dx * v * n_lit 60 1 in
  let dphi_dx := dtemp_dx * (- rate) in
  let! phi := get (fun w => st_phi (w_st w)) in
  let new_phi := phi + dphi_dx * s_dx sm in
  let! temp := get (fun w => st_temp (w_st w)) in
  let new_temp := temp + dtemp_dx * s_dx sm in
  ret {| sv_v := v; sv_depth := depth; sv_rho := rho; sv_width := width; sv_slope := slope;
         sv_rate := rate; sv_dtemp_dx := dtemp_dx; sv_dtemp_dt := dtemp_dt; sv_dphi_dx := dphi_dx;
         sv_new_phi := new_phi; sv_new_temp := new_temp |})%num.
Definition rest_of_step (sm : sim T) (v depth : T) : M (T:=T) unit :=
  let! x := after_rate sm v depth in
  let! phi := get (fun w => st_phi (w_st w)) in
  if n_leb (sv_new_phi x) phi then modify set_finished
  else
    do! step_log sm x;
    do! step_update sm x;
    step_checks sm x.
Lemma compute_unfold (s : sim T) v w : step_compute s v w = after_rate s v (w_depth w) (snd (first_effusion_rate s v (w_depth w) w)).
Proof.
  unfold step_compute, first_effusion_rate. unfold bind at 1. unfold get at 1. unfold bind at 1.
  destruct (w_iter w); reflexivity.
Qed.
Lemma step_unfold (s : sim T) w : single_step s w =
  match compute_mean_velocity (s_lava s) (s_ter s) w with
  | (Ok v, w1) => if n_leb v zero then (Ok tt, set_finished w1)
                  else rest_of_step s v (w_depth w1) (snd (first_effusion_rate s v (w_depth w1) w1))
  | (Err e, w1) => (Err e, w1)
  end.
Proof.
  unfold single_step. unfold bind at 1. destruct (compute_mean_velocity _ _ w) as [[v|e] w1]; [|reflexivity].
  destruct (n_leb v zero); [reflexivity|].
  unfold rest_of_step. unfold bind at 1. rewrite compute_unfold. reflexivity.
Qed.
Hypothesis Hmass : s_mass sm = false.
Lemma fo_after_rate v depth : follows (after_rate sm' v depth) (after_rate sm v depth).
Proof.
  unfold after_rate, channel_width, compute_heat_budget. change (s_mass sm') with (s_mass sm). rewrite Hmass.
  change (s_budget sm') with (s_budget sm). fo. apply fo_budget_loop.
Qed.
Lemma fo_rest v depth : follows (rest_of_step sm' v depth) (rest_of_step sm v depth).
Proof.
  unfold rest_of_step. apply fo_bind; [apply fo_after_rate|intros x]. apply fo_bind; [fo|intros phi]. apply fo_if; [fo|].
  apply fo_bind; [|intros _; apply fo_bind; [|intros _]].
  - unfold step_log. repeat (fo; try apply fo_cover).
  - unfold step_update. fo.
  - unfold step_checks. fo.
Qed.
Lemma velocity_keeps (l : lava T) t w r w1 : compute_mean_velocity l t w = (r, w1) ->
  w_depth w1 = w_depth w /\ w_iter w1 = w_iter w /\ w_eff w1 = w_eff w /\ w_fin w1 = w_fin w.
Proof.
  unfold compute_mean_velocity. destruct (mean_velocity _ _ _ _) as [[v new]|e]; intros H; injection H as _ <-; auto.
Qed.

(** A step after the first: the same. *)
Lemma later_step k f w : w_iter w <> 0%nat ->
  single_step sm (later k f w) = (fst (single_step sm' w), later k f (snd (single_step sm' w))).
Proof.
  intros Hi. rewrite !step_unfold, fo_velocity.
  destruct (compute_mean_velocity (s_lava sm') (s_ter sm') w) as [[v|e] w1] eqn:E; cbn [fst snd]; [|reflexivity].
  destruct (n_leb v zero); [reflexivity|].
  assert (K := velocity_keeps _ _ _ _ _ E). unfold first_effusion_rate. cbn [later w_iter w_depth].
  destruct (w_iter w1) as [|n] eqn:E1; [destruct K as (_ & K & _); congruence|]. cbn [plus snd].
  rewrite <- fo_rest. unfold later. rewrite E1. reflexivity.
Qed.
(** The first step of the resumed run, when the effusion rate it recomputes is
    the one of the original run. *)
Lemma first_step k f E w v w1 :
  compute_mean_velocity (s_lava sm) (s_ter sm) w = (Ok v, w1) -> n_leb v zero = false ->
  w_iter w = 0%nat ->
  match k with O => n_mul (n_mul v (ter_width (s_ter sm))) (w_depth w) | S _ => E end = n_mul (n_mul v width) (w_depth w) ->
  single_step sm (later k f (set_eff E w)) = (fst (single_step sm' w), later k f (snd (single_step sm' w))).
Proof.
  intros Hv Hpos Hi HE. rewrite !step_unfold.
  change (compute_mean_velocity (s_lava sm') (s_ter sm') w) with (compute_mean_velocity (s_lava sm) (s_ter sm) w).
  assert (K := velocity_keeps _ _ _ _ _ Hv).
  assert (Hv2 : compute_mean_velocity (s_lava sm) (s_ter sm) (later k f (set_eff E w)) = (Ok v, later k f (set_eff E w1))).
  { revert Hv. unfold compute_mean_velocity. cbn [later set_eff w_depth w_st].
    destruct (mean_velocity _ _ _ _) as [[u new]|e]; intros H; [injection H as <- <-|discriminate]; reflexivity. }
  rewrite Hv, Hv2, Hpos. destruct K as (K1 & K2 & _).
  change (w_depth (later k f (set_eff E w1))) with (w_depth w1).
  rewrite <- fo_rest. f_equal. unfold first_effusion_rate. cbn [later set_eff w_iter].
  rewrite K2, Hi. cbn [plus snd]. unfold later, set_eff. cbn. rewrite K2, Hi, K1.
  destruct k as [|k]; cbn [w_st w_log w_depth w_eff w_flux w_iter w_fin snd]; rewrite HE; destruct w1; cbn in *; subst; reflexivity.
Qed.

Lemma later_loop k f fuel : forall w, w_iter w <> 0%nat ->
  run_loop sm fuel (later k f w) =
  match run_loop sm' fuel w with Some (r, w1) => Some (r, later k f w1) | None => None end.
Proof.
  induction fuel as [|fu IH]; intros w Hi; cbn [run_loop]; change (has_finished (later k f w)) with (has_finished w);
    destruct (has_finished w); try reflexivity.
  rewrite later_step by exact Hi. destruct (single_step sm' w) as [[[]|e] w1] eqn:E; cbn [fst snd]; [|reflexivity].
  apply IH. destruct (step_cases _ _ _ E) as [S|(v & rho & wd & sl & hb & ra & dT & dt & C)].
  - rewrite (ss_iter _ _ _ S). exact Hi.
  - rewrite (cs_iter _ _ _ _ _ _ _ _ _ _ _ C). discriminate.
Qed.
End Resume2.
