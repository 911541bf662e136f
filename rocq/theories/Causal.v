(** * Causal: what a step depends on — the channel only where the flow is (any arithmetic) *)
From Verif Require Import Base Num Json Logger World Vesicle MeltVisc RelVisc Bubbles Terrain Lava
  Thermal Flux Integrator Factory Run.

(** ** Specification *)
Section Spec.
Context {T : Type} {N : Num T}.
(** The decay rate and the vent cover fraction a crust cover model uses at a position. *)
Definition cover_parameters (m : cover_model T) (p : T) : T * T :=
  match m with
  | CvBasic alpha fc => (alpha, fc)
  | CvBimodal crit a1 a2 fc1 fc2 => if n_leb p crit then (a1, fc1) else (a2, fc2)
  end.

(** Two set-ups with the same atmosphere, budget, vent and step, and the same
    channel and lava at the positions in [P]: there they have the same slope,
    crust temperature, crystallization rate, crust cover, vesicle fraction,
    density, viscosity, yield strength and packing test, and the length limit is
    reached in both or in neither.  Elsewhere they may differ. *)
Record same_within (P : T -> Prop) (a b : sim T) : Prop := {
  sw_dx : s_dx a = s_dx b;
  sw_buffer : lv_buffer (s_lava a) = lv_buffer (s_lava b);
  sw_latent : lv_latent (s_lava a) = lv_latent (s_lava b);
  sw_air : s_air a = s_air b;
  sw_budget : s_budget a = s_budget b;
  sw_mass : s_mass a = s_mass b;
  sw_eff : ter_eff_init (s_ter a) = ter_eff_init (s_ter b);
  sw_width : ter_width (s_ter a) = ter_width (s_ter b);
  sw_gravity : ter_gravity (s_ter a) = ter_gravity (s_ter b);
  sw_solid : get_solid_temperature (s_cryst a) = get_solid_temperature (s_cryst b);
  sw_slope : forall p, P p -> get_channel_slope (s_ter a) p = get_channel_slope (s_ter b) p;
  sw_limit : forall p, P p -> n_leb (ter_maxlen (s_ter a)) p = n_leb (ter_maxlen (s_ter b)) p;
  sw_crust : forall s, P (st_pos s) -> compute_crust_temperature (s_crust a) s = compute_crust_temperature (s_crust b) s;
  sw_rate : forall s, P (st_pos s) -> compute_crystallization_rate (s_cryst a) s = compute_crystallization_rate (s_cryst b) s;
  sw_cover : forall p, P p -> cover_parameters (s_cover a) p = cover_parameters (s_cover b) p;
  sw_vesicles : forall s, P (st_pos s) -> lava_vesicle_fraction (s_lava a) s = lava_vesicle_fraction (s_lava b) s;
  sw_density : forall s, P (st_pos s) -> get_bulk_density (s_lava a) s = get_bulk_density (s_lava b) s;
  sw_viscosity : forall s, P (st_pos s) -> computes_bulk_viscosity (s_lava a) s = computes_bulk_viscosity (s_lava b) s;
  sw_yield : forall s, P (st_pos s) -> get_yield_strength (s_lava a) s = get_yield_strength (s_lava b) s;
  sw_packing : forall s, P (st_pos s) -> is_notcompatible (s_lava a) s = is_notcompatible (s_lava b) s
}.
End Spec.

(** ** Programs that do the same wherever the flow is in [P], and do not move it *)
Section Here.
Context {T : Type} {N : Num T} (P : T -> Prop).
Definition position_of (w : world T) : T := st_pos (w_st w).
Definition here {A} (m1 m2 : M (T:=T) A) : Prop :=
  forall w, P (position_of w) -> m1 w = m2 w /\ position_of (snd (m1 w)) = position_of w.
Lemma he_reads {A} (f g : world T -> res A) : (forall w, P (position_of w) -> f w = g w) -> here (reads f) (reads g).
Proof. intros H w Hw. unfold reads. rewrite H by exact Hw. auto. Qed.
Lemma he_get {A} (f g : world T -> A) : (forall w, P (position_of w) -> f w = g w) -> here (get f) (get g).
Proof. intros H w Hw. unfold get. rewrite H by exact Hw. auto. Qed.
Lemma he_lift {A} (a : res A) : here (lift a) (lift a). Proof. intros w _. auto. Qed.
Lemma he_ret {A} (a : A) : here (ret a) (ret a). Proof. intros w _. auto. Qed.
Lemma he_log name v : here (log_var name v) (log_var name v). Proof. intros w _. auto. Qed.
Lemma he_modify (f : world T -> world T) : (forall w, position_of (f w) = position_of w) -> here (modify f) (modify f).
Proof. intros H w _. cbn. auto. Qed.
Lemma he_bind {A B} (m1 m2 : M A) (f g : A -> M B) : here m1 m2 -> (forall a, here (f a) (g a)) -> here (bind m1 f) (bind m2 g).
Proof.
  intros Hm Hf w Hw. destruct (Hm w Hw) as [E Q]. unfold bind. rewrite <- E.
  destruct (m1 w) as [[a|e] w1]; cbn [snd] in *; [|auto].
  rewrite <- Q in Hw. destruct (Hf a w1 Hw) as [E1 Q1]. split; [exact E1|]. congruence.
Qed.
Lemma he_if {A} (b : bool) (m1 m2 n1 n2 : M A) : here m1 n1 -> here m2 n2 -> here (if b then m1 else m2) (if b then n1 else n2).
Proof. destruct b; auto. Qed.
End Here.

Ltac he := repeat first
  [ apply he_bind; [|intros]
  | apply he_log | apply he_lift | apply he_ret
  | apply he_reads; intros; reflexivity | apply he_get; intros; reflexivity | apply he_modify; intros; reflexivity
  | apply he_if ].

Section Causal.
Context {T : Type} {N : Num T} (P : T -> Prop) (a b : sim T) (S : same_within P a b).
Open Scope num_scope.

Lemma basal_same d s : P (st_pos s) ->
  compute_basal_shear_stress (lv_yield (s_lava a)) (s_ter a) d (s_lava a) s = compute_basal_shear_stress (lv_yield (s_lava b)) (s_ter b) d (s_lava b) s.
Proof.
  intros Hp. assert (E : forall y t l, compute_basal_shear_stress y t d l s = basal_body t d l s) by (intros []; reflexivity).
  rewrite !E. unfold basal_body. rewrite (sw_gravity _ _ _ S), (sw_slope _ _ _ S _ Hp), (sw_density _ _ _ S _ Hp). reflexivity.
Qed.
Lemma velocity_same d s : P (st_pos s) -> mean_velocity (s_lava a) (s_ter a) d s = mean_velocity (s_lava b) (s_ter b) d s.
Proof.
  intros Hp. unfold mean_velocity. rewrite basal_same by exact Hp.
  change (compute_yield_strength (lv_yield (s_lava a)) s) with (get_yield_strength (s_lava a) s).
  change (compute_yield_strength (lv_yield (s_lava b)) s) with (get_yield_strength (s_lava b) s).
  rewrite (sw_yield _ _ _ S _ Hp). destruct (get_yield_strength (s_lava b) s) as [t0|e]; [cbn [rbind]|reflexivity].
  destruct (compute_basal_shear_stress _ _ _ _ _) as [tb|e]; [cbn [rbind]|reflexivity].
  generalize (py_or (st_strain s) (n_lit 1 100000000)). generalize 50%nat.
  induction n as [|n IH]; intros x; cbn [velocity_loop]; [reflexivity|]. rewrite (sw_viscosity _ _ _ S _ Hp).
  destruct (computes_bulk_viscosity (s_lava b) s) as [mu|e]; [cbn [rbind]|reflexivity].
  destruct (velocity_formula d t0 tb mu) as [v|e]; [cbn [rbind]|reflexivity].
  destruct (n_lit 3 1 * v / d) as [new|e]; [cbn [rbind]|reflexivity]. destruct (_ <=? _); [reflexivity|apply IH].
Qed.
Lemma he_velocity : here P (compute_mean_velocity (s_lava a) (s_ter a)) (compute_mean_velocity (s_lava b) (s_ter b)).
Proof.
  intros w Hw. unfold compute_mean_velocity. rewrite velocity_same by exact Hw.
  destruct (mean_velocity _ _ _ _) as [[v new]|e]; auto.
Qed.
Lemma he_cover : here P (cover a) (cover b).
Proof.
  assert (C : forall (c : cover_model T) l t w, compute_effective_cover_fraction c l t w =
    match compute_mean_velocity l t w with
    | (Ok v, w1) => match n_exp (fst (cover_parameters c (position_of w)) * v) with
                    | Ok e => (Ok (snd (cover_parameters c (position_of w)) * e), w1)
                    | Err e => (Err e, w1)
                    end
    | (Err e, w1) => (Err e, w1)
    end).
  { intros [] l t w; cbn [compute_effective_cover_fraction cover_parameters fst snd]; unfold bind, get, lift, ret.
    - destruct (compute_mean_velocity l t w) as [[v|e] w1]; [|reflexivity]. destruct (n_exp _); reflexivity.
    - unfold position_of. destruct (compute_mean_velocity l t w) as [[v|e] w1]; [|reflexivity].
      destruct (st_pos (w_st w) <=? crit); cbn [fst snd]; destruct (n_exp _); reflexivity. }
  intros w Hw. unfold cover. rewrite !C, (sw_cover _ _ _ S _ Hw). destruct (he_velocity w Hw) as [<- Q].
  destruct (compute_mean_velocity (s_lava a) (s_ter a) w) as [[v|e] w1]; cbn [snd] in *; [|auto].
  destruct (n_exp _); auto.
Qed.
Lemma he_crust : here P (crust_temp a) (crust_temp b).
Proof. unfold crust_temp. apply he_reads. intros w Hw. apply (sw_crust _ _ _ S). exact Hw. Qed.
Lemma he_molten : here P (molten_temp a) (molten_temp b).
Proof. unfold molten_temp, computes_molten_material_temperature. rewrite (sw_buffer _ _ _ S). he. Qed.
Lemma he_density : here P (reads (fun w => get_bulk_density (s_lava a) (w_st w))) (reads (fun w => get_bulk_density (s_lava b) (w_st w))).
Proof. apply he_reads. intros w Hw. apply (sw_density _ _ _ S). exact Hw. Qed.
Ltac he2 := repeat (he; try apply he_velocity; try apply he_cover; try apply he_crust; try apply he_molten; try apply he_density).
Lemma he_ert : here P (effective_radiation_temperature a) (effective_radiation_temperature b).
Proof. unfold effective_radiation_temperature. rewrite (sw_air _ _ _ S). he2. Qed.
Lemma he_ec k : here P (emissivity_crust k a) (emissivity_crust k b).
Proof. destruct k; unfold emissivity_crust; he2. Qed.
Lemma he_em k : here P (emissivity_molten k a) (emissivity_molten k b).
Proof. destruct k; unfold emissivity_molten; he2. Qed.
Ltac he3 := repeat (he2; try apply he_ert; try apply he_ec; try apply he_em).
Lemma he_flux f wd d : here P (compute_flux f a wd d) (compute_flux f b wd d).
Proof.
  destruct f as [k sigma|tb cbd| |r dn l| |]; cbn [compute_flux].
  - unfold radiation_flux. apply he_bind; [apply he_ert|intros te]. apply he_bind.
    { destruct k; cbn [epsilon_effective]; he3. all: rewrite (sw_air _ _ _ S); he. }
    intros e. unfold spectral_radiance. he3.
  - unfold conduction_flux. apply he_bind; [he|intros tcore]. apply he_bind; [|intros; he3].
    apply he_reads. intros w Hw. apply (sw_vesicles _ _ _ S). exact Hw.
  - unfold convection_flux, characteristic_surface_temperature. rewrite (sw_air _ _ _ S). he3.
  - he3.
  - unfold viscous_flux. apply he_bind; [|intros; he3]. apply he_reads. intros w Hw. apply (sw_viscosity _ _ _ S). exact Hw.
  - unfold snyder_flux, effective_temperature_snyder. he3.
Qed.
Lemma he_budget_loop wd d fl : forall acc, here P (budget_loop fl a wd d acc) (budget_loop fl b wd d acc).
Proof.
  induction fl as [|f fl IH]; intros acc; cbn [budget_loop]; [he|].
  apply he_bind; [apply he_flux|intros]. apply he_bind; [apply he_flux|intros]. apply he_bind; [apply he_log|intros]. apply IH.
Qed.
Lemma he_compute v : here P (step_compute a v) (step_compute b v).
Proof.
  unfold step_compute, channel_width, compute_heat_budget, first_effusion_rate.
  rewrite (sw_mass _ _ _ S), (sw_budget _ _ _ S), (sw_dx _ _ _ S), (sw_width _ _ _ S).
  apply he_bind; [he|intros d]. apply he_bind; [intros w Hw; destruct (w_iter w); auto|intros _].
  apply he_bind; [apply he_density|intros rho]. apply he_bind; [he|intros wd].
  apply he_bind; [apply he_reads; intros w Hw; apply (sw_slope _ _ _ S); exact Hw|intros sl].
  apply he_bind; [apply he_bind; [apply he_budget_loop|intros; he]|intros hb].
  apply he_bind; [apply he_reads; intros w Hw; apply (sw_rate _ _ _ S); exact Hw|intros ra].
  rewrite (sw_latent _ _ _ S). he.
Qed.
Lemma he_step_log x : here P (step_log a x) (step_log b x).
Proof.
  unfold step_log. he.
  all: try apply he_cover; try apply he_crust.
  all: apply he_reads; intros w Hw; unfold position_of in Hw.
  - now apply (sw_vesicles _ _ _ S).
  - now apply (sw_viscosity _ _ _ S).
  - now apply (sw_density _ _ _ S).
  - now apply (sw_yield _ _ _ S).
  - unfold get_basal_shear_stress. now apply basal_same.
Qed.
Lemma step_update_same x : step_update a x = step_update b x.
Proof. unfold step_update. rewrite (sw_dx _ _ _ S). reflexivity. Qed.

(** The outcomes of one step under the two set-ups: the same; or the flow has
    just left the common stretch and they differ in nothing but whether the
    flow is stopped there (or the check raises). *)
Definition parted (o1 o2 : res unit * world T) : Prop :=
  o1 = o2 \/
  exists w, ~ P (position_of w) /\ (snd o1 = w \/ snd o1 = set_finished w) /\ (snd o2 = w \/ snd o2 = set_finished w).
Lemma parted_bind {A} (m1 m2 : M (T:=T) A) (f g : A -> M unit) w :
  m1 w = m2 w -> (forall x w1, m1 w = (Ok x, w1) -> parted (f x w1) (g x w1)) -> parted (bind m1 f w) (bind m2 g w).
Proof. intros E H. unfold bind. rewrite <- E. destruct (m1 w) as [[x|e] w1]; [now apply H|now left]. Qed.

Lemma checks_parted x w : (P (position_of w) \/ ~ P (position_of w)) -> parted (step_checks a x w) (step_checks b x w).
Proof.
  intros D. unfold step_checks. rewrite (sw_solid _ _ _ S). destruct (_ <=? _); [now left|].
  destruct D as [D|D].
  - left. unfold bind, reads, get. unfold yield_strength_notcompatible, model_yield_notcompatible.
    rewrite (sw_packing _ _ _ S) by exact D. destruct (is_notcompatible (s_lava b) (w_st w)) as [[]|e]; auto.
    rewrite basal_same by exact D.
    change (compute_yield_strength (lv_yield (s_lava a)) (w_st w)) with (get_yield_strength (s_lava a) (w_st w)).
    change (compute_yield_strength (lv_yield (s_lava b)) (w_st w)) with (get_yield_strength (s_lava b) (w_st w)).
    rewrite (sw_yield _ _ _ S) by exact D.
    destruct (let? _ := _ in _) as [[]|e]; auto.
    change (st_pos (w_st w)) with (position_of w). rewrite (sw_limit _ _ _ S _ D). reflexivity.
  - right. exists w. split; [exact D|]. unfold bind, reads, get.
    split; (destruct (is_notcompatible _ (w_st w)) as [[]|err]; cbn; auto;
      destruct (yield_strength_notcompatible _ _ _ _) as [[]|err]; cbn; auto;
      destruct (_ <=? _); cbn; auto).
Qed.

Lemma step_parted w : (forall p, P p \/ ~ P p) -> P (position_of w) -> parted (single_step a w) (single_step b w).
Proof.
  intros Dec Hw. unfold single_step. destruct (he_velocity w Hw) as [Ev Qv].
  apply parted_bind; [exact Ev|]. intros v w1 H1. rewrite H1 in Qv. cbn [snd] in Qv. rewrite <- Qv in Hw. clear Ev Qv H1 w.
  destruct (v <=? zero); [now left|]. destruct (he_compute v w1 Hw) as [Ec Qc].
  apply parted_bind; [exact Ec|]. intros x w2 H2. rewrite H2 in Qc. cbn [snd] in Qc. rewrite <- Qc in Hw. clear Ec Qc H2 w1.
  apply parted_bind; [reflexivity|]. intros phi w3 H3. assert (w3 = w2) as -> by (unfold get in H3; congruence). clear H3.
  destruct (_ <=? _); [now left|]. destruct (he_step_log x w2 Hw) as [El Ql].
  apply parted_bind; [exact El|]. intros [] w4 H4. apply parted_bind; [now rewrite step_update_same|]. intros [] w5 _.
  apply checks_parted, Dec.
Qed.

Lemma init_same w : P (position_of w) -> init_effusion_rate a w = init_effusion_rate b w /\
  position_of (snd (init_effusion_rate a w)) = position_of w.
Proof.
  unfold init_effusion_rate. rewrite (sw_eff _ _ _ S). destruct (_ =? _); [auto|]. revert w.
  enough (G : forall n i, here P (search_depth a i n) (search_depth b i n)) by (intros w; apply G).
  induction n as [|n IH]; intros i; cbn [search_depth]; [he|].
  apply he_bind; [|intros []; [he|apply IH]].
  unfold try_depth. rewrite (sw_eff _ _ _ S), (sw_width _ _ _ S). he2.
Qed.
End Causal.
