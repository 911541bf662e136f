(** * Recompute: what a successful evaluation of the heat budget must have returned and logged (exact reals) *)
From Verif Require Import Base Num Json Logger World Vesicle MeltVisc RelVisc Bubbles Terrain Lava
  Thermal Flux Integrator Factory Frame StepLog StepProofs LoggerProofs RowProofs StepProps StepRow
  Spec RNum RPow Props_Velocity Props_Material Props_Thermal Gives Props_Flux Props_Budget.
Open Scope R_scope.

(** ** Specification *)
(** Planck's law for the power radiated per unit area and wavelength at
    0.8675 micrometre by a black body at temperature [t] (SI units, with the
    constants of the source). *)
Definition planck_law (t : R) : R :=
  let lambda := 0.8675e-6 in let h := 6.6256e-34 in let c := 2.9979e8 in let kB := 1.38e-23 in
  2 * PI * h * c ^ 2 / lambda ^ 5 / (exp (h * c / (kB * lambda * t)) - 1).

(** Emissivity of the crust and of the molten part. *)
Definition crust_emissivity (k : rad_kind R) (tc : R) : R :=
  match k with RadBasic e => e | Rad2Emi e1 _ => e1 | RadCont => cont_fit tc | RadLin => lin_fit tc end.
Definition molten_emissivity (k : rad_kind R) (th : R) : R :=
  match k with RadBasic e => e | Rad2Emi _ e2 => e2 | RadCont => cont_fit th | RadLin => lin_fit th end.
(** Side of the square pixel the sensor sees, in metres. *)
Definition pixel_side (k : rad_kind R) : R :=
  match k with RadBasic _ | Rad2Emi _ _ => 30 | RadCont | RadLin => 1 / 10 end.
(** Radiance of the lava surface, and of the pixel: a strip of lava of the
    channel's width across it, the rest being snow at 258 K with emissivity
    0.1; seen through an atmosphere of transmissivity 0.8; per micrometre. *)
Definition lava_radiance (k : rad_kind R) (f tc th : R) : R :=
  (1 - f) * molten_emissivity k th * planck_law th + f * crust_emissivity k tc * planck_law tc.
Definition pixel_radiance (k : rad_kind R) (width f tc th : R) : R :=
  let filled := width / pixel_side k in
  0.8 * (filled * lava_radiance k f tc th + (1 - filled) * (0.1 * planck_law 258)) * 1e-6.

(** The quantities of one row the fluxes are built from. *)
Record surface : Type := {
  su_width : R; su_depth : R;      (* channel_width, channel_depth *)
  su_temp : R; su_hot : R;         (* core_temperature, and less the buffer *)
  su_crust : R; su_cover : R;      (* crust_temperature, effective_cover_fraction *)
  su_vf : R; su_mu : R; su_v : R   (* vesicle_fraction, viscosity, mean_velocity *)
}.
(** Effective radiation temperature, convective temperature, Snyder's temperature. *)
Definition radiating_temperature (a : air R) (u : surface) : R :=
  root4 (net_fourth_powers (su_cover u) (su_crust u) (su_hot u) (air_temp a)).
Definition convecting_temperature (u : surface) : R :=
  pospow (su_cover u * pospow (su_crust u) 1.333 + (1 - su_cover u) * pospow (su_hot u) 1.333) 0.75.
Definition mean_temperature (u : surface) : R := su_cover u * su_crust u + (1 - su_cover u) * su_hot u.
(** Each heat flux, in watts per metre of channel. *)
Definition flux_law (a : air R) (u : surface) (g : flux R) : R :=
  match g with
  | FRadiation k sigma =>
      sigma * emissivity_of k (su_cover u) (su_crust u) (su_hot u) (radiating_temperature a u)
      * radiating_temperature a u ^ 4 * su_width u
  | FConduction tb cbd => conductive_flux (su_vf u) (su_temp u) tb cbd (su_depth u) (su_width u)
  | FConvection =>
      air_ch a * air_rho a * air_cp a * air_wind a * (convecting_temperature u - air_temp a) * su_width u
  | FRain rate dens latent => rate * dens * latent * su_width u
  | FViscous => su_mu u * (su_v u / su_depth u) ^ 2 * su_width u
  | FSnyder => 1.07e-13 * pospow (mean_temperature u) 4.85 * 1000 * su_width u
  end.

(** ** Inversion of the arithmetic *)
Lemma R_power_inv a b x y d p : 0 <= IZR y -> 0 < d < 1 -> R_power a b x (IZR y + d) = Ok p ->
  0 <= x /\ p = pospow x (IZR y + d).
Proof.
  intros Hy Hd H. destruct (Rlt_dec x 0) as [Hn|Hn].
  - rewrite R_power_neg_nonint in H by auto. discriminate.
  - rewrite R_power_pospow in H by lra. injection H as <-. split; [lra|reflexivity].
Qed.
Lemma planck_inv t p : planck t = Ok p -> p = planck_law t.
Proof.
  intros H. destruct (Req_dec t 0) as [->|Ht]; [rewrite planck_0 in H; discriminate|].
  unfold planck, sr_C1, sr_C2 in H. revert H. rnum. unfold R_pow. rewrite R_power_2. cbn [rbind].
  assert (Hk : sr_kapa <> 0) by (unfold sr_kapa; rnum; lra). assert (Hl : 0 < sr_lamda) by (unfold sr_lamda; rnum; lra).
  rewrite R_div_ok by exact Hk. cbn [rbind]. rewrite R_power_pos by exact Hl. cbn [rbind].
  rewrite R_div_ok by (apply Rmult_integral_contrapositive; split; lra). cbn [rbind]. intros H.
  apply R_div_inv in H as [_ ->]. unfold planck_law. cbv zeta.
  assert (E5 : Rpower sr_lamda (-5) = / sr_lamda ^ 5).
  { replace (-5) with (- (5)) by lra. rewrite Rpower_Ropp. f_equal. rewrite <- (Rpower_pow 5) by exact Hl. f_equal. simpl. lra. }
  rewrite E5.
  assert (A1 : sr_lamda = 0.8675e-6) by (unfold sr_lamda; rnum; lra).
  assert (A2 : sr_h = 6.6256e-34) by (unfold sr_h; rnum; lra).
  assert (A3 : sr_c = 2.9979e8) by (unfold sr_c; rnum; lra).
  assert (A4 : sr_kapa = 1.38e-23) by (unfold sr_kapa; rnum; lra).
  assert (EX : sr_h * sr_c / sr_kapa / (sr_lamda * t) = sr_h * sr_c / (sr_kapa * sr_lamda * t)) by (field; repeat split; lra).
  rewrite EX, A1, A2, A3, A4. reflexivity.
Qed.

(** ** Forced results *)
(** If [m] returns in a world that differs from [w] only in the log, then it
    returned [a], logged [cs], changed nothing else, and [Q] holds. *)
Definition forces {A} (w : world R) (m : M (T:=R) A) (a : A) (cs : list (string * cell R)) (Q : Prop) : Prop :=
  forall c r w', m (touched (st_strain (w_st w)) c w) = (Ok r, w') ->
    r = a /\ w' = touched (st_strain (w_st w)) (c ++ cs) w /\ Q.

Lemma forces_bind {A B} w (m : M (T:=R) A) (f : A -> M B) a b c1 c2 (Q1 Q2 : Prop) :
  forces w m a c1 Q1 -> (Q1 -> forces w (f a) b c2 Q2) -> forces w (bind m f) b (c1 ++ c2) (Q1 /\ Q2).
Proof.
  intros Hm Hf c r w' H. apply bind_ok in H as (a' & w1 & H1 & H2).
  destruct (Hm _ _ _ H1) as (-> & -> & q1). destruct (Hf q1 _ _ _ H2) as (-> & -> & q2).
  rewrite app_assoc. auto.
Qed.
Lemma forces_ret {A} w (a : A) : forces w (ret a) a [] True.
Proof. intros c r w' H. injection H as <- <-. rewrite app_nil_r. auto. Qed.
Lemma forces_lift {A} w (x : res A) a (Q : Prop) : (forall r, x = Ok r -> r = a /\ Q) -> forces w (lift x) a [] Q.
Proof. intros H c r w' E. apply lift_ok in E as [E ->]. apply H in E as [-> q]. rewrite app_nil_r. auto. Qed.
Lemma forces_reads {A} w (f : world R -> res A) a :
  (forall c r, f (touched (st_strain (w_st w)) c w) = Ok r -> r = a) -> forces w (reads f) a [] True.
Proof. intros H c r w' E. apply reads_ok in E as [E ->]. apply H in E as ->. rewrite app_nil_r. auto. Qed.
Lemma forces_get {A} w (f : world R -> A) a :
  (forall c, f (touched (st_strain (w_st w)) c w) = a) -> forces w (get f) a [] True.
Proof. intros H c r w' E. apply get_ok in E as [-> ->]. rewrite app_nil_r. auto. Qed.
Lemma forces_log w name x : forces w (log_var name x) tt [(name, x)] True.
Proof.
  intros c r w' E. destruct r. injection E as <-. split; [reflexivity|]. split; [|auto].
  rewrite <- (touched_touched (st_strain (w_st w)) c (st_strain (w_st w)) [(name, x)]). reflexivity.
Qed.
Lemma forces_weaken {A} w (m : M (T:=R) A) a a' cs cs' (Q Q' : Prop) :
  forces w m a cs Q -> a = a' -> cs = cs' -> (Q -> Q') -> forces w m a' cs' Q'.
Proof. intros H <- <- HQ c r w' E. destruct (H _ _ _ E) as (-> & -> & q). auto. Qed.
Ltac fb := eapply forces_bind; [|intros].

Section Row.
Variable (sm : sim R) (w : world R) (u : surface).
(** The row's columns, at the world [w] in which the heat budget is evaluated. *)
Record row_of : Prop := {
  ro_v : forall c, compute_mean_velocity (s_lava sm) (s_ter sm) (touched (st_strain (w_st w)) c w) =
           (Ok (su_v u), touched (st_strain (w_st w)) c w);
  ro_f : su_cover u = snd (cover_parameters (s_cover sm) (st_pos (w_st w))) *
           exp (fst (cover_parameters (s_cover sm) (st_pos (w_st w))) * su_v u);
  ro_temp : su_temp u = st_temp (w_st w);
  ro_hot : su_hot u = st_temp (w_st w) - lv_buffer (s_lava sm);
  ro_crust : compute_crust_temperature (s_crust sm) (w_st w) = Ok (su_crust u);
  ro_vf : lava_vesicle_fraction (s_lava sm) (w_st w) = Ok (su_vf u);
  ro_mu : computes_bulk_viscosity (s_lava sm) (w_st w) = Ok (su_mu u)
}.
Hypothesis HR : row_of.
Let X := st_strain (w_st w).

Lemma at_state c : w_st (touched X c w) = w_st w.
Proof. unfold X. destruct w as [[] ]; reflexivity. Qed.
Lemma f_vel : forces w (compute_mean_velocity (s_lava sm) (s_ter sm)) (su_v u) [] True.
Proof. intros c r w' E. rewrite (ro_v HR) in E. injection E as <- <-. rewrite app_nil_r. auto. Qed.
Lemma f_cover : forces w (cover sm) (su_cover u) [] True.
Proof.
  intros c r w' E. apply C36_cover_formula in E as (v & Hv & ->). rewrite (ro_v HR) in Hv. injection Hv as <- <-.
  fold X. rewrite at_state, app_nil_r, <- (ro_f HR). auto.
Qed.
Lemma f_crust : forces w (crust_temp sm) (su_crust u) [] True.
Proof. apply forces_reads. intros c r. fold X. rewrite at_state, (ro_crust HR). congruence. Qed.
Lemma f_molten : forces w (molten_temp sm) (su_hot u) [] True.
Proof. apply forces_get. intros c. fold X. rewrite at_state. symmetry. exact (ro_hot HR). Qed.
Lemma f_pow4 t : forces w (lift (n_pow t (n_lit 4 1))) (t ^ 4) [] True.
Proof. apply forces_lift. intros r. rnum. unfold R_pow. rewrite R_power_4. intros E. injection E as <-. auto. Qed.
Lemma f_pow2 t : forces w (lift (n_pow t (n_lit 2 1))) (t ^ 2) [] True.
Proof. apply forces_lift. intros r. rnum. unfold R_pow. rewrite R_power_2. intros E. injection E as <-. auto. Qed.
Lemma f_planck t : forces w (lift (planck t)) (planck_law t) [] True.
Proof. apply forces_lift. intros r E. apply planck_inv in E. auto. Qed.
Lemma f_div a b : forces w (lift (n_div a b)) (a / b) [] (b <> 0).
Proof. apply forces_lift. intros r. rnum. intros E. apply R_div_inv in E. tauto. Qed.

Let mix := net_fourth_powers (su_cover u) (su_crust u) (su_hot u) (air_temp (s_air sm)).
Let te := radiating_temperature (s_air sm) u.

Lemma f_ert : forces w (effective_radiation_temperature sm) te [("effective_radiation_temperature", CNum te)] (0 <= mix).
Proof.
  eapply forces_weaken.
  { unfold effective_radiation_temperature. fb; [apply f_cover|]. fb; [apply f_crust|]. fb; [apply f_molten|].
    cbv zeta. fb; [apply f_pow4|]. fb; [apply f_pow4|]. fb; [apply f_pow4|].
    fb. { apply (forces_lift _ _ te (0 <= mix)). intros r E. revert E. rnum. unfold R_mpow.
          replace (1 / 4) with (IZR 0 + 1 / 4) by lra. intros E. apply R_power_inv in E as [E ->]; [|lra|lra].
          split; [|exact E]. unfold te, radiating_temperature, root4. f_equal. lra. }
    fb; [apply forces_log|apply forces_ret]. }
  1-2: reflexivity. tauto.
Qed.
Lemma f_ec k : forces w (emissivity_crust k sm) (crust_emissivity k (su_crust u)) [] True.
Proof.
  destruct k; cbn [emissivity_crust crust_emissivity]; try apply forces_ret.
  - eapply forces_weaken; [fb; [apply f_crust|apply (forces_lift _ _ (cont_fit (su_crust u)) True)]| | |]; auto.
    intros r. rewrite cont_emissivity_R. intros E. injection E as <-. auto.
  - eapply forces_weaken; [fb; [apply f_crust|apply forces_ret]| | |]; auto. apply lin_emissivity_R.
Qed.
Lemma f_em k : forces w (emissivity_molten k sm) (molten_emissivity k (su_hot u)) [] True.
Proof.
  destruct k; cbn [emissivity_molten molten_emissivity]; try apply forces_ret.
  - eapply forces_weaken; [fb; [apply f_molten|apply (forces_lift _ _ (cont_fit (su_hot u)) True)]| | |]; auto.
    intros r. rewrite cont_emissivity_R. intros E. injection E as <-. auto.
  - eapply forces_weaken; [fb; [apply f_molten|apply forces_ret]| | |]; auto. apply lin_emissivity_R.
Qed.
Let eps k := emissivity_of k (su_cover u) (su_crust u) (su_hot u) te.
Definition eps_calls (k : rad_kind R) : list (string * cell R) :=
  match k with RadLin => [("effective_radiation_temperature", CNum te)] | _ => [] end ++ [("epsilon_effective", CNum (eps k))].
Lemma f_eps k : forces w (epsilon_effective k sm) (eps k) (eps_calls k) True.
Proof.
  unfold eps_calls. destruct k; cbn [epsilon_effective eps emissivity_of app]; unfold eps; cbn [emissivity_of].
  - eapply forces_weaken; [fb; [apply forces_log|apply forces_ret]| | |]; auto.
  - eapply forces_weaken; [fb; [apply f_cover|]; cbv zeta; fb; [apply forces_log|apply forces_ret]| | |]; auto; rnum; reflexivity.
  - eapply forces_weaken; [fb; [apply f_cover|]; fb; [apply (f_ec RadCont)|]; fb; [apply (f_em RadCont)|];
      cbv zeta; fb; [apply forces_log|apply forces_ret]| | |]; auto; rnum; reflexivity.
  - eapply forces_weaken; [fb; [apply f_ert|]; cbv zeta; fb; [apply forces_log|apply forces_ret]| | |]; auto;
      rewrite lin_emissivity_R; reflexivity.
Qed.
Let sr k width := pixel_radiance k width (su_cover u) (su_crust u) (su_hot u).
Lemma f_sr k width : forces w (spectral_radiance k sm width) (sr k width) [("spectral_radiance", CNum (sr k width))] True.
Proof.
  assert (Ep : pixel_length k = pixel_side k) by (destruct k; cbn; rnum; lra).
  assert (Hp : 0 < pixel_side k) by (destruct k; cbn; lra).
  assert (V : forall a b c, 8 / 10 * (molten_emissivity k (su_hot u) * (pixel_side k * width * (1 - su_cover u) / (pixel_side k * pixel_side k)) * a +
     crust_emissivity k (su_crust u) * (pixel_side k * width * su_cover u / (pixel_side k * pixel_side k)) * b +
     (1 - pixel_side k * width * (1 - su_cover u) / (pixel_side k * pixel_side k) - pixel_side k * width * su_cover u / (pixel_side k * pixel_side k)) * (1 / 10) * c) * (1 / 1000000)
     = 0.8 * (width / pixel_side k * ((1 - su_cover u) * molten_emissivity k (su_hot u) * a + su_cover u * crust_emissivity k (su_crust u) * b)
        + (1 - width / pixel_side k) * (0.1 * c)) * 1e-6).
  { intros a b c. replace 0.8 with (8 / 10) by lra. replace 0.1 with (1 / 10) by lra. replace 1e-6 with (1 / 1000000) by lra.
    field. lra. }
  eapply forces_weaken.
  { unfold spectral_radiance. fb; [apply f_cover|]. fb; [apply f_crust|]. fb; [apply f_molten|].
    fb; [apply f_ec|]. fb; [apply f_em|]. cbv zeta. rewrite Ep. rnum.
    fb; [apply f_div|]. fb; [apply f_div|]. fb; [apply f_planck|]. fb; [apply f_planck|]. fb; [apply f_planck|].
    rewrite V. fb; [apply forces_log|apply forces_ret]. }
  - reflexivity.
  - reflexivity.
  - tauto.
Qed.

(** What each flux logs before its own name. *)
Definition inner_calls (g : flux R) : list (string * cell R) :=
  match g with
  | FRadiation k sigma => ("effective_radiation_temperature", CNum te) :: eps_calls k ++ [("spectral_radiance", CNum (sr k (su_width u)))]
  | FConvection => [("characteristic_surface_temperature", CNum (convecting_temperature u));
                    ("effective_temperature_snyder", CNum 0); ("flowgofluxsnyderheat", CNum 0)]
  | FSnyder => [("effective_temperature_snyder", CNum (mean_temperature u)); ("characteristic_surface_temperature", CNum 0);
                ("effective_radiation_temperature", CNum 0); ("flowgofluxforcedconvectionheat", CNum 0); ("flowgofluxradiationheat", CNum 0)]
  | _ => []
  end.
Definition in_domain (g : flux R) : Prop :=
  match g with
  | FRadiation _ _ => 0 <= mix
  | FConduction _ cbd => cbd * su_depth u <> 0
  | FConvection => 0 <= su_crust u /\ 0 <= su_hot u
  | FSnyder => 0 <= mean_temperature u
  | FViscous => su_depth u <> 0
  | FRain _ _ _ => True
  end.
Lemma f_flux g : forces w (compute_flux g sm (su_width u) (su_depth u)) (flux_law (s_air sm) u g) (inner_calls g) (in_domain g).
Proof.
  destruct g as [k sigma|tb cbd| |rate dens latent| |]; cbn [compute_flux flux_law inner_calls in_domain].
  - eapply forces_weaken.
    { unfold radiation_flux. fb; [apply f_ert|]. fb; [apply f_eps|]. fb; [apply f_pow4|]. cbv zeta.
      fb; [apply f_sr|apply forces_ret]. }
    + reflexivity.
    + reflexivity.
    + tauto.
  - eapply forces_weaken.
    { unfold conduction_flux. fb. { apply forces_get. intros c. fold X. rewrite at_state. reflexivity. }
      fb. { apply forces_reads. intros c r. fold X. rewrite at_state, (ro_vf HR). intros E. injection E as <-. reflexivity. }
      fb; [apply f_pow2|]. fb; [apply f_div|]. cbv zeta. fb; [apply f_div|apply forces_ret]. }
    + rewrite <- (ro_temp HR). unfold conductive_flux. rnum.
      replace (1929 / 1000 - 1554 / 1000 * su_vf u) with (1.929 - 1.554 * su_vf u) by lra.
      unfold Rdiv at 1. unfold Rdiv at 2. now rewrite <- Rmult_assoc.
    + reflexivity.
    + rnum. intros (_ & _ & _ & _ & H & _) E. apply H. replace (cbd / 100 * su_depth u) with (cbd * su_depth u / 100) by lra. rewrite E. lra.
  - eapply forces_weaken.
    { unfold convection_flux, characteristic_surface_temperature. cbv zeta. fb.
      { fb; [apply f_crust|]. fb; [apply f_cover|]. fb; [apply f_molten|].
        fb. { apply (forces_lift _ _ (pospow (su_crust u) 1.333) (0 <= su_crust u)). intros r. rnum. unfold R_pow.
              replace (1333 / 1000) with (IZR 1 + 333 / 1000) by lra. intros E. apply R_power_inv in E as [E ->]; [|lra|lra].
              split; [f_equal; lra|exact E]. }
        fb. { apply (forces_lift _ _ (pospow (su_hot u) 1.333) (0 <= su_hot u)). intros r. rnum. unfold R_pow.
              replace (1333 / 1000) with (IZR 1 + 333 / 1000) by lra. intros E. apply R_power_inv in E as [E ->]; [|lra|lra].
              split; [f_equal; lra|exact E]. }
        fb. { apply (forces_lift _ _ (convecting_temperature u) True). intros r. rnum. unfold R_mpow.
              replace (3 / 4) with (IZR 0 + 3 / 4) by lra. intros E. apply R_power_inv in E as [E ->]; [|lra|lra].
              split; [|exact I]. unfold convecting_temperature. f_equal. lra. }
        fb; [apply forces_log|apply forces_ret]. }
      fb; [apply forces_log|]. fb; [apply forces_log|]. apply forces_ret. }
    + unfold compute_conv_heat_transfer_coef. rnum. reflexivity.
    + rnum. reflexivity.
    + tauto.
  - eapply forces_weaken; [apply forces_ret| | |]; auto.
  - eapply forces_weaken.
    { unfold viscous_flux. fb. { apply forces_reads. intros c r. fold X. rewrite at_state, (ro_mu HR). intros E. injection E as <-. reflexivity. }
      fb; [apply f_vel|]. fb; [apply f_div|]. fb; [apply f_pow2|apply forces_ret]. }
    + rnum. reflexivity.
    + reflexivity.
    + tauto.
  - eapply forces_weaken.
    { unfold snyder_flux, effective_temperature_snyder. fb.
      { fb; [apply f_crust|]. fb; [apply f_cover|]. fb; [apply f_molten|]. cbv zeta. fb; [apply forces_log|apply forces_ret]. }
      fb. { apply (forces_lift _ _ (pospow (mean_temperature u) 4.85) (0 <= mean_temperature u)). intros r. rnum. unfold R_pow.
            replace (485 / 100) with (IZR 4 + 85 / 100) by lra. intros E. apply R_power_inv in E as [E ->]; [|lra|lra].
            split; [unfold mean_temperature; f_equal; lra|exact E]. }
      cbv zeta. do 4 (fb; [apply forces_log|]). apply forces_ret. }
    + rnum. lra.
    + rnum. reflexivity.
    + tauto.
Qed.

(** The loop and the total. *)
Definition flux_calls (g : flux R) : list (string * cell R) :=
  inner_calls g ++ inner_calls g ++ [(flux_name g, CNum (flux_law (s_air sm) u g))].
Lemma f_loop : forall fl acc, forces w (budget_loop fl sm (su_width u) (su_depth u) acc)
  (fold_left Rplus (map (flux_law (s_air sm) u) fl) acc) (flat_map flux_calls fl) (Forall in_domain fl).
Proof.
  induction fl as [|g fl IH]; intros acc; cbn [budget_loop map fold_left flat_map].
  - eapply forces_weaken; [apply forces_ret| | |]; auto.
  - eapply forces_weaken.
    { fb; [apply f_flux|]. cbv zeta. fb; [apply f_flux|]. fb; [apply forces_log|]. apply IH. }
    + rnum. reflexivity.
    + unfold flux_calls. now rewrite <- !app_assoc.
    + intros (D & _ & _ & F). constructor; auto.
Qed.
Lemma f_budget : forces w (compute_heat_budget sm (su_width u) (su_depth u))
  (fold_left Rplus (map (flux_law (s_air sm) u) (s_budget sm)) 0)
  (flat_map flux_calls (s_budget sm) ++ [("heat_budget", CNum (fold_left Rplus (map (flux_law (s_air sm) u) (s_budget sm)) 0))])
  (Forall in_domain (s_budget sm)).
Proof.
  eapply forces_weaken.
  { unfold compute_heat_budget. fb; [apply f_loop|]. fb; [apply forces_log|apply forces_ret]. }
  - rnum. reflexivity.
  - rnum. reflexivity.
  - tauto.
Qed.
End Row.
