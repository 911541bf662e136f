(** * Props_BudgetStep: the heat budget within a step: C42, C43, C45 *)
From Verif Require Import Base Num Json Logger World Vesicle MeltVisc RelVisc Bubbles Terrain Lava
  Thermal Flux Integrator Factory Frame StepLog StepProofs LoggerProofs RowProofs StepProps Steady
  Spec RNum Props_Velocity Props_Thermal Gives Props_Budget.

Section Any.
Context {T : Type} {N : Num T}.
Open Scope num_scope.

(** A completed step (the iteration counter moved) of a configured simulation
    whose rheology ignores the strain rate: the row holds, for each configured
    flux, a value under that flux's name; these values add up to the logged
    heat_budget; and this total is what cooled the lava. *)
Theorem C42_row_of_a_step : forall (d : json T) profile mo (sm : sim T) w w',
  build_models d profile = Ok mo -> s_budget sm = mo_budget mo ->
  strain_free (s_lava sm) ->
  n_eqb (st_pos (w_st w)) (st_pos (w_st w)) = true ->
  single_step sm w = (Ok tt, w') -> w_iter w' <> w_iter w ->
  exists qs rho rate dtemp,
    logged (w_log w') (st_pos (w_st w)) "heat_budget" = Some (CNum (py_sum qs)) /\
    Forall2 (fun f q => logged (w_log w') (st_pos (w_st w)) (flux_name f) = Some (CNum q)) (s_budget sm) qs /\
    get_bulk_density (s_lava sm) (w_st w) = Ok rho /\
    compute_crystallization_rate (s_cryst sm) (w_st w) = Ok rate /\
    (- py_sum qs) / (w_eff w' * rho * lv_latent (s_lava sm) * rate) = Ok dtemp /\
    st_temp (w_st w') = st_temp (w_st w) + dtemp * s_dx sm.
Proof.
  intros d profile mo sm w w' Hb Es Hf Hp H Hi.
  apply step_cases in H as [S|(v & rho & width & slope & hb & rate & dtemp & dt & C)].
  { destruct S as [_ _ _ E _ _ _ _]. congruence. }
  destruct C as [_ _ Hrho _ _ Hrate Hdt _ _ Htemp _ _ _ _ _ Heff _ _ _ L].
  destruct L as (bc & sx & vf & mu & tc & f & t0 & tb & x & wb & Nb & Lw & Ewb & (new & _ & Hhb) & _).
  apply factory_leaves_alone in Hb. rewrite <- Es in Hb.
  apply C42_logged_fluxes_add_up in Hhb as (qs & Ht & L1 & L2); [|exact Hp|exact Hf|exact Hb].
  assert (Elog : w_log w' = log_many (st_pos (w_st w))
     (step_calls x (set_strain_rate sx (w_st w)) vf mu rho tc f (eff_of sm v w) t0 tb) (w_log wb)).
  { rewrite Lw, log_many_app, Ewb. reflexivity. }
  assert (Keep : forall name c, ~ In name step_names ->
     logged (w_log wb) (st_pos (w_st w)) name = Some c -> logged (w_log w') (st_pos (w_st w)) name = Some c).
  { intros name c Hn Hl. rewrite Elog. apply logged_many_other; [exact Hl| |].
    - rewrite step_calls_names. exact Hn.
    - apply no_position_names. rewrite step_calls_names. cbn. intuition discriminate. }
  exists qs, rho, rate, dtemp. rewrite Heff, <- Ht. repeat split; auto.
  - apply Keep; [cbn; intuition discriminate|]. rewrite Ht. exact L1.
  - cbn [after_velocity set_eff set_st w_st set_strain_rate st_pos] in L2.
    clear -L2 Keep. induction L2 as [|g q fl qs [Lg _] _ IH]; constructor; auto. apply Keep; [|exact Lg].
    destruct g; cbn; intuition discriminate.
Qed.
End Any.

Open Scope R_scope.
(** ** C45 *)
(** Multiplying the width by [a] multiplies every flux by [a] (and raises the
    same exception if there is one). *)
Definition scaled (a : R) (m1 m2 : M (T:=R) R) : Prop :=
  forall w l, exists l', m2 (set_log l w) = (rmap (Rmult a) (fst (m1 w)), set_log l' (snd (m1 w))).
Lemma scaled_bind {A} a (m : M (T:=R) A) f1 f2 :
  log_blind m -> (forall x, scaled a (f1 x) (f2 x)) -> scaled a (bind m f1) (bind m f2).
Proof.
  intros Hm Hf w l. destruct (Hm w l) as (l1 & E). unfold bind. rewrite E.
  destruct (m w) as [[x|e] w1]; cbn [fst snd rmap].
  - destruct (Hf x w1 l1) as (l2 & E2). exists l2. exact E2.
  - exists l1. reflexivity.
Qed.
(** Two computations that differ in what they log only. *)
Definition similar {A} (m1 m2 : M (T:=R) A) : Prop :=
  forall w l, exists l', (exists b, fst (m2 (set_log l w)) = b /\
     match fst (m1 w), b with Ok _, Ok _ => True | Err e, Err e' => e = e' | _, _ => False end) /\
     snd (m2 (set_log l w)) = set_log l' (snd (m1 w)).
Lemma scaled_bind' {A} a (m1 m2 : M (T:=R) A) f1 f2 :
  similar m1 m2 -> (forall x y, scaled a (f1 x) (f2 y)) -> scaled a (bind m1 f1) (bind m2 f2).
Proof.
  intros Hm Hf w l. destruct (Hm w l) as (l1 & (b & E & Hb) & E'). unfold bind.
  destruct (m2 (set_log l w)) as [r2 w2]. cbn [fst snd] in E, E'. subst r2 w2.
  destruct (m1 w) as [[x|e] w1]; cbn [fst snd rmap] in *; destruct b as [y|e']; try contradiction.
  - destruct (Hf x y w1 l1) as (l2 & E2). exists l2. exact E2.
  - subst. exists l1. reflexivity.
Qed.
Lemma similar_bind {A B} (m : M (T:=R) A) (f1 f2 : A -> M B) :
  log_blind m -> (forall x, similar (f1 x) (f2 x)) -> similar (bind m f1) (bind m f2).
Proof.
  intros Hm Hf w l. destruct (Hm w l) as (l1 & E). unfold bind. rewrite E.
  destruct (m w) as [[x|e] w1]; cbn [fst snd].
  - exact (Hf x w1 l1).
  - exists l1. split; [eexists; split; reflexivity|reflexivity].
Qed.
Lemma similar_sr k (sm : sim R) w1 w2 : similar (spectral_radiance k sm w1) (spectral_radiance k sm w2).
Proof.
  unfold spectral_radiance. apply similar_bind; [apply lb_cover|intros f].
  apply similar_bind; [apply lb_crust|intros tc]. apply similar_bind; [apply lb_molten|intros th].
  apply similar_bind; [apply lb_ec|intros ec]. apply similar_bind; [apply lb_em|intros em]. cbv zeta.
  assert (Hp : pixel_length k * pixel_length k <> 0) by (destruct k; cbn [pixel_length]; rnum; lra).
  intros w l. unfold bind, lift, log_var, modify, ret. cbn [n_div RNum n_mul] in *. rewrite !R_div_ok by exact Hp.
  destruct (planck tc) as [pc|e]; [|eexists; split; [eexists; split; reflexivity|reflexivity]].
  destruct (planck th) as [ph|e]; [|eexists; split; [eexists; split; reflexivity|reflexivity]].
  destruct (planck (n_lit 258 1)) as [pb|e]; [|eexists; split; [eexists; split; reflexivity|reflexivity]].
  eexists. split; [eexists; split; [reflexivity|exact I]|reflexivity].
Qed.
Lemma scaled_ret a x y : y = a * x -> scaled a (ret x) (ret y).
Proof. intros -> w l. exists l. reflexivity. Qed.
Lemma scaled_flux a f (sm : sim R) width depth :
  scaled a (compute_flux f sm width depth) (compute_flux f sm (a * width) depth).
Proof.
  destruct f; cbn [compute_flux].
  - unfold radiation_flux. apply scaled_bind; [apply lb_ert|intros te]. apply scaled_bind; [apply lb_eps|intros e].
    apply scaled_bind; [apply lb_lift|intros te4]. cbv zeta.
    apply scaled_bind'; [apply similar_sr|]. intros _ _. apply scaled_ret. rnum. ring.
  - unfold conduction_flux. apply scaled_bind; [apply lb_get; reflexivity|intros tcore].
    apply scaled_bind; [apply lb_reads; reflexivity|intros vf]. apply scaled_bind; [apply lb_lift|intros k].
    apply scaled_bind; [apply lb_lift|intros c]. cbv zeta. apply scaled_bind; [apply lb_lift|intros q].
    apply scaled_ret. rnum. ring.
  - unfold convection_flux, characteristic_surface_temperature. cbv zeta.
    apply scaled_bind.
    { repeat (first [apply lb_crust|apply lb_cover|apply lb_molten|apply lb_lift|apply lb_log|apply lb_ret
                    |apply lb_bind; [|intros]]). }
    intros r. apply scaled_bind; [apply lb_log|intros _]. apply scaled_bind; [apply lb_log|intros _].
    apply scaled_ret. rnum. ring.
  - apply scaled_ret. unfold rain_flux. rnum. ring.
  - unfold viscous_flux. apply scaled_bind; [apply lb_reads; reflexivity|intros mu].
    apply scaled_bind; [apply lb_velocity|intros v]. apply scaled_bind; [apply lb_lift|intros g].
    apply scaled_bind; [apply lb_lift|intros g2]. apply scaled_ret. rnum. ring.
  - unfold snyder_flux, effective_temperature_snyder. cbv zeta. apply scaled_bind.
    { repeat (first [apply lb_crust|apply lb_cover|apply lb_molten|apply lb_lift|apply lb_log|apply lb_ret
                    |apply lb_bind; [|intros]]). }
    intros r. apply scaled_bind; [apply lb_lift|intros p].
    do 4 (apply scaled_bind; [apply lb_log|intros _]). apply scaled_ret. rnum. ring.
Qed.
Theorem C45_flux_linear_in_width : forall f (sm : sim R) a width depth w,
  fst (compute_flux f sm (a * width) depth w) = rmap (Rmult a) (fst (compute_flux f sm width depth w)).
Proof.
  intros f sm a width depth w. destruct (scaled_flux a f sm width depth w (w_log w)) as (l & E).
  assert (Ew : set_log (w_log w) w = w) by (destruct w; reflexivity). rewrite Ew in E. rewrite E. reflexivity.
Qed.
Theorem C45_budget_linear_in_width : forall (sm : sim R) a width depth w,
  fst (compute_heat_budget sm (a * width) depth w) =
  rmap (Rmult a) (fst (compute_heat_budget sm width depth w)).
Proof.
  intros sm a width depth w.
  assert (HL : forall fl acc, scaled a (budget_loop fl sm width depth acc) (budget_loop fl sm (a * width) depth (a * acc))).
  { induction fl as [|f fl IH]; intros acc; cbn [budget_loop].
    - now apply scaled_ret.
    - intros w0 l. destruct (scaled_flux a f sm width depth w0 l) as (l1 & E1). unfold bind. rewrite E1.
      destruct (compute_flux f sm width depth w0) as [[q|e] w1]; cbn [fst snd rmap]; [|exists l1; reflexivity].
      destruct (scaled_flux a f sm width depth w1 l1) as (l2 & E2). rewrite E2.
      destruct (compute_flux f sm width depth w1) as [[q2|e] w2]; cbn [fst snd rmap]; [|exists l2; reflexivity].
      cbn [log_var modify fst snd]. cbn [n_add RNum].
      destruct (IH (acc + q) (set_log (add_variable (flux_name f) (st_pos (w_st w2)) (CNum q2) (w_log w2)) w2)
         (add_variable (flux_name f) (st_pos (w_st w2)) (CNum (a * q2)) l2)) as (l3 & E3).
      exists l3. rewrite Rmult_plus_distr_l in E3. exact E3. }
  unfold compute_heat_budget. destruct (HL (s_budget sm) zero w (w_log w)) as (l & E).
  assert (Ew : set_log (w_log w) w = w) by (destruct w; reflexivity). rewrite Ew in E.
  assert (Ez : a * zero = zero) by (rnum; ring). rewrite Ez in E.
  unfold bind. rewrite E. destruct (budget_loop (s_budget sm) sm width depth zero w) as [[q|e] w1]; reflexivity.
Qed.

(** ** C43 *)
(** What viscous heating contributes. *)
Theorem C43_viscous_term : forall (sm : sim R) width depth w v w1 mu,
  compute_mean_velocity (s_lava sm) (s_ter sm) w = (Ok v, w1) ->
  computes_bulk_viscosity (s_lava sm) (w_st w) = Ok mu -> depth <> 0 ->
  compute_flux FViscous sm width depth w = (Ok (mu * (v / depth) ^ 2 * width), w1).
Proof.
  intros sm width depth w v w1 mu Hv Hmu Hd. cbn [compute_flux]. unfold viscous_flux, bind, reads.
  rewrite Hmu, Hv. unfold lift. rnum. rewrite R_div_ok by exact Hd. unfold R_pow. rewrite R_power_2. reflexivity.
Qed.

(** The same configuration with viscous heating switched on (last, as the
    factory appends it when no Snyder flux is present). *)
Definition with_viscous_heating (sm : sim R) : sim R :=
  {| s_dx := s_dx sm; s_lava := s_lava sm; s_air := s_air sm; s_ter := s_ter sm; s_cryst := s_cryst sm;
     s_crust := s_crust sm; s_cover := s_cover sm; s_budget := s_budget sm ++ [FViscous]; s_mass := s_mass sm |}.
Lemma flux_with_viscous f sm width depth w :
  compute_flux f (with_viscous_heating sm) width depth w = compute_flux f sm width depth w.
Proof. destruct f; reflexivity. Qed.
Lemma loop_with_viscous fl sm width depth : forall acc w,
  budget_loop fl (with_viscous_heating sm) width depth acc w = budget_loop fl sm width depth acc w.
Proof.
  induction fl as [|f fl IH]; intros acc w; cbn [budget_loop]; [reflexivity|].
  unfold bind. rewrite flux_with_viscous. destruct (compute_flux f sm width depth w) as [[q|e] w1]; [|reflexivity].
  rewrite flux_with_viscous. destruct (compute_flux f sm width depth w1) as [[q2|e] w2]; [|reflexivity].
  destruct (log_var (flux_name f) (CNum q2) w2) as [[u|e] w3]; [|reflexivity]. apply IH.
Qed.
Lemma loop_app {T} {N : Num T} l1 l2 (sm : sim T) width depth : forall acc w q w',
  budget_loop (l1 ++ l2) sm width depth acc w = (Ok q, w') ->
  exists q1 w1, budget_loop l1 sm width depth acc w = (Ok q1, w1) /\
                budget_loop l2 sm width depth q1 w1 = (Ok q, w').
Proof.
  induction l1 as [|f l1 IH]; intros acc w q w' H; cbn [app budget_loop] in *.
  - exists acc, w. auto.
  - apply bind_ok in H as (a & w1 & H1 & H). apply bind_ok in H as (b & w2 & H2 & H).
    apply bind_ok in H as (u & w3 & H3 & H). apply IH in H as (q1 & w4 & A & B).
    exists q1, w4. split; [|exact B]. unfold bind. rewrite H1, H2, H3. exact A.
Qed.
Lemma budget_with_viscous sm width depth w q w1 q' w1' v w2 mu :
  strain_free (s_lava sm) ->
  compute_heat_budget sm width depth w = (Ok q, w1) ->
  compute_heat_budget (with_viscous_heating sm) width depth w = (Ok q', w1') ->
  compute_mean_velocity (s_lava sm) (s_ter sm) w = (Ok v, w2) ->
  computes_bulk_viscosity (s_lava sm) (w_st w) = Ok mu -> depth <> 0 ->
  q' = q + mu * (v / depth) ^ 2 * width.
Proof.
  intros Hf H H' Hv Hmu Hd. unfold compute_heat_budget in H, H'.
  apply bind_ok in H as (a & u1 & H & E). apply bind_ok in E as (? & ? & _ & E). injection E as -> _.
  apply bind_ok in H' as (b & u2 & H' & E). apply bind_ok in E as (? & ? & _ & E). injection E as -> _.
  cbn [s_budget with_viscous_heating] in H'. apply loop_app in H' as (q1 & w3 & A & B).
  rewrite loop_with_viscous in A. rewrite H in A. injection A as <- <-.
  rewrite loop_with_viscous in B. cbn [budget_loop] in B.
  apply bind_ok in B as (g & w4 & G & B). apply bind_ok in B as (? & ? & _ & B). apply bind_ok in B as (? & ? & _ & B).
  injection B as <- _. f_equal.
  destruct (framed_ok _ _ _ _ _ (framed_loop _ _ _ _ _) H) as (y & c & -> & _).
  destruct (gives_velocity sm w v w2 Hf Hv y c) as (y' & c' & Ev).
  rewrite (C43_viscous_term sm width depth _ v _ mu Ev) in G; [injection G as <- _; reflexivity| |exact Hd].
  cbn [w_st touched set_log set_st]. rewrite Hf. exact Hmu.
Qed.

(** Switching viscous heating on makes every step cool and crystallize more. *)
Theorem C43_viscous_heating_warms_refuted : forall (sm : sim R) w w1 w2 mu rho rate v new width,
  strain_free (s_lava sm) ->
  single_step sm w = (Ok tt, w1) -> w_iter w1 <> w_iter w ->
  single_step (with_viscous_heating sm) w = (Ok tt, w2) -> w_iter w2 <> w_iter w ->
  mean_velocity (s_lava sm) (s_ter sm) (w_depth w) (w_st w) = Ok (v, new) ->
  computes_bulk_viscosity (s_lava sm) (w_st w) = Ok mu ->
  get_bulk_density (s_lava sm) (w_st w) = Ok rho ->
  compute_crystallization_rate (s_cryst sm) (w_st w) = Ok rate ->
  width_of sm v rho w = Ok width ->
  0 < mu -> 0 < width -> 0 < rate -> 0 < w_eff w1 * rho -> 0 < lv_latent (s_lava sm) -> 0 < s_dx sm ->
  st_temp (w_st w2) < st_temp (w_st w1) /\ st_phi (w_st w1) < st_phi (w_st w2).
Proof.
  intros sm w w1 w2 mu rho rate v new width Hf H1 I1 H2 I2 Hv Hmu Hrho Hrate Hwid P1 P2 P3 P4 P5 P6.
  apply step_cases in H1 as [S|(v1 & rho1 & wd1 & sl1 & hb1 & rt1 & dT1 & dt1 & C1)].
  { destruct S as [_ _ _ E _ _ _ _]. congruence. }
  apply step_cases in H2 as [S|(v2 & rho2 & wd2 & sl2 & hb2 & rt2 & dT2 & dt2 & C2)].
  { destruct S as [_ _ _ E _ _ _ _]. congruence. }
  destruct C1 as [(n1 & u1 & V1 & B1) VP1 R1 W1 _ K1 D1 _ PH1 T1 _ _ _ S1 _ E1 _ _ _ _].
  destruct C2 as [(n2 & u2 & V2 & B2) VP2 R2 W2 _ K2 D2 _ PH2 T2 _ _ _ _ _ E2 _ _ _ _].
  cbn [s_lava s_ter s_cryst s_dx with_viscous_heating] in *.
  rewrite Hv in V1, V2. injection V1 as <- <-. injection V2 as <- <-.
  rewrite Hrho in R1, R2. injection R1 as <-. injection R2 as <-.
  rewrite Hrate in K1, K2. injection K1 as <-. injection K2 as <-.
  change (width_of (with_viscous_heating sm)) with (width_of sm) in W2.
  rewrite Hwid in W1, W2. injection W1 as <-. injection W2 as <-.
  change (eff_of (with_viscous_heating sm)) with (eff_of sm) in *.
  rewrite E1 in P4. clear E1 E2.
  assert (Hd : w_depth w <> 0).
  { rnum. apply R_div_inv in S1 as [X _]. exact X. }
  assert (Ev : exists w3, compute_mean_velocity (s_lava sm) (s_ter sm) (set_eff (eff_of sm v w) (after_velocity new w)) = (Ok v, w3)).
  { assert (Ev : compute_mean_velocity (s_lava sm) (s_ter sm) w = (Ok v, set_st (set_strain_rate new (w_st w)) w)).
    { unfold compute_mean_velocity. rewrite Hv. reflexivity. }
    destruct (gives_velocity sm w v _ Hf Ev new []) as (y & c & E).
    unfold compute_mean_velocity in *. cbn [w_depth w_st set_eff after_velocity touched set_log set_st] in *.
    destruct (mean_velocity (s_lava sm) (s_ter sm) (w_depth w) (set_strain_rate new (w_st w))) as [[a b]|e];
      [|discriminate E]. injection E as -> _. eexists. reflexivity. }
  destruct Ev as (w3 & Ev).
  assert (Q := budget_with_viscous sm width (w_depth w) _ hb1 u1 hb2 u2 v w3 mu Hf B1 B2 Ev).
  cbn [w_st set_eff after_velocity set_st] in Q. rewrite Hf in Q. specialize (Q Hmu Hd).
  rnum. apply R_div_inv in D1 as [N0 D1]. apply R_div_inv in D2 as [_ D2].
  apply R_leb_false in VP1.
  assert (Hq : hb1 < hb2).
  { rewrite Q. assert (0 < (v / w_depth w) ^ 2).
    { assert (v / w_depth w <> 0). { unfold Rdiv. apply Rmult_integral_contrapositive. split; [lra|].
        now apply Rinv_neq_0_compat. }
      set (z := v / w_depth w) in *. assert (0 < z \/ z < 0) by lra. nra. }
    assert (0 < mu * (v / w_depth w) ^ 2 * width) by (apply Rmult_lt_0_compat; [apply Rmult_lt_0_compat|]; assumption). lra. }
  assert (PK : 0 < / (eff_of sm v w * rho * lv_latent (s_lava sm) * rate)).
  { apply Rinv_0_lt_compat. apply Rmult_lt_0_compat; [apply Rmult_lt_0_compat|]; assumption. }
  assert (HD : dT2 < dT1). { rewrite D1, D2. unfold Rdiv. apply Rmult_lt_compat_r; lra. }
  rewrite T1, T2, PH1, PH2. split; [nra|].
  assert (dT1 * - rate < dT2 * - rate) by nra. nra.
Qed.
