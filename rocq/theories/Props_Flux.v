(** * Props_Flux: the individual heat fluxes (exact reals): C37-C41 *)
From Verif Require Import Base Num Json Logger World Vesicle MeltVisc RelVisc Bubbles Terrain Lava
  Thermal Flux Integrator Frame StepLog Spec RNum RPow Props_Velocity Props_Rheology Props_Thermal Gives.
Open Scope R_scope.

(** [m] raises [e] in every world that differs from [w] only in the strain
    rate and the log. *)
Definition raises {A} (m : M (T:=R) A) (w : world R) (e : exn) : Prop :=
  forall x c, exists x' c', m (touched x c w) = (Err e, touched x' c' w).
Lemma raises_here {A} (m : M (T:=R) A) w e : raises m w e -> exists x c, m w = (Err e, touched x c w).
Proof.
  intros H. destruct (H (st_strain (w_st w)) []) as (x & c & E). rewrite touched_nil in E. eauto.
Qed.
Lemma raises_bind {A B} (m : M (T:=R) A) (f : A -> M B) w a e :
  gives m w a -> raises (f a) w e -> raises (bind m f) w e.
Proof.
  intros Hm Hf x c. destruct (Hm x c) as (x1 & c1 & E1). destruct (Hf x1 c1) as (x2 & c2 & E2).
  exists x2, c2. unfold bind. rewrite E1. exact E2.
Qed.
Lemma raises_now {A B} (m : M (T:=R) A) (f : A -> M B) w e :
  raises m w e -> raises (bind m f) w e.
Proof. intros Hm x c. destruct (Hm x c) as (x1 & c1 & E1). exists x1, c1. unfold bind. now rewrite E1. Qed.
Lemma raises_lift {A} (r : res A) e w : r = Err e -> raises (lift r) w e.
Proof. intros -> x c. exists x, c. reflexivity. Qed.

(** ** Specification *)
(** The power radiated to the surroundings by a surface of which the fraction
    [f] is at [tc] and the rest at [th], in air at [ta], divided by
    sigma * emissivity. *)
Definition net_fourth_powers (f tc th ta : R) : R := f * (tc ^ 4 - ta ^ 4) + (1 - f) * (th ^ 4 - ta ^ 4).
(** The effective emissivity of each radiation model. *)
Definition cont_fit (t : R) : R := 0.474709 + 0.000719320 * t - 0.000000340085 * t ^ 2.
Definition lin_fit (t : R) : R := 1.0463014 - 0.000148144 * t.
Definition emissivity_of (k : rad_kind R) (f tc th te : R) : R :=
  match k with
  | RadBasic e => e
  | Rad2Emi e1 e2 => f * e1 + (1 - f) * e2
  | RadCont => f * cont_fit tc + (1 - f) * cont_fit th
  | RadLin => lin_fit te
  end.
(** Fourth root. *)
Definition root4 (x : R) : R := pospow x (1 / 4).
Lemma root4_4 x : 0 <= x -> root4 x ^ 4 = x.
Proof.
  intros H. unfold root4. destruct (Req_dec x 0) as [->|].
  - rewrite pospow_0. ring.
  - rewrite pospow_pos by lra. rewrite <- Rpower_pow by apply Rpower_gt_0. rewrite Rpower_mult.
    replace (1 / 4 * INR 4) with 1 by (simpl; lra). apply Rpower_1. lra.
Qed.

(** ** The pieces *)
Lemma cont_emissivity_R t : cont_emissivity t = Ok (cont_fit t).
Proof.
  unfold cont_emissivity. rnum. unfold R_pow. rewrite R_power_2. cbn [rbind]. f_equal. unfold cont_fit. lra.
Qed.
Lemma lin_emissivity_R t : lin_emissivity t = lin_fit t.
Proof. unfold lin_emissivity, lin_fit. rnum. lra. Qed.

Lemma sr_constants : exists c1 c2 l5 : R,
  sr_C1 = Ok c1 /\ sr_C2 = Ok c2 /\ n_pow sr_lamda (n_lit (-5) 1) = Ok l5 /\ 0 < c2 /\ 0 < sr_lamda.
Proof.
  assert (Hl : 0 < sr_lamda) by (unfold sr_lamda; rnum; lra).
  assert (Hk : sr_kapa <> 0) by (unfold sr_kapa; rnum; lra).
  unfold sr_C1, sr_C2. rnum. unfold R_pow. rewrite R_power_2, R_power_pos, R_div_ok by auto.
  eexists _, _, _. repeat split; auto. unfold sr_h, sr_c, sr_kapa. rnum.
  apply Rdiv_lt_0_compat; lra.
Qed.
Lemma planck_ok t : t <> 0 -> exists p, planck t = Ok p.
Proof.
  intros Ht. destruct sr_constants as (c1 & c2 & l5 & H1 & H2 & H3 & Hc & Hl).
  unfold planck. rewrite H1, H2, H3. cbn [rbind]. rnum.
  rewrite R_div_ok by (apply Rmult_integral_contrapositive; split; lra). cbn [rbind].
  assert (Hx : c2 / (sr_lamda * t) <> 0).
  { unfold Rdiv. apply Rmult_integral_contrapositive. split; [lra|].
    apply Rinv_neq_0_compat, Rmult_integral_contrapositive. split; lra. }
  rewrite R_div_ok; [eauto|]. intros E. apply Hx. apply exp_inv. rewrite exp_0. lra.
Qed.
Lemma planck_0 : @planck R RNum 0 = Err ZeroDivisionError.
Proof.
  destruct sr_constants as (c1 & c2 & l5 & H1 & H2 & H3 & Hc & Hl).
  unfold planck. rewrite H1, H2, H3. cbn [rbind]. rnum. now rewrite Rmult_0_r, R_div_0.
Qed.

Section Radiation.
Variable (sm : sim R) (w w1 : world R) (f tc : R).
Hypothesis Hsf : strain_free (s_lava sm).
Hypothesis Hf : cover sm w = (Ok f, w1).
Hypothesis Htc : compute_crust_temperature (s_crust sm) (w_st w) = Ok tc.
Let th := st_temp (w_st w) - lv_buffer (s_lava sm).
Let ta := air_temp (s_air sm).
Let mix := net_fourth_powers f tc th ta.

Let Gf := gives_cover sm w f w1 Hsf Hf.
Let Gc := gives_crust sm w tc Htc.
Let Gm := gives_molten sm w.

Lemma gives_ert : 0 <= mix -> gives (effective_radiation_temperature sm) w (root4 mix).
Proof.
  intros Hm. unfold effective_radiation_temperature.
  eapply gives_bind; [exact Gf|]. eapply gives_bind; [exact Gc|]. eapply gives_bind; [exact Gm|].
  rnum. unfold R_pow. cbv zeta.
  eapply gives_bind; [apply gives_lift, R_power_4|]. eapply gives_bind; [apply gives_lift, R_power_4|].
  eapply gives_bind; [apply gives_lift, R_power_4|].
  eapply gives_bind.
  { apply gives_lift. unfold R_mpow. apply R_power_pospow; [exact Hm|lra]. }
  eapply gives_bind; [apply gives_log|]. apply gives_ret.
Qed.
Lemma raises_ert : mix < 0 ->
  raises (effective_radiation_temperature sm) w (ValueError "math domain error").
Proof.
  intros Hm. unfold effective_radiation_temperature.
  eapply raises_bind; [exact Gf|]. eapply raises_bind; [exact Gc|]. eapply raises_bind; [exact Gm|].
  rnum. unfold R_pow. cbv zeta.
  eapply raises_bind; [apply gives_lift, R_power_4|]. eapply raises_bind; [apply gives_lift, R_power_4|].
  eapply raises_bind; [apply gives_lift, R_power_4|].
  apply raises_now, raises_lift. unfold R_mpow.
  replace (1 / 4) with (IZR 0 + 1 / 4) by lra. apply R_power_neg_nonint; [exact Hm|lra].
Qed.
Lemma gives_ec k : exists e, gives (emissivity_crust k sm) w e /\
  match k with RadCont => e = cont_fit tc | _ => True end.
Proof.
  destruct k; cbn [emissivity_crust].
  - eexists; split; [apply gives_ret|auto].
  - eexists; split; [apply gives_ret|auto].
  - eexists; split; [eapply gives_bind; [exact Gc|apply gives_lift, cont_emissivity_R]|auto].
  - eexists; split; [eapply gives_bind; [exact Gc|apply gives_ret]|auto].
Qed.
Lemma gives_em k : exists e, gives (emissivity_molten k sm) w e /\
  match k with RadCont => e = cont_fit th | _ => True end.
Proof.
  destruct k; cbn [emissivity_molten].
  - eexists; split; [apply gives_ret|auto].
  - eexists; split; [apply gives_ret|auto].
  - eexists; split; [eapply gives_bind; [exact Gm|apply gives_lift, cont_emissivity_R]|reflexivity].
  - eexists; split; [eapply gives_bind; [exact Gm|apply gives_ret]|auto].
Qed.
Lemma gives_eps k : 0 <= mix -> gives (epsilon_effective k sm) w (emissivity_of k f tc th (root4 mix)).
Proof.
  intros Hm. destruct k; cbn [epsilon_effective emissivity_of].
  - eapply gives_bind; [apply gives_log|]. apply gives_ret.
  - eapply gives_bind; [exact Gf|]. cbv zeta. eapply gives_bind; [apply gives_log|]. rnum. apply gives_ret.
  - destruct (gives_ec RadCont) as (ec & H1 & ->). destruct (gives_em RadCont) as (em & H2 & ->).
    eapply gives_bind; [exact Gf|]. eapply gives_bind; [exact H1|]. eapply gives_bind; [exact H2|].
    cbv zeta. eapply gives_bind; [apply gives_log|]. rnum. apply gives_ret.
  - eapply gives_bind; [apply gives_ert, Hm|]. cbv zeta. eapply gives_bind; [apply gives_log|].
    rewrite lin_emissivity_R. apply gives_ret.
Qed.
Lemma pixel_pos (k : rad_kind R) : 0 < pixel_length k.
Proof. destruct k; cbn [pixel_length]; rnum; lra. Qed.
Lemma gives_sr k width : tc <> 0 -> th <> 0 -> exists r, gives (spectral_radiance k sm width) w r.
Proof.
  intros Hc Hh. destruct (planck_ok tc Hc) as [pc Ec]. destruct (planck_ok th Hh) as [ph Eh].
  destruct (planck_ok (n_lit 258 1)) as [pb Eb]; [rnum; lra|].
  destruct (gives_ec k) as (ec & H1 & _). destruct (gives_em k) as (em & H2 & _).
  assert (Hp := pixel_pos k). assert (Hp2 : pixel_length k * pixel_length k <> 0) by nra.
  eexists. unfold spectral_radiance.
  eapply gives_bind; [exact Gf|]. eapply gives_bind; [exact Gc|]. eapply gives_bind; [exact Gm|].
  eapply gives_bind; [exact H1|]. eapply gives_bind; [exact H2|]. cbv zeta.
  eapply gives_bind; [apply gives_lift, R_div_ok, Hp2|].
  eapply gives_bind; [apply gives_lift, R_div_ok, Hp2|].
  eapply gives_bind; [apply gives_lift, Ec|]. eapply gives_bind; [apply gives_lift, Eh|].
  eapply gives_bind; [apply gives_lift, Eb|]. eapply gives_bind; [apply gives_log|]. apply gives_ret.
Qed.
Lemma raises_sr k width : tc = 0 \/ th = 0 -> raises (spectral_radiance k sm width) w ZeroDivisionError.
Proof.
  intros H0. destruct (gives_ec k) as (ec & H1 & _). destruct (gives_em k) as (em & H2 & _).
  assert (Hp := pixel_pos k). assert (Hp2 : pixel_length k * pixel_length k <> 0) by nra.
  unfold spectral_radiance.
  eapply raises_bind; [exact Gf|]. eapply raises_bind; [exact Gc|]. eapply raises_bind; [exact Gm|].
  eapply raises_bind; [exact H1|]. eapply raises_bind; [exact H2|]. cbv zeta.
  eapply raises_bind; [apply gives_lift, R_div_ok, Hp2|].
  eapply raises_bind; [apply gives_lift, R_div_ok, Hp2|].
  destruct (Req_dec tc 0) as [E|E].
  - apply raises_now, raises_lift. rewrite E. apply planck_0.
  - destruct H0 as [|H0]; [contradiction|]. destruct (planck_ok tc E) as [pc Ec].
    eapply raises_bind; [apply gives_lift, Ec|]. apply raises_now, raises_lift.
    change (computes_molten_material_temperature (s_lava sm) (w_st w)) with th. rewrite H0. apply planck_0.
Qed.
Lemma gives_radiation k sigma width depth : 0 <= mix -> tc <> 0 -> th <> 0 ->
  gives (compute_flux (FRadiation k sigma) sm width depth) w
        (sigma * emissivity_of k f tc th (root4 mix) * mix * width).
Proof.
  intros Hm Hc Hh. cbn [compute_flux]. unfold radiation_flux.
  destruct (gives_sr k width Hc Hh) as (r & Hr).
  eapply gives_bind; [apply gives_ert, Hm|]. eapply gives_bind; [apply gives_eps, Hm|].
  eapply gives_bind; [apply gives_lift; rnum; apply R_power_4|]. cbv zeta.
  eapply gives_bind; [exact Hr|]. rnum. rewrite root4_4 by exact Hm. apply gives_ret.
Qed.

(** ** C37 *)
(** sigma * emissivity * (fourth powers) * width ... *)
Theorem C37_radiative_flux : forall k sigma width depth,
  0 <= mix -> tc <> 0 -> th <> 0 ->
  exists w', compute_flux (FRadiation k sigma) sm width depth w =
    (Ok (sigma * emissivity_of k f tc th (root4 mix) * mix * width), w').
Proof.
  intros k sigma width depth Hm Hc Hh.
  destruct (gives_here _ _ _ (gives_radiation k sigma width depth Hm Hc Hh)) as (x & c & E). eauto.
Qed.
(** ... and it is defined in no other case. *)
Theorem C37_radiative_flux_undefined : forall k sigma width depth,
  (mix < 0 -> exists w', compute_flux (FRadiation k sigma) sm width depth w =
                         (Err (ValueError "math domain error"), w')) /\
  (0 <= mix -> tc = 0 \/ th = 0 ->
     exists w', compute_flux (FRadiation k sigma) sm width depth w = (Err ZeroDivisionError, w')).
Proof.
  intros k sigma width depth. split.
  - intros Hm. assert (H : raises (compute_flux (FRadiation k sigma) sm width depth) w
                             (ValueError "math domain error")).
    { cbn [compute_flux]. unfold radiation_flux. apply raises_now, raises_ert, Hm. }
    destruct (raises_here _ _ _ H) as (x & c & E). eauto.
  - intros Hm H0. assert (H : raises (compute_flux (FRadiation k sigma) sm width depth) w ZeroDivisionError).
    { cbn [compute_flux]. unfold radiation_flux.
      eapply raises_bind; [apply gives_ert, Hm|]. eapply raises_bind; [apply gives_eps, Hm|].
      eapply raises_bind; [apply gives_lift; rnum; apply R_power_4|]. cbv zeta.
      apply raises_now, raises_sr, H0. }
    destruct (raises_here _ _ _ H) as (x & c & E). eauto.
Qed.
Theorem C37_radiative_flux_nonneg : forall k sigma width depth q w',
  0 <= f <= 1 -> 0 <= ta -> ta <= tc -> ta <= th -> 0 < tc -> 0 < th ->
  0 <= sigma -> 0 <= width -> 0 <= emissivity_of k f tc th (root4 mix) ->
  compute_flux (FRadiation k sigma) sm width depth w = (Ok q, w') -> 0 <= q.
Proof.
  intros k sigma width depth q w' Hf1 Ha Hac Hah Hc Hh Hs Hw He H.
  assert (A : ta ^ 4 <= tc ^ 4) by (apply pow_incr; lra).
  assert (B : ta ^ 4 <= th ^ 4) by (apply pow_incr; lra).
  assert (Hm : 0 <= mix).
  { unfold mix, net_fourth_powers. assert (0 <= f * (tc ^ 4 - ta ^ 4)) by (apply Rmult_le_pos; lra).
    assert (0 <= (1 - f) * (th ^ 4 - ta ^ 4)) by (apply Rmult_le_pos; lra). lra. }
  destruct (C37_radiative_flux k sigma width depth Hm) as (w2 & E); try lra.
  rewrite E in H. injection H as <- _. repeat apply Rmult_le_pos; auto.
Qed.

(** ** C39 *)
Lemma gives_conv_temp : 0 <= f <= 1 -> 0 <= tc -> 0 <= th ->
  gives (characteristic_surface_temperature sm) w
    (pospow (f * pospow tc 1.333 + (1 - f) * pospow th 1.333) 0.75).
Proof.
  intros H1 Hc Hh. unfold characteristic_surface_temperature.
  eapply gives_bind; [exact Gc|]. eapply gives_bind; [exact Gf|]. eapply gives_bind; [exact Gm|].
  rnum. unfold R_pow, R_mpow. change (computes_molten_material_temperature (s_lava sm) (w_st w)) with th.
  eapply gives_bind; [apply gives_lift, R_power_pospow; lra|].
  eapply gives_bind; [apply gives_lift, R_power_pospow; lra|].
  replace (1333 / 1000) with 1.333 by lra.
  assert (0 <= f * pospow tc 1.333 + (1 - f) * pospow th 1.333).
  { assert (A := pospow_ge_0 tc 1.333). assert (B := pospow_ge_0 th 1.333).
    assert (0 <= f * pospow tc 1.333) by (apply Rmult_le_pos; lra).
    assert (0 <= (1 - f) * pospow th 1.333) by (apply Rmult_le_pos; lra). lra. }
  eapply gives_bind; [apply gives_lift, R_power_pospow; lra|].
  eapply gives_bind; [apply gives_log|].
  replace (3 / 4) with 0.75 by lra. apply gives_ret.
Qed.
(** The characteristic temperature of an isothermal surface is below the
    surface's temperature: it is not a mean of the two temperatures. *)
Theorem C39_conv_temperature_is_a_mean_refuted : forall t w', 1 < t -> tc = t -> th = t -> 0 <= f <= 1 ->
  forall r, characteristic_surface_temperature sm w = (Ok r, w') -> r < Rmin tc th.
Proof.
  intros t w' Ht Hc Hh H1 r H.
  destruct (gives_here _ _ _ (gives_conv_temp H1 ltac:(lra) ltac:(lra))) as (x & c & E).
  rewrite E in H. injection H as <- _. rewrite Hc, Hh.
  rewrite Rmin_left by lra.
  replace (f * pospow t 1.333 + (1 - f) * pospow t 1.333) with (pospow t 1.333) by ring.
  rewrite (pospow_pos t) by lra. rewrite pospow_pos by apply Rpower_gt_0.
  rewrite Rpower_mult. rewrite <- (Rpower_1 t) at 2 by lra. apply Rpower_lt; lra.
Qed.
(** What does hold: at most the hotter of the two, and at least the colder one
    raised to 1.333 * 0.75 = 0.99975. *)
Theorem C39_conv_temperature_bounds : forall r w',
  0 <= f <= 1 -> 1 <= tc -> 1 <= th ->
  characteristic_surface_temperature sm w = (Ok r, w') ->
  Rpower (Rmin tc th) 0.99975 <= r <= Rmax tc th /\
  (tc <> th -> 0 < f < 1 -> Rpower (Rmin tc th) 0.99975 < r < Rmax tc th).
Proof.
  intros r w' H1 Hc Hh H.
  destruct (gives_here _ _ _ (gives_conv_temp H1 ltac:(lra) ltac:(lra))) as (x & c & E).
  rewrite E in H. injection H as <- _. clear E.
  rewrite (pospow_pos tc), (pospow_pos th) by lra.
  set (lo := Rmin tc th). set (hi := Rmax tc th).
  assert (Hlo : 1 <= lo) by (unfold lo, Rmin; destruct (Rle_dec tc th); lra).
  assert (Hhi : 1 <= hi) by (unfold hi, Rmax; destruct (Rle_dec tc th); lra).
  assert (A : lo <= tc <= hi) by (unfold lo, hi; split; [apply Rmin_l|apply Rmax_l]).
  assert (B : lo <= th <= hi) by (unfold lo, hi; split; [apply Rmin_r|apply Rmax_r]).
  assert (Pc1 := Rpower_pos_incr_le lo tc 1.333 ltac:(lra) ltac:(lra)).
  assert (Pc2 := Rpower_pos_incr_le tc hi 1.333 ltac:(lra) ltac:(lra)).
  assert (Ph1 := Rpower_pos_incr_le lo th 1.333 ltac:(lra) ltac:(lra)).
  assert (Ph2 := Rpower_pos_incr_le th hi 1.333 ltac:(lra) ltac:(lra)).
  set (m := f * Rpower tc 1.333 + (1 - f) * Rpower th 1.333).
  assert (Hm1 : Rpower lo 1.333 <= m) by (unfold m; nra).
  assert (Hm2 : m <= Rpower hi 1.333) by (unfold m; nra).
  assert (P0 := Rpower_gt_0 lo 1.333).
  rewrite pospow_pos by lra.
  assert (Elo : Rpower lo 0.99975 = Rpower (Rpower lo 1.333) 0.75).
  { rewrite Rpower_mult. f_equal. lra. }
  assert (Ehi : Rpower (Rpower hi 1.333) 0.75 <= hi).
  { rewrite Rpower_mult. rewrite <- (Rpower_1 hi) at 2 by lra. apply Rle_Rpower; lra. }
  split.
  - split.
    + rewrite Elo. apply Rpower_pos_incr_le; lra.
    + eapply Rle_trans; [|exact Ehi]. apply Rpower_pos_incr_le; lra.
  - intros Hne Hf01.
    assert (Hs : Rpower lo 1.333 < m /\ m < Rpower hi 1.333).
    { unfold m, lo, hi, Rmin, Rmax in *. destruct (Rle_dec tc th).
      - assert (Q := Rpower_pos_incr tc th 1.333 ltac:(lra) ltac:(lra)). split; nra.
      - assert (Q := Rpower_pos_incr th tc 1.333 ltac:(lra) ltac:(lra)). split; nra. }
    split.
    + rewrite Elo. apply Rpower_pos_incr; lra.
    + eapply Rlt_le_trans; [|exact Ehi]. apply Rpower_pos_incr; lra.
Qed.
(** The forced-convection flux built on it. *)
Theorem C39_convective_flux : forall width depth,
  0 <= f <= 1 -> 0 <= tc -> 0 <= th ->
  exists r w', characteristic_surface_temperature sm w = (Ok r, w') /\
  exists w'', compute_flux FConvection sm width depth w =
    (Ok (air_ch (s_air sm) * air_rho (s_air sm) * air_cp (s_air sm) * air_wind (s_air sm) * (r - ta) * width), w'').
Proof.
  intros width depth H1 Hc Hh. assert (G := gives_conv_temp H1 Hc Hh).
  destruct (gives_here _ _ _ G) as (x & c & E). eexists _, _. split; [exact E|].
  set (r := pospow _ _) in *.
  assert (G2 : gives (compute_flux FConvection sm width depth) w
    (air_ch (s_air sm) * air_rho (s_air sm) * air_cp (s_air sm) * air_wind (s_air sm) * (r - ta) * width)).
  { cbn [compute_flux]. unfold convection_flux. cbv zeta. eapply gives_bind; [exact G|].
    eapply gives_bind; [apply gives_log|]. eapply gives_bind; [apply gives_log|].
    unfold compute_conv_heat_transfer_coef. rnum. apply gives_ret. }
  destruct (gives_here _ _ _ G2) as (x2 & c2 & E2). eauto.
Qed.

(** ** C41, the Snyder flux *)
Lemma gives_snyder width depth : 0 < f * tc + (1 - f) * th ->
  gives (compute_flux FSnyder sm width depth) w
    (0.000000000000107 * Rpower (f * tc + (1 - f) * th) 4.85 * 1000 * width).
Proof.
  intros Hp. cbn [compute_flux]. unfold snyder_flux, effective_temperature_snyder.
  eapply gives_bind.
  { eapply gives_bind; [exact Gc|]. eapply gives_bind; [exact Gf|]. eapply gives_bind; [exact Gm|]. cbv zeta.
    eapply gives_bind; [apply gives_log|]. apply gives_ret. }
  rnum. unfold R_pow. change (computes_molten_material_temperature (s_lava sm) (w_st w)) with th.
  eapply gives_bind; [apply gives_lift, R_power_pos, Hp|]. cbv zeta.
  do 4 (eapply gives_bind; [apply gives_log|]).
  replace (0.000000000000107 * Rpower (f * tc + (1 - f) * th) 4.85 * 1000 * width)
    with (107 / 100 * (1 / 10000000000000) * Rpower (f * tc + (1 - f) * th) (485 / 100) * width * 1000).
  { apply gives_ret. }
  replace 4.85 with (485 / 100) by lra. lra.
Qed.
Theorem C41_snyder_flux : forall width depth, 0 < f * tc + (1 - f) * th ->
  exists w', compute_flux FSnyder sm width depth w =
    (Ok (0.000000000000107 * Rpower (f * tc + (1 - f) * th) 4.85 * 1000 * width), w').
Proof.
  intros width depth Hp. destruct (gives_here _ _ _ (gives_snyder width depth Hp)) as (x & c & E). eauto.
Qed.
End Radiation.

(** The Snyder flux is positive, and grows with the effective temperature,
    which lies between the two surface temperatures. *)
Theorem C41_effective_temperature_between : forall f tc th : R, 0 <= f <= 1 ->
  Rmin tc th <= f * tc + (1 - f) * th <= Rmax tc th.
Proof.
  intros f tc th H. unfold Rmin, Rmax. destruct (Rle_dec tc th); split; nra.
Qed.
Theorem C41_snyder_positive_and_increasing :
  forall (sm : sim R) (w w1 : world R) f tc (sm' : sim R) (u u1 : world R) g uc width depth q w' p u',
  strain_free (s_lava sm) -> cover sm w = (Ok f, w1) ->
  compute_crust_temperature (s_crust sm) (w_st w) = Ok tc ->
  strain_free (s_lava sm') -> cover sm' u = (Ok g, u1) ->
  compute_crust_temperature (s_crust sm') (w_st u) = Ok uc ->
  0 < f * tc + (1 - f) * (st_temp (w_st w) - lv_buffer (s_lava sm)) <
      g * uc + (1 - g) * (st_temp (w_st u) - lv_buffer (s_lava sm')) ->
  0 < width ->
  compute_flux FSnyder sm width depth w = (Ok q, w') ->
  compute_flux FSnyder sm' width depth u = (Ok p, u') ->
  0 < q < p.
Proof.
  intros sm w w1 f tc sm' u u1 g uc width depth q w' p u' S1 F1 C1 S2 F2 C2 Hlt Hw H1 H2.
  destruct (C41_snyder_flux sm w w1 f tc S1 F1 C1 width depth) as (a & E1); [lra|].
  destruct (C41_snyder_flux sm' u u1 g uc S2 F2 C2 width depth) as (b & E2); [lra|].
  rewrite E1 in H1. injection H1 as <- _. rewrite E2 in H2. injection H2 as <- _.
  set (x := f * tc + _) in *. set (y := g * uc + _) in *.
  assert (A := Rpower_gt_0 x 4.85). assert (B := Rpower_pos_incr x y 4.85 Hlt ltac:(lra)).
  split; nra.
Qed.
Theorem C41_rain_flux : forall rate dens latent (sm : sim R) width depth w,
  compute_flux (FRain rate dens latent) sm width depth w = (Ok (rate * dens * latent * width), w).
Proof. reflexivity. Qed.

(** ** C38 *)
Theorem C38_two_emissivities_between : forall e1 e2 f tc th te, 0 <= f <= 1 ->
  Rmin e1 e2 <= emissivity_of (Rad2Emi e1 e2) f tc th te <= Rmax e1 e2.
Proof. intros e1 e2 f tc th te H. apply C41_effective_temperature_between. exact H. Qed.
Theorem C38_cont_in_range : forall f tc th te, 0 <= f <= 1 -> 0 <= tc <= 1700 -> 0 <= th <= 1700 ->
  0 < emissivity_of RadCont f tc th te < 1.
Proof.
  intros f tc th te H Hc Hh. cbn [emissivity_of].
  assert (A : forall t, 0 <= t <= 1700 -> 0 < cont_fit t < 1) by (intros t Ht; unfold cont_fit; split; nra).
  assert (Ac := A tc Hc). assert (Ah := A th Hh).
  assert (B := C41_effective_temperature_between f (cont_fit tc) (cont_fit th) H).
  unfold Rmin, Rmax in B. destruct (Rle_dec _ _); lra.
Qed.
(** The fitted quadratic keeps rising only up to about 1057 K, and beyond about
    2640 K it is negative. *)
Theorem C38_cont_negative_when_hot : cont_fit 2700 < 0.
Proof. unfold cont_fit. lra. Qed.
Theorem C38_lin_formula : forall f tc th te,
  emissivity_of RadLin f tc th te = 1.0463014 - 0.000148144 * te /\
  (313 <= te <= 7000 -> 0 < emissivity_of RadLin f tc th te < 1) /\
  (te < 312 -> 1 < emissivity_of RadLin f tc th te).
Proof. intros. cbn [emissivity_of]. unfold lin_fit. repeat split; lra. Qed.
(** The value logged as epsilon_effective is this one. *)
Theorem C38_logged_emissivity : forall (sm : sim R) w w1 f tc k,
  strain_free (s_lava sm) -> cover sm w = (Ok f, w1) ->
  compute_crust_temperature (s_crust sm) (w_st w) = Ok tc ->
  let th := st_temp (w_st w) - lv_buffer (s_lava sm) in
  let mix := net_fourth_powers f tc th (air_temp (s_air sm)) in
  0 <= mix -> exists w', epsilon_effective k sm w = (Ok (emissivity_of k f tc th (root4 mix)), w').
Proof.
  intros sm w w1 f tc k S F C th mix Hm.
  destruct (gives_here _ _ _ (gives_eps sm w w1 f tc S F C k Hm)) as (x & c & E). eauto.
Qed.

(** ** C40 *)
(** Specification: Fourier's law with the vesicle-dependent conductivity. *)
Definition conductive_flux (vf tcore tbase cbd depth width : R) : R :=
  (1.929 - 1.554 * vf) ^ 2 * (tcore - tbase) / (cbd / 100 * depth) * width.
Theorem C40_conductive_flux : forall tb cbd (sm : sim R) width depth w vf,
  lava_vesicle_fraction (s_lava sm) (w_st w) = Ok vf -> cbd <> 0 -> depth <> 0 ->
  compute_flux (FConduction tb cbd) sm width depth w =
    (Ok (conductive_flux vf (st_temp (w_st w)) tb cbd depth width), w).
Proof.
  intros tb cbd sm width depth w vf Hv Hc Hd. cbn [compute_flux]. unfold conduction_flux, bind, get, reads, lift.
  rewrite Hv. rnum. unfold R_pow. rewrite R_power_2, R_div_ok by lra. cbn [rbind].
  rewrite R_div_ok. 2: apply Rmult_integral_contrapositive; split; lra.
  unfold ret, conductive_flux. do 2 f_equal. rnum.
  replace (1929 / 1000 - 1554 / 1000 * vf) with (1.929 - 1.554 * vf) by lra. set (k := 1.929 - _).
  field. split; lra.
Qed.
Theorem C40_conductive_flux_undefined : forall tb cbd (sm : sim R) width depth w vf,
  lava_vesicle_fraction (s_lava sm) (w_st w) = Ok vf -> cbd = 0 \/ depth = 0 ->
  compute_flux (FConduction tb cbd) sm width depth w = (Err ZeroDivisionError, w).
Proof.
  intros tb cbd sm width depth w vf Hv H. cbn [compute_flux]. unfold conduction_flux, bind, get, reads, lift.
  rewrite Hv. rnum. unfold R_pow. rewrite R_power_2, R_div_ok by lra. cbn [rbind].
  replace (cbd / 100 * depth) with 0 by (destruct H; subst; lra). now rewrite R_div_0.
Qed.
(** Sign, growth with the core temperature, decrease with depth: stated on the
    values the flux returns. *)
Theorem C40_sign : forall tb cbd (sm : sim R) width depth w vf q w',
  lava_vesicle_fraction (s_lava sm) (w_st w) = Ok vf -> 1.929 <> 1.554 * vf ->
  0 < cbd -> 0 < depth -> 0 < width ->
  compute_flux (FConduction tb cbd) sm width depth w = (Ok q, w') ->
  (0 <= q <-> tb <= st_temp (w_st w)) /\ (0 < q <-> tb < st_temp (w_st w)).
Proof.
  intros tb cbd sm width depth w vf q w' Hv Hk Hc Hd Hw H.
  rewrite (C40_conductive_flux _ _ _ _ _ _ vf) in H by (auto; lra). injection H as <- _.
  unfold conductive_flux. set (tt := st_temp (w_st w)).
  assert (P : 0 < (1.929 - 1.554 * vf) ^ 2 / (cbd / 100 * depth) * width).
  { apply Rmult_lt_0_compat; auto. apply Rdiv_lt_0_compat; [|nra]. assert (N0 : 1.929 - 1.554 * vf <> 0) by lra. set (k := 1.929 - _) in *. assert (0 < k \/ k < 0) by lra. nra. }
  replace ((1.929 - 1.554 * vf) ^ 2 * (tt - tb) / (cbd / 100 * depth) * width)
    with ((1.929 - 1.554 * vf) ^ 2 / (cbd / 100 * depth) * width * (tt - tb))
    by (set (k := 1.929 - _); field; lra).
  set (K := _ * width) in *. split; split; intros; nra.
Qed.
Theorem C40_monotone : forall tb cbd (sm1 sm2 : sim R) width d1 d2 w1 w2 vf q1 q2 w1' w2',
  lava_vesicle_fraction (s_lava sm1) (w_st w1) = Ok vf ->
  lava_vesicle_fraction (s_lava sm2) (w_st w2) = Ok vf -> 1.929 <> 1.554 * vf ->
  0 < cbd -> 0 < width -> 0 < d2 -> 0 < d1 ->
  compute_flux (FConduction tb cbd) sm1 width d1 w1 = (Ok q1, w1') ->
  compute_flux (FConduction tb cbd) sm2 width d2 w2 = (Ok q2, w2') ->
  (d1 = d2 -> st_temp (w_st w1) < st_temp (w_st w2) -> q1 < q2) /\
  (d1 < d2 -> st_temp (w_st w1) = st_temp (w_st w2) -> tb < st_temp (w_st w1) -> q2 < q1).
Proof.
  intros tb cbd sm1 sm2 width d1 d2 w1 w2 vf q1 q2 w1' w2' Hv1 Hv2 Hk Hc Hw Hd2 Hd1 H1 H2.
  rewrite (C40_conductive_flux _ _ _ _ _ _ vf) in H1 by (auto; lra). injection H1 as <- _.
  rewrite (C40_conductive_flux _ _ _ _ _ _ vf) in H2 by (auto; lra). injection H2 as <- _.
  unfold conductive_flux. set (a := st_temp (w_st w1)). set (b := st_temp (w_st w2)).
  assert (P : 0 < (1.929 - 1.554 * vf) ^ 2) by (assert (1.929 - 1.554 * vf <> 0) by lra; set (k := 1.929 - _) in *; assert (0 < k \/ k < 0) by lra; nra).
  set (K := (1.929 - 1.554 * vf) ^ 2) in *. split.
  - intros <- Hab.
    assert (Q : 0 < / (cbd / 100 * d1)) by (apply Rinv_0_lt_compat; nra).
    unfold Rdiv. apply Rmult_lt_compat_r; auto. apply Rmult_lt_compat_r; auto.
    apply Rmult_lt_compat_l; lra.
  - intros Hd Hab Hb. rewrite <- Hab. apply Rmult_lt_compat_r; auto.
    unfold Rdiv at 1 3. apply Rmult_lt_compat_l; [apply Rmult_lt_0_compat; lra|].
    assert (0 < cbd / 100 * d1) by nra. assert (0 < cbd / 100 * d2) by nra.
    apply Rinv_lt_contravar; [apply Rmult_lt_0_compat; auto|nra].
Qed.
