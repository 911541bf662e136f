(** * Props_Weaker: weaker or fewer fluxes, milder air, more latent heat (C80) *)
From Coq Require Import Reals Lra Lia List.
From Verif Require Import Base Num Json Logger World Vesicle MeltVisc RelVisc Bubbles Terrain Lava
  Thermal Flux Integrator Factory Run Frame StepLog Spec RNum RPow StepProofs LoggerProofs StepProps Props_Run Props_Step
  Props_Velocity Props_Rheology Props_Material Props_Thermal Props_Flux Props_Table Props_Recompute
  Safe Valid Props_ValidRun Cooling Props_Cooling Recompute Lipschitz ModelLip Refine Losses Props_Refine Props_RefineRun
  Props_Compare.
Open Scope R_scope.

(** ** The comparison, parameter by parameter *)
(** What the air takes from a surface, per kelvin and square metre. *)
Definition convection_coefficient (a : air R) : R := air_ch a * air_rho a * air_cp a * air_wind a.
(** In the air [a'], the flux [f'] is of the kind of [f] in the air [a], with
    parameters that make it weaker. *)
Definition weaker (a a' : air R) (f f' : flux R) : Prop :=
  match f, f' with
  | FRadiation (RadBasic e) s, FRadiation (RadBasic e') s' => s' * e' <= s * e
  | FRadiation (Rad2Emi e1 e2) s, FRadiation (Rad2Emi e1' e2') s' => s' * e1' <= s * e1 /\ s' * e2' <= s * e2
  | FRadiation RadCont s, FRadiation RadCont s' => s' <= s
  | FRadiation RadLin s, FRadiation RadLin s' => s' <= s
  | FConduction tb c, FConduction tb' c' => tb <= tb' /\ c <= c'
  | FConvection, FConvection => convection_coefficient a' <= convection_coefficient a
  | FRain q d l, FRain q' d' l' => q' * d' * l' <= q * d * l
  | FViscous, FViscous | FSnyder, FSnyder => True
  | _, _ => False
  end.
(** [b'] has, in the order of [b], a weaker flux for some fluxes of [b] and
    nothing for the others. *)
Inductive spares (a a' : air R) : list (flux R) -> list (flux R) -> Prop :=
| spares_nil : spares a a' [] []
| spares_drop f b b' : spares a a' b b' -> spares a a' (f :: b) b'
| spares_keep f f' b b' : weaker a a' f f' -> spares a a' b b' -> spares a a' (f :: b) (f' :: b').

(** ** Fluxes of a warm surface *)
Section Warm.
Variables (a : air R) (ts : R) (u : surface).
Hypothesis W : warm_surface ts (air_temp a) u.
Hypothesis Ha : 1 <= air_temp a.

Lemma net_between : 0 < net_fourth_powers (su_cover u) (su_crust u) (su_hot u) (air_temp a) <= 2600 ^ 4.
Proof.
  destruct W as [_ _ _ Hh Hc Hf _ _ _]. unfold net_fourth_powers.
  assert (A1 : air_temp a ^ 4 < su_crust u ^ 4) by (apply fourth_lt; lra).
  assert (A2 : air_temp a ^ 4 < su_hot u ^ 4) by (apply fourth_lt; lra).
  assert (A3 : su_crust u ^ 4 <= 2600 ^ 4) by (apply pow_incr; lra).
  assert (A4 : su_hot u ^ 4 <= 2600 ^ 4) by (apply pow_incr; lra).
  assert (A5 : 0 < air_temp a ^ 4) by (apply pow_lt; lra).
  split; [apply mix_pos; lra|apply mix_le; lra].
Qed.
Lemma radiating_between : 0 < radiating_temperature a u <= 2600 /\
  radiating_temperature a u ^ 4 = net_fourth_powers (su_cover u) (su_crust u) (su_hot u) (air_temp a).
Proof.
  assert (N := net_between). unfold radiating_temperature. set (m := net_fourth_powers _ _ _ _) in *.
  assert (E4 := root4_4 m ltac:(lra)).
  assert (P : 0 < root4 m) by (unfold root4; rewrite pospow_pos by lra; apply Rpower_gt_0).
  split; [split; [exact P|]|exact E4].
  destruct (Rle_dec (root4 m) 2600) as [|n]; [assumption|]. exfalso.
  assert (2600 ^ 4 < root4 m ^ 4) by (apply fourth_lt; lra). lra.
Qed.
Lemma convecting_above : air_temp a < convecting_temperature u.
Proof.
  destruct W as [_ _ _ Hh Hc Hf _ _ _]. unfold convecting_temperature.
  rewrite !(pospow_pos _ 1.333) by lra.
  set (lo := Rmin (su_crust u) (su_hot u)).
  assert (L1 : 401 / 400 * air_temp a <= lo <= 2600) by (unfold lo, Rmin; destruct (Rle_dec (su_crust u) (su_hot u)); lra).
  assert (L2 : lo <= su_crust u) by apply Rmin_l. assert (L3 : lo <= su_hot u) by apply Rmin_r.
  set (y := su_cover u * Rpower (su_crust u) 1.333 + (1 - su_cover u) * Rpower (su_hot u) 1.333).
  assert (M : Rpower lo 1.333 <= y).
  { apply mix_ge; auto; apply Rpower_pos_incr_le; lra. }
  assert (P := Rpower_gt_0 lo 1.333). rewrite pospow_pos by lra.
  apply Rlt_le_trans with (Rpower (Rpower lo 1.333) 0.75); [|apply Rpower_pos_incr_le; lra].
  rewrite Rpower_mult. replace (1.333 * 0.75) with (99975 / 100000) by lra.
  assert (A := almost_one lo ltac:(lra)). lra.
Qed.
End Warm.

Lemma lin_radiance s t : 0 <= s <= t -> t <= 2600 -> 0 <= lin_fit s * s ^ 4 <= lin_fit t * t ^ 4.
Proof.
  intros Hs Ht. assert (Ps := lin_pos s ltac:(lra)). assert (S4 : 0 <= s ^ 4) by (apply pow_le; lra).
  split; [apply Rmult_le_pos; lra|]. unfold lin_fit.
  assert (E : (1.0463014 - 0.000148144 * t) * t ^ 4 - (1.0463014 - 0.000148144 * s) * s ^ 4
              = (t - s) * ((1.0463014 - 0.000148144 * t) * (t ^ 3 + t ^ 2 * s + t * s ^ 2 + s ^ 3) - 0.000148144 * (s * s ^ 3))) by ring.
  assert (P3 : 0 <= s ^ 3) by (apply pow_le; lra). assert (P2 : 0 <= t ^ 2 * s) by (apply Rmult_le_pos; [apply pow_le|]; lra).
  assert (P1 : 0 <= t * s ^ 2) by (apply Rmult_le_pos; [|apply pow_le]; lra). assert (P0 : 0 <= t ^ 3) by (apply pow_le; lra).
  assert (Q : 0.000148144 * (s * s ^ 3) <= 0.000148144 * (2600 * s ^ 3)).
  { apply Rmult_le_compat_l; [lra|]. apply Rmult_le_compat_r; lra. }
  assert (Q2 : (1.0463014 - 0.000148144 * 2600) * s ^ 3 <= (1.0463014 - 0.000148144 * t) * (t ^ 3 + t ^ 2 * s + t * s ^ 2 + s ^ 3)).
  { apply Rmult_le_compat; lra. }
  assert (0 <= (t - s) * ((1.0463014 - 0.000148144 * t) * (t ^ 3 + t ^ 2 * s + t * s ^ 2 + s ^ 3) - 0.000148144 * (s * s ^ 3))).
  { apply Rmult_le_pos; lra. }
  lra.
Qed.

(** Each law, for a positive width, is a positive number ... *)
Lemma loss_positive (sm : sim R) u f : 1 <= air_temp (s_air sm) ->
  warm_surface (get_solid_temperature (s_cryst sm)) (air_temp (s_air sm)) u -> is_loss sm f -> 0 < flux_law (s_air sm) u f.
Proof.
  intros Ha W Hl. destruct (radiating_between _ _ _ W Ha) as [Rt E4]. assert (Nb := net_between _ _ _ W Ha).
  assert (Cv := convecting_above _ _ _ W Ha). destruct W as [Hw Hd Ht Hh Hc Hf Hv Hm Hs].
  destruct f; cbn [flux_law is_loss] in *.
  - rewrite E4. apply Rmult_lt_0_compat; [|exact Hw]. apply Rmult_lt_0_compat; [|lra].
    apply Rmult_lt_0_compat; [destruct k; lra|]. destruct k; cbn [emissivity_of].
    + lra.
    + apply mix_pos; lra.
    + apply mix_pos; [lra|apply cont_pos; lra|apply cont_pos; lra].
    + apply lin_pos. lra.
  - unfold conductive_flux. apply Rmult_lt_0_compat; [|exact Hw]. apply Rdiv_lt_0_compat.
    + apply Rmult_lt_0_compat; [apply pow_lt|]; lra.
    + apply Rmult_lt_0_compat; lra.
  - apply Rmult_lt_0_compat; [|exact Hw]. apply Rmult_lt_0_compat; lra.
  - apply Rmult_lt_0_compat; lra.
  - apply Rmult_lt_0_compat; [|exact Hw]. apply Rmult_lt_0_compat; [exact Hm|]. apply pow_lt. apply Rdiv_lt_0_compat; lra.
  - assert (0 < mean_temperature u) by (unfold mean_temperature; apply mix_pos; lra).
    rewrite pospow_pos by assumption. assert (P := Rpower_gt_0 (mean_temperature u) 4.85).
    apply Rmult_lt_0_compat; [|exact Hw]. apply Rmult_lt_0_compat; [|lra]. apply Rmult_lt_0_compat; [lra|exact P].
Qed.
(** ... that weakens with the parameters and in hotter air. *)
Lemma weaker_law (sm sm' : sim R) u f f' : 1 <= air_temp (s_air sm) -> air_temp (s_air sm) <= air_temp (s_air sm') ->
  get_solid_temperature (s_cryst sm') = get_solid_temperature (s_cryst sm) ->
  warm_surface (get_solid_temperature (s_cryst sm)) (air_temp (s_air sm)) u ->
  warm_surface (get_solid_temperature (s_cryst sm)) (air_temp (s_air sm')) u ->
  is_loss sm f -> is_loss sm' f' -> weaker (s_air sm) (s_air sm') f f' ->
  flux_law (s_air sm') u f' <= flux_law (s_air sm) u f.
Proof.
  intros Ha Haa Ets W W' Hl Hl' Hk. set (a := s_air sm) in *. set (a' := s_air sm') in *.
  destruct (radiating_between _ _ _ W Ha) as [Rt E4]. assert (Nb := net_between _ _ _ W Ha).
  destruct (radiating_between _ _ _ W' ltac:(lra)) as [Rt' E4']. assert (Nb' := net_between _ _ _ W' ltac:(lra)).
  assert (Cv := convecting_above _ _ _ W Ha). assert (Cv' := convecting_above _ _ _ W' ltac:(lra)).
  assert (Nn : net_fourth_powers (su_cover u) (su_crust u) (su_hot u) (air_temp a') <=
               net_fourth_powers (su_cover u) (su_crust u) (su_hot u) (air_temp a)).
  { unfold net_fourth_powers. assert (air_temp a ^ 4 <= air_temp a' ^ 4) by (apply pow_incr; lra). lra. }
  assert (Rr : radiating_temperature a' u <= radiating_temperature a u).
  { unfold radiating_temperature, root4. apply pospow_incr_le; lra. }
  destruct W as [Hw Hd Ht Hh Hc Hf Hv Hm Hs].
  destruct f, f'; try (destruct k; exact (False_ind _ Hk)); try exact (False_ind _ Hk); cbn [flux_law is_loss weaker] in *.
  - apply Rmult_le_compat_r; [lra|]. destruct k, k0; try contradiction; cbn [emissivity_of].
    + rewrite E4, E4'. apply Rmult_le_compat; try lra. apply Rmult_le_pos; lra.
    + rewrite E4, E4'. set (x := sigma0 * _). assert (0 <= x <= sigma * (su_cover u * eps1 + (1 - su_cover u) * eps2)); [|apply Rmult_le_compat; lra].
      unfold x. assert (M := mix_pos (su_cover u) eps0 eps3 ltac:(lra) ltac:(lra) ltac:(lra)).
      split; [apply Rmult_le_pos; lra|].
      assert (su_cover u * (sigma0 * eps0) <= su_cover u * (sigma * eps1)) by (apply Rmult_le_compat_l; lra).
      assert ((1 - su_cover u) * (sigma0 * eps3) <= (1 - su_cover u) * (sigma * eps2)) by (apply Rmult_le_compat_l; lra). lra.
    + rewrite E4, E4'. set (e := su_cover u * cont_fit _ + _).
      assert (0 < e) by (apply mix_pos; [lra|apply cont_pos; lra|apply cont_pos; lra]).
      apply Rmult_le_compat; try lra; [apply Rmult_le_pos; lra|]. apply Rmult_le_compat_r; lra.
    + rewrite !Rmult_assoc. apply Rmult_le_compat; [lra| | exact Hk|].
      * apply (lin_radiance _ (radiating_temperature a u)); lra.
      * apply lin_radiance; lra.
  - unfold conductive_flux. apply Rmult_le_compat_r; [lra|].
    assert (P : 0 < (1.929 - 1.554 * su_vf u) ^ 2) by (apply pow_lt; lra).
    unfold Rdiv at 1 3. rewrite Ets in Hl'. apply Rmult_le_compat; [apply Rmult_le_pos; lra| |apply Rmult_le_compat_l; lra|].
    + apply Rlt_le, Rinv_0_lt_compat, Rmult_lt_0_compat; lra.
    + apply Rinv_le_contravar; [apply Rmult_lt_0_compat; lra|]. apply Rmult_le_compat_r; lra.
  - fold a in Hl. fold a' in Hl'. apply Rmult_le_compat_r; [lra|]. unfold convection_coefficient in Hk. apply Rmult_le_compat; lra.
  - apply Rmult_le_compat_r; lra.
  - lra.
  - lra.
Qed.

(** ** The sum *)
Lemma spares_loss (sm sm' : sim R) u : 1 <= air_temp (s_air sm) -> air_temp (s_air sm) <= air_temp (s_air sm') ->
  get_solid_temperature (s_cryst sm') = get_solid_temperature (s_cryst sm) ->
  warm_surface (get_solid_temperature (s_cryst sm)) (air_temp (s_air sm)) u ->
  warm_surface (get_solid_temperature (s_cryst sm)) (air_temp (s_air sm')) u ->
  forall b b', spares (s_air sm) (s_air sm') b b' -> Forall (is_loss sm) b -> Forall (is_loss sm') b' ->
  0 <= heat_loss (s_air sm') b' u <= heat_loss (s_air sm) b u.
Proof.
  intros Ha Haa Ets W W' b b' Sp. induction Sp as [|f b b' Sp IH|f f' b b' Wk Sp IH]; intros Hb Hb'; unfold heat_loss; cbn [map fold_right].
  - lra.
  - inversion Hb as [|? ? Hf Hb1]; subst. specialize (IH Hb1 Hb'). unfold heat_loss in IH.
    assert (Q := loss_positive sm u f Ha W Hf). lra.
  - inversion Hb as [|? ? Hf Hb1]; subst. inversion Hb' as [|? ? Hf' Hb1']; subst. specialize (IH Hb1 Hb1'). unfold heat_loss in IH.
    assert (Q := weaker_law sm sm' u f f' Ha Haa Ets W W' Hf Hf' Wk).
    assert (Ha' : 1 <= air_temp (s_air sm')) by lra. rewrite <- Ets in W'. assert (Q' := loss_positive sm' u f' Ha' W' Hf'). lra.
Qed.

(** Warmer air, a smaller convection coefficient, fluxes left out, fluxes with
    weaker parameters, more latent heat: each on its own or all together, the
    lava gets at least as far and is at least as mobile everywhere. *)
Theorem C80_milder_conditions_flow_further :
  forall (d d' : json R) profile profile' mo mo' (sm : sim R) (s : state R) depth phi1 v0 a b L,
  build_models d profile = Ok mo -> s_budget sm = mo_budget mo ->
  build_models d' profile' = Ok mo' -> b = mo_budget mo' ->
  losing sm s depth -> losing (with_losses a b L sm) s depth -> smooth sm phi1 ->
  thins_with_heat (lv_melt (s_lava sm)) -> 0 < v0 ->
  0 < lv_latent (s_lava sm) <= L -> air_temp (s_air sm) <= air_temp a -> spares (s_air sm) a (s_budget sm) b ->
  exists h0, 0 < h0 /\ forall h n fuel fuel' w w', 0 < h <= h0 ->
    simulate fuel (with_step h sm) (initial_world s [] depth) = Some (Ok tt, w) ->
    simulate fuel' (with_step h (with_losses a b L sm)) (initial_world s [] depth) = Some (Ok tt, w') ->
    (n < w_iter w)%nat -> flows_freely v0 phi1 (w_log w) n ->
    (n < w_iter w')%nat /\
    forall i, (i <= n)%nat -> exists r r', nth_error (w_log w) i = Some r /\ nth_error (w_log w') i = Some r' /\
      at_least_as_mobile r r'.
Proof.
  intros d d' profile profile' mo mo' sm s depth phi1 v0 a b L Hb Es Hb' Es' K K' S Thin Hv0 HL Hair Sp.
  apply (C80_smaller_losses_flow_further d d' profile profile' mo mo' sm s depth phi1 v0 a b L Hb Es Hb' Es' K K' S Thin Hv0).
  intros u W W'.
  destruct (spares_loss sm (with_losses a b L sm) u (co_air _ _ _ K) Hair eq_refl W W' _ _ Sp (co_losses _ _ _ K) (co_losses _ _ _ K')) as [P Q].
  change (s_air (with_losses a b L sm)) with a in P, Q.
  apply Rle_trans with (heat_loss a b u / lv_latent (s_lava sm)).
  - unfold Rdiv. apply Rmult_le_compat_l; [exact P|]. apply Rinv_le_contravar; lra.
  - unfold Rdiv. apply Rmult_le_compat_r; [|exact Q]. apply Rlt_le, Rinv_0_lt_compat. lra.
Qed.
