(** * Props_Easier: a steeper slope or a softer lava flows at least as far (C88) *)
From Coq Require Import Reals Lra Lia List Classical_Prop.
From Verif Require Import Base Num Json Logger World Vesicle MeltVisc RelVisc Bubbles Terrain Lava
  Thermal Flux Integrator Factory Run Frame StepLog Spec RNum RPow StepProofs LoggerProofs RowProofs StepProps StepRow Gives Steady EffArray Props_Run Props_Step Props_Budget Props_BudgetStep Props_RunOuts
  Props_Velocity Props_Rheology Props_Material Props_Terrain Props_Thermal Props_Flux ColumnProofs TableTrace Props_Table Props_Recompute Props_Energy
  Safe Valid Props_ValidRun Cooling Props_Cooling Recompute Lipschitz ModelLip Refine Losses Props_Refine Props_RefineRun Props_Compare Props_Weaker Faster Props_Faster.
Open Scope R_scope.

(** The same set-up on other ground: another gravity, default slope and slope profile. *)
Definition with_ground {T} (g sl : T) (sp : option (list (T * T))) (sm : sim T) : sim T :=
  {| s_dx := s_dx sm; s_lava := s_lava sm; s_air := s_air sm;
     s_ter := {| ter_eff_init := ter_eff_init (s_ter sm); ter_width := ter_width (s_ter sm); ter_gravity := g; ter_maxlen := ter_maxlen (s_ter sm);
                 ter_default_slope := sl; ter_spline := sp |};
     s_cryst := s_cryst sm; s_crust := s_crust sm; s_cover := s_cover sm; s_budget := s_budget sm; s_mass := s_mass sm |}.
(** The same set-up with other models of the melt viscosity, the effect of crystals
    and of bubbles on it, and the yield strength. *)
Definition with_rheology {T} (m : melt_model T) (r : rel_model T) (b : bubbles_model T) (y : yield_model T) (sm : sim T) : sim T :=
  {| s_dx := s_dx sm;
     s_lava := {| lv_melt := m; lv_rel := r; lv_bub := b; lv_yield := y; lv_ves := lv_ves (s_lava sm); lv_terupt := lv_terupt (s_lava sm);
                  lv_buffer := lv_buffer (s_lava sm); lv_latent := lv_latent (s_lava sm); lv_dre := lv_dre (s_lava sm); lv_maxpack := lv_maxpack (s_lava sm) |};
     s_air := s_air sm; s_ter := s_ter sm;
     s_cryst := s_cryst sm; s_crust := s_crust sm; s_cover := s_cover sm; s_budget := s_budget sm; s_mass := s_mass sm |}.

(** The pull of gravity along the ground, [g * sin slope], is nowhere weaker. *)
Definition pulls_harder (t t' : terrain R) (x0 : R) : Prop :=
  forall x a a', x0 <= x < ter_maxlen t -> get_channel_slope t x = Ok a -> get_channel_slope t' x = Ok a' ->
    ter_gravity t * sin a <= ter_gravity t' * sin a'.
(** Viscosity and yield strength are nowhere larger, for lava the run can meet with
    crystal fractions up to [phi1]. *)
Definition softer (g : region) (phi1 : R) (l l' : lava R) : Prop :=
  forall q, inside g q -> st_phi q <= phi1 ->
    (forall m m', computes_bulk_viscosity l q = Ok m -> computes_bulk_viscosity l' q = Ok m' -> m' <= m) /\
    (forall y y', get_yield_strength l q = Ok y -> get_yield_strength l' q = Ok y' -> y' <= y).

Lemma basal_harder (l l' : lava R) t t' h s1 s2 tb : slope_defined t' -> lv_ves l' = lv_ves l -> lv_dre l' = lv_dre l -> 0 < h ->
  (forall rho, get_bulk_density l s1 = Ok rho -> 0 < rho) ->
  (forall a a', get_channel_slope t (st_pos s1) = Ok a -> get_channel_slope t' (st_pos s1) = Ok a' -> ter_gravity t * sin a <= ter_gravity t' * sin a') ->
  slope_defined t -> st_pos s1 = st_pos s2 -> get_basal_shear_stress l t h s1 = Ok tb -> exists tb', get_basal_shear_stress l' t' h s2 = Ok tb' /\ tb <= tb'.
Proof.
  intros Sd' Ev Er Ph Pr Sl Sd Ex Eb.
  destruct (basal_inside l t h s1 Sd) as (rho & a & R1 & A1 & B1). rewrite Eb in B1. apply Ok_inj in B1. subst tb.
  destruct (basal_inside l' t' h s1 Sd') as (rho' & a' & R2 & A2 & B2).
  assert (rho' = rho) as ->.
  { unfold get_bulk_density, lava_vesicle_fraction in R1, R2. rewrite Ev, Er, R1 in R2. congruence. }
  eexists. split; [rewrite <- (basal_same l' t' h s1 s2 Ex); exact B2|].
  rewrite !Rmult_assoc. apply Rmult_le_compat_l; [lra|]. apply Rmult_le_compat_l; [apply Rlt_le, Pr, R1|]. apply Sl; assumption.
Qed.
Lemma density_positive (g : region) (l : lava R) (q : state R) : valid_lava g l -> 0 <= st_pos q -> forall rho, get_bulk_density l q = Ok rho -> 0 < rho.
Proof.
  intros (_ & _ & _ & Vv & Pdre & _) Hx rho H. unfold get_bulk_density, lava_vesicle_fraction in H.
  destruct (ves_inside _ q Vv Hx) as (vf & Evf & Bv & _). rewrite Evf in H. cbn [rbind] in H. rnum. apply Ok_inj in H. rewrite <- H. apply Rmult_lt_0_compat; lra.
Qed.

(** ** C88 *)
(** Two set-ups, the depth of the channel given ("effusion_rate_init" 0), that differ
    in the ground and in the rheology only. *)
Theorem C88_more_mobile_flows_further :
  forall (d : json R) profile mo (sm : sim R) (s : state R) depth m r b y g sl sp phi1 v0,
  let sme := with_rheology m r b y (with_ground g sl sp sm) in
  build_models d profile = Ok mo -> s_budget sm = mo_budget mo ->
  losing sm s depth -> smooth sm phi1 -> losing sme s depth -> smooth sme phi1 ->
  thins_with_heat (lv_melt (s_lava sm)) -> 0 < v0 -> Forall (tame sm) (s_budget sm) ->
  ter_eff_init (s_ter sm) = 0 -> moves_at_vent sm s depth ->
  pulls_harder (s_ter sm) (s_ter sme) (st_pos s) -> softer (region_of sm s) phi1 (s_lava sm) (s_lava sme) ->
  exists h0, 0 < h0 /\ forall h n fuel fuel' w w', 0 < h <= h0 ->
    simulate fuel (with_step h sm) (initial_world s [] depth) = Some (Ok tt, w) ->
    simulate fuel' (with_step h sme) (initial_world s [] depth) = Some (Ok tt, w') ->
    (n < w_iter w)%nat -> flows_freely v0 phi1 (w_log w) n ->
    (n < w_iter w')%nat /\
    forall i, (i <= n)%nat -> exists r r', nth_error (w_log w) i = Some r /\ nth_error (w_log w') i = Some r' /\
      at_least_as_mobile r r'.
Proof.
  intros d profile mo sm s depth mm rr bb yy gg sl00 sp phi1 v0 sme Hb Es K S K' S' Thin Hv0 Tame Ez Mov Pull Soft.
  assert (V := co_admissible _ _ _ K). assert (V' := co_admissible _ _ _ K').
  assert (Sf := smooth_strain_free _ _ S).
  assert (Nm : s_mass sm = false).
  { assert (Q := va_mass _ _ _ V). destruct (s_mass sm); [destruct (Q eq_refl Ez)|reflexivity]. }
  destruct (gradients_full sm s depth phi1 v0 V S Hv0) as (D1 & su1 & vel1 & G1 & rate & (_ & Prate & DG1 & X1) & HG1).
  destruct (HG1 d profile mo (s_air sm) (s_budget sm) (lv_latent (s_lava sm)) Hb Es) as ((L1 & B1 & HL1 & HB1 & HF1) & W1 & U1);
    [rewrite with_losses_same; exact K|]. rewrite with_losses_same in U1. clear HG1.
  destruct (gradients_full sme s depth phi1 v0 V' S' Hv0) as (D2 & su2 & vel2 & G2 & rate2 & (_ & _ & DG2 & X2) & HG2).
  destruct (HG2 d profile mo (s_air sme) (s_budget sme) (lv_latent (s_lava sme)) Hb Es) as (_ & W2 & U2);
    [rewrite with_losses_same; exact K'|].
  rewrite with_losses_same in U2. clear HG2.
  destruct X1 as (w01 & c1 & gm1 & E01 & Pc1 & Er1 & _ & X1). destruct X2 as (w02 & c2 & gm2 & E02 & Pc2 & Er2 & _ & X2).
  assert (E01' := E01). rewrite (C19_no_search_without_target sm _ Ez) in E01'. apply (f_equal snd) in E01'. cbn [snd] in E01'.
  assert (E02' := E02). rewrite (C19_no_search_without_target sme _ Ez) in E02'. apply (f_equal snd) in E02'. cbn [snd] in E02'.
  assert (H1 : w_depth w01 = depth) by (rewrite <- E01'; reflexivity).
  assert (H2 : w_depth w02 = depth) by (rewrite <- E02'; reflexivity).
  assert (Es1 : w_st w01 = s) by (rewrite <- E01'; reflexivity).
  assert (Es2 : w_st w02 = s) by (rewrite <- E02'; reflexivity). clear E01' E02'.
  change (s_air sme) with (s_air sm) in *. change (s_budget sme) with (s_budget sm) in *. change (lv_latent (s_lava sme)) with (lv_latent (s_lava sm)) in *.
  change (lv_dre (s_lava sme)) with (lv_dre (s_lava sm)) in *. change (lv_buffer (s_lava sme)) with (lv_buffer (s_lava sm)) in *.
  change (s_cryst sme) with (s_cryst sm) in *. change (s_cover sme) with (s_cover sm) in *. change (s_crust sme) with (s_crust sm) in *.
  change (s_mass sme) with (s_mass sm) in *. change (region_of sme s) with (region_of sm s) in *. rewrite Nm in *.
  destruct (sm_cryst _ _ S) as (cr1 & grown & ts & te & Ecr). destruct (sm_cover _ _ S) as (al & fc & Ecv).
  assert (rate2 = rate) as -> by (rewrite (Er1 _ _ _ _ Ecr), (Er2 _ _ _ _ Ecr); reflexivity).
  assert (Vcv := va_cover _ _ _ V). rewrite Ecv in Vcv. cbn [valid_cover] in Vcv.
  assert (Pd1 := va_depth _ _ _ V). assert (X0 := proj1 (va_pos _ _ _ V)).
  assert (Plat : 0 < lv_latent (s_lava sm)) by apply (va_lava _ _ _ V). assert (Pdre : 0 < lv_dre (s_lava sm)) by apply (va_lava _ _ _ V).
  destruct Mov as (t0v & tbv & Ety & Etb & Hmov).
  assert (Harder : forall s1 s2 tb, st_pos s <= st_pos s1 < ter_maxlen (s_ter sm) -> st_pos s1 = st_pos s2 ->
    get_basal_shear_stress (s_lava sm) (s_ter sm) depth s1 = Ok tb ->
    exists tb', get_basal_shear_stress (s_lava sme) (s_ter sme) depth s2 = Ok tb' /\ tb <= tb').
  { intros s1 s2 tb Hx Ex Eb. apply (basal_harder (s_lava sm) (s_lava sme) (s_ter sm) (s_ter sme) depth s1 s2 tb); auto; try reflexivity.
    - exact (va_slope _ _ _ V').
    - apply (density_positive (region_of sm s)); [exact (va_lava _ _ _ V)|lra].
    - intros a a'. apply Pull. exact Hx.
    - exact (va_slope _ _ _ V). }
  set (F1 := fun p => - (heat_loss (s_air sm) (s_budget sm) (su1 p) / (lv_latent (s_lava sm) * G1 p))) in *.
  set (F2 := fun p => - (heat_loss (s_air sm) (s_budget sm) (su2 p) / (lv_latent (s_lava sm) * G2 p))) in *.
  (* at one point the second lava is faster and cools less per metre *)
  assert (Here : forall p t0 tb, box (region_of sm s) phi1 p -> D1 p ->
    get_yield_strength (s_lava sm) (state_at p) = Ok t0 -> get_basal_shear_stress (s_lava sm) (s_ter sm) depth (state_at p) = Ok tb -> 0 <= t0 < tb ->
    vel1 p <= vel2 p /\ (D2 p -> F1 p <= F2 p)).
  { intros p t0 tb Bp Dp Ey Eb Ht.
    destruct (X1 p Bp) as (t01 & tb1 & A1 & A2 & A3 & A4 & A5 & A6 & A7 & A8 & A9 & A10 & A11 & A12 & A13 & A14).
    destruct (X2 p Bp) as (t02 & tb2 & Z1 & Z2 & Z3 & Z4 & Z5 & Z6 & Z7 & Z8 & Z9 & Z10 & Z11 & Z12 & Z13 & Z14).
    cbv zeta in *. rewrite H1 in *. rewrite H2 in *.
    assert (Hxp : st_pos s <= px p < ter_maxlen (s_ter sm)) by (destruct Bp as [(Q & _) _]; exact Q).
    destruct (Harder (state_at p) (state_at p) tb Hxp eq_refl Eb) as (tb' & Eb' & Htb).
    assert (t01 = t0) as -> by congruence. assert (tb1 = tb) as -> by congruence.
    assert (tb2 = tb') as -> by congruence.
    destruct (Soft (state_at p) (proj1 Bp) (proj2 Bp)) as [Smu Sy].
    assert (Mu := Smu _ _ A2 Z2). assert (Hy := Sy _ _ A3 Z3).
    assert (Hy0 : 0 <= t02).
    { destruct (yield_inside (s_lava sme) (state_at p)) as (z & Ez' & Bz); [destruct Bp as [(_ & _ & Q) _]; assert (P0 := va_phi _ _ _ V); cbn in Q |- *; lra|]. rewrite Z3 in Ez'. injection Ez' as <-. exact Bz. }
    assert (Pm2 : 0 < su_mu (su2 p)).
    { destruct (viscosity_smooth (region_of sm s) phi1 X0 (va_phi _ _ _ V) (s_lava sme) (va_lava _ _ _ V') (sm_melt _ _ S') (sm_rel _ _ S') (sm_bub _ _ S')) as (mu & Pmu & Emu).
      assert (Q := returns_at _ _ _ _ Emu Bp). rewrite Z2 in Q. apply Ok_inj in Q. rewrite Q. destruct Pmu as [_ (cm & Pcm & Bmu)]. specialize (Bmu _ Bp). lra. }
    assert (Vf : su_vf (su2 p) = su_vf (su1 p)) by (apply Ok_inj; rewrite <- A1; symmetry; exact Z1).
    assert (Tc : su_crust (su2 p) = su_crust (su1 p)) by (apply Ok_inj; rewrite <- A5; symmetry; exact Z5).
    specialize (A12 _ _ Ecv). specialize (Z12 _ _ Ecv).
    assert (Wp := W1 p Dp). assert (Pm : 0 < su_mu (su1 p)) by apply Wp.
    assert (Vel : vel1 p <= vel2 p) by (rewrite A11, Z11; apply jb_monotone; lra).
    split; [exact Vel|]. intros Dp2. assert (Wp2 := W2 p Dp2).
    assert (Sp : sped_up al fc (su1 p) (su2 p)).
    { constructor; try congruence; lra. }
    assert (Sfm : surface_of_models sm (su1 p)).
    { split; [rewrite A8; exact A9|]. intros tc Etc. apply Ok_inj. rewrite <- A5, Etc. reflexivity. }
    destruct (tame_loss sm al fc (su1 p) (su2 p) (co_air _ _ _ K) ltac:(apply Vcv) ltac:(lra) Wp Wp2 Sp Sfm _ (co_losses _ _ _ K) Tame) as [Y1 Y2].
    rewrite A10, Z10 in Y2. assert (Pv : 0 < vel1 p) by (destruct (DG1 p Dp); lra).
    unfold F1, F2. apply Ropp_le_contravar. rewrite A14, Z14, Vf.
    set (rho := lv_dre (s_lava sm) * (1 - su_vf (su1 p))). assert (Pr : 0 < rho) by (apply Rmult_lt_0_compat; [exact Pdre|assert (Q := ws_vf _ _ _ Wp); lra]).
    clearbody rho.
    replace (lv_latent (s_lava sm) * (vel2 p * depth * rho * rate)) with (lv_latent (s_lava sm) * rho * rate * (vel2 p * depth)) by ring.
    replace (lv_latent (s_lava sm) * (vel1 p * depth * rho * rate)) with (lv_latent (s_lava sm) * rho * rate * (vel1 p * depth)) by ring.
    apply per_unit; [lra|lra|repeat apply Rmult_lt_0_compat; assumption|exact Y1|exact Y2]. }
  exists (/ (L1 * (1 + rate) + 1)). assert (PL1 : 0 <= L1 * (1 + rate)) by (apply Rmult_le_pos; lra).
  split; [apply Rinv_0_lt_compat; lra|].
  intros h n fuel fuel' w w' [Hh Hh0] H H' Hn Free.
  assert (Hhl : h * (L1 * (1 + rate)) <= 1).
  { assert (Q : h * (L1 * (1 + rate) + 1) <= 1); [|nra].
    apply Rmult_le_reg_r with (/ (L1 * (1 + rate) + 1)); [apply Rinv_0_lt_compat; lra|]. rewrite Rmult_assoc, Rinv_r, Rmult_1_r, Rmult_1_l by lra. exact Hh0. }
  set (sm1 := with_step h sm) in *. set (sm2 := with_step h sme) in *.
  assert (K1 : losing sm1 s depth) by now apply losing_step.
  assert (K2 : losing sm2 s depth) by (apply losing_step; [exact K'|exact Hh]).
  assert (V1 := co_admissible _ _ _ K1). assert (V2 := co_admissible _ _ _ K2).
  assert (Q1 : s_dx sm1 <> 0) by (change (h <> 0); lra). assert (Q2 : s_dx sm2 <> 0) by (change (h <> 0); lra).
  assert (S1 := run_sequences sm1 _ _ _ w Q1 H). assert (S2 := run_sequences sm2 _ _ _ w' Q2 H'). cbv zeta in S1, S2.
  change (s_dx sm1) with h in *. change (s_dx sm2) with h in *. 
  set (r1 k := nth k (w_log w) []) in *. set (r2 k := nth k (w_log w') []) in *.
  set (T1 k := value (r1 k) "core_temperature") in *. set (T2 k := value (r2 k) "core_temperature") in *.
  set (C1 k := value (r1 k) "crystal_fraction") in *. set (C2 k := value (r2 k) "crystal_fraction") in *.
  set (inv := fun i => (i < w_iter w')%nat /\ T1 i <= T2 i /\ C1 i = st_phi s + rate * (st_temp s - T1 i) /\ C2 i = st_phi s + rate * (st_temp s - T2 i)).
  assert (Init1 : forall w0, init_effusion_rate sm1 (initial_world s [] depth) = (Ok tt, w0) -> w0 = w01).
  { intros w0 E0. unfold sm1 in E0. rewrite init_step, E01 in E0. congruence. }
  assert (Init2 : forall w0, init_effusion_rate sm2 (initial_world s [] depth) = (Ok tt, w0) -> w0 = w02).
  { intros w0 E0. unfold sm2 in E0. rewrite init_step, E02 in E0. congruence. }
  assert (run_vel : forall i, (i < w_iter w)%nat -> exists v, holds (r1 i) "mean_velocity" v).
  { intros i Hi. destruct (S1 i Hi) as (N1 & _). fold (r1 i) in N1. destruct (row_world sm1 s depth V1 fuel w i _ H Hi N1) as
      (w0 & wi & wj & v & rho & wd & slx & hb & ra & dT & dt & _ & _ & _ & _ & _ & _ & _ & _ & _ & _ & _ & _ & _ & _ & _ & Ev & _). exists v. exact Ev. }
  (* one place of the two tables *)
  assert (Place : forall i, (i <= n)%nat -> inv i -> exists v1 v2,
    holds (r1 i) "mean_velocity" v1 /\ holds (r2 i) "mean_velocity" v2 /\ v1 <= v2 /\
    let p1 := {| px := st_pos s + INR i * h; pt := T1 i; pp := C1 i |} in
    let p2 := {| px := st_pos s + INR i * h; pt := T2 i; pp := C2 i |} in
    D1 p1 /\ D1 p2 /\ F1 p2 <= F2 p2 /\ value (r1 i) "dtemp_dx" = F1 p1 /\ value (r1 i) "dphi_dx" = - rate * F1 p1 /\
    value (r2 i) "dtemp_dx" = F2 p2 /\ value (r2 i) "dphi_dx" = - rate * F2 p2).
  { intros i Hi (I1 & I2 & I3 & I4). assert (Hi1 : (i < w_iter w)%nat) by lia.
    destruct (S1 i Hi1) as (N1 & R1 & _). destruct (S2 i I1) as (N2 & R2 & _). fold (r1 i) (T1 i) (C1 i) in N1, R1. fold (r2 i) (T2 i) (C2 i) in N2, R2.
    destruct (row_world sm1 s depth V1 fuel w i _ H Hi1 N1) as
      (w0 & wi & wj & v & rho & wd & sl & hb & ra & dT & dt & E0 & J0 & S0 & RL & St & _ & _ & C & Sw & _ & Ii & Ed & Ex & Et & Ep & Ev & _).
    destruct (row_world sm2 s depth V2 fuel' w' i _ H' I1 N2) as
      (w0' & wi' & wj' & v' & rho' & wd' & sl' & hb' & ra' & dT' & dt' & E0' & _ & _ & _ & St' & _ & _ & C' & Sw' & _ & Ii' & Ed' & Ex' & Et' & Ep' & Ev' & _).
    apply Init1 in E0. apply Init2 in E0'. subst w0 w0'. rewrite H1 in Ed. rewrite H2 in Ed'.
    change (s_dx sm1) with h in Ex. change (s_dx sm2) with h in Ex'. 
    assert (R1' := R1). assert (R2' := R2). destruct R1' as (A1 & A2 & A3 & A4 & A5). destruct R2' as (A1' & A2' & A3' & A4' & A5').
    assert (Y1 : st_temp (w_st wi) = T1 i) by exact (holds_fun _ _ _ _ Et A2). assert (Y2 : st_temp (w_st wi') = T2 i) by exact (holds_fun _ _ _ _ Et' A2').
    assert (Y3 : st_phi (w_st wi) = C1 i) by exact (holds_fun _ _ _ _ Ep A3). assert (Y4 : st_phi (w_st wi') = C2 i) by exact (holds_fun _ _ _ _ Ep' A3').
    destruct (Free i (r1 i) v (C1 i) Hi N1 Ev A3) as [Fv Fp].
    assert (Hcr : C2 i <= C1 i) by (rewrite I3, I4; assert (rate * T1 i <= rate * T2 i) by (apply Rmult_le_compat_l; lra); lra).
    cbv zeta. set (p1 := {| px := st_pos s + INR i * h; pt := T1 i; pp := C1 i |}). set (p2 := {| px := st_pos s + INR i * h; pt := T2 i; pp := C2 i |}).
    assert (Ap1 : at_ (w_st wi) = p1) by (unfold at_, p1; rewrite Ex, Y1, Y3; reflexivity).
    assert (Ap2 : at_ (w_st wi') = p2) by (unfold at_, p2; rewrite Ex', Y2, Y4; reflexivity).
    assert (In1 : inside (region_of sm s) (w_st wi)) by exact (sound_inside _ _ _ V1 _ (so_nearly _ _ _ Sw)).
    assert (In2 : inside (region_of sm s) (w_st wi')) by exact (sound_inside _ _ _ V2 _ (so_nearly _ _ _ Sw')).
    assert (Bp1 : box (region_of sm s) phi1 (at_ (w_st wi))) by (split; [exact In1|cbn; lra]).
    assert (Bp2 : box (region_of sm s) phi1 (at_ (w_st wi'))) by (split; [exact In2|cbn; lra]).
    destruct (same_values sm s depth phi1 _ V S Bp1) as [Sv1 Sy1]. destruct (same_values sme s depth phi1 _ V' S' Bp2) as [Sv2 Sy2].
    rewrite Ap1 in Bp1, Sv1, Sy1. rewrite Ap2 in Bp2, Sv2, Sy2.
    assert (Pr1 : holds (r1 i) "mean_velocity" v) by exact Ev.
    destruct (U1 h fuel w Hh H i (r1 i) _ _ _ _ _ v Hi1 N1 R1 Ev) as [_ U1i]. destruct (U1i Fv Fp) as (Dp1 & U11 & U12 & Evel1).
    fold p1 in Dp1, U11, U12, Evel1.
    destruct (hotter_flows_better sm s depth phi1 V S Thin (state_at p1) (state_at p2)) as (m1 & m2 & y1 & y2 & Z1 & Z2 & Z3 & Z4 & Z5 & Z6);
      [exact (proj1 Bp1)|exact (proj1 Bp2)|exact Fp|reflexivity|exact I2|exact Hcr|].
    (* the first lava moves here *)
    assert (Mv1 : exists tb, get_basal_shear_stress (s_lava sm) (s_ter sm) depth (state_at p1) = Ok tb /\ y1 < tb).
    { rewrite Z4 in Sy1. destruct (basal_inside (s_lava sm) (s_ter sm) depth (w_st wi) (va_slope _ _ _ V)) as (rh & sx & _ & _ & Eb).
      set (tb := depth * rh * ter_gravity (s_ter sm) * sin sx) in Eb. exists tb.
      split. { rewrite <- Eb. apply basal_same. cbn. lra. }
      destruct (so_stage _ _ _ (so_nearly _ _ _ Sw)) as [(_ & _ & _ & Zi)|(_ & _ & Hy & _)].
      - assert (i = 0%nat) as -> by lia. injection St as <-. rewrite Es1 in Sy1, Eb.
        assert (y1 = t0v) by (apply Ok_inj; rewrite <- Ety; symmetry; exact Sy1). assert (tb = tbv) by (apply Ok_inj; rewrite <- Etb; symmetry; exact Eb). lra.
      - rewrite Ed in Hy. destruct (C32_stop_criterion _ _ _ _ _ _ Sy1 Eb) as [_ [Z7 _]]. exact (Z7 Hy). }
    destruct Mv1 as (tb & Eb1 & Hy1).
    assert (Eb2 : get_basal_shear_stress (s_lava sm) (s_ter sm) depth (state_at p2) = Ok tb) by (rewrite <- Eb1; apply basal_same; reflexivity).
    (* the point of the second run, in the channel of the first *)
    assert (Dp2 : D1 p2 /\ vel1 p1 <= vel1 p2).
    { destruct (X1 p1 Bp1) as (t01 & tb1 & _ & B2 & B3 & B4 & _ & _ & _ & _ & _ & _ & B11 & _ & B13 & _).
      destruct (X1 p2 Bp2) as (t02 & tb2 & _ & G2' & G3 & G4 & _ & _ & _ & _ & _ & _ & G11 & _ & G13 & _).
      cbv zeta in *. rewrite H1 in *.
      assert (t01 = y1) as -> by congruence. assert (t02 = y2) as -> by congruence. assert (tb1 = tb) as -> by congruence. assert (tb2 = tb) as -> by congruence.
      assert (Q : vel1 p1 <= vel1 p2).
      { rewrite B11, G11. rewrite Z1 in B2. rewrite Z2 in G2'. injection B2 as <-. injection G2' as <-. apply jb_monotone; lra. }
      split; [|exact Q]. apply G13. apply B13 in Dp1. lra. }
    destruct Dp2 as [Dp2 Vel12].
    destruct (Here p2 y2 tb Bp2 Dp2 Z5 Eb2 ltac:(lra)) as [Vel Fle].
    assert (Evel2 : v' = vel2 p2).
    { destruct (cs_budget _ _ _ _ _ _ _ _ _ _ _ C') as (new' & w2' & Mv' & _).
      change (mean_velocity (s_lava sme) (s_ter sme) (w_depth wi') (w_st wi') = Ok (v', new')) in Mv'. rewrite Ed' in Mv'.
      apply C20_velocity_only_if in Mv' as (mu & t0 & tb' & Q3 & Q4 & Q5 & _ & _ & _ & -> & _).
      destruct (X2 p2 Bp2) as (t02 & tb2 & _ & G2' & G3 & G4 & _ & _ & _ & _ & _ & _ & G11 & _).
      cbv zeta in *. rewrite H2 in *. rewrite Sv2, G2' in Q3. rewrite Sy2, G3 in Q4.
      assert (G5 : get_basal_shear_stress (s_lava sme) (s_ter sme) depth (w_st wi') = Ok tb2) by (rewrite <- G4; apply basal_same; exact Ex').
      rewrite G5 in Q5. rewrite G11. injection Q3 as <-. injection Q4 as <-. injection Q5 as <-. reflexivity. }
    exists v, v'. split; [exact Ev|]. split; [exact Ev'|]. split; [lra|].
    destruct (U2 h fuel' w' Hh H' i (r2 i) _ _ _ _ _ v' I1 N2 R2 Ev') as [_ U2i]. destruct (U2i ltac:(lra) ltac:(lra)) as (Dq2 & U21 & U22 & _).
    fold p2 in Dq2, U21, U22. split; [exact Dp1|]. split; [exact Dp2|]. split; [exact (Fle Dq2)|]. auto. }
  (* the next place *)
  assert (Step : forall i, (Datatypes.S i <= n)%nat -> inv i -> inv (Datatypes.S i)).
  { intros i Hi I. destruct (Place i ltac:(lia) I) as (v1 & v2 & _ & _ & _ & Dp1 & Dp2 & F12 & E1 & E2 & E3 & E4).
    destruct I as (I1 & I2 & I3 & I4). assert (Hi1 : (i < w_iter w)%nat) by lia.
    set (p1 := {| px := st_pos s + INR i * h; pt := T1 i; pp := C1 i |}) in *. set (p2 := {| px := st_pos s + INR i * h; pt := T2 i; pp := C2 i |}) in *.
    destruct (S1 i Hi1) as (_ & _ & _ & Nx). destruct (Nx ltac:(lia)) as [Nx1 Nx2]. fold (r1 (Datatypes.S i)) (T1 (Datatypes.S i)) (C1 (Datatypes.S i)) in Nx1, Nx2.
    fold (T1 i) (C1 i) in Nx1, Nx2. rewrite E1 in Nx1. rewrite E2 in Nx2.
    destruct (S2 i I1) as (N2 & R2 & _ & Nx'). fold (r2 i) in N2.
    destruct (row_world sm2 s depth V2 fuel' w' i _ H' I1 N2) as
      (w0 & wi & wj & v & rho & wd & sl & hb & ra & dT & dt & E0 & J0 & S0 & RL & St & Stj & Sg & C & Sw & Fi & Ii & Ed & Ex & Et & Ep & Ev & EdT & Edp).
    apply Init2 in E0. subst w0. rewrite H2 in Ed. change (s_dx sm2) with h in Ex. 
    destruct R2 as (A1' & A2' & A3' & A4' & A5').
    assert (Y2 : st_temp (w_st wi) = T2 i) by exact (holds_fun _ _ _ _ Et A2'). assert (Y4 : st_phi (w_st wi) = C2 i) by exact (holds_fun _ _ _ _ Ep A3').
    assert (Z2 : dT = F2 p2) by (rewrite <- E3; exact (holds_fun _ _ _ _ EdT A4')).
    assert (Z3 : - ra * dT = - rate * F2 p2) by (rewrite <- E4; exact (holds_fun _ _ _ _ Edp A5')).
    set (t2 := T2 i + F2 p2 * h). set (cc2 := C2 i + - rate * F2 p2 * h).
    assert (Xj : st_temp (w_st wj) = t2).
    { rewrite (cs_temp _ _ _ _ _ _ _ _ _ _ _ C), Y2, Z2. reflexivity. }
    assert (Yj : st_phi (w_st wj) = cc2).
    { rewrite (cs_phi _ _ _ _ _ _ _ _ _ _ _ C), Y4. rnum. change (s_dx sm2) with h. unfold cc2. rewrite <- Z3. ring. }
    assert (Pj : st_pos (w_st wj) = st_pos s + INR (Datatypes.S i) * h).
    { rewrite (cs_pos _ _ _ _ _ _ _ _ _ _ _ C), Ex, S_INR. rnum. change (s_dx sm2) with h. ring. }
    assert (Ord : T1 (Datatypes.S i) <= t2).
    { rewrite Nx1. unfold t2. destruct (HF1 _ Dp1) as [_ Ql]. specialize (Ql _ Dp2). unfold dist, p1, p2 in Ql. cbn [px pt pp] in Ql.
      rewrite (Rminus_diag_eq (st_pos s + INR i * h)), Rabs_R0 in Ql by reflexivity.
      replace (C1 i - C2 i) with (rate * (T2 i - T1 i)) in Ql by (rewrite I3, I4; ring).
      rewrite Rabs_mult, (Rabs_right rate), (Rabs_right (T2 i - T1 i)), (Rabs_minus_sym (T1 i)), (Rabs_right (T2 i - T1 i)) in Ql by lra.
      fold p1 p2 in Ql. change (Rabs (F1 p1 - F1 p2) <= L1 * (0 + (T2 i - T1 i) + rate * (T2 i - T1 i))) in Ql. assert (Qa := Rle_abs (F1 p1 - F1 p2)).
      set (g := T2 i - T1 i) in *. assert (Pg : 0 <= g) by (unfold g; lra).
      assert (Qb : F1 p1 - F2 p2 <= L1 * (1 + rate) * g).
      { replace (L1 * (1 + rate) * g) with (L1 * (0 + g + rate * g)) by ring. lra. }
      assert (Qc : h * (F1 p1 - F2 p2) <= h * (L1 * (1 + rate)) * g) by (rewrite Rmult_assoc; apply Rmult_le_compat_l; lra).
      assert (Qd : h * (L1 * (1 + rate)) * g <= 1 * g) by (apply Rmult_le_compat_r; lra). unfold g in Qc, Qd. lra. }
    assert (Lin1 : C1 (Datatypes.S i) = st_phi s + rate * (st_temp s - T1 (Datatypes.S i))) by (rewrite Nx1, Nx2, I3; ring).
    assert (Lin2 : cc2 = st_phi s + rate * (st_temp s - t2)) by (unfold cc2, t2; rewrite I4; ring).
    assert (Cord : cc2 <= C1 (Datatypes.S i)).
    { rewrite Lin1, Lin2. assert (rate * T1 (Datatypes.S i) <= rate * t2) by (apply Rmult_le_compat_l; lra). lra. }
    assert (Nlt : (Datatypes.S i < w_iter w')%nat).
    { assert (Hi2 : (Datatypes.S i < w_iter w)%nat) by lia.
      destruct (S1 (Datatypes.S i) Hi2) as (M1 & MR & _). fold (r1 (Datatypes.S i)) in M1, MR.
      destruct (row_world sm1 s depth V1 fuel w (Datatypes.S i) _ H Hi2 M1) as
        (w0' & wk & wl & vk & rhok & wdk & slk & hbk & rak & dTk & dtk & E0' & _ & _ & _ & _ & _ & _ & _ & Sk & _ & Ik & Edk & Exk & Etk & Epk & Evk & _).
      apply Init1 in E0'. subst w0'. rewrite H1 in Edk. change (s_dx sm1) with h in Exk.
      destruct MR as (_ & M2 & M3 & _).
      assert (Xk : st_temp (w_st wk) = T1 (Datatypes.S i)) by exact (holds_fun _ _ _ _ Etk M2).
      assert (Yk : st_phi (w_st wk) = C1 (Datatypes.S i)) by exact (holds_fun _ _ _ _ Epk M3).
      destruct (Free (Datatypes.S i) _ vk (C1 (Datatypes.S i)) Hi M1 Evk M3) as [_ Fp].
      assert (Ink := sound_inside _ _ _ V1 _ (so_nearly _ _ _ Sk)). destruct Ink as (K1x & K1t & K1p).
      change (region_of sm1 s) with (region_of sm s) in *. cbn [region_of rg_x0 rg_x1 rg_ts rg_te rg_phi0 rg_cap] in K1x, K1t, K1p.
      assert (Inw := sound_inside _ _ _ V2 _ (so_nearly _ _ _ Sw)). destruct Inw as (K2x & K2t & K2p).
      change (region_of sm2 s) with (region_of sm s) in *. cbn [region_of rg_x0 rg_x1 rg_ts rg_te rg_phi0 rg_cap] in K2x, K2t, K2p.
      assert (Gr := cs_phi_grows _ _ _ _ _ _ _ _ _ _ _ C). rnum. apply R_leb_false in Gr. rewrite Yj, Y4 in Gr.
      assert (Tup : t2 <= st_temp s).
      { apply Rmult_le_reg_l with rate; [exact Prate|]. rewrite Y4 in K2p. lra. }
      assert (Inj : inside (region_of sm s) (w_st wj)).
      { unfold inside. cbn [region_of rg_x0 rg_x1 rg_ts rg_te rg_phi0 rg_cap]. rewrite Xj, Yj, Pj. rewrite Exk in K1x. rewrite Xk in K1t. rewrite Yk in K1p.
        rewrite Y4 in K2p. split; [exact K1x|]. split; lra. }
      assert (Ink : inside (region_of sm s) (w_st wk)).
      { unfold inside. cbn [region_of rg_x0 rg_x1 rg_ts rg_te rg_phi0 rg_cap]. auto. }
      destruct (hotter_flows_better sm s depth phi1 V S Thin (w_st wk) (w_st wj) Ink Inj) as (m1 & m2 & y1 & y2 & _ & _ & _ & Y6 & Y7 & Y8);
        [rewrite Yk; exact Fp|rewrite Exk, Pj; reflexivity|rewrite Xk, Xj; exact Ord|rewrite Yk, Yj; exact Cord|].
      destruct (basal_inside (s_lava sm) (s_ter sm) depth (w_st wk) (va_slope _ _ _ V)) as (rh & sx & _ & _ & Eb).
      set (tb := depth * rh * ter_gravity (s_ter sm) * sin sx) in Eb.
      assert (Edj : w_depth wj = depth) by (rewrite <- H2; exact (proj1 (C17_depth_and_flux_constant sm2 _ _ _ _ Stj))).
      assert (Hxk : st_pos s <= st_pos (w_st wk) < ter_maxlen (s_ter sm)) by exact K1x.
      destruct (Harder (w_st wk) (w_st wj) tb Hxk ltac:(rewrite Exk, Pj; reflexivity) Eb) as (tb' & Eb' & Tb). rewrite <- Edj in Eb'.
      destruct (Soft (w_st wj) Inj ltac:(rewrite Yj; lra)) as [_ Sy].
      destruct (yield_inside (s_lava sme) (w_st wj)) as (y2' & Y7' & Hy2); [destruct Inj as (_ & _ & Q); assert (P0 := va_phi _ _ _ V); cbn in Q |- *; lra|].
      assert (Y10 := Sy _ _ Y7 Y7').
      destruct (so_stage _ _ _ (so_nearly _ _ _ Sk)) as [(_ & _ & _ & Zz)|(_ & _ & Hy & _)]; [lia|].
      change (yield_strength_notcompatible (s_lava sm) (s_ter sm) (w_depth wk) (w_st wk) = Ok false) in Hy. rewrite Edk in Hy.
      destruct (C32_stop_criterion _ _ _ _ _ _ Y6 Eb) as [_ [Y9 _]]. specialize (Y9 Hy).
      destruct (below_is_compatible sme s depth phi1 V' S' (w_st wj)) as [Cm Np];
        [rewrite Pj; assert (0 <= INR (Datatypes.S i) * h) by (apply Rmult_le_pos; [apply pos_INR|lra]); lra|rewrite Yj; lra|].
      assert (Pass : passes sm2 wj).
      { split; [|split; [|split]].
        - apply R_leb_false. change (get_solid_temperature (s_cryst sm) < st_temp (w_st wj)). rewrite Xj. rewrite Xk in K1t. lra.
        - exact Cm.
        - apply (C32_stop_criterion (s_lava sme) (s_ter sme) (w_depth wj) (w_st wj) y2' tb' Y7' Eb'). lra.
        - apply R_leb_false. change (st_pos (w_st wj) < ter_maxlen (s_ter sm)). rewrite Pj. rewrite Exk in K1x. apply K1x. }
      assert (Fj : w_fin wj = false).
      { destruct (cs_fin _ _ _ _ _ _ _ _ _ _ _ C) as [[_ Nq]|[Fq _]]; [destruct (Nq Pass)|congruence]. }
      apply (goes_on sm2 s depth K2 fuel' w02 w' (Datatypes.S i) wj J0 RL Stj).
      - rewrite (cs_iter _ _ _ _ _ _ _ _ _ _ _ C), Ii. reflexivity.
      - right. exact I1.
      - exact Fj.
      - constructor; [exact (sound_next _ _ _ V2 _ _ Sw Sg Fj)|exact Np].
      - intros t Q3 Q4. change (get_yield_strength (s_lava sme) (w_st wj) = Ok t) in Q3.
        change (get_basal_shear_stress (s_lava sme) (s_ter sme) (w_depth wj) (w_st wj) = Ok t) in Q4.
        rewrite Y7' in Q3. rewrite Eb' in Q4. apply Ok_inj in Q3. apply Ok_inj in Q4. lra. }
    destruct (Nx' Nlt) as [Nx1' Nx2']. fold (r2 (Datatypes.S i)) (T2 (Datatypes.S i)) (C2 (Datatypes.S i)) in Nx1', Nx2'. fold (r2 i) (T2 i) (C2 i) in Nx1', Nx2'.
    rewrite E3 in Nx1'. rewrite E4 in Nx2'. fold t2 in Nx1'. fold cc2 in Nx2'.
    split; [exact Nlt|]. rewrite Nx1', Nx2'. auto. }
  assert (Inv0 : inv 0%nat).
  { assert (H0 : (0 < w_iter w)%nat) by lia. destruct (S1 0%nat H0) as (M1 & _ & Z1 & _). destruct (Z1 eq_refl) as [Z2 Z3]. fold (r1 0%nat) in M1, Z2, Z3.
    assert (H0' : (0 < w_iter w')%nat).
    { assert (E0' : init_effusion_rate sm2 (initial_world s [] depth) = (Ok tt, w02)) by (unfold sm2; rewrite init_step; exact E02).
      destruct (vent_init sm2 s depth V2 []) as (w0' & E0'' & S0' & _ & J0). rewrite E0' in E0''. injection E0'' as <-.
      assert (RL := H'). unfold simulate in RL. rewrite E0' in RL.
      apply (goes_on sm2 s depth K2 fuel' w02 w' 0%nat w02 J0 RL eq_refl J0 (or_introl eq_refl)); [exact (init_keeps_fin _ _ _ _ E0')|exact S0'|].
      intros t Y1 Y2. change (get_yield_strength (s_lava sme) (w_st w02) = Ok t) in Y1.
      change (get_basal_shear_stress (s_lava sme) (s_ter sme) (w_depth w02) (w_st w02) = Ok t) in Y2. rewrite H2, Es2 in Y2. rewrite Es2 in Y1.
      assert (Hxs := va_pos _ _ _ V).
      destruct (Harder s s tbv ltac:(lra) eq_refl Etb) as (tb' & Eb' & Tb). rewrite Y2 in Eb'. apply Ok_inj in Eb'.
      assert (Ins : inside (region_of sm s) s).
      { assert (Q := sound_inside _ _ _ V2 _ (so_nearly _ _ _ S0')). rewrite Es2 in Q. exact Q. }
      destruct (run_vel 0%nat H0) as (v & Ev). destruct (S1 0%nat H0) as (_ & (_ & _ & A3 & _) & _). fold (r1 0%nat) in A3.
      destruct (Free 0%nat (r1 0%nat) v _ ltac:(lia) M1 Ev A3) as [_ Fp]. rewrite Z3 in Fp.
      destruct (Soft s Ins Fp) as [_ Sy]. assert (Q := Sy _ _ Ety Y1). lra. }
    destruct (S2 0%nat H0') as (_ & _ & Z1' & _). destruct (Z1' eq_refl) as [Z2' Z3']. fold (r2 0%nat) in Z2', Z3'.
    unfold inv, T1, T2, C1, C2. rewrite Z2, Z3, Z2', Z3'. split; [exact H0'|]. split; [lra|]. split; ring. }
  assert (Inv : forall i, (i <= n)%nat -> inv i).
  { induction i as [|i IH]; intros Hi; [exact Inv0|]. apply Step; [exact Hi|]. apply IH. lia. }
  split; [apply (Inv n (le_n _))|]. intros i Hi. assert (I := Inv i Hi).
  destruct (Place i Hi I) as (v1 & v2 & P3 & P4 & P5 & _). destruct I as (I1 & I2 & I3 & I4).
  destruct (S1 i ltac:(lia)) as (N1 & (A1 & A2 & A3 & _) & _). destruct (S2 i I1) as (N2 & (A1' & A2' & A3' & _) & _).
  exists (r1 i), (r2 i). split; [exact N1|]. split; [exact N2|].
  exists (st_pos s + INR i * h), (T1 i), (C1 i), v1, (T2 i), (C2 i), v2. do 8 (split; [assumption|]). split; [exact I2|]. split; [|exact P5].
  rewrite I3, I4. assert (rate * T1 i <= rate * T2 i) by (apply Rmult_le_compat_l; lra). lra.
Qed.


(** ** Steeper ground *)
Lemma losing_ground (sm : sim R) s depth g sl sp : losing sm s depth -> 0 < g -> slope_defined (s_ter (with_ground g sl sp sm)) ->
  pulls_harder (s_ter sm) (s_ter (with_ground g sl sp sm)) (st_pos s) -> losing (with_ground g sl sp sm) s depth.
Proof.
  intros [V A1 A2 A3 A4 A5 A6 A7] Hg Hs Hp. constructor; try assumption.
  assert (Hx := va_pos _ _ _ V). assert (G0 := va_gravity _ _ _ V).
  destruct (slope_inside (s_ter sm) (st_pos s) (va_slope _ _ _ V)) as (a & Ea). assert (Pa := va_downhill _ _ _ V a Ea).
  assert (Down : forall a', get_channel_slope (s_ter (with_ground g sl sp sm)) (st_pos s) = Ok a' -> 0 < sin a').
  { intros a' Ea'. assert (Q := Hp (st_pos s) a a' ltac:(lra) Ea Ea'). cbn [with_ground s_ter ter_gravity] in Q.
    assert (0 < ter_gravity (s_ter sm) * sin a) by (apply Rmult_lt_0_compat; assumption).
    destruct (Rle_or_lt (sin a') 0) as [Hn|]; [|assumption]. assert (g * sin a' <= g * 0) by (apply Rmult_le_compat_l; lra). lra. }
  destruct V. constructor; assumption.
Qed.
Lemma smooth_ground (sm : sim R) g sl sp phi1 : smooth sm phi1 -> smooth (with_ground g sl sp sm) phi1.
Proof. intros []. constructor; assumption. Qed.
Lemma with_rheology_same (sm : sim R) : with_rheology (lv_melt (s_lava sm)) (lv_rel (s_lava sm)) (lv_bub (s_lava sm)) (lv_yield (s_lava sm)) sm = sm.
Proof. destruct sm as [? [] ? ? ? ? ? ? ?]. reflexivity. Qed.
Lemma with_ground_same (sm : sim R) : with_ground (ter_gravity (s_ter sm)) (ter_default_slope (s_ter sm)) (ter_spline (s_ter sm)) sm = sm.
Proof. destruct sm as [? ? ? [] ? ? ? ? ?]. reflexivity. Qed.
Lemma softer_same g phi1 (l : lava R) : softer g phi1 l l.
Proof. intros q _ _. split; intros a b E1 E2; rewrite E1 in E2; injection E2 as <-; lra. Qed.

(** The same lava where gravity pulls it at least as hard along the ground at every
    place: for all small enough steps its table has every row of the other's (while
    the lava of that one flows at [v0] or more below the packing limit), with lava
    at least as hot, as poor in crystals and as fast. *)
Theorem C88_steeper_ground_flows_further :
  forall (d : json R) profile mo (sm : sim R) (s : state R) depth g sl sp phi1 v0,
  let sme := with_ground g sl sp sm in
  build_models d profile = Ok mo -> s_budget sm = mo_budget mo ->
  losing sm s depth -> smooth sm phi1 ->
  thins_with_heat (lv_melt (s_lava sm)) -> 0 < v0 -> Forall (tame sm) (s_budget sm) ->
  ter_eff_init (s_ter sm) = 0 -> moves_at_vent sm s depth ->
  0 < g -> slope_defined (s_ter sme) -> pulls_harder (s_ter sm) (s_ter sme) (st_pos s) ->
  exists h0, 0 < h0 /\ forall h n fuel fuel' w w', 0 < h <= h0 ->
    simulate fuel (with_step h sm) (initial_world s [] depth) = Some (Ok tt, w) ->
    simulate fuel' (with_step h sme) (initial_world s [] depth) = Some (Ok tt, w') ->
    (n < w_iter w)%nat -> flows_freely v0 phi1 (w_log w) n ->
    (n < w_iter w')%nat /\
    forall i, (i <= n)%nat -> exists r r', nth_error (w_log w) i = Some r /\ nth_error (w_log w') i = Some r' /\
      at_least_as_mobile r r'.
Proof.
  intros d profile mo sm s depth g sl sp phi1 v0 sme Hb Es K S Thin Hv0 Tame Ez Mov Hg Hs Pull.
  assert (Same := with_rheology_same sme).
  destruct (C88_more_mobile_flows_further d profile mo sm s depth (lv_melt (s_lava sme)) (lv_rel (s_lava sme)) (lv_bub (s_lava sme)) (lv_yield (s_lava sme))
    g sl sp phi1 v0 Hb Es K S) as (h0 & Hh0 & G); auto; fold sme.
  - rewrite Same. now apply losing_ground.
  - rewrite Same. now apply smooth_ground.
  - rewrite Same. apply softer_same.
  - fold sme in G. rewrite Same in G. exists h0. auto.
Qed.

(** *** Slope profiles *)
(** The same distances, and at each of them a slope at least as steep. *)
Definition steeper_profile (pts pts' : list (R * R)) : Prop := Forall2 (fun p p' => fst p' = fst p /\ snd p <= snd p') pts pts'.
(** The profile covers the channel from the vent to its end with slopes between the
    horizontal and the vertical. *)
Definition covers (pts : list (R * R)) (x0 x1 : R) : Prop :=
  exists first last, hd_error pts = Some first /\ (exists l, pts = l ++ [last]) /\ fst first <= x0 /\ x1 <= fst last /\
  Forall (fun p => 0 <= snd p <= PI / 2) pts.

Lemma steeper_between pts pts' : steeper_profile pts pts' -> increasing pts ->
  forall before p q after x, pts = before ++ p :: q :: after -> fst p <= x < fst q ->
  exists y y', spline_eval pts x = Ok y /\ spline_eval pts' x = Ok y' /\ y <= y'.
Proof.
  intros F I before p q after x E Hx.
  assert (I' : increasing pts').
  { clear E. unfold increasing in *. revert pts' F. induction I as [|a l HS IH HF]; intros pts' F; inversion F as [|? a' ? l' [Fa _] Fl]; subst; [constructor|].
    constructor; [now apply IH|]. clear - HF Fa Fl. revert HF. induction Fl as [|b b' l l' [Fb _] Fl IH]; intros HF; [constructor|].
    inversion HF; subst. constructor; [rewrite Fa, Fb; assumption|now apply IH]. }
  assert (E' : exists before' p' q' after', pts' = before' ++ p' :: q' :: after' /\ fst p' = fst p /\ snd p <= snd p' /\ fst q' = fst q /\ snd q <= snd q').
  { subst pts. apply Forall2_app_inv_l in F as (b' & r & _ & F & ->). inversion F as [|? p' ? r' [P1 P2] F2]; subst. inversion F2 as [|? q' ? r2 [Q1 Q2] F3]; subst.
    exists b', p', q', r2. auto. }
  destruct E' as (b' & p' & q' & a' & E' & P1 & P2 & Q1 & Q2).
  exists (line_through p q x), (line_through p' q' x).
  split; [eapply C48_between_neighbours; eauto|]. split; [eapply C48_between_neighbours; eauto; lra|].
  unfold line_through. rewrite P1, Q1. set (t := (x - fst p) / (fst q - fst p)).
  assert (T0 : 0 <= t) by (unfold t; apply Rmult_le_pos; [lra|apply Rlt_le, Rinv_0_lt_compat; lra]).
  assert (T1 : t <= 1).
  { unfold t. apply Rmult_le_reg_r with (fst q - fst p); [lra|]. unfold Rdiv. rewrite Rmult_assoc, Rinv_l by lra. lra. }
  replace (snd p + (snd q - snd p) * t) with (snd p * (1 - t) + snd q * t) by ring.
  replace (snd p' + (snd q' - snd p') * t) with (snd p' * (1 - t) + snd q' * t) by ring.
  apply Rplus_le_compat; apply Rmult_le_compat_r; lra.
Qed.
Lemma steeper_made pts pts' xs ys : steeper_profile pts pts' -> make_spline xs ys = Ok pts -> exists ys', make_spline xs ys' = Ok pts'.
Proof.
  intros F H. unfold make_spline in *. destruct (length xs <? 2)%nat; [discriminate|].
  destruct (Nat.eqb (length xs) (length ys)) eqn:L; cbn [negb] in H; [|discriminate]. apply Nat.eqb_eq in L.
  destruct (strictly_increasing xs); [|discriminate]. injection H as <-.
  exists (map snd pts').
  assert (Q : length xs = length (map snd pts') /\ combine xs (map snd pts') = pts').
  { clear - F L. revert ys pts' F L. induction xs as [|a xs IH]; intros ys pts' F L; cbn [combine] in F.
    - inversion F; subst. auto.
    - destruct ys as [|b ys]; [discriminate|]. inversion F as [|? [a' b'] ? l' [Fa _] Fl]; subst. cbn [fst snd map length combine] in *. subst a'.
      destruct (IH ys l' Fl ltac:(lia)) as [Q1 Q2]. split; [lia|]. now rewrite Q2. }
  destruct Q as [Q1 Q2]. rewrite <- Q1, Nat.eqb_refl. cbn [negb]. now rewrite Q2.
Qed.
Theorem C88_steeper_profile_flows_further :
  forall (d : json R) profile mo (sm : sim R) (s : state R) depth pts pts' phi1 v0,
  let sme := with_ground (ter_gravity (s_ter sm)) (ter_default_slope (s_ter sm)) (Some pts') sm in
  build_models d profile = Ok mo -> s_budget sm = mo_budget mo ->
  losing sm s depth -> smooth sm phi1 ->
  thins_with_heat (lv_melt (s_lava sm)) -> 0 < v0 -> Forall (tame sm) (s_budget sm) ->
  ter_eff_init (s_ter sm) = 0 -> moves_at_vent sm s depth ->
  ter_spline (s_ter sm) = Some pts -> steeper_profile pts pts' -> covers pts (st_pos s) (ter_maxlen (s_ter sm)) -> covers pts' (st_pos s) (ter_maxlen (s_ter sm)) ->
  exists h0, 0 < h0 /\ forall h n fuel fuel' w w', 0 < h <= h0 ->
    simulate fuel (with_step h sm) (initial_world s [] depth) = Some (Ok tt, w) ->
    simulate fuel' (with_step h sme) (initial_world s [] depth) = Some (Ok tt, w') ->
    (n < w_iter w)%nat -> flows_freely v0 phi1 (w_log w) n ->
    (n < w_iter w')%nat /\
    forall i, (i <= n)%nat -> exists r r', nth_error (w_log w) i = Some r /\ nth_error (w_log w') i = Some r' /\
      at_least_as_mobile r r'.
Proof.
  intros d profile mo sm s depth pts pts' phi1 v0 sme Hb Es K S Thin Hv0 Tame Ez Mov Ep St Cv Cv'.
  assert (V := co_admissible _ _ _ K). assert (Sd := va_slope _ _ _ V). unfold slope_defined in Sd. rewrite Ep in Sd. destruct Sd as (xs & ys & Em).
  assert (I := make_spline_ok _ _ _ Em). destruct I as (_ & _ & _ & I).
  apply (C88_steeper_ground_flows_further d profile mo sm s depth (ter_gravity (s_ter sm)) (ter_default_slope (s_ter sm)) (Some pts') phi1 v0 Hb Es K S); auto.
  - exact (va_gravity _ _ _ V).
  - destruct (steeper_made _ _ _ _ St Em) as (ys' & Em'). exists xs, ys'. exact Em'.
  - intros x a a' Hx Ha Ha'. cbn [with_ground s_ter ter_gravity]. apply Rmult_le_compat_l; [apply Rlt_le, (va_gravity _ _ _ V)|].
    unfold get_channel_slope in Ha, Ha'. rewrite Ep in Ha. cbn [with_ground s_ter ter_spline] in Ha'.
    destruct Cv as (f & l & C1 & C2 & C3 & C4 & C5).
    destruct (locate pts x f l I C1 C2 ltac:(lra)) as (b & p & q & aa & E & Hx').
    destruct (steeper_between pts pts' St I b p q aa x E Hx') as (y & y' & E1 & E2 & Le).
    rewrite E1 in Ha. rewrite E2 in Ha'. apply Ok_inj in Ha. apply Ok_inj in Ha'. subst y y'.
    destruct (C48_within_bounds pts f l x 0 (PI / 2) I C1 C2 ltac:(lra) C5) as (z & Ez1 & Bz). rewrite E1 in Ez1. injection Ez1 as <-.
    destruct Cv' as (f' & l' & D1 & D2 & D3 & D4 & D5).
    assert (I' : increasing pts') by (destruct (steeper_made _ _ _ _ St Em) as (ys' & Em'); apply (make_spline_ok _ _ _ Em')).
    destruct (C48_within_bounds pts' f' l' x 0 (PI / 2) I' D1 D2 ltac:(lra) D5) as (z & Ez2 & Bz'). rewrite E2 in Ez2. injection Ez2 as <-.
    apply sin_incr_1; lra.
Qed.

(** ** Thinner melt *)
Lemma losing_melt (sm : sim R) s depth m : losing sm s depth -> valid_melt (region_of sm s) m ->
  losing (with_rheology m (lv_rel (s_lava sm)) (lv_bub (s_lava sm)) (lv_yield (s_lava sm)) sm) s depth.
Proof.
  intros [V A1 A2 A3 A4 A5 A6 A7] Hm. constructor; try assumption. destruct V as [? ? ? ? ? ? ? ? ? ? Vl]. constructor; try assumption.
  destruct Vl as (_ & Vl). split; [exact Hm|exact Vl].
Qed.
(** The same set-up with a melt whose viscosity is nowhere larger at the
    temperatures between the solidus and the vent. *)
Theorem C88_thinner_melt_flows_further :
  forall (d : json R) profile mo (sm : sim R) (s : state R) depth m phi1 v0,
  let sme := with_rheology m (lv_rel (s_lava sm)) (lv_bub (s_lava sm)) (lv_yield (s_lava sm)) sm in
  build_models d profile = Ok mo -> s_budget sm = mo_budget mo ->
  losing sm s depth -> smooth sm phi1 ->
  thins_with_heat (lv_melt (s_lava sm)) -> 0 < v0 -> Forall (tame sm) (s_budget sm) ->
  ter_eff_init (s_ter sm) = 0 -> moves_at_vent sm s depth ->
  valid_melt (region_of sm s) m -> melt_margin (get_solid_temperature (s_cryst sm)) m ->
  (forall q a a', get_solid_temperature (s_cryst sm) < st_temp q <= st_temp s ->
     compute_melt_viscosity (lv_melt (s_lava sm)) q = Ok a -> compute_melt_viscosity m q = Ok a' -> a' <= a) ->
  exists h0, 0 < h0 /\ forall h n fuel fuel' w w', 0 < h <= h0 ->
    simulate fuel (with_step h sm) (initial_world s [] depth) = Some (Ok tt, w) ->
    simulate fuel' (with_step h sme) (initial_world s [] depth) = Some (Ok tt, w') ->
    (n < w_iter w)%nat -> flows_freely v0 phi1 (w_log w) n ->
    (n < w_iter w')%nat /\
    forall i, (i <= n)%nat -> exists r r', nth_error (w_log w) i = Some r /\ nth_error (w_log w') i = Some r' /\
      at_least_as_mobile r r'.
Proof.
  intros d profile mo sm s depth m phi1 v0 sme Hb Es K S Thin Hv0 Tame Ez Mov Vm Mm Le.
  assert (V := co_admissible _ _ _ K). assert (Same := with_ground_same sm).
  destruct (C88_more_mobile_flows_further d profile mo sm s depth m (lv_rel (s_lava sm)) (lv_bub (s_lava sm)) (lv_yield (s_lava sm))
    (ter_gravity (s_ter sm)) (ter_default_slope (s_ter sm)) (ter_spline (s_ter sm)) phi1 v0 Hb Es K S) as (h0 & Hh0 & G); auto; rewrite ?Same; fold sme.
  - now apply losing_melt.
  - destruct S. constructor; assumption.
  - intros x a a' _ E E'. change (s_ter sme) with (s_ter sm) in E'. rewrite E in E'. injection E' as <-. change (s_ter sme) with (s_ter sm). lra.
  - intros q Hin Hp. split.
    + intros a a' E E'. assert (X0 := proj1 (va_pos _ _ _ V)). assert (P0 := va_phi _ _ _ V). assert (Hin' := Hin). destruct Hin' as (Q1 & Q2 & Q3). cbn in Q1, Q2, Q3.
      assert (Bq : box (region_of sm s) phi1 (at_ q)) by (split; [exact Hin|exact Hp]).
      destruct (melt_inside (region_of sm s) _ q (proj1 (va_lava _ _ _ V))) as (v1 & Ev1 & Pv1); [cbn; lra|].
      destruct (melt_inside (region_of sm s) m q Vm) as (v2 & Ev2 & Pv2); [cbn; lra|].
      assert (Q := Le q v1 v2 ltac:(lra) Ev1 Ev2).
      unfold computes_bulk_viscosity in E, E'. rewrite Ev1 in E. cbn [rbind] in E.
      change (lv_melt (s_lava sme)) with m in E'. rewrite Ev2 in E'. cbn [rbind] in E'.
      change (lv_rel (s_lava sme)) with (lv_rel (s_lava sm)) in E'. change (lv_bub (s_lava sme)) with (lv_bub (s_lava sm)) in E'.
      destruct (rel_fewer sm s depth phi1 V S (st_pos q) (st_temp q) (st_temp q) (st_phi q) (st_phi q) ltac:(lra) ltac:(lra) Hp) as (b1 & b2x & Eb & Eb2 & Bb).
      assert (Er : compute_relative_viscosity (lv_rel (s_lava sm)) q = Ok b1).
      { rewrite <- Eb. assert (Rm := sm_rel _ _ S). destruct (lv_rel (s_lava sm)); cbn [below_packing] in Rm; try contradiction; reflexivity. }
      rewrite Er in E, E'. cbn [rbind] in E, E'.
      destruct (va_lava _ _ _ V) as (_ & _ & Vb & _).
      destruct (bub_inside (region_of sm s) _ (lv_bub (s_lava sm)) q b1 Vb ltac:(lra) ltac:(cbn; lra) Er) as (c & Ec & Pc).
      rewrite Ec in E, E'. cbn [rbind] in E, E'. rnum. apply Ok_inj in E, E'. rewrite <- E, <- E'.
      apply Rmult_le_compat_r; [lra|]. apply Rmult_le_compat_r; lra.
    + intros y y' E E'. change (get_yield_strength (s_lava sm) q = Ok y') in E'. rewrite E in E'. injection E' as <-. lra.
  - exists h0. split; [exact Hh0|]. intros h n fuel fuel' w w' Hh. specialize (G h n fuel fuel' w w' Hh). rewrite Same in G. exact G.
Qed.
