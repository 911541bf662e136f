(** * Props_Fewer: lava with fewer crystals at the vent flows at least as far (C89) *)
From Coq Require Import Reals Lra Lia List Classical_Prop FunctionalExtensionality.
From Verif Require Import Base Num Json Logger World Vesicle MeltVisc RelVisc Bubbles Terrain Lava
  Thermal Flux Integrator Factory Run Frame StepLog Spec RNum RPow StepProofs LoggerProofs RowProofs StepProps StepRow Gives Steady EffArray Props_Run Props_Step Props_Budget Props_BudgetStep Props_RunOuts
  Props_Velocity Props_Rheology Props_Material Props_Terrain Props_Thermal Props_Flux ColumnProofs TableTrace Props_Table Props_Recompute Props_Energy
  Safe Valid Props_ValidRun Cooling Props_Cooling Recompute Lipschitz ModelLip Refine Losses Props_Refine Props_RefineRun Props_Compare Props_Weaker Faster Props_Faster.
Open Scope R_scope.

(** Hotter lava with fewer crystals is not stronger; no bound on the crystals. *)
Lemma yield_order (l : lava R) p1 p2 y1 y2 : px p1 = px p2 -> pt p1 <= pt p2 -> 0 <= pp p2 <= pp p1 ->
  get_yield_strength l (state_at p1) = Ok y1 -> get_yield_strength l (state_at p2) = Ok y2 -> y2 <= y1.
Proof.
  intros Ex Ht Hp E1 E2. destruct p1 as [x1 t1 c1], p2 as [x2 t2 c2]. cbn [px pt pp] in *. subst x2.
  set (sa := state_at {| px := x1; pt := t1; pp := c2 |}).
  destruct (yield_inside l sa) as (ya & Eya & Pya); [cbn; lra|].
  change (get_yield_strength l (with_temp t2 sa) = Ok y2) in E2. change (get_yield_strength l (with_phi c1 sa) = Ok y1) in E1. unfold get_yield_strength in *.
  assert (y2 <= ya).
  { destruct (Rle_lt_or_eq_dec _ _ Ht) as [Hlt|Heq].
    - destruct (C31_yield_grows_with_cooling (lv_yield l) sa t1 t2 ltac:(cbn; lra) Hlt) as (z1 & z2 & Q1 & Q2 & Q3 & _).
      rewrite Q2 in E2. injection E2 as <-. change (with_temp t1 sa) with sa in Q1. rewrite Eya in Q1. injection Q1 as <-. lra.
    - rewrite <- Heq in E2. change (with_temp t1 sa) with sa in E2. rewrite Eya in E2. injection E2 as <-. lra. }
  assert (ya <= y1); [|lra].
  destruct (Rle_lt_or_eq_dec _ _ (proj2 Hp)) as [Hlt|Heq].
  - destruct (C31_yield_grows_with_crystals (lv_yield l) sa c2 c1 ltac:(lra)) as (z2 & z1 & Q2 & Q1 & Q3 & _).
    rewrite Q1 in E1. injection E1 as <-. change (with_phi c2 sa) with sa in Q2. rewrite Eya in Q2. injection Q2 as <-. lra.
  - rewrite <- Heq in E1. change (with_phi c2 sa) with sa in E1. rewrite Eya in E1. injection E1 as <-. lra.
Qed.
(** Fewer crystals at the same place and temperature: not more viscous. *)
Lemma viscosity_order (sm : sim R) s depth phi1 : admissible sm s depth -> smooth sm phi1 -> forall x t c1 c2 m1 m2,
  st_pos s <= x -> get_solid_temperature (s_cryst sm) < t -> st_phi s <= c2 <= c1 -> c1 <= phi1 ->
  computes_bulk_viscosity (s_lava sm) (state_at {| px := x; pt := t; pp := c1 |}) = Ok m1 ->
  computes_bulk_viscosity (s_lava sm) (state_at {| px := x; pt := t; pp := c2 |}) = Ok m2 -> m2 <= m1.
Proof.
  intros V S x t c1 c2 m1 m2 Hx Ht Hc Hc1 E1 E2. assert (X0 := proj1 (va_pos _ _ _ V)).
  destruct (rel_fewer sm s depth phi1 V S x t t c1 c2 Hx Hc Hc1) as (b1 & b2 & B1 & B2 & Bb).
  destruct (melt_inside (region_of sm s) _ (state_at {| px := x; pt := t; pp := c1 |}) (proj1 (va_lava _ _ _ V))) as (v & Ev & Pv); [cbn; lra|].
  assert (Ev2 : compute_melt_viscosity (lv_melt (s_lava sm)) (state_at {| px := x; pt := t; pp := c2 |}) = Ok v).
  { rewrite <- Ev. destruct (lv_melt (s_lava sm)); reflexivity. }
  destruct (va_lava _ _ _ V) as (_ & _ & Vb & _).
  destruct (bub_inside (region_of sm s) _ (lv_bub (s_lava sm)) (state_at {| px := x; pt := t; pp := c1 |}) b1 Vb ltac:(cbn; lra) ltac:(cbn; lra) B1) as (c & Ec & Pc).
  assert (Ec2 : compute_relative_viscosity_bubbles (lv_bub (s_lava sm)) (state_at {| px := x; pt := t; pp := c2 |}) = Ok c).
  { rewrite <- Ec. assert (Q := sm_bub _ _ S). destruct (lv_bub (s_lava sm)); cbn [smooth_bubbles] in Q; try contradiction;
      cbn [compute_relative_viscosity_bubbles]; rewrite (ves_same vm (state_at {| px := x; pt := t; pp := c2 |}) (state_at {| px := x; pt := t; pp := c1 |})) by reflexivity; reflexivity. }
  unfold computes_bulk_viscosity in E1, E2. rewrite Ev, B1, Ec in E1. rewrite Ev2, B2, Ec2 in E2. cbn [rbind] in E1, E2. rnum.
  apply Ok_inj in E1. apply Ok_inj in E2. rewrite <- E1, <- E2. apply Rmult_le_compat_r; [lra|]. apply Rmult_le_compat_l; lra.
Qed.

(** ** C89 *)
(** One set-up, the depth of the channel given ("effusion_rate_init" 0), and two
    crystal fractions at the vent. *)
Lemma fewer_crystals :
  forall (d : json R) profile mo (sm : sim R) (s : state R) depth phi' phi1 v0,
  let s' := with_phi phi' s in
  build_models d profile = Ok mo -> s_budget sm = mo_budget mo ->
  losing sm s depth -> losing sm s' depth -> smooth sm phi1 ->
  thins_with_heat (lv_melt (s_lava sm)) -> 0 < v0 -> Forall (tame sm) (s_budget sm) ->
  ter_eff_init (s_ter sm) = 0 -> moves_at_vent sm s depth -> phi' <= st_phi s ->
  exists h0, 0 < h0 /\ forall h n fuel fuel' w w', 0 < h <= h0 ->
    simulate fuel (with_step h sm) (initial_world s [] depth) = Some (Ok tt, w) ->
    simulate fuel' (with_step h sm) (initial_world s' [] depth) = Some (Ok tt, w') ->
    (n < w_iter w)%nat -> flows_freely v0 phi1 (w_log w) n ->
    (n < w_iter w')%nat /\
    forall i, (i <= n)%nat -> exists r r', nth_error (w_log w) i = Some r /\ nth_error (w_log w') i = Some r' /\
      at_least_as_mobile r r'.
Proof.
  intros d profile mo sm s depth phi' phi1 v0 s' Hb Es K K' S Thin Hv0 Tame Ez Mov Hphi.
  assert (V := co_admissible _ _ _ K). assert (V' := co_admissible _ _ _ K').
  assert (Sf := smooth_strain_free _ _ S). assert (Pphi : 0 <= phi') by exact (va_phi _ _ _ V').
  assert (Nm : s_mass sm = false).
  { assert (Q := va_mass _ _ _ V). destruct (s_mass sm); [destruct (Q eq_refl Ez)|reflexivity]. }
  destruct (gradients_full sm s depth phi1 v0 V S Hv0) as (D1 & su1 & vel1 & G1 & rate & (_ & Prate & DG1 & X1) & HG1).
  destruct (HG1 d profile mo (s_air sm) (s_budget sm) (lv_latent (s_lava sm)) Hb Es) as ((L1 & B1 & HL1 & HB1 & HF1) & W1 & U1);
    [rewrite with_losses_same; exact K|]. rewrite with_losses_same in U1. clear HG1.
  destruct (gradients_full sm s' depth phi1 v0 V' S Hv0) as (D2 & su2 & vel2 & G2 & rate2 & (_ & _ & DG2 & X2) & HG2).
  destruct (HG2 d profile mo (s_air sm) (s_budget sm) (lv_latent (s_lava sm)) Hb Es) as (_ & W2 & U2);
    [rewrite with_losses_same; exact K'|].
  rewrite with_losses_same in U2. clear HG2.
  destruct X1 as (w01 & c1 & gm1 & E01 & Pc1 & Er1 & _ & X1). destruct X2 as (w02 & c2 & gm2 & E02 & Pc2 & Er2 & _ & X2).
  assert (E01' := E01). rewrite (C19_no_search_without_target sm _ Ez) in E01'. apply (f_equal snd) in E01'. cbn [snd] in E01'.
  assert (E02' := E02). rewrite (C19_no_search_without_target sm _ Ez) in E02'. apply (f_equal snd) in E02'. cbn [snd] in E02'.
  assert (H1 : w_depth w01 = depth) by (rewrite <- E01'; reflexivity).
  assert (H2 : w_depth w02 = depth) by (rewrite <- E02'; reflexivity).
  assert (Es1 : w_st w01 = s) by (rewrite <- E01'; reflexivity).
  assert (Es2 : w_st w02 = s') by (rewrite <- E02'; reflexivity). clear E01' E02'.
  rewrite Nm in *.
  destruct (sm_cryst _ _ S) as (cr1 & grown & ts & te & Ecr). destruct (sm_cover _ _ S) as (al & fc & Ecv).
  assert (rate2 = rate) as -> by (rewrite (Er1 _ _ _ _ Ecr), (Er2 _ _ _ _ Ecr); reflexivity).
  assert (Fast : fastest_rate (s_cryst sm) = rate) by (rewrite (Er1 _ _ _ _ Ecr), Ecr; reflexivity).
  assert (Vcv := va_cover _ _ _ V). rewrite Ecv in Vcv. cbn [valid_cover] in Vcv.
  assert (Pd1 := va_depth _ _ _ V). assert (X0 := proj1 (va_pos _ _ _ V)).
  assert (Plat : 0 < lv_latent (s_lava sm)) by apply (va_lava _ _ _ V). assert (Pdre : 0 < lv_dre (s_lava sm)) by apply (va_lava _ _ _ V).
  destruct Mov as (t0v & tbv & Ety & Etb & Hmov).
  set (F1 := fun p => - (heat_loss (s_air sm) (s_budget sm) (su1 p) / (lv_latent (s_lava sm) * G1 p))) in *.
  set (F2 := fun p => - (heat_loss (s_air sm) (s_budget sm) (su2 p) / (lv_latent (s_lava sm) * G2 p))) in *.
  (* at one place and temperature the lava with fewer crystals is faster and cools less per metre *)
  assert (Here : forall p q t0 tb, box (region_of sm s) phi1 p -> box (region_of sm s') phi1 q -> px q = px p -> pt q = pt p -> pp q <= pp p -> D1 p ->
    get_yield_strength (s_lava sm) (state_at p) = Ok t0 -> get_basal_shear_stress (s_lava sm) (s_ter sm) depth (state_at p) = Ok tb -> 0 <= t0 < tb ->
    vel1 p <= vel2 q /\ (D2 q -> F1 p <= F2 q)).
  { intros p q t0 tb Bp Bq Ex Et Ec Dp Ey Eb Ht.
    destruct (X1 p Bp) as (t01 & tb1 & A1 & A2 & A3 & A4 & A5 & A6 & A7 & A8 & A9 & A10 & A11 & A12 & A13 & A14).
    destruct (X2 q Bq) as (t02 & tb2 & Z1 & Z2 & Z3 & Z4 & Z5 & Z6 & Z7 & Z8 & Z9 & Z10 & Z11 & Z12 & Z13 & Z14).
    cbv zeta in *. rewrite H1 in *. rewrite H2 in *.
    assert (Bq1 := Bq). destruct Bq1 as [(Q1 & Q2 & Q3) Q4]. cbn in Q1, Q2, Q3.
    assert (t01 = t0) as -> by congruence. assert (tb1 = tb) as -> by congruence.
    assert (tb2 = tb) as ->. { apply Ok_inj. rewrite <- Z4, <- Eb. apply basal_same. exact Ex. }
    assert (Hy : t02 <= t0) by (apply (yield_order (s_lava sm) p q); auto; lra).
    assert (Hy0 : 0 <= t02).
    { destruct (yield_inside (s_lava sm) (state_at q)) as (z & Ez' & Bz); [cbn; lra|]. rewrite Z3 in Ez'. injection Ez' as <-. exact Bz. }
    assert (Mu : su_mu (su2 q) <= su_mu (su1 p)).
    { destruct p as [xx tt' cp], q as [xq tq cq]. cbn [px pt pp] in *. subst xq tq.
      assert (Bc := proj2 Bp). cbn [pp] in Bc. change (st_phi s') with phi' in *. apply (viscosity_order sm s' depth phi1 V' S xx tt' cp cq); auto; [apply Q1|apply Q2|change (phi' <= cq <= cp); lra]. }
    assert (Pm2 : 0 < su_mu (su2 q)).
    { destruct (viscosity_smooth (region_of sm s') phi1 X0 (va_phi _ _ _ V') (s_lava sm) (va_lava _ _ _ V') (sm_melt _ _ S) (sm_rel _ _ S) (sm_bub _ _ S)) as (mu & Pmu & Emu).
      assert (Q := returns_at _ _ _ _ Emu Bq). rewrite Z2 in Q. apply Ok_inj in Q. rewrite Q. destruct Pmu as [_ (cm & Pcm & Bmu)]. specialize (Bmu _ Bq). lra. }
    assert (Vf : su_vf (su2 q) = su_vf (su1 p)).
    { apply Ok_inj. rewrite <- A1, <- Z1. unfold lava_vesicle_fraction. apply ves_same. exact Ex. }
    assert (Tc : su_crust (su2 q) = su_crust (su1 p)).
    { apply Ok_inj. rewrite <- A5, <- Z5. destruct p as [xx tt' cp], q as [xq tq cq]. cbn [px pt pp] in *. subst xq tq. destruct (s_crust sm); reflexivity. }
    specialize (A12 _ _ Ecv). specialize (Z12 _ _ Ecv).
    assert (Wp := W1 p Dp). assert (Pm : 0 < su_mu (su1 p)) by apply Wp.
    assert (Vel : vel1 p <= vel2 q) by (rewrite A11, Z11; apply jb_monotone; lra).
    split; [exact Vel|]. intros Dp2. assert (Wp2 := W2 q Dp2).
    assert (Sp : sped_up al fc (su1 p) (su2 q)).
    { constructor; try congruence; lra. }
    assert (Sfm : surface_of_models sm (su1 p)).
    { split; [rewrite A8; exact A9|]. intros tc Etc. apply Ok_inj. rewrite <- A5, Etc. reflexivity. }
    destruct (tame_loss sm al fc (su1 p) (su2 q) (co_air _ _ _ K) ltac:(apply Vcv) ltac:(lra) Wp Wp2 Sp Sfm _ (co_losses _ _ _ K) Tame) as [Y1 Y2].
    rewrite A10, Z10 in Y2. assert (Pv : 0 < vel1 p) by (destruct (DG1 p Dp); lra).
    unfold F1, F2. apply Ropp_le_contravar. rewrite A14, Z14, Vf.
    set (rho := lv_dre (s_lava sm) * (1 - su_vf (su1 p))). assert (Pr : 0 < rho) by (apply Rmult_lt_0_compat; [exact Pdre|assert (Q := ws_vf _ _ _ Wp); lra]).
    clearbody rho.
    replace (lv_latent (s_lava sm) * (vel2 q * depth * rho * rate)) with (lv_latent (s_lava sm) * rho * rate * (vel2 q * depth)) by ring.
    replace (lv_latent (s_lava sm) * (vel1 p * depth * rho * rate)) with (lv_latent (s_lava sm) * rho * rate * (vel1 p * depth)) by ring.
    apply per_unit; [lra|lra|repeat apply Rmult_lt_0_compat; assumption|exact Y1|exact Y2]. }
  exists (/ (L1 * (1 + rate) + 1)). assert (PL1 : 0 <= L1 * (1 + rate)) by (apply Rmult_le_pos; lra).
  split; [apply Rinv_0_lt_compat; lra|].
  intros h n fuel fuel' w w' [Hh Hh0] H H' Hn Free.
  assert (Hhl : h * (L1 * (1 + rate)) <= 1).
  { assert (Q : h * (L1 * (1 + rate) + 1) <= 1); [|nra].
    apply Rmult_le_reg_r with (/ (L1 * (1 + rate) + 1)); [apply Rinv_0_lt_compat; lra|]. rewrite Rmult_assoc, Rinv_r, Rmult_1_r, Rmult_1_l by lra. exact Hh0. }
  set (sm1 := with_step h sm) in *.
  assert (K1 : losing sm1 s depth) by now apply losing_step.
  assert (K2 : losing sm1 s' depth) by (apply losing_step; [exact K'|exact Hh]).
  assert (V1 := co_admissible _ _ _ K1). assert (V2 := co_admissible _ _ _ K2).
  assert (Q1 : s_dx sm1 <> 0) by (change (h <> 0); lra). assert (Q2 := Q1).
  assert (S1 := run_sequences sm1 _ _ _ w Q1 H). assert (S2 := run_sequences sm1 _ _ _ w' Q2 H'). cbv zeta in S1, S2.
  change (s_dx sm1) with h in *. 
  set (r1 k := nth k (w_log w) []) in *. set (r2 k := nth k (w_log w') []) in *.
  change (st_pos s') with (st_pos s) in *. change (st_temp s') with (st_temp s) in *. change (st_phi s') with phi' in *.
  set (T1 k := value (r1 k) "core_temperature") in *. set (T2 k := value (r2 k) "core_temperature") in *.
  set (C1 k := value (r1 k) "crystal_fraction") in *. set (C2 k := value (r2 k) "crystal_fraction") in *.
  set (inv := fun i => (i < w_iter w')%nat /\ T1 i <= T2 i /\ C1 i = st_phi s + rate * (st_temp s - T1 i) /\ C2 i = phi' + rate * (st_temp s - T2 i)).
  assert (Init1 : forall w0, init_effusion_rate sm1 (initial_world s [] depth) = (Ok tt, w0) -> w0 = w01).
  { intros w0 E0. unfold sm1 in E0. rewrite init_step, E01 in E0. congruence. }
  assert (Init2 : forall w0, init_effusion_rate sm1 (initial_world s' [] depth) = (Ok tt, w0) -> w0 = w02).
  { intros w0 E0. unfold sm1 in E0. rewrite init_step, E02 in E0. congruence. }
  assert (run_vel : forall i, (i < w_iter w)%nat -> exists v, holds (r1 i) "mean_velocity" v).
  { intros i Hi. destruct (S1 i Hi) as (N1 & _). fold (r1 i) in N1. destruct (row_world sm1 s depth V1 fuel w i _ H Hi N1) as
      (w0 & wi & wj & v & rho & wd & slx & hb & ra & dT & dt & _ & _ & _ & _ & _ & _ & _ & _ & _ & _ & _ & _ & _ & _ & _ & Ev & _). exists v. exact Ev. }
  (* one place of the two tables *)
  assert (Place : forall i, (i <= n)%nat -> inv i -> exists v1 v2,
    holds (r1 i) "mean_velocity" v1 /\ holds (r2 i) "mean_velocity" v2 /\ v1 <= v2 /\
    let p1 := {| px := st_pos s + INR i * h; pt := T1 i; pp := C1 i |} in
    let p2 := {| px := st_pos s + INR i * h; pt := T2 i; pp := C2 i |} in
    let pm := {| px := st_pos s + INR i * h; pt := T2 i; pp := st_phi s + rate * (st_temp s - T2 i) |} in
    D1 p1 /\ D1 pm /\ F1 pm <= F2 p2 /\ value (r1 i) "dtemp_dx" = F1 p1 /\ value (r1 i) "dphi_dx" = - rate * F1 p1 /\
    value (r2 i) "dtemp_dx" = F2 p2 /\ value (r2 i) "dphi_dx" = - rate * F2 p2).
  { intros i Hi (I1 & I2 & I3 & I4). assert (Hi1 : (i < w_iter w)%nat) by lia.
    destruct (S1 i Hi1) as (N1 & R1 & _). destruct (S2 i I1) as (N2 & R2 & _). fold (r1 i) (T1 i) (C1 i) in N1, R1. fold (r2 i) (T2 i) (C2 i) in N2, R2.
    destruct (row_world sm1 s depth V1 fuel w i _ H Hi1 N1) as
      (w0 & wi & wj & v & rho & wd & sl & hb & ra & dT & dt & E0 & J0 & S0 & RL & St & _ & _ & C & Sw & _ & Ii & Ed & Ex & Et & Ep & Ev & _).
    destruct (row_world sm1 s' depth V2 fuel' w' i _ H' I1 N2) as
      (w0' & wi' & wj' & v' & rho' & wd' & sl' & hb' & ra' & dT' & dt' & E0' & _ & _ & _ & St' & _ & _ & C' & Sw' & _ & Ii' & Ed' & Ex' & Et' & Ep' & Ev' & _).
    apply Init1 in E0. apply Init2 in E0'. subst w0 w0'. rewrite H1 in Ed. rewrite H2 in Ed'.
    change (s_dx sm1) with h in Ex. change (s_dx sm1) with h in Ex'. 
    assert (R1' := R1). assert (R2' := R2). destruct R1' as (A1 & A2 & A3 & A4 & A5). destruct R2' as (A1' & A2' & A3' & A4' & A5').
    assert (Y1 : st_temp (w_st wi) = T1 i) by exact (holds_fun _ _ _ _ Et A2). assert (Y2 : st_temp (w_st wi') = T2 i) by exact (holds_fun _ _ _ _ Et' A2').
    assert (Y3 : st_phi (w_st wi) = C1 i) by exact (holds_fun _ _ _ _ Ep A3). assert (Y4 : st_phi (w_st wi') = C2 i) by exact (holds_fun _ _ _ _ Ep' A3').
    destruct (Free i (r1 i) v (C1 i) Hi N1 Ev A3) as [Fv Fp].
    assert (Hcr : C2 i <= C1 i) by (rewrite I3, I4; assert (rate * T1 i <= rate * T2 i) by (apply Rmult_le_compat_l; lra); lra).
    cbv zeta. set (p1 := {| px := st_pos s + INR i * h; pt := T1 i; pp := C1 i |}). set (p2 := {| px := st_pos s + INR i * h; pt := T2 i; pp := C2 i |}).
    assert (Ap1 : at_ (w_st wi) = p1) by (unfold at_, p1; rewrite Ex, Y1, Y3; reflexivity).
    assert (Ap2 : at_ (w_st wi') = p2) by (unfold at_, p2; rewrite Ex', Y2, Y4; reflexivity).
    assert (In1 : inside (region_of sm s) (w_st wi)) by exact (sound_inside _ _ _ V1 _ (so_nearly _ _ _ Sw)).
    assert (In2 : inside (region_of sm s') (w_st wi')) by exact (sound_inside _ _ _ V2 _ (so_nearly _ _ _ Sw')).
    assert (Bp1 : box (region_of sm s) phi1 (at_ (w_st wi))) by (split; [exact In1|cbn; lra]).
    assert (Bp2 : box (region_of sm s') phi1 (at_ (w_st wi'))) by (split; [exact In2|cbn; lra]).
    destruct (same_values sm s depth phi1 _ V S Bp1) as [Sv1 Sy1]. destruct (same_values sm s' depth phi1 _ V' S Bp2) as [Sv2 Sy2].
    rewrite Ap1 in Bp1, Sv1, Sy1. rewrite Ap2 in Bp2, Sv2, Sy2.
    assert (Pr1 : holds (r1 i) "mean_velocity" v) by exact Ev.
    destruct (U1 h fuel w Hh H i (r1 i) _ _ _ _ _ v Hi1 N1 R1 Ev) as [_ U1i]. destruct (U1i Fv Fp) as (Dp1 & U11 & U12 & Evel1).
    fold p1 in Dp1, U11, U12, Evel1.
    set (cm := st_phi s + rate * (st_temp s - T2 i)). set (pm := {| px := st_pos s + INR i * h; pt := T2 i; pp := cm |}).
    assert (Hcm : cm <= C1 i) by (unfold cm; rewrite I3; assert (rate * T1 i <= rate * T2 i) by (apply Rmult_le_compat_l; lra); lra).
    assert (Hcm2 : C2 i <= cm) by (unfold cm; rewrite I4; lra).
    assert (Bpm : box (region_of sm s) phi1 pm).
    { assert (Q1' := proj1 Bp1). assert (Q2' := proj1 Bp2). destruct Q1' as (G1a & G1b & G1c), Q2' as (_ & G2b & _). cbn in G1a, G1b, G1c, G2b.
      assert (0 <= rate * (st_temp s - T2 i)) by (apply Rmult_le_pos; lra).
      split; [|cbn; lra]. split; [exact G1a|]. split; [exact G2b|]. cbn. fold cm. unfold cm in *. lra. }
    destruct (hotter_flows_better sm s depth phi1 V S Thin (state_at p1) (state_at pm)) as (m1 & m2 & y1 & y2 & Z1 & Z2 & Z3 & Z4 & Z5 & Z6);
      [exact (proj1 Bp1)|exact (proj1 Bpm)|exact Fp|reflexivity|exact I2|exact Hcm|].
    (* the first lava moves here *)
    assert (Mv1 : exists tb, get_basal_shear_stress (s_lava sm) (s_ter sm) depth (state_at p1) = Ok tb /\ y1 < tb).
    { rewrite Z4 in Sy1. destruct (basal_inside (s_lava sm) (s_ter sm) depth (w_st wi) (va_slope _ _ _ V)) as (rh & sx & _ & _ & Eb).
      set (tb := depth * rh * ter_gravity (s_ter sm) * sin sx) in Eb. exists tb.
      split. { rewrite <- Eb. apply basal_same. cbn. lra. }
      destruct (so_stage _ _ _ (so_nearly _ _ _ Sw)) as [(_ & _ & _ & Zi)|(_ & _ & Hy & _)].
      - assert (i = 0%nat) as -> by lia. injection St as <-. rewrite Es1 in Sy1, Eb.
        assert (y1 = t0v) by (apply Ok_inj; rewrite <- Ety; symmetry; exact Sy1). assert (tb = tbv) by (apply Ok_inj; rewrite <- Etb; symmetry; exact Eb). lra.
      - rewrite Ed in Hy. destruct (C32_stop_criterion _ _ _ _ _ _ Sy1 Eb) as [_ [Z7 _]]. exact (Z7 Hy). }
    destruct Mv1 as (tb & Eb1 & Hy1).
    assert (Eb2 : get_basal_shear_stress (s_lava sm) (s_ter sm) depth (state_at pm) = Ok tb) by (rewrite <- Eb1; apply basal_same; reflexivity).
    (* the point of the second run, in the channel of the first *)
    assert (Dp2 : D1 pm /\ vel1 p1 <= vel1 pm).
    { destruct (X1 p1 Bp1) as (t01 & tb1 & _ & B2 & B3 & B4 & _ & _ & _ & _ & _ & _ & B11 & _ & B13 & _).
      destruct (X1 pm Bpm) as (t02 & tb2 & _ & G2' & G3 & G4 & _ & _ & _ & _ & _ & _ & G11 & _ & G13 & _).
      cbv zeta in *. rewrite H1 in *.
      assert (t01 = y1) as -> by congruence. assert (t02 = y2) as -> by congruence. assert (tb1 = tb) as -> by congruence. assert (tb2 = tb) as -> by congruence.
      assert (Q : vel1 p1 <= vel1 pm).
      { rewrite B11, G11. rewrite Z1 in B2. rewrite Z2 in G2'. injection B2 as <-. injection G2' as <-. apply jb_monotone; lra. }
      split; [|exact Q]. apply G13. apply B13 in Dp1. lra. }
    destruct Dp2 as [Dp2 Vel12].
    destruct (Here pm p2 y2 tb Bpm Bp2 eq_refl eq_refl Hcm2 Dp2 Z5 Eb2 ltac:(lra)) as [Vel Fle].
    assert (Evel2 : v' = vel2 p2).
    { destruct (cs_budget _ _ _ _ _ _ _ _ _ _ _ C') as (new' & w2' & Mv' & _).
      change (mean_velocity (s_lava sm) (s_ter sm) (w_depth wi') (w_st wi') = Ok (v', new')) in Mv'. rewrite Ed' in Mv'.
      apply C20_velocity_only_if in Mv' as (mu & t0 & tb' & Q3 & Q4 & Q5 & _ & _ & _ & -> & _).
      destruct (X2 p2 Bp2) as (t02 & tb2 & _ & G2' & G3 & G4 & _ & _ & _ & _ & _ & _ & G11 & _).
      cbv zeta in *. rewrite H2 in *. rewrite Sv2, G2' in Q3. rewrite Sy2, G3 in Q4.
      assert (G5 : get_basal_shear_stress (s_lava sm) (s_ter sm) depth (w_st wi') = Ok tb2) by (rewrite <- G4; apply basal_same; exact Ex').
      rewrite G5 in Q5. rewrite G11. injection Q3 as <-. injection Q4 as <-. injection Q5 as <-. reflexivity. }
    exists v, v'. split; [exact Ev|]. split; [exact Ev'|]. split; [lra|].
    destruct (U2 h fuel' w' Hh H' i (r2 i) _ _ _ _ _ v' I1 N2 R2 Ev') as [_ U2i]. destruct (U2i ltac:(lra) ltac:(lra)) as (Dq2 & U21 & U22 & _).
    fold p2 in Dq2, U21, U22. split; [exact Dp1|]. split; [exact Dp2|]. split; [exact (Fle Dq2)|]. auto. }
  (* the next place *)
  assert (Step : forall i, (Datatypes.S i <= n)%nat -> inv i -> inv (Datatypes.S i)).
  { intros i Hi I. destruct (Place i ltac:(lia) I) as (v1 & v2 & _ & _ & _ & Dp1 & Dp2 & F12 & E1 & E2 & E3 & E4).
    destruct I as (I1 & I2 & I3 & I4). assert (Hi1 : (i < w_iter w)%nat) by lia.
    set (p1 := {| px := st_pos s + INR i * h; pt := T1 i; pp := C1 i |}) in *. set (p2 := {| px := st_pos s + INR i * h; pt := T2 i; pp := C2 i |}) in *.
    set (cm := st_phi s + rate * (st_temp s - T2 i)) in *. set (pm := {| px := st_pos s + INR i * h; pt := T2 i; pp := cm |}) in *.
    destruct (S1 i Hi1) as (_ & _ & _ & Nx). destruct (Nx ltac:(lia)) as [Nx1 Nx2]. fold (r1 (Datatypes.S i)) (T1 (Datatypes.S i)) (C1 (Datatypes.S i)) in Nx1, Nx2.
    fold (T1 i) (C1 i) in Nx1, Nx2. rewrite E1 in Nx1. rewrite E2 in Nx2.
    destruct (S2 i I1) as (N2 & R2 & _ & Nx'). fold (r2 i) in N2.
    destruct (row_world sm1 s' depth V2 fuel' w' i _ H' I1 N2) as
      (w0 & wi & wj & v & rho & wd & sl & hb & ra & dT & dt & E0 & J0 & S0 & RL & St & Stj & Sg & C & Sw & Fi & Ii & Ed & Ex & Et & Ep & Ev & EdT & Edp).
    apply Init2 in E0. subst w0. rewrite H2 in Ed. change (s_dx sm1) with h in Ex. 
    destruct R2 as (A1' & A2' & A3' & A4' & A5').
    assert (Y2 : st_temp (w_st wi) = T2 i) by exact (holds_fun _ _ _ _ Et A2'). assert (Y4 : st_phi (w_st wi) = C2 i) by exact (holds_fun _ _ _ _ Ep A3').
    assert (Z2 : dT = F2 p2) by (rewrite <- E3; exact (holds_fun _ _ _ _ EdT A4')).
    assert (Z3 : - ra * dT = - rate * F2 p2) by (rewrite <- E4; exact (holds_fun _ _ _ _ Edp A5')).
    set (t2 := T2 i + F2 p2 * h). set (cc2 := C2 i + - rate * F2 p2 * h).
    assert (Xj : st_temp (w_st wj) = t2).
    { rewrite (cs_temp _ _ _ _ _ _ _ _ _ _ _ C), Y2, Z2. reflexivity. }
    assert (Yj : st_phi (w_st wj) = cc2).
    { rewrite (cs_phi _ _ _ _ _ _ _ _ _ _ _ C), Y4. rnum. change (s_dx sm1) with h. unfold cc2. rewrite <- Z3. ring. }
    assert (Pj : st_pos (w_st wj) = st_pos s + INR (Datatypes.S i) * h).
    { rewrite (cs_pos _ _ _ _ _ _ _ _ _ _ _ C), Ex, S_INR. rnum. change (s_dx sm1) with h. change (st_pos s') with (st_pos s). ring. }
    assert (Ord : T1 (Datatypes.S i) <= t2).
    { rewrite Nx1. unfold t2. destruct (HF1 _ Dp1) as [_ Ql]. specialize (Ql _ Dp2). unfold dist, p1, pm in Ql. cbn [px pt pp] in Ql.
      rewrite (Rminus_diag_eq (st_pos s + INR i * h)), Rabs_R0 in Ql by reflexivity.
      replace (C1 i - cm) with (rate * (T2 i - T1 i)) in Ql by (unfold cm; rewrite I3; ring).
      rewrite Rabs_mult, (Rabs_right rate), (Rabs_right (T2 i - T1 i)), (Rabs_minus_sym (T1 i)), (Rabs_right (T2 i - T1 i)) in Ql by lra.
      fold p1 pm in Ql. change (Rabs (F1 p1 - F1 pm) <= L1 * (0 + (T2 i - T1 i) + rate * (T2 i - T1 i))) in Ql. assert (Qa := Rle_abs (F1 p1 - F1 pm)).
      set (g := T2 i - T1 i) in *. assert (Pg : 0 <= g) by (unfold g; lra).
      assert (Qb : F1 p1 - F2 p2 <= L1 * (1 + rate) * g).
      { replace (L1 * (1 + rate) * g) with (L1 * (0 + g + rate * g)) by ring. lra. }
      assert (Qc : h * (F1 p1 - F2 p2) <= h * (L1 * (1 + rate)) * g) by (rewrite Rmult_assoc; apply Rmult_le_compat_l; lra).
      assert (Qd : h * (L1 * (1 + rate)) * g <= 1 * g) by (apply Rmult_le_compat_r; lra). unfold g in Qc, Qd. lra. }
    assert (Lin1 : C1 (Datatypes.S i) = st_phi s + rate * (st_temp s - T1 (Datatypes.S i))) by (rewrite Nx1, Nx2, I3; ring).
    assert (Lin2 : cc2 = phi' + rate * (st_temp s - t2)) by (unfold cc2, t2; rewrite I4; ring).
    assert (Cord : cc2 <= C1 (Datatypes.S i)).
    { rewrite Lin1, Lin2. assert (rate * T1 (Datatypes.S i) <= rate * t2) by (apply Rmult_le_compat_l; lra). lra. }
    assert (Nlt : (Datatypes.S i < w_iter w')%nat).
    { assert (Hi2 : (Datatypes.S i < w_iter w)%nat) by lia.
      destruct (S1 (Datatypes.S i) Hi2) as (M1 & MR & _). fold (r1 (Datatypes.S i)) in M1, MR.
      destruct (row_world sm1 s depth V1 fuel w (Datatypes.S i) _ H Hi2 M1) as
        (w0' & wk & wl & vk & rhok & wdk & slk & hbk & rak & dTk & dtk & E0' & _ & _ & _ & _ & _ & _ & _ & Sk & _ & Ik & Edk & Exk & Etk & Epk & Evk & _).
      apply Init1 in E0'. subst w0'. rewrite H1 in Edk. change (s_dx sm1) with h in Exk.
      destruct MR as (_ & M2 & M3 & _).
      assert (Xk : st_temp (w_st wk) = T1 (Datatypes.S i)) by exact (holds_fun _ _ _ _ Etk M2).
      assert (Yk : st_phi (w_st wk) = C1 (Datatypes.S i)) by exact (holds_fun _ _ _ _ Epk M3).
      destruct (Free (Datatypes.S i) _ vk (C1 (Datatypes.S i)) Hi M1 Evk M3) as [_ Fp].
      assert (Ink := sound_inside _ _ _ V1 _ (so_nearly _ _ _ Sk)). destruct Ink as (K1x & K1t & K1p).
      change (region_of sm1 s) with (region_of sm s) in *. cbn [region_of rg_x0 rg_x1 rg_ts rg_te rg_phi0 rg_cap] in K1x, K1t, K1p.
      assert (Inw := sound_inside _ _ _ V2 _ (so_nearly _ _ _ Sw)). destruct Inw as (K2x & K2t & K2p).
      change (region_of sm1 s') with (region_of sm s') in *. cbn [region_of rg_x0 rg_x1 rg_ts rg_te rg_phi0 rg_cap] in K2x, K2t, K2p.
      change (st_pos s') with (st_pos s) in *. change (st_temp s') with (st_temp s) in *. change (st_phi s') with phi' in *.
      assert (Gr := cs_phi_grows _ _ _ _ _ _ _ _ _ _ _ C). rnum. apply R_leb_false in Gr. rewrite Yj, Y4 in Gr.
      assert (Tup : t2 <= st_temp s).
      { apply Rmult_le_reg_l with rate; [exact Prate|]. rewrite Y4 in K2p. lra. }
      assert (Inj : inside (region_of sm s') (w_st wj)).
      { unfold inside. cbn [region_of rg_x0 rg_x1 rg_ts rg_te rg_phi0 rg_cap]. rewrite Xj, Yj, Pj.
        change (st_pos s') with (st_pos s) in *. change (st_temp s') with (st_temp s) in *. change (st_phi s') with phi' in *.
        rewrite Exk in K1x. rewrite Xk in K1t. rewrite Y4 in K2p. split; [exact K1x|]. split; [lra|]. split; [lra|].
        change (fastest_rate (s_cryst sm1)) with (fastest_rate (s_cryst sm)) in *. rewrite Fast, Lin2. apply Rplus_lt_compat_l. apply Rmult_lt_compat_l; [exact Prate|].
        change (get_solid_temperature (s_cryst sm1)) with (get_solid_temperature (s_cryst sm)) in *. lra. }
      assert (Ink : inside (region_of sm s) (w_st wk)).
      { unfold inside. cbn [region_of rg_x0 rg_x1 rg_ts rg_te rg_phi0 rg_cap]. auto. }
      assert (Bk : box (region_of sm s) phi1 (at_ (w_st wk))) by (split; [exact Ink|cbn; rewrite Yk; exact Fp]).
      assert (Bj : box (region_of sm s') phi1 (at_ (w_st wj))) by (split; [exact Inj|cbn; rewrite Yj; lra]).
      destruct (same_values sm s depth phi1 _ V S Bk) as [_ Syk]. destruct (same_values sm s' depth phi1 _ V' S Bj) as [_ Syj].
      assert (P0 := va_phi _ _ _ V).
      destruct (yield_inside (s_lava sm) (w_st wk)) as (y1 & Y6 & Hy1k); [rewrite Yk; rewrite Yk in K1p; lra|].
      destruct (yield_inside (s_lava sm) (w_st wj)) as (y2 & Y7 & Hy2j); [rewrite Yj; rewrite Y4 in K2p; lra|].
      assert (Y8 : y2 <= y1).
      { apply (yield_order (s_lava sm) (at_ (w_st wk)) (at_ (w_st wj))); [cbn; rewrite Exk, Pj; reflexivity|cbn; rewrite Xk, Xj; exact Ord
          |cbn; rewrite Yk, Yj; rewrite Y4 in K2p; lra|rewrite <- Syk; exact Y6|rewrite <- Syj; exact Y7]. }
      destruct (basal_inside (s_lava sm) (s_ter sm) depth (w_st wk) (va_slope _ _ _ V)) as (rh & sx & _ & _ & Eb).
      set (tb := depth * rh * ter_gravity (s_ter sm) * sin sx) in Eb.
      assert (Edj : w_depth wj = depth) by (rewrite <- H2; exact (proj1 (C17_depth_and_flux_constant sm1 _ _ _ _ Stj))).
      assert (Eb' : get_basal_shear_stress (s_lava sm) (s_ter sm) (w_depth wj) (w_st wj) = Ok tb).
      { rewrite Edj, <- Eb. apply basal_same. rewrite Exk, Pj. reflexivity. }
      destruct (so_stage _ _ _ (so_nearly _ _ _ Sk)) as [(_ & _ & _ & Zz)|(_ & _ & Hy & _)]; [lia|].
      change (yield_strength_notcompatible (s_lava sm) (s_ter sm) (w_depth wk) (w_st wk) = Ok false) in Hy. rewrite Edk in Hy.
      destruct (C32_stop_criterion _ _ _ _ _ _ Y6 Eb) as [_ [Y9 _]]. specialize (Y9 Hy).
      destruct (below_is_compatible sm s' depth phi1 V' S (w_st wj)) as [Cm Np];
        [rewrite Pj; assert (0 <= INR (Datatypes.S i) * h) by (apply Rmult_le_pos; [apply pos_INR|lra]); lra|rewrite Yj; lra|].
      assert (Pass : passes sm1 wj).
      { split; [|split; [|split]].
        - apply R_leb_false. change (get_solid_temperature (s_cryst sm) < st_temp (w_st wj)). rewrite Xj. rewrite Xk in K1t. lra.
        - exact Cm.
        - apply (C32_stop_criterion (s_lava sm) (s_ter sm) (w_depth wj) (w_st wj) y2 tb Y7 Eb'). lra.
        - apply R_leb_false. change (st_pos (w_st wj) < ter_maxlen (s_ter sm)). rewrite Pj. rewrite Exk in K1x. apply K1x. }
      assert (Fj : w_fin wj = false).
      { destruct (cs_fin _ _ _ _ _ _ _ _ _ _ _ C) as [[_ Nq]|[Fq _]]; [destruct (Nq Pass)|congruence]. }
      apply (goes_on sm1 s' depth K2 fuel' w02 w' (Datatypes.S i) wj J0 RL Stj).
      - rewrite (cs_iter _ _ _ _ _ _ _ _ _ _ _ C), Ii. reflexivity.
      - right. exact I1.
      - exact Fj.
      - constructor; [exact (sound_next _ _ _ V2 _ _ Sw Sg Fj)|exact Np].
      - intros t Q3 Q4. change (get_yield_strength (s_lava sm) (w_st wj) = Ok t) in Q3.
        change (get_basal_shear_stress (s_lava sm) (s_ter sm) (w_depth wj) (w_st wj) = Ok t) in Q4.
        rewrite Y7 in Q3. rewrite Eb' in Q4. apply Ok_inj in Q3. apply Ok_inj in Q4. lra. }
    destruct (Nx' Nlt) as [Nx1' Nx2']. fold (r2 (Datatypes.S i)) (T2 (Datatypes.S i)) (C2 (Datatypes.S i)) in Nx1', Nx2'. fold (r2 i) (T2 i) (C2 i) in Nx1', Nx2'.
    rewrite E3 in Nx1'. rewrite E4 in Nx2'. fold t2 in Nx1'. fold cc2 in Nx2'.
    split; [exact Nlt|]. rewrite Nx1', Nx2'. auto. }
  assert (Inv0 : inv 0%nat).
  { assert (H0 : (0 < w_iter w)%nat) by lia. destruct (S1 0%nat H0) as (M1 & _ & Z1 & _). destruct (Z1 eq_refl) as [Z2 Z3]. fold (r1 0%nat) in M1, Z2, Z3.
    assert (H0' : (0 < w_iter w')%nat).
    { assert (E0' : init_effusion_rate sm1 (initial_world s' [] depth) = (Ok tt, w02)) by (unfold sm1; rewrite init_step; exact E02).
      destruct (vent_init sm1 s' depth V2 []) as (w0' & E0'' & S0' & _ & J0). rewrite E0' in E0''. injection E0'' as <-.
      assert (RL := H'). unfold simulate in RL. rewrite E0' in RL.
      apply (goes_on sm1 s' depth K2 fuel' w02 w' 0%nat w02 J0 RL eq_refl J0 (or_introl eq_refl)); [exact (init_keeps_fin _ _ _ _ E0')|exact S0'|].
      intros t Y1 Y2. change (get_yield_strength (s_lava sm) (w_st w02) = Ok t) in Y1.
      change (get_basal_shear_stress (s_lava sm) (s_ter sm) (w_depth w02) (w_st w02) = Ok t) in Y2. rewrite H2, Es2 in Y2. rewrite Es2 in Y1.
      assert (Eb' : get_basal_shear_stress (s_lava sm) (s_ter sm) depth s' = Ok tbv) by (rewrite <- Etb; apply basal_same; reflexivity).
      rewrite Eb' in Y2. apply Ok_inj in Y2.
      destruct (run_vel 0%nat H0) as (v & Ev). destruct (S1 0%nat H0) as (_ & (_ & _ & A3 & _) & _). fold (r1 0%nat) in A3.
      destruct (Free 0%nat (r1 0%nat) v _ ltac:(lia) M1 Ev A3) as [_ Fp]. rewrite Z3 in Fp.
      assert (Is : inside (region_of sm s) s).
      { destruct (vent_init sm1 s depth V1 []) as (w1' & E1'' & S1' & _). assert (w1' = w01) as -> by (apply Init1; exact E1''). 
        assert (Q := sound_inside _ _ _ V1 _ (so_nearly _ _ _ S1')). rewrite Es1 in Q. exact Q. }
      assert (Is' : inside (region_of sm s') s').
      { assert (Q := sound_inside _ _ _ V2 _ (so_nearly _ _ _ S0')). rewrite Es2 in Q. exact Q. }
      assert (Bk : box (region_of sm s) phi1 (at_ s)) by (split; [exact Is|exact Fp]).
      assert (Bj : box (region_of sm s') phi1 (at_ s')) by (split; [exact Is'|change (phi' <= phi1); lra]).
      destruct (same_values sm s depth phi1 _ V S Bk) as [_ Syk]. destruct (same_values sm s' depth phi1 _ V' S Bj) as [_ Syj].
      assert (t <= t0v); [|lra].
      apply (yield_order (s_lava sm) (at_ s) (at_ s')); [reflexivity|change (st_temp s <= st_temp s); lra|change (0 <= phi' <= st_phi s); lra|rewrite <- Syk; exact Ety|rewrite <- Syj; exact Y1]. }
    destruct (S2 0%nat H0') as (_ & _ & Z1' & _). destruct (Z1' eq_refl) as [Z2' Z3']. fold (r2 0%nat) in Z2', Z3'.
    unfold inv, T1, T2, C1, C2. rewrite Z2, Z3, Z2', Z3'. split; [exact H0'|]. split; [lra|]. split; ring. }
  assert (Inv : forall i, (i <= n)%nat -> inv i).
  { induction i as [|i IH]; intros Hi; [exact Inv0|]. apply Step; [exact Hi|]. apply IH. lia. }
  split; [apply (Inv n (le_n _))|]. intros i Hi. assert (I := Inv i Hi).
  destruct (Place i Hi I) as (v1 & v2 & P3 & P4 & P5 & _). destruct I as (I1 & I2 & I3 & I4).
  destruct (S1 i ltac:(lia)) as (N1 & (A1 & A2 & A3 & _) & _). destruct (S2 i I1) as (N2 & (A1' & A2' & A3' & _) & _).
  exists (r1 i), (r2 i). split; [exact N1|]. split; [exact N2|].
  exists (st_pos s + INR i * h), (T1 i), (C1 i), v1, (T2 i), (C2 i), v2. do 8 (split; [assumption|]). split; [exact I2|]. split; [|exact P5].
  rewrite I3, I4. assert (rate * T1 i <= rate * T2 i) by (apply Rmult_le_compat_l; lra). lra.
Qed.



(** The crystal fraction of the file ("crystal_fraction" of the lava_state section)
    with the basic model of crystallisation, which keeps it to start the run with. *)
Definition with_crystals {T} (phi : T) (sm : sim T) : sim T :=
  {| s_dx := s_dx sm; s_lava := s_lava sm; s_air := s_air sm; s_ter := s_ter sm;
     s_cryst := match s_cryst sm with CrBasic _ grown ts te => CrBasic phi grown ts te | m => m end;
     s_crust := s_crust sm; s_cover := s_cover sm; s_budget := s_budget sm; s_mass := s_mass sm |}.
Lemma crystals_flux {T} {N : Num T} phi (sm : sim T) f width depth : compute_flux f (with_crystals phi sm) width depth = compute_flux f sm width depth.
Proof. destruct f as [k sg| | | | |]; [destruct k| | | | |]; reflexivity. Qed.
Lemma crystals_budget {T} {N : Num T} phi (sm : sim T) width depth : compute_heat_budget (with_crystals phi sm) width depth = compute_heat_budget sm width depth.
Proof.
  unfold compute_heat_budget. change (s_budget (with_crystals phi sm)) with (s_budget sm).
  assert (Q : forall fl acc, budget_loop fl (with_crystals phi sm) width depth acc = budget_loop fl sm width depth acc).
  { induction fl as [|f fl IH]; intros acc; [reflexivity|]. cbn [budget_loop]. rewrite !crystals_flux.
    apply functional_extensionality. intros w. unfold bind. destruct (compute_flux f sm width depth w) as [[q|e] w1]; [|reflexivity].
    destruct (compute_flux f sm width depth w1) as [[q2|e] w2]; [|reflexivity]. destruct (log_var (flux_name f) (CNum q2) w2) as [[u|e] w3]; [|reflexivity].
    now rewrite IH. }
  now rewrite Q.
Qed.
Lemma crystals_step {T} {N : Num T} phi (sm : sim T) w : single_step (with_crystals phi sm) w = single_step sm w.
Proof.
  assert (E : compute_heat_budget (with_crystals phi sm) = compute_heat_budget sm).
  { apply functional_extensionality. intros a. apply functional_extensionality. intros b. apply crystals_budget. }
  unfold single_step, step_compute. rewrite E. clear E.
  destruct sm as [dx l a t c ct cv b m]. unfold with_crystals. cbn [s_dx s_lava s_air s_ter s_cryst s_crust s_cover s_budget s_mass]. destruct c; reflexivity.
Qed.
Lemma crystals_loop {T} {N : Num T} phi (sm : sim T) : forall fuel w, run_loop (with_crystals phi sm) fuel w = run_loop sm fuel w.
Proof.
  induction fuel as [|f IH]; intros w; cbn [run_loop]; [reflexivity|]. rewrite crystals_step.
  destruct (has_finished w); [reflexivity|]. destruct (single_step sm w) as [[u|e] w']; [apply IH|reflexivity].
Qed.
Lemma crystals_init {T} {N : Num T} phi (sm : sim T) w : init_effusion_rate (with_crystals phi sm) w = init_effusion_rate sm w.
Proof.
  unfold init_effusion_rate. cbn [with_crystals s_ter].
  assert (Q : forall n i w, search_depth (with_crystals phi sm) i n w = search_depth sm i n w).
  { induction n as [|n IH]; intros i w'; [reflexivity|]. cbn [search_depth]. unfold bind.
    change (try_depth (with_crystals phi sm) (depth_at i) w') with (try_depth sm (depth_at i) w').
    destruct (try_depth sm (depth_at i) w') as [[[]|e] w1]; auto. }
  destruct (n_eqb _ _); [reflexivity|apply Q].
Qed.
Lemma crystals_simulate {T} {N : Num T} phi (sm : sim T) fuel w : simulate fuel (with_crystals phi sm) w = simulate fuel sm w.
Proof. unfold simulate. rewrite crystals_init. destruct (init_effusion_rate sm w) as [[u|e] w']; [apply crystals_loop|reflexivity]. Qed.

(** With fewer crystals the set-up is still one that only loses heat. *)
Lemma losing_fewer (sm : sim R) s depth phi' : losing sm s depth -> 0 <= phi' <= st_phi s ->
  (forall vm, lv_rel (s_lava sm) = RelPTP2 vm -> 0 < phi') -> losing sm (with_phi phi' s) depth.
Proof.
  intros [V A1 A2 A3 A4 A5 A6 A7] Hp H2.
  assert (Vr : valid_rel (region_of sm (with_phi phi' s)) (lv_rel (s_lava sm))).
  { destruct (va_lava _ _ _ V) as (_ & Q & _). destruct (lv_rel (s_lava sm)) eqn:E; cbn [valid_rel region_of rg_phi0 rg_cap rg_ts with_phi st_phi st_temp] in *;
      repeat match goal with H : _ /\ _ |- _ => destruct H end; repeat split; try assumption; try lra; try contradiction.
    all: first [now apply (H2 vm)|match goal with Q : _ \/ _ |- _ \/ _ => destruct Q; [left; assumption|right; lra] end]. }
  assert (Hcr : forall q p, compute_crust_temperature (s_crust sm) (with_phi p q) = compute_crust_temperature (s_crust sm) q) by (intros q p; destruct (s_crust sm); reflexivity).
  assert (V' : admissible sm (with_phi phi' s) depth).
  { destruct V. constructor; try assumption; [apply Hp|].
    match goal with H : valid_lava _ _ |- _ => destruct H as (Q1 & _ & Q3 & Q4) end. split; [exact Q1|]. split; [exact Vr|]. split; [exact Q3|exact Q4]. }
  constructor; try assumption.
  intros q tc (I1 & I2 & I3) E. cbn [region_of rg_x0 rg_x1 rg_ts rg_te rg_phi0 rg_cap with_phi st_pos st_temp st_phi] in *.
  apply (A3 (with_phi (st_phi q + (st_phi s - phi')) q)); [|rewrite Hcr; exact E].
  unfold inside. cbn [region_of rg_x0 rg_x1 rg_ts rg_te rg_phi0 rg_cap with_phi st_pos st_temp st_phi] in *. split; [exact I1|]. split; [exact I2|]. lra.
Qed.

Theorem C89_fewer_crystals_flow_further :
  forall (d : json R) profile mo (sm : sim R) (s : state R) depth phi' phi1 v0,
  let sm' := with_crystals phi' sm in
  let s' := with_phi phi' s in
  build_models d profile = Ok mo -> s_budget sm = mo_budget mo ->
  losing sm s depth -> smooth sm phi1 ->
  thins_with_heat (lv_melt (s_lava sm)) -> 0 < v0 -> Forall (tame sm) (s_budget sm) ->
  ter_eff_init (s_ter sm) = 0 -> moves_at_vent sm s depth ->
  0 <= phi' <= st_phi s -> (forall vm, lv_rel (s_lava sm) = RelPTP2 vm -> 0 < phi') ->
  exists h0, 0 < h0 /\ forall h n fuel fuel' w w', 0 < h <= h0 ->
    simulate fuel (with_step h sm) (initial_world s [] depth) = Some (Ok tt, w) ->
    simulate fuel' (with_step h sm') (initial_world s' [] depth) = Some (Ok tt, w') ->
    (n < w_iter w)%nat -> flows_freely v0 phi1 (w_log w) n ->
    (n < w_iter w')%nat /\
    forall i, (i <= n)%nat -> exists r r', nth_error (w_log w) i = Some r /\ nth_error (w_log w') i = Some r' /\
      at_least_as_mobile r r'.
Proof.
  intros d profile mo sm s depth phi' phi1 v0 sm' s' Hb Es K S Thin Hv0 Tame Ez Mov Hphi Hptp.
  destruct (fewer_crystals d profile mo sm s depth phi' phi1 v0 Hb Es K (losing_fewer _ _ _ _ K Hphi Hptp) S Thin Hv0 Tame Ez Mov (proj2 Hphi)) as (h0 & P0 & G).
  exists h0. split; [exact P0|]. intros h n fuel fuel' w w' Hh E E' Hn Fr.
  change (with_step h sm') with (with_crystals phi' (with_step h sm)) in E'. rewrite crystals_simulate in E'. exact (G h n fuel fuel' w w' Hh E E' Hn Fr).
Qed.
