(** * Props_CloseFlow: lava whose losses are a little different flows as far (C91) *)
From Coq Require Import Reals Lra Lia List Classical_Prop.
From Verif Require Import Base Num Json Logger World Vesicle MeltVisc RelVisc Bubbles Terrain Lava
  Thermal Flux Integrator Factory Run Frame StepLog Spec RNum RPow StepProofs LoggerProofs RowProofs StepProps StepRow Gives Steady EffArray Props_Run Props_Step Props_Budget Props_BudgetStep Props_RunOuts
  Props_Velocity Props_Rheology Props_Material Props_Terrain Props_Thermal Props_Flux ColumnProofs TableTrace Props_Table Props_Recompute
  Safe Valid Props_ValidRun Cooling Props_Cooling Recompute Lipschitz ModelLip Refine Losses Props_Refine Props_RefineRun Props_Compare Props_Weaker Faster Props_Faster Props_Finer Props_CloseLosses.
Open Scope R_scope.

(** One more step of two Euler sums for laws that differ by at most [m]. *)
Lemma drift_once h Lp m k t1 p1 t2 p2 f1 q1 f2 q2 : 0 < h -> 0 <= Lp -> 0 <= m ->
  Rabs (t1 - t2) + Rabs (p1 - p2) <= exp (Lp * (INR k * h)) * (INR k * h * m) ->
  Rabs (f1 - f2) + Rabs (q1 - q2) <= Lp * (Rabs (t1 - t2) + Rabs (p1 - p2)) + m ->
  Rabs (t1 + f1 * h - (t2 + f2 * h)) + Rabs (p1 + q1 * h - (p2 + q2 * h)) <= exp (Lp * (INR (Datatypes.S k) * h)) * (INR (Datatypes.S k) * h * m).
Proof.
  intros Hh HL Hm IH HF.
  set (g := Rabs (t1 - t2) + Rabs (p1 - p2)) in *.
  assert (Pg : 0 <= g) by (unfold g; assert (Q := Rabs_pos (t1 - t2)); assert (Q' := Rabs_pos (p1 - p2)); lra).
  assert (A1 : Rabs (t1 + f1 * h - (t2 + f2 * h)) <= Rabs (t1 - t2) + Rabs (f1 - f2) * h).
  { replace (t1 + f1 * h - (t2 + f2 * h)) with ((t1 - t2) + (f1 - f2) * h) by ring.
    eapply Rle_trans; [apply Rabs_triang|]. rewrite Rabs_mult, (Rabs_right h) by lra. lra. }
  assert (A2 : Rabs (p1 + q1 * h - (p2 + q2 * h)) <= Rabs (p1 - p2) + Rabs (q1 - q2) * h).
  { replace (p1 + q1 * h - (p2 + q2 * h)) with ((p1 - p2) + (q1 - q2) * h) by ring.
    eapply Rle_trans; [apply Rabs_triang|]. rewrite Rabs_mult, (Rabs_right h) by lra. lra. }
  assert (A3 : (Rabs (f1 - f2) + Rabs (q1 - q2)) * h <= (Lp * g + m) * h) by (apply Rmult_le_compat_r; lra).
  apply Rle_trans with ((1 + Lp * h) * g + h * m); [unfold g in *; lra|].
  rewrite S_INR. replace (Lp * ((INR k + 1) * h)) with (Lp * h + Lp * (INR k * h)) by ring. rewrite exp_plus.
  set (a := exp (Lp * h)). set (b := exp (Lp * (INR k * h))) in *.
  assert (0 <= Lp * h) by (apply Rmult_le_pos; lra). assert (0 <= INR k) by apply pos_INR.
  assert (Ea : 1 + Lp * h <= a) by apply exp_ineq1_le. assert (Eb : 1 <= b).
  { unfold b. rewrite <- exp_0. apply exp_le. repeat apply Rmult_le_pos; lra. }
  assert (B1 : (1 + Lp * h) * g <= a * (b * (INR k * h * m))) by (apply Rmult_le_compat; lra).
  assert (B2 : 1 * (h * m) <= a * b * (h * m)).
  { apply Rmult_le_compat_r; [apply Rmult_le_pos; lra|]. apply Rle_trans with (1 * 1); [lra|]. apply Rmult_le_compat; lra. }
  replace (a * b * ((INR k + 1) * h * m)) with (a * (b * (INR k * h * m)) + a * b * (h * m)) by ring. lra.
Qed.

(** ** C91 *)
(** A configuration as in C87, and a second one whose heat lost per unit of latent
    heat is within a fraction [eps] of the first one's on every warm surface.  There
    are [eps0] and [C] such that for every such second configuration with
    [eps <= eps0] and every step: wherever the first run shows lava flowing at [v0]
    or more with at most [phi1 < phi2] crystals, the second run has a row too, flows
    at [v0/2] or more, and the two rows differ by at most [C * eps]. *)
Theorem C91_slightly_other_losses_flow_as_far :
  forall (d : json R) profile mo (sm : sim R) (s : state R) depth d0 phi1 phi2 v0,
  build_models d profile = Ok mo -> s_budget sm = mo_budget mo ->
  losing sm s depth -> smooth sm phi2 -> 0 < v0 ->
  phi1 < phi2 <= st_phi s + fastest_rate (s_cryst sm) * (st_temp s - get_solid_temperature (s_cryst sm)) ->
  vent_depth sm s depth d0 -> moves_at_vent sm s d0 ->
  exists eps0 C, 0 < eps0 /\ 0 < C /\ forall (d' : json R) profile' mo' a b L eps, build_models d' profile' = Ok mo' -> b = mo_budget mo' ->
    losing (with_losses a b L sm) s depth -> 0 <= eps <= eps0 ->
    (forall u, warm_surface (get_solid_temperature (s_cryst sm)) (air_temp (s_air sm)) u ->
       warm_surface (get_solid_temperature (s_cryst sm)) (air_temp a) u ->
       Rabs (heat_loss a b u / L - heat_loss (s_air sm) (s_budget sm) u / lv_latent (s_lava sm)) <=
         eps * (heat_loss (s_air sm) (s_budget sm) u / lv_latent (s_lava sm))) ->
  forall h n fuel fuel' w w', 0 < h ->
    simulate fuel (with_step h sm) (initial_world s [] depth) = Some (Ok tt, w) ->
    simulate fuel' (with_step h (with_losses a b L sm)) (initial_world s [] depth) = Some (Ok tt, w') ->
    (n < w_iter w)%nat -> flows_freely v0 phi1 (w_log w) n ->
    (n < w_iter w')%nat /\ flows_freely (v0 / 2) phi2 (w_log w') n /\
    forall k, (k <= n)%nat -> exists r r', nth_error (w_log w) k = Some r /\ nth_error (w_log w') k = Some r' /\
      same_place_within (C * eps) r r'.
Proof.
  intros d profile mo sm s depth d0 phi1 phi2 v0 Hb Es K S Hv0 [Hphi Hcap] Vd Mov.
  assert (V := co_admissible _ _ _ K). assert (Hv2 : 0 < v0 / 2) by lra.
  destruct (C91_small_errors_in_the_losses d profile mo sm s depth phi2 (v0 / 2) Hb Es K S Hv2) as (C & PC & HC).
  destruct (gradients_full sm s depth phi2 (v0 / 2) V S Hv2) as (D & su & vel & G0 & rate0 & (_ & Prate0 & DG & _) & HG).
  destruct (HG d profile mo (s_air sm) (s_budget sm) (lv_latent (s_lava sm)) Hb Es) as ((LF & B & HL & HB & HF) & W1 & HG1);
    [rewrite with_losses_same; exact K|]. rewrite with_losses_same in HG1.
  set (F1 := fun p => - (heat_loss (s_air sm) (s_budget sm) (su p) / (lv_latent (s_lava sm) * G0 p))) in *.
  assert (PL : 0 < lv_latent (s_lava sm)) by apply (va_lava _ _ _ V).
  destruct (vent_init sm s depth V []) as (w0 & E0 & S0 & F0 & I0).
  assert (Hd0 : w_depth w0 = d0) by (apply (vent_depth_fun sm s depth); [exists w0; auto|exact Vd]).
  assert (Pd0 : 0 < d0) by (rewrite <- Hd0; exact (so_depth _ _ _ S0)).
  destruct (speed_nearby sm s depth phi2 v0 d0 V S Hv0 Pd0) as (eta & Peta & Near).
  destruct (sm_cryst _ _ S) as (cr1 & grown & ts & te & Ecr).
  set (rate := fastest_rate (s_cryst sm)) in *.
  assert (Prate : 0 < rate).
  { assert (Vc := va_cryst _ _ _ V). unfold rate. rewrite Ecr in Vc |- *. cbn [valid_cryst fastest_rate] in *. apply Rdiv_lt_0_compat; lra. }
  set (Lp := (1 + rate0) * LF). set (M := (1 + rate0) * B). set (X := ter_maxlen (s_ter sm) - st_pos s).
  assert (HLp : 0 <= Lp) by (unfold Lp; apply Rmult_le_pos; lra). assert (HM : 0 <= M) by (unfold M; apply Rmult_le_pos; lra).
  assert (PX : 0 < X). { unfold X. destruct (va_pos _ _ _ V). lra. }
  set (ZZ := exp (Lp * X) * (X * M)). assert (HZ : 0 <= ZZ).
  { unfold ZZ. apply Rmult_le_pos; [apply Rlt_le, exp_pos|apply Rmult_le_pos; lra]. }
  set (tol := Rmin eta ((phi2 - phi1) / 2)). assert (Ptol : 0 < tol) by (unfold tol; apply Rmin_glb_lt; lra).
  assert (Tol1 : tol <= eta) by apply Rmin_l. assert (Tol2 : tol <= (phi2 - phi1) / 2) by apply Rmin_r.
  exists (tol / (ZZ + 1)), C. split; [apply Rdiv_lt_0_compat; lra|]. split; [exact PC|].
  intros d' profile' mo' a0 b0 L0 eps Hb' Es' K' [Heps Heps0] Near0 h n fuel fuel' w w' Hh H H' Hn Free.
  specialize (HC d' profile' mo' a0 b0 L0 eps Hb' Es' K' Heps Near0).
  destruct (HG d' profile' mo' a0 b0 L0 Hb' Es' K') as (_ & W2 & HG2). clear HG.
  set (F2 := fun p => - (heat_loss a0 b0 (su p) / (L0 * G0 p))) in *.
  assert (PL0 : 0 < L0) by apply (va_lava _ _ _ (co_admissible _ _ _ K')).
  assert (HK : ZZ * eps <= tol).
  { assert ((ZZ + 1) * eps <= (ZZ + 1) * (tol / (ZZ + 1))) by (apply Rmult_le_compat_l; lra).
    replace ((ZZ + 1) * (tol / (ZZ + 1))) with tol in H0 by (field; lra). lra. }
  (* the two laws at one point *)
  assert (Laws : forall p, D p -> Rabs (F1 p - F2 p) <= eps * B).
  { intros p Dp. assert (Q := Near0 _ (W1 p Dp) (W2 p Dp)). destruct (DG p Dp) as [_ Pg].
    assert (Hb1 : Rabs (F1 p) <= B) by exact (proj1 (HF p Dp)).
    set (q1 := heat_loss (s_air sm) (s_budget sm) (su p) / lv_latent (s_lava sm)) in *. set (q2 := heat_loss a0 b0 (su p) / L0) in *.
    assert (E1 : F1 p = - (q1 / G0 p)) by (unfold F1, q1; field; lra). assert (E2 : F2 p = - (q2 / G0 p)) by (unfold F2, q2; field; lra).
    rewrite E1 in Hb1. rewrite E1, E2. replace (- (q1 / G0 p) - - (q2 / G0 p)) with ((q2 - q1) * / G0 p) by (field; lra).
    assert (Pi : 0 < / G0 p) by (apply Rinv_0_lt_compat; exact Pg). rewrite Rabs_mult, (Rabs_right (/ G0 p)) by lra.
    apply Rle_trans with (eps * (q1 * / G0 p)); [rewrite <- Rmult_assoc; apply Rmult_le_compat_r; lra|].
    apply Rmult_le_compat_l; [exact Heps|]. eapply Rle_trans; [apply Rle_abs|]. rewrite <- Rabs_Ropp. exact Hb1. }
  set (sm1 := with_step h sm) in *. set (sm2 := with_step h (with_losses a0 b0 L0 sm)) in *.
  assert (K1 : losing sm1 s depth) by now apply losing_step. assert (K2 : losing sm2 s depth) by now apply losing_step.
  assert (V1 := co_admissible _ _ _ K1). assert (V2 := co_admissible _ _ _ K2).
  assert (Q1 : s_dx sm1 <> 0) by (change (h <> 0); lra). assert (Q2 : s_dx sm2 <> 0) by (change (h <> 0); lra).
  assert (S1 := run_sequences sm1 _ _ _ w Q1 H). assert (S2 := run_sequences sm2 _ _ _ w' Q2 H'). cbv zeta in S1, S2.
  change (s_dx sm1) with h in *. change (s_dx sm2) with h in *.
  set (r1 k := nth k (w_log w) []) in *. set (r2 k := nth k (w_log w') []) in *.
  set (T1 k := value (r1 k) "core_temperature") in *. set (T2 k := value (r2 k) "core_temperature") in *.
  set (P1 k := value (r1 k) "crystal_fraction") in *. set (P2 k := value (r2 k) "crystal_fraction") in *.
  set (p1 k := {| px := st_pos s + INR k * h; pt := T1 k; pp := P1 k |}).
  set (p2 j := {| px := st_pos s + INR j * h; pt := T2 j; pp := P2 j |}).
  assert (E01 : init_effusion_rate sm1 (initial_world s [] depth) = (Ok tt, w0)) by (unfold sm1; rewrite init_step; exact E0).
  assert (E02 : init_effusion_rate sm2 (initial_world s [] depth) = (Ok tt, w0)) by (unfold sm2; rewrite init_losses; exact E0).
  destruct Mov as (ty & tx & Ety & Etx & Hmov).
  assert (Ety' : get_yield_strength (s_lava sm) (w_st w0) = Ok ty).
  { rewrite (init_state _ _ _ _ E0). unfold get_yield_strength. rewrite yield_strain. exact Ety. }
  assert (Etx' : get_basal_shear_stress (s_lava sm) (s_ter sm) (w_depth w0) (w_st w0) = Ok tx).
  { rewrite Hd0, (init_state _ _ _ _ E0). unfold get_basal_shear_stress. rewrite basal_strain. exact Etx. }
  (* a row of the first run *)
  assert (First : forall k, (k <= n)%nat -> exists a b c,
    box (region_of sm s) phi2 (p1 k) /\ computes_bulk_viscosity (s_lava sm) (state_at (p1 k)) = Ok a /\
    get_yield_strength (s_lava sm) (state_at (p1 k)) = Ok b /\ get_basal_shear_stress (s_lava sm) (s_ter sm) d0 (state_at (p1 k)) = Ok c /\
    b < c /\ v0 <= jeffreys_bingham d0 b c a /\ holds (r1 k) "mean_velocity" (jeffreys_bingham d0 b c a) /\
    P1 k <= phi1 /\ D (p1 k) /\ value (r1 k) "dtemp_dx" = F1 (p1 k) /\ value (r1 k) "dphi_dx" = - rate0 * F1 (p1 k) /\
    st_pos s + INR k * h < ter_maxlen (s_ter sm) /\ T1 k <= st_temp s).
  { intros k Hk. assert (Hk1 : (k < w_iter w)%nat) by lia.
    destruct (S1 k Hk1) as (N1 & R1 & _). fold (r1 k) (T1 k) (P1 k) in N1, R1.
    destruct (row_world sm1 s depth V1 fuel w k _ H Hk1 N1) as
      (w0' & wi & wj & v & rho & wd & sl & hb & ra & dT & dt & E0' & J0 & S0' & RL & St & _ & _ & CS & Sw & _ & Ii & Ed & Ex & Et & Ep & Ev & _).
    assert (w0' = w0) as -> by congruence. change (s_dx sm1) with h in Ex.
    assert (R1' := R1). destruct R1' as (A1 & A2 & A3 & A4 & A5).
    assert (X1 : st_temp (w_st wi) = T1 k) by exact (holds_fun _ _ _ _ Et A2).
    assert (Y1 : st_phi (w_st wi) = P1 k) by exact (holds_fun _ _ _ _ Ep A3).
    destruct (Free k (r1 k) v (P1 k) Hk N1 Ev A3) as [Fv Fp].
    destruct (cs_budget _ _ _ _ _ _ _ _ _ _ _ CS) as (new & w2 & Mv & _).
    change (mean_velocity (s_lava sm) (s_ter sm) (w_depth wi) (w_st wi) = Ok (v, new)) in Mv. rewrite Ed, Hd0 in Mv.
    destruct (C20_velocity_only_if _ _ _ _ _ _ Mv) as (a & b & c & Za & Zb & Zc & _ & _ & _ & -> & _).
    assert (Ins := sound_inside _ _ _ V1 _ (so_nearly _ _ _ Sw)). change (region_of sm1 s) with (region_of sm s) in Ins.
    assert (Eat : at_ (w_st wi) = p1 k) by (unfold at_, p1; rewrite Ex, X1, Y1; reflexivity).
    assert (Bx : box (region_of sm s) phi2 (p1 k)).
    { rewrite <- Eat. split; [exact Ins|]. cbn. rewrite Y1. lra. }
    destruct (HG1 h fuel w Hh H k (r1 k) _ _ _ _ _ _ Hk1 N1 R1 Ev) as [Gx G]. destruct (G ltac:(lra) ltac:(lra)) as (GD & GF & GP & _).
    (* the state of the row, up to the strain rate and the time *)
    assert (Yv : forall y, get_yield_strength (s_lava sm) (w_st wi) = Ok y -> get_yield_strength (s_lava sm) (state_at (p1 k)) = Ok y).
    { intros y <-. destruct (yield_smooth (region_of sm s) phi2 (proj1 (va_pos _ _ _ V)) (va_phi _ _ _ V) (s_lava sm) (sm_yield_ok _ _ S) (sm_yield _ _ S)) as (f & _ & Ef).
      rewrite (returns_at _ _ _ _ Ef Bx). rewrite (Ef (w_st wi)) by (rewrite Eat; exact Bx). rewrite Eat. reflexivity. }
    assert (Mv' : forall y, computes_bulk_viscosity (s_lava sm) (w_st wi) = Ok y -> computes_bulk_viscosity (s_lava sm) (state_at (p1 k)) = Ok y).
    { intros y <-. destruct (viscosity_smooth (region_of sm s) phi2 (proj1 (va_pos _ _ _ V)) (va_phi _ _ _ V) (s_lava sm) (va_lava _ _ _ V) (sm_melt _ _ S) (sm_rel _ _ S) (sm_bub _ _ S)) as (f & _ & Ef).
      rewrite (returns_at _ _ _ _ Ef Bx). rewrite (Ef (w_st wi)) by (rewrite Eat; exact Bx). rewrite Eat. reflexivity. }
    exists a, b, c. split; [exact Bx|]. split; [exact (Mv' _ Za)|]. split; [exact (Yv _ Zb)|].
    split; [rewrite <- Zc; apply basal_same; cbn; rewrite Ex; reflexivity|].
    split.
    { destruct k as [|k].
      - injection St as <-. rewrite Ety' in Zb. rewrite Hd0 in Etx'. rewrite Etx' in Zc. injection Zb as <-. injection Zc as <-. exact Hmov.
      - destruct (so_stage _ _ _ (so_nearly _ _ _ Sw)) as [(_ & _ & _ & Z)|(_ & _ & Hy & _)]; [lia|].
        change (yield_strength_notcompatible (s_lava sm) (s_ter sm) (w_depth wi) (w_st wi) = Ok false) in Hy. rewrite Ed, Hd0 in Hy.
        apply (C32_stop_criterion _ _ _ _ _ _ Zb Zc) in Hy. exact Hy. }
    split; [exact Fv|]. split; [exact Ev|]. split; [exact Fp|]. split; [exact GD|]. split; [exact GF|]. split; [exact GP|]. split; [exact Gx|].
    rewrite <- X1. apply Ins. }
  assert (Xn : st_pos s + INR n * h < ter_maxlen (s_ter sm)).
  { destruct (First n (le_n _)) as (? & ? & ? & _ & _ & _ & _ & _ & _ & _ & _ & _ & _ & _ & Q & _). exact Q. }
  (* a good row of the second run *)
  set (good := fun j => (j < w_iter w')%nat /\ exists v, holds (r2 j) "mean_velocity" v /\ v0 / 2 <= v /\ P2 j <= phi2 /\
                        P2 j = st_phi s + rate * (st_temp s - T2 j)).
  assert (Grad : forall j, good j -> D (p2 j) /\ value (r2 j) "dtemp_dx" = F2 (p2 j) /\ value (r2 j) "dphi_dx" = - rate0 * F2 (p2 j)).
  { intros j (I1 & v & Hv & Gv & Gp & _). destruct (S2 j I1) as (N2 & R2 & _). fold (r2 j) (T2 j) (P2 j) in N2, R2.
    destruct (HG2 h fuel' w' Hh H' j (r2 j) _ _ _ _ _ v I1 N2 R2 Hv) as [_ G]. destruct (G Gv Gp) as (G1 & G2 & G3 & _). auto. }
  (* the velocity of a row near a row of the first run *)
  assert (Speed : forall j k, (j < w_iter w')%nat -> (k <= n)%nat -> dist (p1 k) (p2 j) <= tol -> P2 j <= phi2 ->
    exists v, holds (r2 j) "mean_velocity" v /\ v0 / 2 <= v).
  { intros j k Hj Hk Dk Gp. destruct (S2 j Hj) as (N2 & R2 & _). fold (r2 j) (T2 j) (P2 j) in N2, R2.
    destruct (row_world sm2 s depth V2 fuel' w' j _ H' Hj N2) as
      (w0' & wi & wj & v & rho & wd & sl & hb & ra & dT & dt & E0' & J0 & S0' & RL & St & _ & _ & CS & Sw & _ & Ii & Ed & Ex & Et & Ep & Ev & _).
    assert (w0' = w0) as -> by congruence. change (s_dx sm2) with h in Ex. destruct R2 as (A1 & A2 & A3 & A4 & A5).
    assert (X2 : st_temp (w_st wi) = T2 j) by exact (holds_fun _ _ _ _ Et A2).
    assert (Y2 : st_phi (w_st wi) = P2 j) by exact (holds_fun _ _ _ _ Ep A3).
    destruct (cs_budget _ _ _ _ _ _ _ _ _ _ _ CS) as (new & w2 & Mv & _).
    change (mean_velocity (s_lava sm) (s_ter sm) (w_depth wi) (w_st wi) = Ok (v, new)) in Mv. rewrite Ed, Hd0 in Mv.
    destruct (C20_velocity_only_if _ _ _ _ _ _ Mv) as (a' & b' & c' & Za & Zb & Zc & _ & _ & _ & -> & _).
    assert (Ins := sound_inside _ _ _ V2 _ (so_nearly _ _ _ Sw)). change (region_of sm2 s) with (region_of sm s) in Ins.
    assert (Eat : at_ (w_st wi) = p2 j) by (unfold at_, p2; rewrite Ex, X2, Y2; reflexivity).
    assert (Bx : box (region_of sm s) phi2 (p2 j)).
    { rewrite <- Eat. split; [exact Ins|]. cbn. rewrite Y2. lra. }
    assert (Yv : get_yield_strength (s_lava sm) (state_at (p2 j)) = Ok b').
    { rewrite <- Zb. destruct (yield_smooth (region_of sm s) phi2 (proj1 (va_pos _ _ _ V)) (va_phi _ _ _ V) (s_lava sm) (sm_yield_ok _ _ S) (sm_yield _ _ S)) as (f & _ & Ef).
      rewrite (returns_at _ _ _ _ Ef Bx). rewrite (Ef (w_st wi)) by (rewrite Eat; exact Bx). rewrite Eat. reflexivity. }
    assert (Mv' : computes_bulk_viscosity (s_lava sm) (state_at (p2 j)) = Ok a').
    { rewrite <- Za. destruct (viscosity_smooth (region_of sm s) phi2 (proj1 (va_pos _ _ _ V)) (va_phi _ _ _ V) (s_lava sm) (va_lava _ _ _ V) (sm_melt _ _ S) (sm_rel _ _ S) (sm_bub _ _ S)) as (f & _ & Ef).
      rewrite (returns_at _ _ _ _ Ef Bx). rewrite (Ef (w_st wi)) by (rewrite Eat; exact Bx). rewrite Eat. reflexivity. }
    destruct (First k Hk) as (a & b & c & Bk & Ca & Cb & Cc & Cbc & Cv & _).
    exists (jeffreys_bingham d0 b' c' a'). split; [exact Ev|].
    refine (proj2 (Near (p1 k) (p2 j) a b c a' b' c' Bk Bx (Rle_trans _ _ _ Dk Tol1) Ca Cb Cc Mv' Yv _ Cbc Cv)).
    rewrite <- Zc. apply basal_same. cbn. rewrite Ex. reflexivity. }
  (* the next row, if it is near a row of the first run *)
  assert (Next : forall j k, good j -> (k <= n)%nat -> INR (Datatypes.S j) * h <= INR n * h ->
    let q := {| px := st_pos s + INR (Datatypes.S j) * h; pt := T2 j + F2 (p2 j) * h; pp := P2 j + - rate0 * F2 (p2 j) * h |} in
    dist (p1 k) q <= tol -> good (Datatypes.S j) /\ p2 (Datatypes.S j) = q).
  { intros j k G Hk Hj q Dk. destruct (Grad j G) as (GD & GF & GP). destruct G as (I1 & vj & Hvj & Gv & Gp & Glin).
    destruct (S2 j I1) as (N2 & R2 & _ & Nx). fold (r2 j) (T2 j) (P2 j) in N2, R2.
    destruct (row_world sm2 s depth V2 fuel' w' j _ H' I1 N2) as
      (w0' & wi & wj & v & rho & wd & sl & hb & ra & dT & dt & E0' & J0 & S0' & RL & St & Stj & Sg & CS & Sw & Fi & Ii & Ed & Ex & Et & Ep & Ev & EdT & Edp).
    assert (w0' = w0) as -> by congruence. change (s_dx sm2) with h in Ex. destruct R2 as (A1 & A2 & A3 & A4 & A5).
    assert (X2 : st_temp (w_st wi) = T2 j) by exact (holds_fun _ _ _ _ Et A2).
    assert (Y2 : st_phi (w_st wi) = P2 j) by exact (holds_fun _ _ _ _ Ep A3).
    assert (Z2 : dT = F2 (p2 j)) by (rewrite <- GF; exact (holds_fun _ _ _ _ EdT A4)).
    assert (Z3 : - ra * dT = - rate0 * F2 (p2 j)) by (rewrite <- GP; exact (holds_fun _ _ _ _ Edp A5)).
    assert (Era : ra = rate).
    { assert (Q := cs_rate _ _ _ _ _ _ _ _ _ _ _ CS). change (s_cryst sm2) with (s_cryst sm) in Q. unfold rate. assert (Vc := va_cryst _ _ _ V).
      rewrite Ecr in Q, Vc |- *. cbn [valid_cryst compute_crystallization_rate fastest_rate] in *. rnum. rewrite R_div_ok in Q by lra. injection Q as <-. reflexivity. }
    assert (Xj : st_temp (w_st wj) = pt q).
    { rewrite (cs_temp _ _ _ _ _ _ _ _ _ _ _ CS), X2, Z2. reflexivity. }
    assert (Yj : st_phi (w_st wj) = pp q).
    { rewrite (cs_phi _ _ _ _ _ _ _ _ _ _ _ CS), Y2. rnum. change (s_dx sm2) with h. cbn [pp q]. rewrite <- Z3. ring. }
    assert (Pj : st_pos (w_st wj) = px q).
    { rewrite (cs_pos _ _ _ _ _ _ _ _ _ _ _ CS), Ex. cbn [px q]. rewrite S_INR. rnum. change (s_dx sm2) with h. ring. }
    assert (Lin : pp q = st_phi s + rate * (st_temp s - pt q)).
    { cbn [pp pt q]. rewrite Glin, <- Z3, Era, <- Z2. ring. }
    destruct (First k Hk) as (a & b & c & Bk & Ca & Cb & Cc & Cbc & Cv & _ & Cp & _).
    unfold dist in Dk. assert (B1 := Rabs_pos (px (p1 k) - px q)). assert (B2 := Rabs_pos (pt (p1 k) - pt q)). assert (B3 := Rabs_pos (pp (p1 k) - pp q)).
    assert (Hq2 : pp q < phi2).
    { assert (Q := Rle_abs (- (pp (p1 k) - pp q))). rewrite Rabs_Ropp in Q. change (pp (p1 k)) with (P1 k) in *. lra. }
    assert (Ht : get_solid_temperature (s_cryst sm) < pt q) by (apply Rmult_lt_reg_l with rate; [exact Prate|]; lra).
    assert (Inw := sound_inside _ _ _ V2 _ (so_nearly _ _ _ Sw)). destruct Inw as (K2x & K2t & K2p).
    change (region_of sm2 s) with (region_of sm s) in *. cbn [region_of rg_x0 rg_x1 rg_ts rg_te rg_phi0 rg_cap] in K2x, K2t, K2p.
    assert (Gr := cs_phi_grows _ _ _ _ _ _ _ _ _ _ _ CS). rnum. apply R_leb_false in Gr. rewrite Yj, Y2 in Gr. rewrite Y2 in K2p.
    assert (Tup : pt q <= st_temp s) by (apply Rmult_le_reg_l with rate; [exact Prate|]; lra).
    assert (Hx : st_pos s <= px q < ter_maxlen (s_ter sm)).
    { cbn [px q]. assert (0 <= INR (Datatypes.S j) * h) by (apply Rmult_le_pos; [apply pos_INR|lra]). lra. }
    assert (Inj : inside (region_of sm s) (w_st wj)).
    { unfold inside. cbn [region_of rg_x0 rg_x1 rg_ts rg_te rg_phi0 rg_cap]. rewrite Xj, Yj, Pj. fold rate. split; [exact Hx|]. split; lra. }
    assert (Eat : at_ (w_st wj) = q) by (unfold at_; rewrite Xj, Yj, Pj; reflexivity).
    assert (Bq : box (region_of sm s) phi2 q) by (rewrite <- Eat; split; [exact Inj|cbn; rewrite Yj; lra]).
    (* the stresses there *)
    destruct (yield_smooth (region_of sm s) phi2 (proj1 (va_pos _ _ _ V)) (va_phi _ _ _ V) (s_lava sm) (sm_yield_ok _ _ S) (sm_yield _ _ S)) as (fy & _ & Efy).
    destruct (viscosity_smooth (region_of sm s) phi2 (proj1 (va_pos _ _ _ V)) (va_phi _ _ _ V) (s_lava sm) (va_lava _ _ _ V) (sm_melt _ _ S) (sm_rel _ _ S) (sm_bub _ _ S)) as (fm & _ & Efm).
    destruct (basal_inside (s_lava sm) (s_ter sm) d0 (state_at q) (va_slope _ _ _ V)) as (rh & sx & _ & _ & Eb).
    set (tb := d0 * rh * ter_gravity (s_ter sm) * sin sx) in Eb.
    destruct (Near (p1 k) q a b c (fm q) (fy q) tb Bk Bq) as [Hst _];
      [unfold dist; lra|exact Ca|exact Cb|exact Cc|exact (returns_at _ _ _ _ Efm Bq)|exact (returns_at _ _ _ _ Efy Bq)|exact Eb|exact Cbc|exact Cv|].
    assert (Edj : w_depth wj = d0) by (rewrite <- Hd0; exact (proj1 (C17_depth_and_flux_constant sm2 _ _ _ _ Stj))).
    assert (Y5 : get_yield_strength (s_lava sm) (w_st wj) = Ok (fy q)) by (rewrite (Efy (w_st wj)) by (rewrite Eat; exact Bq); rewrite Eat; reflexivity).
    assert (Eb' : get_basal_shear_stress (s_lava sm) (s_ter sm) (w_depth wj) (w_st wj) = Ok tb).
    { rewrite Edj, <- Eb. apply basal_same. rewrite Pj. reflexivity. }
    destruct (below_is_compatible sm s depth phi2 V S (w_st wj)) as [Cm Np];
      [rewrite Pj; destruct (va_pos _ _ _ V); lra|rewrite Yj; lra|].
    assert (Pass : passes sm2 wj).
    { split; [|split; [|split]].
      - apply R_leb_false. change (get_solid_temperature (s_cryst sm) < st_temp (w_st wj)). rewrite Xj. exact Ht.
      - exact Cm.
      - apply (C32_stop_criterion (s_lava sm) (s_ter sm) (w_depth wj) (w_st wj) (fy q) tb Y5 Eb'). exact Hst.
      - apply R_leb_false. change (st_pos (w_st wj) < ter_maxlen (s_ter sm)). rewrite Pj. apply Hx. }
    assert (Fj : w_fin wj = false).
    { destruct (cs_fin _ _ _ _ _ _ _ _ _ _ _ CS) as [[_ Nq]|[Fq _]]; [destruct (Nq Pass)|congruence]. }
    assert (Nlt : (Datatypes.S j < w_iter w')%nat).
    { apply (goes_on sm2 s depth K2 fuel' w0 w' (Datatypes.S j) wj J0 RL Stj).
      - rewrite (cs_iter _ _ _ _ _ _ _ _ _ _ _ CS), Ii. reflexivity.
      - right. exact I1.
      - exact Fj.
      - constructor; [exact (sound_next _ _ _ V2 _ _ Sw Sg Fj)|exact Np].
      - intros t Q3 Q4. change (get_yield_strength (s_lava sm) (w_st wj) = Ok t) in Q3.
        change (get_basal_shear_stress (s_lava sm) (s_ter sm) (w_depth wj) (w_st wj) = Ok t) in Q4.
        rewrite Y5 in Q3. rewrite Eb' in Q4. injection Q3 as Q3. injection Q4 as Q4. lra. }
    destruct (Nx Nlt) as [Nx1 Nx2]. fold (r2 (Datatypes.S j)) (T2 (Datatypes.S j)) (P2 (Datatypes.S j)) in Nx1, Nx2. fold (r2 j) (T2 j) (P2 j) in Nx1, Nx2.
    rewrite GF in Nx1. rewrite GP in Nx2.
    assert (Eq : p2 (Datatypes.S j) = q) by (unfold p2, q; rewrite Nx1, Nx2; reflexivity).
    split; [|exact Eq].
    assert (P2q : P2 (Datatypes.S j) = pp q) by exact Nx2. assert (T2q : T2 (Datatypes.S j) = pt q) by exact Nx1.
    destruct (Speed (Datatypes.S j) k Nlt Hk) as (v' & Hv' & Gv'); [rewrite Eq; unfold dist; lra|rewrite P2q; lra|].
    split; [exact Nlt|]. exists v'. rewrite P2q, T2q. repeat split; try assumption; lra. }
  (* the first row *)
  assert (Good0 : good 0%nat).
  { assert (Hw : (0 < w_iter w')%nat).
    { destruct (vent_init sm2 s depth V2 []) as (w0' & E0'' & S0' & Fi' & _). rewrite E02 in E0''. injection E0'' as <-.
      assert (RL := H'). unfold simulate in RL. rewrite E02 in RL.
      assert (Fw : w_fin w0 = false).
      { destruct (S1 0%nat ltac:(lia)) as (N1 & _).
        destruct (row_world sm1 s depth V1 fuel w 0%nat _ H ltac:(lia) N1) as
          (w0' & wi & ? & ? & ? & ? & ? & ? & ? & ? & ? & E0' & _ & _ & _ & St & _ & _ & _ & _ & Fi & _).
        assert (w0' = w0) as -> by congruence. injection St as <-. exact Fi. }
      apply (goes_on sm2 s depth K2 fuel' w0 w' 0%nat w0 I0 RL eq_refl I0 (or_introl eq_refl)); [exact Fw|exact S0'|].
      intros t Y1 Y2. change (get_yield_strength (s_lava sm) (w_st w0) = Ok t) in Y1.
      change (get_basal_shear_stress (s_lava sm) (s_ter sm) (w_depth w0) (w_st w0) = Ok t) in Y2. rewrite Ety' in Y1. rewrite Etx' in Y2.
      injection Y1 as Y1. injection Y2 as Y2. lra. }
    destruct (S2 0%nat Hw) as (_ & _ & Z & _). destruct (Z eq_refl) as [Z1 Z2]. fold (r2 0%nat) (T2 0%nat) (P2 0%nat) in Z1, Z2.
    destruct (S1 0%nat ltac:(lia)) as (_ & _ & Y & _). destruct (Y eq_refl) as [Y1 Y2]. fold (r1 0%nat) (T1 0%nat) (P1 0%nat) in Y1, Y2.
    destruct (First 0%nat ltac:(lia)) as (? & ? & ? & _ & _ & _ & _ & _ & _ & _ & Cp & _).
    destruct (Speed 0%nat 0%nat Hw ltac:(lia)) as (v & Hv & Gv).
    - unfold dist, p1, p2. cbn [px pt pp INR]. rewrite Y1, Y2, Z1, Z2, !Rmult_0_l, !Rminus_diag_eq, Rabs_R0 by reflexivity. lra.
    - lra.
    - split; [exact Hw|]. exists v. repeat split; try assumption; [lra|]. rewrite Z1, Z2. ring. }
  (* row by row *)
  set (bound := fun k : nat => exp (Lp * (INR k * h)) * (INR k * h * (M * eps))).
  assert (Small : forall k, (k <= n)%nat -> bound k <= tol).
  { intros k Hk. eapply Rle_trans; [|exact HK]. unfold bound, ZZ.
    replace (exp (Lp * X) * (X * M) * eps) with (exp (Lp * X) * (X * (M * eps))) by ring.
    assert (Hx : 0 <= INR k * h <= X).
    { split; [apply Rmult_le_pos; [apply pos_INR|lra]|]. apply Rle_trans with (INR n * h); [|unfold X; lra].
      apply Rmult_le_compat_r; [lra|]. now apply le_INR. }
    apply Rmult_le_compat.
    - apply Rlt_le, exp_pos.
    - apply Rmult_le_pos; [lra|]. apply Rmult_le_pos; assumption.
    - apply exp_le. apply Rmult_le_compat_l; lra.
    - apply Rmult_le_compat_r; [apply Rmult_le_pos; assumption|lra]. }
  assert (All : forall k, (k <= n)%nat -> good k /\ Rabs (T1 k - T2 k) + Rabs (P1 k - P2 k) <= bound k).
  { induction k as [|k IH]; intros Hk.
    - split; [exact Good0|].
      destruct (S1 0%nat ltac:(lia)) as (_ & _ & Y & _). destruct (Y eq_refl) as [Y1 Y2]. fold (r1 0%nat) (T1 0%nat) (P1 0%nat) in Y1, Y2.
      destruct (S2 0%nat (proj1 Good0)) as (_ & _ & Z0 & _). destruct (Z0 eq_refl) as [Z1 Z2]. fold (r2 0%nat) (T2 0%nat) (P2 0%nat) in Z1, Z2.
      rewrite Y1, Y2, Z1, Z2, !Rminus_diag_eq, Rabs_R0 by reflexivity. unfold bound. cbn [INR]. rewrite !Rmult_0_l, Rmult_0_r. lra.
    - destruct (IH ltac:(lia)) as [Gk Bk]. destruct (Grad k Gk) as (GD & _).
      destruct (First k ltac:(lia)) as (? & ? & ? & _ & _ & _ & _ & _ & _ & _ & _ & CD & CF & CP & _).
      destruct (S1 k ltac:(lia)) as (_ & _ & _ & Nx). destruct (Nx ltac:(lia)) as [Nx1 Nx2].
      fold (r1 (Datatypes.S k)) (T1 (Datatypes.S k)) (P1 (Datatypes.S k)) in Nx1, Nx2. fold (r1 k) (T1 k) (P1 k) in Nx1, Nx2. rewrite CF in Nx1. rewrite CP in Nx2.
      assert (Ld : Rabs (F1 (p1 k) - F1 (p2 k)) <= LF * dist (p1 k) (p2 k)) by exact (proj2 (HF _ CD) _ GD).
      unfold dist in Ld. cbn [px pt pp p1 p2] in Ld. rewrite (Rminus_diag_eq (st_pos s + INR k * h)), Rabs_R0 in Ld by reflexivity.
      assert (La := Laws _ GD).
      assert (Once : Rabs (T1 k + F1 (p1 k) * h - (T2 k + F2 (p2 k) * h)) + Rabs (P1 k + - rate0 * F1 (p1 k) * h - (P2 k + - rate0 * F2 (p2 k) * h)) <= bound (Datatypes.S k)).
      { apply drift_once; [exact Hh|exact HLp|apply Rmult_le_pos; assumption|exact Bk|].
        rewrite <- Rmult_minus_distr_l, Rabs_mult, Rabs_Ropp, (Rabs_right rate0) by lra.
        assert (Tri : Rabs (F1 (p1 k) - F2 (p2 k)) <= LF * (Rabs (T1 k - T2 k) + Rabs (P1 k - P2 k)) + eps * B).
        { replace (F1 (p1 k) - F2 (p2 k)) with ((F1 (p1 k) - F1 (p2 k)) + (F1 (p2 k) - F2 (p2 k))) by ring. eapply Rle_trans; [apply Rabs_triang|]. lra. }
        assert (Q := Rmult_le_compat_l (1 + rate0) _ _ ltac:(lra) Tri). unfold Lp, M. lra. }
      destruct (Next k (Datatypes.S k) Gk Hk) as [G1 G2].
      + apply Rmult_le_compat_r; [lra|]. now apply le_INR.
      + unfold dist. cbn [px pt pp p1]. rewrite (Rminus_diag_eq (st_pos s + INR (Datatypes.S k) * h)), Rabs_R0 by reflexivity.
        rewrite Nx1, Nx2. assert (Q := Small _ Hk). lra.
      + split; [exact G1|]. change (T2 (Datatypes.S k)) with (pt (p2 (Datatypes.S k))). change (P2 (Datatypes.S k)) with (pp (p2 (Datatypes.S k))).
        rewrite G2. cbn [pt pp]. rewrite Nx1, Nx2. exact Once. }
  assert (Flow : forall k, (k <= n)%nat -> (k < w_iter w')%nat /\ flows_freely (v0 / 2) phi2 (w_log w') k).
  { intros k Hk. split; [apply (All k Hk)|]. intros j r v phi Hj Hr Hv Hp.
    destruct (All j ltac:(lia)) as [(I1 & v' & Hv' & Gv & Gp & _) _]. destruct (S2 j I1) as (N2 & (_ & _ & A3 & _) & _). fold (r2 j) (P2 j) in N2, A3.
    rewrite N2 in Hr. injection Hr as <-. rewrite <- (holds_fun _ _ _ _ Hv' Hv), <- (holds_fun _ _ _ _ A3 Hp). auto. }
  destruct (Flow n (le_n _)) as [Fl1 Fl2]. split; [exact Fl1|]. split; [exact Fl2|]. intros k Hk. destruct (Flow k Hk) as [Fk1 Fk2].
  destruct (HC h k fuel fuel' w w' Hh H H' ltac:(lia) Fk1) as (r & r' & x & temp & phi & v & temp' & phi' & v' & Q); [|exact Fk2|].
  { intros i r v phi Hi Hr Hv Hp. destruct (Free i r v phi ltac:(lia) Hr Hv Hp). split; lra. }
  destruct Q as (U1 & U2 & U3 & U4 & U5 & U6 & U7 & U8 & U9 & U10 & U11).
  exists r, r'. split; [exact U1|]. split; [exact U2|]. exists x, temp, phi, v, temp', phi', v'. auto 12.
Qed.

(** The same, parameter by parameter. *)
Theorem C91_slightly_other_parameters_flow_as_far :
  forall (d : json R) profile mo (sm : sim R) (s : state R) depth d0 phi1 phi2 v0,
  build_models d profile = Ok mo -> s_budget sm = mo_budget mo ->
  losing sm s depth -> smooth sm phi2 -> 0 < v0 ->
  phi1 < phi2 <= st_phi s + fastest_rate (s_cryst sm) * (st_temp s - get_solid_temperature (s_cryst sm)) ->
  vent_depth sm s depth d0 -> moves_at_vent sm s d0 ->
  exists eps0 C, 0 < eps0 /\ 0 < C /\ forall (d' : json R) profile' mo' a b L eps, build_models d' profile' = Ok mo' -> b = mo_budget mo' ->
    losing (with_losses a b L sm) s depth -> 0 <= eps <= eps0 ->
    Forall2 (near eps (s_air sm) a) (s_budget sm) b ->
    within eps (air_temp (s_air sm)) (air_temp a) -> within eps (lv_latent (s_lava sm)) L ->
  forall h n fuel fuel' w w', 0 < h ->
    simulate fuel (with_step h sm) (initial_world s [] depth) = Some (Ok tt, w) ->
    simulate fuel' (with_step h (with_losses a b L sm)) (initial_world s [] depth) = Some (Ok tt, w') ->
    (n < w_iter w)%nat -> flows_freely v0 phi1 (w_log w) n ->
    (n < w_iter w')%nat /\ flows_freely (v0 / 2) phi2 (w_log w') n /\
    forall k, (k <= n)%nat -> exists r r', nth_error (w_log w) k = Some r /\ nth_error (w_log w') k = Some r' /\
      same_place_within (C * eps) r r'.
Proof.
  intros d profile mo sm s depth d0 phi1 phi2 v0 Hb Es K S Hv0 Hphi Vd Mov.
  destruct (C91_slightly_other_losses_flow_as_far d profile mo sm s depth d0 phi1 phi2 v0 Hb Es K S Hv0 Hphi Vd Mov) as (e0 & C & Pe0 & PC & G).
  exists (Rmin (1 / 2) (e0 / 13000)), (C * 13000). split; [apply Rmin_glb_lt; lra|]. split; [lra|].
  intros d' profile' mo' a b L eps Hb' Es' K' [He He'] Nr Ht HL.
  assert (M1 := Rmin_l (1 / 2) (e0 / 13000)). assert (M2 := Rmin_r (1 / 2) (e0 / 13000)).
  rewrite Rmult_assoc. apply (G d' profile' mo' a b L (13000 * eps) Hb' Es' K' ltac:(lra)).
  intros u W W'. destruct (near_loss sm (with_losses a b L sm) eps u (co_air _ _ _ K) (co_air _ _ _ K') ltac:(lra) W W' Ht _ _ Nr (co_losses _ _ _ K)) as [P Q].
  exact (near_loss_latent eps _ _ _ _ ltac:(lra) P (proj2 (proj2 (proj2 (proj2 (proj2 (va_lava _ _ _ (co_admissible _ _ _ K))))))) Q HL).
Qed.
