(** * Props_CloseVent: lava that starts a little different flows as far (C90) *)
From Coq Require Import Reals Lra Lia List Classical_Prop.
From Verif Require Import Base Num Json Logger World Vesicle MeltVisc RelVisc Bubbles Terrain Lava
  Thermal Flux Integrator Factory Run Frame StepLog Spec RNum RPow StepProofs LoggerProofs RowProofs StepProps StepRow Gives Steady EffArray Props_Run Props_Step Props_Budget Props_BudgetStep Props_RunOuts
  Props_Velocity Props_Rheology Props_Material Props_Terrain Props_Thermal Props_Flux ColumnProofs TableTrace Props_Table Props_Recompute
  Safe Valid Props_ValidRun Cooling Props_Cooling Recompute Lipschitz ModelLip Refine Losses Props_Refine Props_RefineRun Props_Compare Props_Weaker Faster Props_Faster Props_Fewer Props_Finer Props_Close.
Open Scope R_scope.

(** One more step of two Euler sums for one law. *)
Lemma drift_one h Lp k e t1 p1 t2 p2 f1 q1 f2 q2 : 0 < h -> 0 <= Lp ->
  Rabs (t1 - t2) + Rabs (p1 - p2) <= exp (Lp * (INR k * h)) * e ->
  Rabs (f1 - f2) + Rabs (q1 - q2) <= Lp * (Rabs (t1 - t2) + Rabs (p1 - p2)) ->
  Rabs (t1 + f1 * h - (t2 + f2 * h)) + Rabs (p1 + q1 * h - (p2 + q2 * h)) <= exp (Lp * (INR (Datatypes.S k) * h)) * e.
Proof.
  intros Hh HL IH HF.
  set (g := Rabs (t1 - t2) + Rabs (p1 - p2)) in *.
  assert (Pg : 0 <= g) by (unfold g; assert (Q := Rabs_pos (t1 - t2)); assert (Q' := Rabs_pos (p1 - p2)); lra).
  assert (A1 : Rabs (t1 + f1 * h - (t2 + f2 * h)) <= Rabs (t1 - t2) + Rabs (f1 - f2) * h).
  { replace (t1 + f1 * h - (t2 + f2 * h)) with ((t1 - t2) + (f1 - f2) * h) by ring.
    eapply Rle_trans; [apply Rabs_triang|]. rewrite Rabs_mult, (Rabs_right h) by lra. lra. }
  assert (A2 : Rabs (p1 + q1 * h - (p2 + q2 * h)) <= Rabs (p1 - p2) + Rabs (q1 - q2) * h).
  { replace (p1 + q1 * h - (p2 + q2 * h)) with ((p1 - p2) + (q1 - q2) * h) by ring.
    eapply Rle_trans; [apply Rabs_triang|]. rewrite Rabs_mult, (Rabs_right h) by lra. lra. }
  assert (A3 : (Rabs (f1 - f2) + Rabs (q1 - q2)) * h <= Lp * g * h) by (apply Rmult_le_compat_r; lra).
  apply Rle_trans with ((1 + Lp * h) * g); [unfold g in *; lra|].
  rewrite S_INR. replace (Lp * ((INR k + 1) * h)) with (Lp * h + Lp * (INR k * h)) by ring. rewrite exp_plus, Rmult_assoc.
  assert (0 <= Lp * h) by (apply Rmult_le_pos; lra).
  apply Rmult_le_compat; [lra|exact Pg|apply exp_ineq1_le|exact IH].
Qed.

(** ** C90 *)
(** A set-up as in C90.  There are [eps0] and [C] such that for any two vent states
    within [eps0] of each other and every step: wherever the first run shows lava
    flowing at [v0] or more with at most [phi1 < phi2] crystals, the second run has a
    row too, flows at [v0/2] or more with at most [phi2] crystals, and the two rows
    differ by at most [C] times the difference at the vent. *)
Theorem C90_slightly_other_vent_flows_as_far :
  forall (d : json R) profile mo (sm : sim R) (s0 : state R) depth phi1 phi2 v0,
  build_models d profile = Ok mo -> s_budget sm = mo_budget mo ->
  losing sm s0 depth -> smooth sm phi2 -> 0 < v0 -> ter_eff_init (s_ter sm) = 0 -> phi1 < phi2 ->
  exists eps0 C, 0 < eps0 /\ 0 < C /\ forall s s' h n fuel fuel' w w', 0 < h ->
    starts_within sm s0 s -> losing sm s depth -> starts_within sm s0 s' -> losing sm s' depth ->
    moves_at_vent sm s depth ->
    phi2 <= st_phi s' + fastest_rate (s_cryst sm) * (st_temp s' - get_solid_temperature (s_cryst sm)) ->
    let e := Rabs (st_temp s - st_temp s') + Rabs (st_phi s - st_phi s') in e <= eps0 ->
    simulate fuel (with_step h sm) (initial_world s [] depth) = Some (Ok tt, w) ->
    simulate fuel' (with_step h sm) (initial_world s' [] depth) = Some (Ok tt, w') ->
    (n < w_iter w)%nat -> flows_freely v0 phi1 (w_log w) n ->
    (n < w_iter w')%nat /\ flows_freely (v0 / 2) phi2 (w_log w') n /\
    forall k, (k <= n)%nat -> exists r r', nth_error (w_log w) k = Some r /\ nth_error (w_log w') k = Some r' /\
      same_place_within (C * e) r r'.
Proof.
  intros d profile mo sm s0 depth phi1 phi2 v0 Hb Es K0 S Hv0 Ez Hphi.
  assert (V := co_admissible _ _ _ K0). assert (Hv2 : 0 < v0 / 2) by lra.
  destruct (C90_small_errors_stay_small d profile mo sm s0 depth phi2 (v0 / 2) Hb Es K0 S Hv2 Ez) as (C0 & HC).
  destruct (one_law d profile mo sm s0 depth phi2 (v0 / 2) Hb Es K0 S Hv2 Ez) as
    (D & F & vel & rate0 & (LF & B & HL & HB & HF) & _ & Prate0 & HG).
  assert (Pd0 : 0 < depth) by exact (va_depth _ _ _ V).
  destruct (speed_nearby sm s0 depth phi2 v0 depth V S Hv0 Pd0) as (eta & Peta & Near).
  destruct (sm_cryst _ _ S) as (cr1 & grown & ts & te & Ecr).
  set (rate := fastest_rate (s_cryst sm)) in *.
  assert (Prate : 0 < rate).
  { assert (Vc := va_cryst _ _ _ V). unfold rate. rewrite Ecr in Vc |- *. cbn [valid_cryst fastest_rate] in *. apply Rdiv_lt_0_compat; lra. }
  assert (Init : forall s w0, init_effusion_rate sm (initial_world s [] depth) = (Ok tt, w0) -> w_depth w0 = depth).
  { intros s w0 E. rewrite (C19_no_search_without_target sm _ Ez) in E. apply (f_equal snd) in E. cbn [snd] in E. rewrite <- E. reflexivity. }
  set (Lp := (1 + rate0) * LF). set (X := ter_maxlen (s_ter sm) - st_pos s0).
  assert (HLp : 0 <= Lp) by (unfold Lp; apply Rmult_le_pos; lra).
  assert (PX : 0 < X). { unfold X. destruct (va_pos _ _ _ V). lra. }
  assert (PE : 0 < exp (Lp * X)) by apply exp_pos.
  set (tol := Rmin eta ((phi2 - phi1) / 2)). assert (Ptol : 0 < tol) by (unfold tol; apply Rmin_glb_lt; lra).
  assert (Tol1 : tol <= eta) by apply Rmin_l. assert (Tol2 : tol <= (phi2 - phi1) / 2) by apply Rmin_r.
  assert (Abs0 : Rabs C0 >= 0) by (apply Rle_ge, Rabs_pos).
  exists (tol / exp (Lp * X)), (Rabs C0 + 1). split; [apply Rdiv_lt_0_compat; lra|]. split; [lra|].
  intros s s' h n fuel fuel' w w' Hh W K W' K' Mov Hcap e He H H' Hn Free.
  assert (Pe : 0 <= e) by (unfold e; assert (Q := Rabs_pos (st_temp s - st_temp s')); assert (Q' := Rabs_pos (st_phi s - st_phi s')); lra).
  assert (HK : exp (Lp * X) * e <= tol).
  { assert (exp (Lp * X) * e <= exp (Lp * X) * (tol / exp (Lp * X))) by (apply Rmult_le_compat_l; lra).
    replace (exp (Lp * X) * (tol / exp (Lp * X))) with tol in H0 by (field; lra). lra. }
  assert (HG1 := HG s W K). assert (HG2 := HG s' W' K'). clear HG.
  specialize (HC s s' h).
  set (sm1 := with_step h sm) in *.
  assert (K1 : losing sm1 s depth) by now apply losing_step. assert (K2 : losing sm1 s' depth) by now apply losing_step.
  assert (V1 := co_admissible _ _ _ K1). assert (V2 := co_admissible _ _ _ K2).
  assert (Q1 : s_dx sm1 <> 0) by (change (h <> 0); lra).
  assert (S1 := run_sequences sm1 _ _ _ w Q1 H). assert (S2 := run_sequences sm1 _ _ _ w' Q1 H'). cbv zeta in S1, S2.
  change (s_dx sm1) with h in *. rewrite (proj1 W) in S1. rewrite (proj1 W') in S2.
  set (r1 k := nth k (w_log w) []) in *. set (r2 k := nth k (w_log w') []) in *.
  set (T1 k := value (r1 k) "core_temperature") in *. set (T2 k := value (r2 k) "core_temperature") in *.
  set (P1 k := value (r1 k) "crystal_fraction") in *. set (P2 k := value (r2 k) "crystal_fraction") in *.
  set (p1 k := {| px := st_pos s0 + INR k * h; pt := T1 k; pp := P1 k |}).
  set (p2 j := {| px := st_pos s0 + INR j * h; pt := T2 j; pp := P2 j |}).
  destruct (vent_init sm1 s depth V1 []) as (w0 & E01 & S0 & _ & I0).
  destruct (vent_init sm1 s' depth V2 []) as (w0' & E02 & S0' & _ & I0').
  assert (Hd0 : w_depth w0 = depth) by (apply (Init s); unfold sm1 in E01; rewrite init_step in E01; exact E01).
  assert (Hd0' : w_depth w0' = depth) by (apply (Init s'); unfold sm1 in E02; rewrite init_step in E02; exact E02).
  destruct Mov as (ty & tx & Ety & Etx & Hmov).
  assert (Ety' : get_yield_strength (s_lava sm) (w_st w0) = Ok ty).
  { rewrite (init_state _ _ _ _ E01). unfold get_yield_strength. rewrite yield_strain. exact Ety. }
  assert (Etx' : get_basal_shear_stress (s_lava sm) (s_ter sm) depth (w_st w0) = Ok tx).
  { rewrite (init_state _ _ _ _ E01). unfold get_basal_shear_stress. rewrite basal_strain. exact Etx. }
  (* a row of the first run *)
  assert (First : forall k, (k <= n)%nat -> exists a b c,
    box (region_of sm s0) phi2 (p1 k) /\ computes_bulk_viscosity (s_lava sm) (state_at (p1 k)) = Ok a /\
    get_yield_strength (s_lava sm) (state_at (p1 k)) = Ok b /\ get_basal_shear_stress (s_lava sm) (s_ter sm) depth (state_at (p1 k)) = Ok c /\
    b < c /\ v0 <= jeffreys_bingham depth b c a /\ holds (r1 k) "mean_velocity" (jeffreys_bingham depth b c a) /\
    P1 k <= phi1 /\ D (p1 k) /\ value (r1 k) "dtemp_dx" = F (p1 k) /\ value (r1 k) "dphi_dx" = - rate0 * F (p1 k) /\
    st_pos s0 + INR k * h < ter_maxlen (s_ter sm) /\ T1 k <= st_temp s0).
  { intros k Hk. assert (Hk1 : (k < w_iter w)%nat) by lia.
    destruct (S1 k Hk1) as (N1 & R1 & _). fold (r1 k) (T1 k) (P1 k) in N1, R1.
    destruct (row_world sm1 s depth V1 fuel w k _ H Hk1 N1) as
      (w00 & wi & wj & v & rho & wd & sl & hb & ra & dT & dt & E00 & J0 & S00 & RL & St & _ & _ & CS & Sw & _ & Ii & Ed & Ex & Et & Ep & Ev & _).
    assert (w00 = w0) as -> by congruence. change (s_dx sm1) with h in Ex. rewrite (proj1 W) in Ex.
    assert (R1' := R1). destruct R1' as (A1 & A2 & A3 & A4 & A5).
    assert (X1 : st_temp (w_st wi) = T1 k) by exact (holds_fun _ _ _ _ Et A2).
    assert (Y1 : st_phi (w_st wi) = P1 k) by exact (holds_fun _ _ _ _ Ep A3).
    destruct (Free k (r1 k) v (P1 k) Hk N1 Ev A3) as [Fv Fp].
    destruct (cs_budget _ _ _ _ _ _ _ _ _ _ _ CS) as (new & w2 & Mv & _).
    change (mean_velocity (s_lava sm) (s_ter sm) (w_depth wi) (w_st wi) = Ok (v, new)) in Mv. rewrite Ed, Hd0 in Mv.
    destruct (C20_velocity_only_if _ _ _ _ _ _ Mv) as (a & b & c & Za & Zb & Zc & _ & _ & _ & -> & _).
    assert (Ins := sound_inside _ _ _ V1 _ (so_nearly _ _ _ Sw)). change (region_of sm1 s) with (region_of sm s) in Ins. assert (Ins0 := starts_inside sm s0 s _ W Ins).
    assert (Eat : at_ (w_st wi) = p1 k) by (unfold at_, p1; rewrite Ex, X1, Y1; reflexivity).
    assert (Bx : box (region_of sm s0) phi2 (p1 k)).
    { rewrite <- Eat. split; [exact Ins0|]. cbn. rewrite Y1. lra. }
    destruct (HG1 h fuel w Hh H k (r1 k) _ _ _ _ _ _ Hk1 N1 R1 Ev) as [Gx G]. destruct (G ltac:(lra) ltac:(lra)) as (GD & GF & GP & _).
    (* the state of the row, up to the strain rate and the time *)
    assert (Yv : forall y, get_yield_strength (s_lava sm) (w_st wi) = Ok y -> get_yield_strength (s_lava sm) (state_at (p1 k)) = Ok y).
    { intros y <-. destruct (yield_smooth (region_of sm s0) phi2 (proj1 (va_pos _ _ _ V)) (va_phi _ _ _ V) (s_lava sm) (sm_yield_ok _ _ S) (sm_yield _ _ S)) as (f & _ & Ef).
      rewrite (returns_at _ _ _ _ Ef Bx). rewrite (Ef (w_st wi)) by (rewrite Eat; exact Bx). rewrite Eat. reflexivity. }
    assert (Mv' : forall y, computes_bulk_viscosity (s_lava sm) (w_st wi) = Ok y -> computes_bulk_viscosity (s_lava sm) (state_at (p1 k)) = Ok y).
    { intros y <-. destruct (viscosity_smooth (region_of sm s0) phi2 (proj1 (va_pos _ _ _ V)) (va_phi _ _ _ V) (s_lava sm) (va_lava _ _ _ V) (sm_melt _ _ S) (sm_rel _ _ S) (sm_bub _ _ S)) as (f & _ & Ef).
      rewrite (returns_at _ _ _ _ Ef Bx). rewrite (Ef (w_st wi)) by (rewrite Eat; exact Bx). rewrite Eat. reflexivity. }
    exists a, b, c. split; [exact Bx|]. split; [exact (Mv' _ Za)|]. split; [exact (Yv _ Zb)|].
    split; [rewrite <- Zc; apply basal_same; cbn; rewrite Ex; reflexivity|].
    split.
    { destruct k as [|k].
      - injection St as <-. rewrite Ety' in Zb. rewrite Etx' in Zc. injection Zb as <-. injection Zc as <-. exact Hmov.
      - destruct (so_stage _ _ _ (so_nearly _ _ _ Sw)) as [(_ & _ & _ & Z)|(_ & _ & Hy & _)]; [lia|].
        change (yield_strength_notcompatible (s_lava sm) (s_ter sm) (w_depth wi) (w_st wi) = Ok false) in Hy. rewrite Ed, Hd0 in Hy.
        apply (C32_stop_criterion _ _ _ _ _ _ Zb Zc) in Hy. exact Hy. }
    split; [exact Fv|]. split; [exact Ev|]. split; [exact Fp|]. split; [exact GD|]. split; [exact GF|]. split; [exact GP|]. split; [exact Gx|].
    rewrite <- X1. apply Ins0. }
  assert (Xn : st_pos s0 + INR n * h < ter_maxlen (s_ter sm)).
  { destruct (First n (le_n _)) as (? & ? & ? & _ & _ & _ & _ & _ & _ & _ & _ & _ & _ & _ & Q & _). exact Q. }
  (* a good row of the second run *)
  set (good := fun j => (j < w_iter w')%nat /\ exists v, holds (r2 j) "mean_velocity" v /\ v0 / 2 <= v /\ P2 j <= phi2 /\
                        P2 j = st_phi s' + rate * (st_temp s' - T2 j)).
  assert (Grad : forall j, good j -> D (p2 j) /\ value (r2 j) "dtemp_dx" = F (p2 j) /\ value (r2 j) "dphi_dx" = - rate0 * F (p2 j)).
  { intros j (I1 & v & Hv & Gv & Gp & _). destruct (S2 j I1) as (N2 & R2 & _). fold (r2 j) (T2 j) (P2 j) in N2, R2.
    destruct (HG2 h fuel' w' Hh H' j (r2 j) _ _ _ _ _ v I1 N2 R2 Hv) as [_ G]. destruct (G Gv Gp) as (G1 & G2 & G3 & _). auto. }
  (* the velocity of a row near a row of the first run *)
  assert (Speed : forall j k, (j < w_iter w')%nat -> (k <= n)%nat -> dist (p1 k) (p2 j) <= tol -> P2 j <= phi2 ->
    exists v, holds (r2 j) "mean_velocity" v /\ v0 / 2 <= v).
  { intros j k Hj Hk Dk Gp. destruct (S2 j Hj) as (N2 & R2 & _). fold (r2 j) (T2 j) (P2 j) in N2, R2.
    destruct (row_world sm1 s' depth V2 fuel' w' j _ H' Hj N2) as
      (w00 & wi & wj & v & rho & wd & sl & hb & ra & dT & dt & E00 & J0 & S00 & RL & St & _ & _ & CS & Sw & _ & Ii & Ed & Ex & Et & Ep & Ev & _).
    assert (w00 = w0') as -> by congruence. change (s_dx sm1) with h in Ex. rewrite (proj1 W') in Ex. destruct R2 as (A1 & A2 & A3 & A4 & A5).
    assert (X2 : st_temp (w_st wi) = T2 j) by exact (holds_fun _ _ _ _ Et A2).
    assert (Y2 : st_phi (w_st wi) = P2 j) by exact (holds_fun _ _ _ _ Ep A3).
    destruct (cs_budget _ _ _ _ _ _ _ _ _ _ _ CS) as (new & w2 & Mv & _).
    change (mean_velocity (s_lava sm) (s_ter sm) (w_depth wi) (w_st wi) = Ok (v, new)) in Mv. rewrite Ed, Hd0' in Mv.
    destruct (C20_velocity_only_if _ _ _ _ _ _ Mv) as (a' & b' & c' & Za & Zb & Zc & _ & _ & _ & -> & _).
    assert (Ins := sound_inside _ _ _ V2 _ (so_nearly _ _ _ Sw)). change (region_of sm1 s') with (region_of sm s') in Ins. assert (Ins0 := starts_inside sm s0 s' _ W' Ins).
    assert (Eat : at_ (w_st wi) = p2 j) by (unfold at_, p2; rewrite Ex, X2, Y2; reflexivity).
    assert (Bx : box (region_of sm s0) phi2 (p2 j)).
    { rewrite <- Eat. split; [exact Ins0|]. cbn. rewrite Y2. lra. }
    assert (Yv : get_yield_strength (s_lava sm) (state_at (p2 j)) = Ok b').
    { rewrite <- Zb. destruct (yield_smooth (region_of sm s0) phi2 (proj1 (va_pos _ _ _ V)) (va_phi _ _ _ V) (s_lava sm) (sm_yield_ok _ _ S) (sm_yield _ _ S)) as (f & _ & Ef).
      rewrite (returns_at _ _ _ _ Ef Bx). rewrite (Ef (w_st wi)) by (rewrite Eat; exact Bx). rewrite Eat. reflexivity. }
    assert (Mv' : computes_bulk_viscosity (s_lava sm) (state_at (p2 j)) = Ok a').
    { rewrite <- Za. destruct (viscosity_smooth (region_of sm s0) phi2 (proj1 (va_pos _ _ _ V)) (va_phi _ _ _ V) (s_lava sm) (va_lava _ _ _ V) (sm_melt _ _ S) (sm_rel _ _ S) (sm_bub _ _ S)) as (f & _ & Ef).
      rewrite (returns_at _ _ _ _ Ef Bx). rewrite (Ef (w_st wi)) by (rewrite Eat; exact Bx). rewrite Eat. reflexivity. }
    destruct (First k Hk) as (a & b & c & Bk & Ca & Cb & Cc & Cbc & Cv & _).
    exists (jeffreys_bingham depth b' c' a'). split; [exact Ev|].
    refine (proj2 (Near (p1 k) (p2 j) a b c a' b' c' Bk Bx (Rle_trans _ _ _ Dk Tol1) Ca Cb Cc Mv' Yv _ Cbc Cv)).
    rewrite <- Zc. apply basal_same. cbn. rewrite Ex. reflexivity. }
  (* the next row, if it is near a row of the first run *)
  assert (Next : forall j k, good j -> (k <= n)%nat -> INR (Datatypes.S j) * h <= INR n * h ->
    let q := {| px := st_pos s0 + INR (Datatypes.S j) * h; pt := T2 j + F (p2 j) * h; pp := P2 j + - rate0 * F (p2 j) * h |} in
    dist (p1 k) q <= tol -> good (Datatypes.S j) /\ p2 (Datatypes.S j) = q).
  { intros j k G Hk Hj q Dk. destruct (Grad j G) as (GD & GF & GP). destruct G as (I1 & vj & Hvj & Gv & Gp & Glin).
    destruct (S2 j I1) as (N2 & R2 & _ & Nx). fold (r2 j) (T2 j) (P2 j) in N2, R2.
    destruct (row_world sm1 s' depth V2 fuel' w' j _ H' I1 N2) as
      (w00 & wi & wj & v & rho & wd & sl & hb & ra & dT & dt & E00 & J0 & S00 & RL & St & Stj & Sg & CS & Sw & Fi & Ii & Ed & Ex & Et & Ep & Ev & EdT & Edp).
    assert (w00 = w0') as -> by congruence. change (s_dx sm1) with h in Ex. rewrite (proj1 W') in Ex. destruct R2 as (A1 & A2 & A3 & A4 & A5).
    assert (X2 : st_temp (w_st wi) = T2 j) by exact (holds_fun _ _ _ _ Et A2).
    assert (Y2 : st_phi (w_st wi) = P2 j) by exact (holds_fun _ _ _ _ Ep A3).
    assert (Z2 : dT = F (p2 j)) by (rewrite <- GF; exact (holds_fun _ _ _ _ EdT A4)).
    assert (Z3 : - ra * dT = - rate0 * F (p2 j)) by (rewrite <- GP; exact (holds_fun _ _ _ _ Edp A5)).
    assert (Era : ra = rate).
    { assert (Q := cs_rate _ _ _ _ _ _ _ _ _ _ _ CS). change (s_cryst sm1) with (s_cryst sm) in Q. unfold rate. assert (Vc := va_cryst _ _ _ V).
      rewrite Ecr in Q, Vc |- *. cbn [valid_cryst compute_crystallization_rate fastest_rate] in *. rnum. rewrite R_div_ok in Q by lra. injection Q as <-. reflexivity. }
    assert (Xj : st_temp (w_st wj) = pt q).
    { rewrite (cs_temp _ _ _ _ _ _ _ _ _ _ _ CS), X2, Z2. reflexivity. }
    assert (Yj : st_phi (w_st wj) = pp q).
    { rewrite (cs_phi _ _ _ _ _ _ _ _ _ _ _ CS), Y2. rnum. change (s_dx sm1) with h. cbn [pp q]. rewrite <- Z3. ring. }
    assert (Pj : st_pos (w_st wj) = px q).
    { rewrite (cs_pos _ _ _ _ _ _ _ _ _ _ _ CS), Ex. cbn [px q]. rewrite S_INR. rnum. change (s_dx sm1) with h. ring. }
    assert (Lin : pp q = st_phi s' + rate * (st_temp s' - pt q)).
    { cbn [pp pt q]. rewrite Glin, <- Z3, Era, <- Z2. ring. }
    destruct (First k Hk) as (a & b & c & Bk & Ca & Cb & Cc & Cbc & Cv & _ & Cp & _).
    unfold dist in Dk. assert (B1 := Rabs_pos (px (p1 k) - px q)). assert (B2 := Rabs_pos (pt (p1 k) - pt q)). assert (B3 := Rabs_pos (pp (p1 k) - pp q)).
    assert (Hq2 : pp q < phi2).
    { assert (Q := Rle_abs (- (pp (p1 k) - pp q))). rewrite Rabs_Ropp in Q. change (pp (p1 k)) with (P1 k) in *. lra. }
    assert (Ht : get_solid_temperature (s_cryst sm) < pt q) by (apply Rmult_lt_reg_l with rate; [exact Prate|]; lra).
    assert (Inw := sound_inside _ _ _ V2 _ (so_nearly _ _ _ Sw)). destruct Inw as (K2x & K2t & K2p).
    change (region_of sm1 s') with (region_of sm s') in *. cbn [region_of rg_x0 rg_x1 rg_ts rg_te rg_phi0 rg_cap] in K2x, K2t, K2p.
    assert (Gr := cs_phi_grows _ _ _ _ _ _ _ _ _ _ _ CS). rnum. apply R_leb_false in Gr. rewrite Yj, Y2 in Gr. rewrite Y2 in K2p.
    assert (Tup : pt q <= st_temp s') by (apply Rmult_le_reg_l with rate; [exact Prate|]; lra).
    assert (Hx : st_pos s0 <= px q < ter_maxlen (s_ter sm)).
    { cbn [px q]. assert (0 <= INR (Datatypes.S j) * h) by (apply Rmult_le_pos; [apply pos_INR|lra]). lra. }
    assert (Inj : inside (region_of sm s') (w_st wj)).
    { unfold inside. cbn [region_of rg_x0 rg_x1 rg_ts rg_te rg_phi0 rg_cap]. rewrite Xj, Yj, Pj. fold rate. rewrite (proj1 W'). split; [exact Hx|]. split; lra. }
    assert (Eat : at_ (w_st wj) = q) by (unfold at_; rewrite Xj, Yj, Pj; reflexivity).
    assert (Bq : box (region_of sm s0) phi2 q) by (rewrite <- Eat; split; [exact (starts_inside sm s0 s' _ W' Inj)|cbn; rewrite Yj; lra]).
    (* the stresses there *)
    destruct (yield_smooth (region_of sm s0) phi2 (proj1 (va_pos _ _ _ V)) (va_phi _ _ _ V) (s_lava sm) (sm_yield_ok _ _ S) (sm_yield _ _ S)) as (fy & _ & Efy).
    destruct (viscosity_smooth (region_of sm s0) phi2 (proj1 (va_pos _ _ _ V)) (va_phi _ _ _ V) (s_lava sm) (va_lava _ _ _ V) (sm_melt _ _ S) (sm_rel _ _ S) (sm_bub _ _ S)) as (fm & _ & Efm).
    destruct (basal_inside (s_lava sm) (s_ter sm) depth (state_at q) (va_slope _ _ _ V)) as (rh & sx & _ & _ & Eb).
    set (tb := depth * rh * ter_gravity (s_ter sm) * sin sx) in Eb.
    destruct (Near (p1 k) q a b c (fm q) (fy q) tb Bk Bq) as [Hst _];
      [unfold dist; lra|exact Ca|exact Cb|exact Cc|exact (returns_at _ _ _ _ Efm Bq)|exact (returns_at _ _ _ _ Efy Bq)|exact Eb|exact Cbc|exact Cv|].
    assert (Edj : w_depth wj = depth) by (rewrite <- Hd0'; exact (proj1 (C17_depth_and_flux_constant sm1 _ _ _ _ Stj))).
    assert (Y5 : get_yield_strength (s_lava sm) (w_st wj) = Ok (fy q)) by (rewrite (Efy (w_st wj)) by (rewrite Eat; exact Bq); rewrite Eat; reflexivity).
    assert (Eb' : get_basal_shear_stress (s_lava sm) (s_ter sm) (w_depth wj) (w_st wj) = Ok tb).
    { rewrite Edj, <- Eb. apply basal_same. rewrite Pj. reflexivity. }
    destruct (below_is_compatible sm s0 depth phi2 V S (w_st wj)) as [Cm Np];
      [rewrite Pj; destruct (va_pos _ _ _ V); lra|rewrite Yj; lra|].
    assert (Pass : passes sm1 wj).
    { split; [|split; [|split]].
      - apply R_leb_false. change (get_solid_temperature (s_cryst sm) < st_temp (w_st wj)). rewrite Xj. exact Ht.
      - exact Cm.
      - apply (C32_stop_criterion (s_lava sm) (s_ter sm) (w_depth wj) (w_st wj) (fy q) tb Y5 Eb'). exact Hst.
      - apply R_leb_false. change (st_pos (w_st wj) < ter_maxlen (s_ter sm)). rewrite Pj. apply Hx. }
    assert (Fj : w_fin wj = false).
    { destruct (cs_fin _ _ _ _ _ _ _ _ _ _ _ CS) as [[_ Nq]|[Fq _]]; [destruct (Nq Pass)|congruence]. }
    assert (Nlt : (Datatypes.S j < w_iter w')%nat).
    { apply (goes_on sm1 s' depth K2 fuel' w0' w' (Datatypes.S j) wj J0 RL Stj).
      - rewrite (cs_iter _ _ _ _ _ _ _ _ _ _ _ CS), Ii. reflexivity.
      - right. exact I1.
      - exact Fj.
      - constructor; [exact (sound_next _ _ _ V2 _ _ Sw Sg Fj)|exact Np].
      - intros t Q3 Q4. change (get_yield_strength (s_lava sm) (w_st wj) = Ok t) in Q3.
        change (get_basal_shear_stress (s_lava sm) (s_ter sm) (w_depth wj) (w_st wj) = Ok t) in Q4.
        rewrite Y5 in Q3. rewrite Eb' in Q4. injection Q3 as Q3. injection Q4 as Q4. lra. }
    destruct (Nx Nlt) as [Nx1 Nx2]. fold (r2 (Datatypes.S j)) (T2 (Datatypes.S j)) (P2 (Datatypes.S j)) in Nx1, Nx2. fold (r2 j) (T2 j) (P2 j) in Nx1, Nx2.
    rewrite GF in Nx1. rewrite GP in Nx2.
    assert (Eq : p2 (Datatypes.S j) = q) by (unfold p2, q; rewrite Nx1, Nx2; reflexivity).
    split; [|exact Eq].
    assert (P2q : P2 (Datatypes.S j) = pp q) by exact Nx2. assert (T2q : T2 (Datatypes.S j) = pt q) by exact Nx1.
    destruct (Speed (Datatypes.S j) k Nlt Hk) as (v' & Hv' & Gv'); [rewrite Eq; unfold dist; lra|rewrite P2q; lra|].
    split; [exact Nlt|]. exists v'. rewrite P2q, T2q. repeat split; try assumption; lra. }
  (* the first row *)
  destruct (First 0%nat ltac:(lia)) as (a0 & b0 & c0 & Bk0 & Ca0 & Cb0 & Cc0 & Cbc0 & Cv0 & _ & Cp0 & _).
  destruct (S1 0%nat ltac:(lia)) as (_ & _ & Z1 & _). destruct (Z1 eq_refl) as [Z11 Z12]. fold (r1 0%nat) (T1 0%nat) (P1 0%nat) in Z11, Z12. clear Z1.
  assert (He1 : e <= tol).
  { eapply Rle_trans; [|exact HK]. rewrite <- (Rmult_1_l e) at 1. apply Rmult_le_compat_r; [exact Pe|]. rewrite <- exp_0. apply exp_le. apply Rmult_le_pos; lra. }
  assert (B3 : Rabs (st_phi s - st_phi s') <= e) by (unfold e; assert (Q := Rabs_pos (st_temp s - st_temp s')); lra).
  assert (Ph' : st_phi s' <= phi2). { assert (Q := Rle_abs (- (st_phi s - st_phi s'))). rewrite Rabs_Ropp in Q. rewrite Z12 in Cp0. lra. }
  assert (Good0 : good 0%nat).
  { set (q := at_ (w_st w0')).
    assert (Eq0 : q = {| px := st_pos s0; pt := st_temp s'; pp := st_phi s' |}).
    { unfold q, at_. rewrite (init_state _ _ _ _ E02). cbn. rewrite (proj1 W'). reflexivity. }
    assert (Inq : inside (region_of sm s') (w_st w0')) by exact (sound_inside _ _ _ V2 _ (so_nearly _ _ _ S0')).
    assert (Bq : box (region_of sm s0) phi2 q) by (split; [exact (starts_inside sm s0 s' _ W' Inq)|rewrite Eq0; exact Ph']).
    assert (Dq : dist (p1 0%nat) q <= tol).
    { rewrite Eq0. unfold dist, p1. cbn [px pt pp INR]. rewrite Z11, Z12, Rmult_0_l, Rplus_0_r, Rminus_diag_eq, Rabs_R0 by reflexivity. unfold e in He1. lra. }
    destruct (yield_smooth (region_of sm s0) phi2 (proj1 (va_pos _ _ _ V)) (va_phi _ _ _ V) (s_lava sm) (sm_yield_ok _ _ S) (sm_yield _ _ S)) as (fy & _ & Efy).
    destruct (viscosity_smooth (region_of sm s0) phi2 (proj1 (va_pos _ _ _ V)) (va_phi _ _ _ V) (s_lava sm) (va_lava _ _ _ V) (sm_melt _ _ S) (sm_rel _ _ S) (sm_bub _ _ S)) as (fm & _ & Efm).
    destruct (basal_inside (s_lava sm) (s_ter sm) depth (state_at q) (va_slope _ _ _ V)) as (rh & sx & _ & _ & Eb).
    set (tb := depth * rh * ter_gravity (s_ter sm) * sin sx) in Eb.
    destruct (Near (p1 0%nat) q a0 b0 c0 (fm q) (fy q) tb Bk0 Bq) as [Hst _];
      [lra|exact Ca0|exact Cb0|exact Cc0|exact (returns_at _ _ _ _ Efm Bq)|exact (returns_at _ _ _ _ Efy Bq)|exact Eb|exact Cbc0|exact Cv0|].
    assert (Hw : (0 < w_iter w')%nat).
    { assert (RL := H'). unfold simulate in RL. rewrite E02 in RL.
      assert (Fw : w_fin w0' = false).
      { rewrite (C19_no_search_without_target sm1 _ Ez) in E02. apply (f_equal snd) in E02. cbn [snd] in E02. rewrite <- E02. reflexivity. }
      apply (goes_on sm1 s' depth K2 fuel' w0' w' 0%nat w0' I0' RL eq_refl I0' (or_introl eq_refl)); [exact Fw|exact S0'|].
      intros t Y1 Y2. change (get_yield_strength (s_lava sm) (w_st w0') = Ok t) in Y1.
      change (get_basal_shear_stress (s_lava sm) (s_ter sm) (w_depth w0') (w_st w0') = Ok t) in Y2.
      rewrite (Efy (w_st w0')) in Y1 by exact Bq. rewrite Hd0' in Y2. fold q in Y1.
      assert (Y3 : get_basal_shear_stress (s_lava sm) (s_ter sm) depth (w_st w0') = Ok tb) by (rewrite <- Eb; apply basal_same; reflexivity).
      rewrite Y3 in Y2. injection Y1 as Y1. injection Y2 as Y2. lra. }
    destruct (S2 0%nat Hw) as (_ & _ & Z & _). destruct (Z eq_refl) as [Z21 Z22]. fold (r2 0%nat) (T2 0%nat) (P2 0%nat) in Z21, Z22.
    assert (Ep2 : p2 0%nat = q) by (rewrite Eq0; unfold p2; rewrite Z21, Z22; cbn [INR]; rewrite Rmult_0_l, Rplus_0_r; reflexivity).
    destruct (Speed 0%nat 0%nat Hw ltac:(lia)) as (v & Hv & Gv); [rewrite Ep2; exact Dq|lra|].
    split; [exact Hw|]. exists v. repeat split; try assumption; [lra|]. rewrite Z21, Z22. ring. }
  (* row by row *)
  set (bound := fun k : nat => exp (Lp * (INR k * h)) * e).
  assert (Small : forall k, (k <= n)%nat -> bound k <= tol).
  { intros k Hk. eapply Rle_trans; [|exact HK]. unfold bound. apply Rmult_le_compat_r; [exact Pe|]. apply exp_le. apply Rmult_le_compat_l; [exact HLp|].
    apply Rle_trans with (INR n * h); [apply Rmult_le_compat_r; [lra|]; now apply le_INR|unfold X; lra]. }
  assert (All : forall k, (k <= n)%nat -> good k /\ Rabs (T1 k - T2 k) + Rabs (P1 k - P2 k) <= bound k).
  { induction k as [|k IH]; intros Hk.
    - split; [exact Good0|].
      destruct (S2 0%nat (proj1 Good0)) as (_ & _ & Z0 & _). destruct (Z0 eq_refl) as [Z1 Z2]. fold (r2 0%nat) (T2 0%nat) (P2 0%nat) in Z1, Z2.
      rewrite Z11, Z12, Z1, Z2. unfold bound. cbn [INR]. rewrite Rmult_0_l, Rmult_0_r, exp_0, Rmult_1_l. apply Rle_refl.
    - destruct (IH ltac:(lia)) as [Gk Bk]. destruct (Grad k Gk) as (GD & GF & GP).
      destruct (First k ltac:(lia)) as (? & ? & ? & _ & _ & _ & _ & _ & _ & _ & _ & CD & CF & CP & _).
      destruct (S1 k ltac:(lia)) as (_ & _ & _ & Nx). destruct (Nx ltac:(lia)) as [Nx1 Nx2].
      fold (r1 (Datatypes.S k)) (T1 (Datatypes.S k)) (P1 (Datatypes.S k)) in Nx1, Nx2. fold (r1 k) (T1 k) (P1 k) in Nx1, Nx2. rewrite CF in Nx1. rewrite CP in Nx2.
      assert (Ld : Rabs (F (p1 k) - F (p2 k)) <= LF * dist (p1 k) (p2 k)) by exact (proj2 (HF _ CD) _ GD).
      unfold dist in Ld. cbn [px pt pp p1 p2] in Ld. rewrite (Rminus_diag_eq (st_pos s0 + INR k * h)), Rabs_R0 in Ld by reflexivity.
      assert (Once : Rabs (T1 k + F (p1 k) * h - (T2 k + F (p2 k) * h)) + Rabs (P1 k + - rate0 * F (p1 k) * h - (P2 k + - rate0 * F (p2 k) * h)) <= bound (Datatypes.S k)).
      { apply drift_one; [exact Hh|exact HLp|exact Bk|].
        rewrite <- Rmult_minus_distr_l, Rabs_mult, Rabs_Ropp, (Rabs_right rate0) by lra.
        assert (Q := Rmult_le_compat_l (1 + rate0) _ _ ltac:(lra) Ld). unfold Lp. lra. }
      destruct (Next k (Datatypes.S k) Gk Hk) as [G1 G2].
      + apply Rmult_le_compat_r; [lra|]. now apply le_INR.
      + unfold dist. cbn [px pt pp p1]. rewrite (Rminus_diag_eq (st_pos s0 + INR (Datatypes.S k) * h)), Rabs_R0 by reflexivity.
        rewrite Nx1, Nx2. assert (Q := Small _ Hk). lra.
      + split; [exact G1|]. change (T2 (Datatypes.S k)) with (pt (p2 (Datatypes.S k))). change (P2 (Datatypes.S k)) with (pp (p2 (Datatypes.S k))).
        rewrite G2. cbn [pt pp]. rewrite Nx1, Nx2. exact Once. }
  assert (Flow : forall k, (k <= n)%nat -> (k < w_iter w')%nat /\ flows_freely (v0 / 2) phi2 (w_log w') k).
  { intros k Hk. split; [apply (All k Hk)|]. intros j r v phi Hj Hr Hv Hp.
    destruct (All j ltac:(lia)) as [(I1 & v' & Hv' & Gv & Gp & _) _]. destruct (S2 j I1) as (N2 & (_ & _ & A3 & _) & _). fold (r2 j) (P2 j) in N2, A3.
    rewrite N2 in Hr. injection Hr as <-. rewrite <- (holds_fun _ _ _ _ Hv' Hv), <- (holds_fun _ _ _ _ A3 Hp). auto. }
  destruct (Flow n (le_n _)) as [Fl1 Fl2]. split; [exact Fl1|]. split; [exact Fl2|]. intros k Hk. destruct (Flow k Hk) as [Fk1 Fk2].
  destruct (HC k fuel fuel' w w' Hh W K W' K' H H' ltac:(lia) Fk1) as (r & r' & x & temp & phi & v & temp' & phi' & v' & Q); [|exact Fk2|].
  { intros i r v phi Hi Hr Hv Hp. destruct (Free i r v phi ltac:(lia) Hr Hv Hp). split; lra. }
  cbv zeta in Q. fold e in Q. destruct Q as (U1 & U2 & U3 & U4 & U5 & U6 & U7 & U8 & U9 & U10 & U11 & U12 & U13).
  assert (M1 : C0 * e <= (Rabs C0 + 1) * e) by (apply Rmult_le_compat_r; [exact Pe|]; assert (Q := Rle_abs C0); lra).
  exists r, r'. split; [exact U1|]. split; [exact U2|]. exists x, temp, phi, v, temp', phi', v'.
  repeat (split; [assumption|]). split; [lra|]. split; lra.
Qed.
