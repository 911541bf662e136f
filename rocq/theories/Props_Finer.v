(** * Props_Finer: a finer step does not stop the lava earlier (C87) *)
From Coq Require Import Reals Lra Lia List Classical_Prop.
From Verif Require Import Base Num Json Logger World Vesicle MeltVisc RelVisc Bubbles Terrain Lava
  Thermal Flux Integrator Factory Run Frame StepLog Spec RNum RPow StepProofs LoggerProofs RowProofs StepProps StepRow Gives Steady EffArray Props_Run Props_Step Props_Budget Props_BudgetStep Props_RunOuts
  Props_Velocity Props_Rheology Props_Material Props_Terrain Props_Thermal Props_Flux ColumnProofs TableTrace Props_Table Props_Recompute
  Safe Valid Props_ValidRun Cooling Props_Cooling Recompute Lipschitz ModelLip Refine Losses Props_Refine Props_RefineRun Props_Compare Faster Props_Faster.
Open Scope R_scope.

(** ** Lava that flows at [v0] here flows at [v0/2] nearby *)
Lemma jb_margin H t0 tb mu v : 0 < H -> 0 < mu -> 0 <= t0 < tb -> v <= jeffreys_bingham H t0 tb mu -> 2 * mu * v / H <= tb - t0.
Proof.
  intros PH Pm Ht Hv. rewrite jb_factored in Hv by lra. set (r := t0 / tb) in *.
  assert (Er : r * tb = t0) by (unfold r; field; lra).
  assert (R0 : 0 <= r) by (unfold r; apply Rmult_le_pos; [lra|apply Rlt_le, Rinv_0_lt_compat; lra]).
  assert (R1 : r < 1) by nra.
  assert (A : (1 - r) ^ 2 * (2 + r) / 2 <= 3 / 2 * (1 - r)) by nra.
  assert (P : 0 < H * tb / (3 * mu)) by (apply Rdiv_lt_0_compat; nra).
  assert (B : v <= H * tb / (3 * mu) * (3 / 2 * (1 - r))).
  { eapply Rle_trans; [exact Hv|]. apply Rmult_le_compat_l; [lra|exact A]. }
  replace (H * tb / (3 * mu) * (3 / 2 * (1 - r))) with (H / (2 * mu) * (tb - t0)) in B by (rewrite <- Er; field; lra).
  apply Rmult_le_reg_l with (H / (2 * mu)); [apply Rdiv_lt_0_compat; lra|].
  replace (H / (2 * mu) * (2 * mu * v / H)) with v by (field; lra). exact B.
Qed.

Lemma speed_nearby sm s depth phi2 v0 H (V : admissible sm s depth) (S : smooth sm phi2) : 0 < v0 -> 0 < H ->
  exists eta, 0 < eta /\ forall p q a b c a' b' c', box (region_of sm s) phi2 p -> box (region_of sm s) phi2 q -> dist p q <= eta ->
    computes_bulk_viscosity (s_lava sm) (state_at p) = Ok a -> get_yield_strength (s_lava sm) (state_at p) = Ok b ->
    get_basal_shear_stress (s_lava sm) (s_ter sm) H (state_at p) = Ok c ->
    computes_bulk_viscosity (s_lava sm) (state_at q) = Ok a' -> get_yield_strength (s_lava sm) (state_at q) = Ok b' ->
    get_basal_shear_stress (s_lava sm) (s_ter sm) H (state_at q) = Ok c' ->
    b < c -> v0 <= jeffreys_bingham H b c a -> b' < c' /\ v0 / 2 <= jeffreys_bingham H b' c' a'.
Proof.
  intros Hv0 PH. destruct (va_pos _ _ _ V) as [X0 X1]. assert (Ph0 := va_phi _ _ _ V). set (g := region_of sm s).
  destruct (va_lava _ _ _ V) as (Vm & Vr & Vb & Vv & Pdre & Plat).
  destruct (ves_smooth g phi2 X0 _ Vv (sm_ves _ _ S)) as (vf & Lvf & Evf & Mvf & Bvf).
  destruct (viscosity_smooth g phi2 X0 Ph0 (s_lava sm) (va_lava _ _ _ V) (sm_melt _ _ S) (sm_rel _ _ S) (sm_bub _ _ S)) as (mu & Pmu & Emu).
  destruct (yield_smooth g phi2 X0 Ph0 (s_lava sm) (sm_yield_ok _ _ S) (sm_yield _ _ S)) as (t0 & Lt0 & Et0).
  destruct (slope_smooth g phi2 _ (va_slope _ _ _ V)) as (sl & Lsl & Esl).
  set (tb := fun p => H * (lv_dre (s_lava sm) * (1 - vf p)) * ter_gravity (s_ter sm) * sin (sl p)).
  set (vel := fun p => jeffreys_bingham H (t0 p) (tb p) (mu p)).
  assert (Ltb : lip (box g phi2) tb).
  { apply lip_mult; [|now apply lip_sin]. apply lip_mult; [|apply lip_const]. apply lip_mult; [apply lip_const|].
    apply lip_mult; [apply lip_const|]. apply lip_minus; [apply lip_const|exact Lvf]. }
  assert (Etb : forall p, box g phi2 p -> get_basal_shear_stress (s_lava sm) (s_ter sm) H (state_at p) = Ok (tb p)).
  { intros p Bp. assert (Q : basal_body (s_ter sm) H (s_lava sm) (state_at p) = Ok (tb p)).
    { unfold basal_body, get_bulk_density, lava_vesicle_fraction. rewrite (returns_at _ _ _ _ Evf Bp). cbn [rbind state_at st_pos].
      rewrite (Esl p). cbn [rbind]. rnum. reflexivity. }
    unfold get_basal_shear_stress, compute_basal_shear_stress. destruct (lv_yield (s_lava sm)); exact Q. }
  destruct Pmu as [Lmu (cm & Pcm & Bmu)].
  set (del := 2 * cm * v0 / H). assert (Pdel : 0 < del) by (unfold del; apply Rdiv_lt_0_compat; [repeat apply Rmult_lt_0_compat; lra|exact PH]).
  set (D := fun p => box g phi2 p /\ del / 2 <= tb p).
  assert (DB : forall p, D p -> box g phi2 p) by (intros p [Q _]; exact Q).
  assert (Dtb : plip D tb) by (apply (plip_above _ _ (del / 2)); [now apply (lip_sub (box g phi2))|lra|intros p Hp; apply Hp]).
  assert (Dmu : plip D mu). { split; [now apply (lip_sub (box g phi2))|]. exists cm. split; [exact Pcm|]. intros p Hp. apply Bmu, DB, Hp. }
  assert (Dr : lip D (fun p => t0 p / tb p)) by (apply lip_div; [now apply (lip_sub (box g phi2))|exact Dtb]).
  assert (Dvel : lip D vel).
  { unfold vel, jeffreys_bingham. apply lip_mult.
    - apply lip_div; [apply lip_mult; [apply lip_const|now apply plip_lip]|]. apply plip_mult; [apply plip_const; lra|exact Dmu].
    - apply lip_plus; [apply lip_minus; [apply lip_const|]|]; apply lip_mult; try apply lip_const; [exact Dr|now apply lip_pow]. }
  assert (Ldl : lip (box g phi2) (fun p => tb p - t0 p)) by now apply lip_minus.
  destruct Ltb as (L1 & B1 & HL1 & _ & H1). destruct Ldl as (L2 & B2 & HL2 & _ & H2). destruct Dvel as (L3 & B3 & HL3 & _ & H3).
  set (LL := L1 + L2 + L3 + 1). set (e := Rmin (del / 2) (v0 / 2)).
  assert (Pe : 0 < e) by (unfold e; apply Rmin_glb_lt; lra).
  exists (e / LL). split; [apply Rdiv_lt_0_compat; unfold LL; lra|].
  intros p q a b c a' b' c' Bp Bq Hd Ea Eb Ec Ea' Eb' Ec' Hbc Hv.
  rewrite (returns_at _ _ _ _ Emu Bp) in Ea. rewrite (returns_at _ _ _ _ Et0 Bp) in Eb. rewrite (Etb p Bp) in Ec.
  rewrite (returns_at _ _ _ _ Emu Bq) in Ea'. rewrite (returns_at _ _ _ _ Et0 Bq) in Eb'. rewrite (Etb q Bq) in Ec'.
  apply Ok_inj in Ea, Eb, Ec, Ea', Eb', Ec'. subst a b c a' b' c'.
  assert (Pt : 0 <= t0 p).
  { destruct (yield_inside (s_lava sm) (state_at p)) as (z & Ez & Pz).
    - destruct Bp as [(_ & _ & Q) _]. unfold g, region_of in Q. cbn in Q |- *. lra.
    - rewrite (returns_at _ _ _ _ Et0 Bp) in Ez. injection Ez as <-. exact Pz. }
  assert (Pm := Bmu p Bp).
  assert (Mg := jb_margin H (t0 p) (tb p) (mu p) v0 PH ltac:(lra) (conj Pt Hbc) Hv).
  assert (Md : del <= tb p - t0 p).
  { eapply Rle_trans; [|exact Mg]. unfold del, Rdiv. apply Rmult_le_compat_r; [apply Rlt_le, Rinv_0_lt_compat, PH|].
    apply Rmult_le_compat_r; [lra|]. lra. }
  assert (Dp0 := dist_pos p q).
  assert (Sm : forall L, 0 <= L -> L + 1 <= LL -> L * dist p q < e).
  { intros L HL HLL. assert (Q : LL * dist p q <= e).
    { replace e with (LL * (e / LL)) by (field; unfold LL; lra). apply Rmult_le_compat_l; [unfold LL; lra|exact Hd]. }
    destruct (Rle_lt_or_eq_dec _ _ Dp0) as [P|<-]; [|rewrite Rmult_0_r; exact Pe].
    assert (L * dist p q < LL * dist p q) by (apply Rmult_lt_compat_r; lra). lra. }
  assert (E1 : e <= del / 2) by apply Rmin_l. assert (E2 : e <= v0 / 2) by apply Rmin_r.
  destruct (H1 p Bp) as [_ Q1]. specialize (Q1 q Bq). assert (Z1 := Sm L1 HL1 ltac:(unfold LL; lra)).
  destruct (H2 p Bp) as [_ Q2]. specialize (Q2 q Bq). assert (Z2 := Sm L2 HL2 ltac:(unfold LL; lra)). cbv beta in Q2.
  assert (A1 := Rle_abs (tb p - tb q)). assert (A2 := Rle_abs (tb p - t0 p - (tb q - t0 q))).
  split; [lra|].
  assert (Dp : D p) by (split; [exact Bp|lra]). assert (Dq : D q) by (split; [exact Bq|lra]).
  destruct (H3 p Dp) as [_ Q3]. specialize (Q3 q Dq). assert (Z3 := Sm L3 HL3 ltac:(unfold LL; lra)).
  assert (A3 := Rle_abs (vel p - vel q)). fold (vel p) in Hv. fold (vel q). lra.
Qed.

(** ** C87 *)
(** [r'] shows the place of [r] with a temperature, a crystal fraction and a
    velocity that differ by at most [e]. *)
Definition same_place_within (e : R) (r r' : row R) : Prop :=
  exists x temp phi v temp' phi' v',
    holds r "position" x /\ holds r' "position" x /\
    holds r "core_temperature" temp /\ holds r' "core_temperature" temp' /\
    holds r "crystal_fraction" phi /\ holds r' "crystal_fraction" phi' /\
    holds r "mean_velocity" v /\ holds r' "mean_velocity" v' /\
    Rabs (temp - temp') <= e /\ Rabs (phi - phi') <= e /\ Rabs (v - v') <= e.

(** A configuration as in C79, whose slope moves the lava at the vent.  [phi2] is
    below the packing limit and at most the crystal fraction reached at the
    solidus.  There are [h0] and [C] such that for every step [h] up to [h0] and
    every [m]: wherever the run with the step [h] shows lava flowing at [v0] or
    more with at most [phi1 < phi2] crystals, the run with the step [h/m] also
    has a row for that place -- it has not stopped before -- and the two differ
    by at most [C * h]. *)
Theorem C87_finer_steps_flow_as_far :
  forall (d : json R) profile mo (sm : sim R) (s : state R) depth d0 phi1 phi2 v0,
  build_models d profile = Ok mo -> s_budget sm = mo_budget mo ->
  losing sm s depth -> smooth sm phi2 -> 0 < v0 ->
  phi1 < phi2 <= st_phi s + fastest_rate (s_cryst sm) * (st_temp s - get_solid_temperature (s_cryst sm)) ->
  vent_depth sm s depth d0 -> moves_at_vent sm s d0 ->
  exists h0 C, 0 < h0 /\ forall h m n fuel fuel' w w', 0 < h <= h0 -> (0 < m)%nat ->
    simulate fuel (with_step h sm) (initial_world s [] depth) = Some (Ok tt, w) ->
    simulate fuel' (with_step (h / INR m) sm) (initial_world s [] depth) = Some (Ok tt, w') ->
    (n < w_iter w)%nat -> flows_freely v0 phi1 (w_log w) n ->
    (n * m < w_iter w')%nat /\ flows_freely (v0 / 2) phi2 (w_log w') (n * m) /\
    forall k, (k <= n)%nat -> exists r r', nth_error (w_log w) k = Some r /\ nth_error (w_log w') (k * m) = Some r' /\
      same_place_within (C * h) r r'.
Proof.
  intros d profile mo sm s depth d0 phi1 phi2 v0 Hb Es K S Hv0 [Hphi Hcap] Vd Mov.
  assert (V := co_admissible _ _ _ K). assert (Hv2 : 0 < v0 / 2) by lra.
  destruct (gradient d profile mo sm s depth phi2 (v0 / 2) Hb Es K S Hv2) as
    (D & F & vel & rate0 & (L & B & HL & HB & HF) & _ & Prate0 & HG).
  destruct (C79_error_proportional_to_step d profile mo sm s depth phi2 (v0 / 2) Hb Es K S Hv2) as (C & HC).
  destruct (vent_init sm s depth V []) as (w0 & E0 & S0 & F0 & I0).
  assert (Hd0 : w_depth w0 = d0) by (apply (vent_depth_fun sm s depth); [exists w0; auto|exact Vd]).
  assert (Pd0 : 0 < d0) by (rewrite <- Hd0; exact (so_depth _ _ _ S0)).
  destruct (speed_nearby sm s depth phi2 v0 d0 V S Hv0 Pd0) as (eta & Peta & Near).
  destruct (sm_cryst _ _ S) as (cr1 & grown & ts & te & Ecr).
  set (rate := fastest_rate (s_cryst sm)) in *.
  assert (Prate : 0 < rate).
  { assert (Vc := va_cryst _ _ _ V). unfold rate. rewrite Ecr in Vc |- *. cbn [valid_cryst fastest_rate] in *. apply Rdiv_lt_0_compat; lra. }
  set (L' := (1 + rate0) * L). set (B' := (1 + rate0) * B). set (X := ter_maxlen (s_ter sm) - st_pos s).
  assert (HL' : 0 <= L') by (unfold L'; apply Rmult_le_pos; lra). assert (HB' : 0 <= B') by (unfold B'; apply Rmult_le_pos; lra).
  assert (PX : 0 < X). { unfold X. destruct (va_pos _ _ _ V). lra. }
  set (C1 := (1 + B') * (exp (L' * X) - 1)).
  assert (PC1 : 0 <= C1). { unfold C1. apply Rmult_le_pos; [lra|]. assert (0 <= L' * X) by (apply Rmult_le_pos; lra).
    assert (exp 0 <= exp (L' * X)) by now apply exp_le. rewrite exp_0 in *. lra. }
  set (tol := Rmin eta ((phi2 - phi1) / 2)). assert (Ptol : 0 < tol) by (unfold tol; apply Rmin_glb_lt; lra).
  assert (Tol1 : tol <= eta) by apply Rmin_l. assert (Tol2 : tol <= (phi2 - phi1) / 2) by apply Rmin_r.
  set (KK := C1 + B' + 1). assert (PKK : 0 < KK) by (unfold KK; lra).
  exists (tol / KK), C. split; [now apply Rdiv_lt_0_compat|].
  intros h m n fuel fuel' w w' [Hh Hh0] Hm H H' Hn Free.
  assert (HK : KK * h <= tol).
  { replace tol with (KK * (tol / KK)) by (field; lra). apply Rmult_le_compat_l; lra. }
  assert (Mp : 0 < INR m) by (apply lt_0_INR; lia). set (dd := h / INR m) in *. assert (Hd : 0 < dd) by (apply Rdiv_lt_0_compat; lra).
  assert (Emd : INR m * dd = h) by (unfold dd; field; lra).
  set (sm1 := with_step h sm) in *. set (sm2 := with_step dd sm) in *.
  assert (K1 : losing sm1 s depth) by now apply losing_step. assert (K2 : losing sm2 s depth) by now apply losing_step.
  assert (V1 := co_admissible _ _ _ K1). assert (V2 := co_admissible _ _ _ K2).
  assert (Q1 : s_dx sm1 <> 0) by (change (h <> 0); lra). assert (Q2 : s_dx sm2 <> 0) by (change (dd <> 0); lra).
  assert (S1 := run_sequences sm1 _ _ _ w Q1 H). assert (S2 := run_sequences sm2 _ _ _ w' Q2 H'). cbv zeta in S1, S2.
  change (s_dx sm1) with h in *. change (s_dx sm2) with dd in *.
  set (r1 k := nth k (w_log w) []) in *. set (r2 k := nth k (w_log w') []) in *.
  set (T1 k := value (r1 k) "core_temperature") in *. set (T2 k := value (r2 k) "core_temperature") in *.
  set (P1 k := value (r1 k) "crystal_fraction") in *. set (P2 k := value (r2 k) "crystal_fraction") in *.
  set (p1 k := {| px := st_pos s + INR k * h; pt := T1 k; pp := P1 k |}).
  set (p2 j := {| px := st_pos s + INR j * dd; pt := T2 j; pp := P2 j |}).
  assert (E01 : init_effusion_rate sm1 (initial_world s [] depth) = (Ok tt, w0)) by (unfold sm1; rewrite init_step; exact E0).
  assert (E02 : init_effusion_rate sm2 (initial_world s [] depth) = (Ok tt, w0)) by (unfold sm2; rewrite init_step; exact E0).
  destruct Mov as (ty & tx & Ety & Etx & Hmov).
  assert (Ety' : get_yield_strength (s_lava sm) (w_st w0) = Ok ty).
  { rewrite (init_state _ _ _ _ E0). unfold get_yield_strength. rewrite yield_strain. exact Ety. }
  assert (Etx' : get_basal_shear_stress (s_lava sm) (s_ter sm) (w_depth w0) (w_st w0) = Ok tx).
  { rewrite Hd0, (init_state _ _ _ _ E0). unfold get_basal_shear_stress. rewrite basal_strain. exact Etx. }
  assert (Sf := smooth_strain_free _ _ S).
  (* a row of the coarse run *)
  assert (Coarse : forall k, (k <= n)%nat -> exists a b c,
    box (region_of sm s) phi2 (p1 k) /\ computes_bulk_viscosity (s_lava sm) (state_at (p1 k)) = Ok a /\
    get_yield_strength (s_lava sm) (state_at (p1 k)) = Ok b /\ get_basal_shear_stress (s_lava sm) (s_ter sm) d0 (state_at (p1 k)) = Ok c /\
    b < c /\ v0 <= jeffreys_bingham d0 b c a /\ holds (r1 k) "mean_velocity" (jeffreys_bingham d0 b c a) /\
    P1 k <= phi1 /\ D (p1 k) /\ value (r1 k) "dtemp_dx" = F (p1 k) /\ value (r1 k) "dphi_dx" = - rate0 * F (p1 k) /\
    st_pos s + INR k * h < ter_maxlen (s_ter sm) /\ T1 k <= st_temp s).
  { intros k Hk. assert (Hk1 : (k < w_iter w)%nat) by lia.
    destruct (S1 k Hk1) as (N1 & R1 & _). fold (r1 k) (T1 k) (P1 k) in N1, R1.
    destruct (row_world sm1 s depth V1 fuel w k _ H Hk1 N1) as
      (w0' & wi & wj & v & rho & wd & sl & hb & ra & dT & dt & E0' & J0 & S0' & RL & St & _ & _ & CS & Sw & _ & Ii & Ed & Ex & Et & Ep & Ev & _).
    assert (w0' = w0) as -> by congruence. change (s_dx sm1) with h in Ex.
    assert (R1' := R1). destruct R1' as (A1 & A2 & A3 & A4 & A5).
    assert (X1 : st_temp (w_st wi) = T1 k) by exact (holds_fun _ _ _ _ Et A2).
    assert (Y1 : st_phi (w_st wi) = P1 k) by exact (holds_fun _ _ _ _ Ep A3).
    destruct (Free k (r1 k) v (P1 k) Hk N1 Ev A3) as [Fv Fp].
    destruct (cs_budget _ _ _ _ _ _ _ _ _ _ _ CS) as (new & w2 & Mv & _).
    change (mean_velocity (s_lava sm) (s_ter sm) (w_depth wi) (w_st wi) = Ok (v, new)) in Mv. rewrite Ed, Hd0 in Mv.
    destruct (C20_velocity_only_if _ _ _ _ _ _ Mv) as (a & b & c & Za & Zb & Zc & _ & _ & _ & -> & _).
    assert (Ins := sound_inside _ _ _ V1 _ (so_nearly _ _ _ Sw)). change (region_of sm1 s) with (region_of sm s) in Ins.
    assert (Eat : at_ (w_st wi) = p1 k) by (unfold at_, p1; rewrite Ex, X1, Y1; reflexivity).
    assert (Bx : box (region_of sm s) phi2 (p1 k)).
    { rewrite <- Eat. split; [exact Ins|]. cbn. rewrite Y1. lra. }
    destruct (HG h fuel w Hh H k (r1 k) _ _ _ _ _ _ Hk1 N1 R1 Ev) as [Gx G]. destruct (G ltac:(lra) ltac:(lra)) as (GD & GF & GP & _).
    (* the state of the row, up to the strain rate and the time *)
    assert (Yv : forall y, get_yield_strength (s_lava sm) (w_st wi) = Ok y -> get_yield_strength (s_lava sm) (state_at (p1 k)) = Ok y).
    { intros y <-. destruct (yield_smooth (region_of sm s) phi2 (proj1 (va_pos _ _ _ V)) (va_phi _ _ _ V) (s_lava sm) (sm_yield_ok _ _ S) (sm_yield _ _ S)) as (f & _ & Ef).
      rewrite (returns_at _ _ _ _ Ef Bx). rewrite (Ef (w_st wi)) by (rewrite Eat; exact Bx). rewrite Eat. reflexivity. }
    assert (Mv' : forall y, computes_bulk_viscosity (s_lava sm) (w_st wi) = Ok y -> computes_bulk_viscosity (s_lava sm) (state_at (p1 k)) = Ok y).
    { intros y <-. destruct (viscosity_smooth (region_of sm s) phi2 (proj1 (va_pos _ _ _ V)) (va_phi _ _ _ V) (s_lava sm) (va_lava _ _ _ V) (sm_melt _ _ S) (sm_rel _ _ S) (sm_bub _ _ S)) as (f & _ & Ef).
      rewrite (returns_at _ _ _ _ Ef Bx). rewrite (Ef (w_st wi)) by (rewrite Eat; exact Bx). rewrite Eat. reflexivity. }
    exists a, b, c. split; [exact Bx|]. split; [exact (Mv' _ Za)|]. split; [exact (Yv _ Zb)|].
    split; [rewrite <- Zc; apply basal_same; cbn; rewrite Ex; reflexivity|].
    split.
    { destruct k as [|k].
      - injection St as <-. rewrite Ety' in Zb. rewrite Hd0 in Etx'. rewrite Etx' in Zc. injection Zb as <-. injection Zc as <-. exact Hmov.
      - destruct (so_stage _ _ _ (so_nearly _ _ _ Sw)) as [(_ & _ & _ & Z)|(_ & _ & Hy & _)]; [lia|].
        change (yield_strength_notcompatible (s_lava sm) (s_ter sm) (w_depth wi) (w_st wi) = Ok false) in Hy. rewrite Ed, Hd0 in Hy.
        apply (C32_stop_criterion _ _ _ _ _ _ Zb Zc) in Hy. exact Hy. }
    split; [exact Fv|]. split; [exact Ev|]. split; [exact Fp|]. split; [exact GD|]. split; [exact GF|]. split; [exact GP|]. split; [exact Gx|].
    rewrite <- X1. apply Ins. }
  assert (Xn : st_pos s + INR n * h < ter_maxlen (s_ter sm)).
  { destruct (Coarse n (le_n _)) as (? & ? & ? & _ & _ & _ & _ & _ & _ & _ & _ & _ & _ & _ & Q & _). exact Q. }
  (* a good row of the fine run *)
  set (good := fun j => (j < w_iter w')%nat /\ exists v, holds (r2 j) "mean_velocity" v /\ v0 / 2 <= v /\ P2 j <= phi2 /\
                        P2 j = st_phi s + rate * (st_temp s - T2 j)).
  assert (Grad : forall j, good j -> D (p2 j) /\ value (r2 j) "dtemp_dx" = F (p2 j) /\ value (r2 j) "dphi_dx" = - rate0 * F (p2 j)).
  { intros j (I1 & v & Hv & Gv & Gp & _). destruct (S2 j I1) as (N2 & R2 & _). fold (r2 j) (T2 j) (P2 j) in N2, R2.
    destruct (HG dd fuel' w' Hd H' j (r2 j) _ _ _ _ _ v I1 N2 R2 Hv) as [_ G]. destruct (G Gv Gp) as (G1 & G2 & G3 & _). auto. }
  (* the velocity of a fine row near a coarse one *)
  assert (Speed : forall j k, (j < w_iter w')%nat -> (k <= n)%nat -> dist (p1 k) (p2 j) <= tol -> P2 j <= phi2 ->
    exists v, holds (r2 j) "mean_velocity" v /\ v0 / 2 <= v).
  { intros j k Hj Hk Dk Gp. destruct (S2 j Hj) as (N2 & R2 & _). fold (r2 j) (T2 j) (P2 j) in N2, R2.
    destruct (row_world sm2 s depth V2 fuel' w' j _ H' Hj N2) as
      (w0' & wi & wj & v & rho & wd & sl & hb & ra & dT & dt & E0' & J0 & S0' & RL & St & _ & _ & CS & Sw & _ & Ii & Ed & Ex & Et & Ep & Ev & _).
    assert (w0' = w0) as -> by congruence. change (s_dx sm2) with dd in Ex. destruct R2 as (A1 & A2 & A3 & A4 & A5).
    assert (X2 : st_temp (w_st wi) = T2 j) by exact (holds_fun _ _ _ _ Et A2).
    assert (Y2 : st_phi (w_st wi) = P2 j) by exact (holds_fun _ _ _ _ Ep A3).
    destruct (cs_budget _ _ _ _ _ _ _ _ _ _ _ CS) as (new & w2 & Mv & _).
    change (mean_velocity (s_lava sm) (s_ter sm) (w_depth wi) (w_st wi) = Ok (v, new)) in Mv. rewrite Ed, Hd0 in Mv.
    destruct (C20_velocity_only_if _ _ _ _ _ _ Mv) as (a' & b' & c' & Za & Zb & Zc & _ & _ & _ & -> & _).
    assert (Ins := sound_inside _ _ _ V2 _ (so_nearly _ _ _ Sw)). change (region_of sm2 s) with (region_of sm s) in Ins.
    assert (Eat : at_ (w_st wi) = p2 j) by (unfold at_, p2; rewrite Ex, X2, Y2; reflexivity).
    assert (Bx : box (region_of sm s) phi2 (p2 j)).
    { rewrite <- Eat. split; [exact Ins|]. cbn. rewrite Y2. lra. }
    assert (Yv : get_yield_strength (s_lava sm) (state_at (p2 j)) = Ok b').
    { rewrite <- Zb. destruct (yield_smooth (region_of sm s) phi2 (proj1 (va_pos _ _ _ V)) (va_phi _ _ _ V) (s_lava sm) (sm_yield_ok _ _ S) (sm_yield _ _ S)) as (f & _ & Ef).
      rewrite (returns_at _ _ _ _ Ef Bx). rewrite (Ef (w_st wi)) by (rewrite Eat; exact Bx). rewrite Eat. reflexivity. }
    assert (Mv' : computes_bulk_viscosity (s_lava sm) (state_at (p2 j)) = Ok a').
    { rewrite <- Za. destruct (viscosity_smooth (region_of sm s) phi2 (proj1 (va_pos _ _ _ V)) (va_phi _ _ _ V) (s_lava sm) (va_lava _ _ _ V) (sm_melt _ _ S) (sm_rel _ _ S) (sm_bub _ _ S)) as (f & _ & Ef).
      rewrite (returns_at _ _ _ _ Ef Bx). rewrite (Ef (w_st wi)) by (rewrite Eat; exact Bx). rewrite Eat. reflexivity. }
    destruct (Coarse k Hk) as (a & b & c & Bk & Ca & Cb & Cc & Cbc & Cv & _).
    exists (jeffreys_bingham d0 b' c' a'). split; [exact Ev|].
    refine (proj2 (Near (p1 k) (p2 j) a b c a' b' c' Bk Bx (Rle_trans _ _ _ Dk Tol1) Ca Cb Cc Mv' Yv _ Cbc Cv)).
    rewrite <- Zc. apply basal_same. cbn. rewrite Ex. reflexivity. }
  (* the next fine row, if it is near a row of the coarse run *)
  assert (Next : forall j k, good j -> (k <= n)%nat -> INR (Datatypes.S j) * dd <= INR n * h ->
    let q := {| px := st_pos s + INR (Datatypes.S j) * dd; pt := T2 j + F (p2 j) * dd; pp := P2 j + - rate0 * F (p2 j) * dd |} in
    dist (p1 k) q <= tol -> good (Datatypes.S j) /\ p2 (Datatypes.S j) = q).
  { intros j k G Hk Hj q Dk. destruct (Grad j G) as (GD & GF & GP). destruct G as (I1 & vj & Hvj & Gv & Gp & Glin).
    destruct (S2 j I1) as (N2 & R2 & _ & Nx). fold (r2 j) (T2 j) (P2 j) in N2, R2.
    destruct (row_world sm2 s depth V2 fuel' w' j _ H' I1 N2) as
      (w0' & wi & wj & v & rho & wd & sl & hb & ra & dT & dt & E0' & J0 & S0' & RL & St & Stj & Sg & CS & Sw & Fi & Ii & Ed & Ex & Et & Ep & Ev & EdT & Edp).
    assert (w0' = w0) as -> by congruence. change (s_dx sm2) with dd in Ex. destruct R2 as (A1 & A2 & A3 & A4 & A5).
    assert (X2 : st_temp (w_st wi) = T2 j) by exact (holds_fun _ _ _ _ Et A2).
    assert (Y2 : st_phi (w_st wi) = P2 j) by exact (holds_fun _ _ _ _ Ep A3).
    assert (Z2 : dT = F (p2 j)) by (rewrite <- GF; exact (holds_fun _ _ _ _ EdT A4)).
    assert (Z3 : - ra * dT = - rate0 * F (p2 j)) by (rewrite <- GP; exact (holds_fun _ _ _ _ Edp A5)).
    assert (Era : ra = rate).
    { assert (Q := cs_rate _ _ _ _ _ _ _ _ _ _ _ CS). change (s_cryst sm2) with (s_cryst sm) in Q. unfold rate. assert (Vc := va_cryst _ _ _ V).
      rewrite Ecr in Q, Vc |- *. cbn [valid_cryst compute_crystallization_rate fastest_rate] in *. rnum. rewrite R_div_ok in Q by lra. injection Q as <-. reflexivity. }
    assert (Xj : st_temp (w_st wj) = pt q).
    { rewrite (cs_temp _ _ _ _ _ _ _ _ _ _ _ CS), X2, Z2. reflexivity. }
    assert (Yj : st_phi (w_st wj) = pp q).
    { rewrite (cs_phi _ _ _ _ _ _ _ _ _ _ _ CS), Y2. rnum. change (s_dx sm2) with dd. cbn [pp q]. rewrite <- Z3. ring. }
    assert (Pj : st_pos (w_st wj) = px q).
    { rewrite (cs_pos _ _ _ _ _ _ _ _ _ _ _ CS), Ex. cbn [px q]. rewrite S_INR. rnum. change (s_dx sm2) with dd. ring. }
    assert (Lin : pp q = st_phi s + rate * (st_temp s - pt q)).
    { cbn [pp pt q]. rewrite Glin, <- Z3, Era, <- Z2. ring. }
    destruct (Coarse k Hk) as (a & b & c & Bk & Ca & Cb & Cc & Cbc & Cv & _ & Cp & _).
    unfold dist in Dk. assert (B1 := Rabs_pos (px (p1 k) - px q)). assert (B2 := Rabs_pos (pt (p1 k) - pt q)). assert (B3 := Rabs_pos (pp (p1 k) - pp q)).
    assert (Hq2 : pp q < phi2).
    { assert (Q := Rle_abs (- (pp (p1 k) - pp q))). rewrite Rabs_Ropp in Q. change (pp (p1 k)) with (P1 k) in *. lra. }
    assert (Ht : get_solid_temperature (s_cryst sm) < pt q) by (apply Rmult_lt_reg_l with rate; [exact Prate|]; lra).
    assert (Inw := sound_inside _ _ _ V2 _ (so_nearly _ _ _ Sw)). destruct Inw as (K2x & K2t & K2p).
    change (region_of sm2 s) with (region_of sm s) in *. cbn [region_of rg_x0 rg_x1 rg_ts rg_te rg_phi0 rg_cap] in K2x, K2t, K2p.
    assert (Gr := cs_phi_grows _ _ _ _ _ _ _ _ _ _ _ CS). rnum. apply R_leb_false in Gr. rewrite Yj, Y2 in Gr. rewrite Y2 in K2p.
    assert (Tup : pt q <= st_temp s) by (apply Rmult_le_reg_l with rate; [exact Prate|]; lra).
    assert (Hx : st_pos s <= px q < ter_maxlen (s_ter sm)).
    { cbn [px q]. assert (0 <= INR (Datatypes.S j) * dd) by (apply Rmult_le_pos; [apply pos_INR|lra]). lra. }
    assert (Inj : inside (region_of sm s) (w_st wj)).
    { unfold inside. cbn [region_of rg_x0 rg_x1 rg_ts rg_te rg_phi0 rg_cap]. rewrite Xj, Yj, Pj. fold rate. split; [exact Hx|]. split; lra. }
    assert (Eat : at_ (w_st wj) = q) by (unfold at_; rewrite Xj, Yj, Pj; reflexivity).
    assert (Bq : box (region_of sm s) phi2 q) by (rewrite <- Eat; split; [exact Inj|cbn; rewrite Yj; lra]).
    (* the stresses there *)
    destruct (yield_smooth (region_of sm s) phi2 (proj1 (va_pos _ _ _ V)) (va_phi _ _ _ V) (s_lava sm) (sm_yield_ok _ _ S) (sm_yield _ _ S)) as (fy & _ & Efy).
    destruct (viscosity_smooth (region_of sm s) phi2 (proj1 (va_pos _ _ _ V)) (va_phi _ _ _ V) (s_lava sm) (va_lava _ _ _ V) (sm_melt _ _ S) (sm_rel _ _ S) (sm_bub _ _ S)) as (fm & _ & Efm).
    destruct (basal_inside (s_lava sm) (s_ter sm) d0 (state_at q) (va_slope _ _ _ V)) as (rh & sx & _ & _ & Eb).
    set (tb := d0 * rh * ter_gravity (s_ter sm) * sin sx) in Eb.
    destruct (Near (p1 k) q a b c (fm q) (fy q) tb Bk Bq) as [Hst _];
      [unfold dist; lra|exact Ca|exact Cb|exact Cc|exact (returns_at _ _ _ _ Efm Bq)|exact (returns_at _ _ _ _ Efy Bq)|exact Eb|exact Cbc|exact Cv|].
    assert (Edj : w_depth wj = d0) by (rewrite <- Hd0; exact (proj1 (C17_depth_and_flux_constant sm2 _ _ _ _ Stj))).
    assert (Y5 : get_yield_strength (s_lava sm) (w_st wj) = Ok (fy q)) by (rewrite (Efy (w_st wj)) by (rewrite Eat; exact Bq); rewrite Eat; reflexivity).
    assert (Eb' : get_basal_shear_stress (s_lava sm) (s_ter sm) (w_depth wj) (w_st wj) = Ok tb).
    { rewrite Edj, <- Eb. apply basal_same. rewrite Pj. reflexivity. }
    destruct (below_is_compatible sm s depth phi2 V S (w_st wj)) as [Cm Np];
      [rewrite Pj; destruct (va_pos _ _ _ V); lra|rewrite Yj; lra|].
    assert (Pass : passes sm2 wj).
    { split; [|split; [|split]].
      - apply R_leb_false. change (get_solid_temperature (s_cryst sm) < st_temp (w_st wj)). rewrite Xj. exact Ht.
      - exact Cm.
      - apply (C32_stop_criterion (s_lava sm) (s_ter sm) (w_depth wj) (w_st wj) (fy q) tb Y5 Eb'). exact Hst.
      - apply R_leb_false. change (st_pos (w_st wj) < ter_maxlen (s_ter sm)). rewrite Pj. apply Hx. }
    assert (Fj : w_fin wj = false).
    { destruct (cs_fin _ _ _ _ _ _ _ _ _ _ _ CS) as [[_ Nq]|[Fq _]]; [destruct (Nq Pass)|congruence]. }
    assert (Nlt : (Datatypes.S j < w_iter w')%nat).
    { apply (goes_on sm2 s depth K2 fuel' w0 w' (Datatypes.S j) wj J0 RL Stj).
      - rewrite (cs_iter _ _ _ _ _ _ _ _ _ _ _ CS), Ii. reflexivity.
      - right. exact I1.
      - exact Fj.
      - constructor; [exact (sound_next _ _ _ V2 _ _ Sw Sg Fj)|exact Np].
      - intros t Q3 Q4. change (get_yield_strength (s_lava sm) (w_st wj) = Ok t) in Q3.
        change (get_basal_shear_stress (s_lava sm) (s_ter sm) (w_depth wj) (w_st wj) = Ok t) in Q4.
        rewrite Y5 in Q3. rewrite Eb' in Q4. injection Q3 as Q3. injection Q4 as Q4. lra. }
    destruct (Nx Nlt) as [Nx1 Nx2]. fold (r2 (Datatypes.S j)) (T2 (Datatypes.S j)) (P2 (Datatypes.S j)) in Nx1, Nx2. fold (r2 j) (T2 j) (P2 j) in Nx1, Nx2.
    rewrite GF in Nx1. rewrite GP in Nx2.
    assert (Eq : p2 (Datatypes.S j) = q) by (unfold p2, q; rewrite Nx1, Nx2; reflexivity).
    split; [|exact Eq].
    assert (P2q : P2 (Datatypes.S j) = pp q) by exact Nx2. assert (T2q : T2 (Datatypes.S j) = pt q) by exact Nx1.
    destruct (Speed (Datatypes.S j) k Nlt Hk) as (v' & Hv' & Gv'); [rewrite Eq; unfold dist; lra|rewrite P2q; lra|].
    split; [exact Nlt|]. exists v'. rewrite P2q, T2q. repeat split; try assumption; lra. }
  (* the first row *)
  assert (Good0 : good 0%nat).
  { assert (Hw : (0 < w_iter w')%nat).
    { destruct (vent_init sm2 s depth V2 []) as (w0' & E0'' & S0' & Fi' & _). rewrite E02 in E0''. injection E0'' as <-.
      assert (RL := H'). unfold simulate in RL. rewrite E02 in RL.
      assert (Fw : w_fin w0 = false).
      { destruct (S1 0%nat ltac:(lia)) as (N1 & _).
        destruct (row_world sm1 s depth V1 fuel w 0%nat _ H ltac:(lia) N1) as
          (w0' & wi & ? & ? & ? & ? & ? & ? & ? & ? & ? & E0' & _ & _ & _ & St & _ & _ & _ & _ & Fi & _).
        assert (w0' = w0) as -> by congruence. injection St as <-. exact Fi. }
      apply (goes_on sm2 s depth K2 fuel' w0 w' 0%nat w0 I0 RL eq_refl I0 (or_introl eq_refl)); [exact Fw|exact S0'|].
      intros t Y1 Y2. change (get_yield_strength (s_lava sm) (w_st w0) = Ok t) in Y1.
      change (get_basal_shear_stress (s_lava sm) (s_ter sm) (w_depth w0) (w_st w0) = Ok t) in Y2. rewrite Ety' in Y1. rewrite Etx' in Y2.
      injection Y1 as Y1. injection Y2 as Y2. lra. }
    destruct (S2 0%nat Hw) as (_ & _ & Z & _). destruct (Z eq_refl) as [Z1 Z2]. fold (r2 0%nat) (T2 0%nat) (P2 0%nat) in Z1, Z2.
    destruct (S1 0%nat ltac:(lia)) as (_ & _ & Y & _). destruct (Y eq_refl) as [Y1 Y2]. fold (r1 0%nat) (T1 0%nat) (P1 0%nat) in Y1, Y2.
    destruct (Coarse 0%nat ltac:(lia)) as (? & ? & ? & _ & _ & _ & _ & _ & _ & _ & Cp & _).
    destruct (Speed 0%nat 0%nat Hw ltac:(lia)) as (v & Hv & Gv).
    - unfold dist, p1, p2. cbn [px pt pp INR]. rewrite Y1, Y2, Z1, Z2, !Rmult_0_l, !Rminus_diag_eq, Rabs_R0 by reflexivity. lra.
    - lra.
    - split; [exact Hw|]. exists v. repeat split; try assumption; [lra|]. rewrite Z1, Z2. ring. }
  (* refinement error over the part of the fine run known to be good *)
  assert (Gap : forall k, (k <= n)%nat -> (forall j, (j <= k * m)%nat -> good j) -> gap T1 P1 T2 P2 k (k * m) <= C1 * h).
  { intros k Hk HGd.
    assert (Ab : forall y, Rabs (- rate0 * y) = rate0 * Rabs y) by (intros y; rewrite Rabs_mult, Rabs_Ropp, (Rabs_right rate0) by lra; reflexivity).
    assert (Q : gap T1 P1 T2 P2 k (k * m) <= h * (1 + B') * (exp (L' * (INR k * h)) - 1)).
    { apply (refine_error h L' B' m k Hh HL' Hm T1 P1 (fun i => F (p1 i)) (fun i => - rate0 * F (p1 i)) T2 P2 (fun j => F (p2 j)) (fun j => - rate0 * F (p2 j))); [| | | | |lia].
      - destruct (S1 0%nat ltac:(lia)) as (_ & _ & Y & _). destruct (Y eq_refl) as [Y1 Y2]. fold (r1 0%nat) (T1 0%nat) (P1 0%nat) in Y1, Y2.
        destruct (S2 0%nat (proj1 Good0)) as (_ & _ & Z & _). destruct (Z eq_refl) as [Z1 Z2]. fold (r2 0%nat) (T2 0%nat) (P2 0%nat) in Z1, Z2.
        rewrite Y1, Y2, Z1, Z2. auto.
      - intros i Hi. destruct (S1 i ltac:(lia)) as (_ & _ & _ & Nx). destruct (Nx ltac:(lia)) as [Nx1 Nx2].
        fold (r1 (Datatypes.S i)) (T1 (Datatypes.S i)) (P1 (Datatypes.S i)) in Nx1, Nx2. fold (r1 i) (T1 i) (P1 i) in Nx1, Nx2.
        destruct (Coarse i ltac:(lia)) as (? & ? & ? & _ & _ & _ & _ & _ & _ & _ & _ & _ & GF & GP & _). rewrite GF in Nx1. rewrite GP in Nx2. auto.
      - intros j Hj. destruct (Grad j (HGd j ltac:(lia))) as (_ & GF & GP).
        destruct (S2 j (proj1 (HGd j ltac:(lia)))) as (_ & _ & _ & Nx). destruct (Nx (proj1 (HGd (Datatypes.S j) Hj))) as [Nx1 Nx2].
        fold (r2 (Datatypes.S j)) (T2 (Datatypes.S j)) (P2 (Datatypes.S j)) in Nx1, Nx2. fold (r2 j) (T2 j) (P2 j) in Nx1, Nx2.
        rewrite GF in Nx1. rewrite GP in Nx2. auto.
      - intros j Hj. destruct (Grad j (HGd j ltac:(lia))) as (GD & _). destruct (HF _ GD) as [Bd _]. rewrite Ab. unfold B'.
        assert (rate0 * Rabs (F (p2 j)) <= rate0 * B) by (apply Rmult_le_compat_l; lra). lra.
      - intros i j Hi Hj.
        assert (Hij : (i * m + j <= k * m)%nat).
        { assert (Q := Nat.mul_le_mono_r (Datatypes.S i) k m Hi). cbn [Nat.mul] in Q. lia. }
        destruct (Grad (i * m + j)%nat (HGd _ Hij)) as (GD & _).
        destruct (Coarse i ltac:(lia)) as (? & ? & ? & _ & _ & _ & _ & _ & _ & _ & _ & CD & _).
        destruct (HF _ CD) as [_ Ld]. specialize (Ld _ GD). rewrite <- Rmult_minus_distr_l, Ab.
        set (e := Rabs (F (p1 i) - F (p2 (i * m + j)%nat))) in *.
        unfold dist in Ld. cbn [px pt pp p1 p2] in Ld. unfold gap. fold dd.
        replace (st_pos s + INR i * h - (st_pos s + INR (i * m + j) * dd)) with (- (INR j * dd)) in Ld
          by (rewrite plus_INR, mult_INR, <- Emd; ring).
        rewrite Rabs_Ropp, (Rabs_right (INR j * dd)) in Ld by (apply Rle_ge, Rmult_le_pos; [apply pos_INR|lra]).
        unfold L'. replace ((1 + rate0) * L * (INR j * dd + (Rabs (T1 i - T2 (i * m + j)%nat) + Rabs (P1 i - P2 (i * m + j)%nat))))
          with ((1 + rate0) * (L * (INR j * dd + Rabs (T1 i - T2 (i * m + j)%nat) + Rabs (P1 i - P2 (i * m + j)%nat)))) by ring.
        replace (e + rate0 * e) with ((1 + rate0) * e) by ring. apply Rmult_le_compat_l; lra. }
    eapply Rle_trans; [exact Q|]. unfold C1.
    replace (h * (1 + B') * (exp (L' * (INR k * h)) - 1)) with ((1 + B') * (exp (L' * (INR k * h)) - 1) * h) by ring.
    apply Rmult_le_compat_r; [lra|]. apply Rmult_le_compat_l; [lra|].
    assert (exp (L' * (INR k * h)) <= exp (L' * X)); [|lra]. apply exp_le. apply Rmult_le_compat_l; [exact HL'|]. unfold X.
    destruct (Coarse k Hk) as (? & ? & ? & _ & _ & _ & _ & _ & _ & _ & _ & _ & _ & _ & Qx & _). lra. }
  (* one coarse step *)
  assert (Inner : forall k, (Datatypes.S k <= n)%nat -> (forall j, (j <= k * m)%nat -> good j) ->
    forall i, (i <= m)%nat -> good (k * m + i)%nat /\ gap T1 P1 T2 P2 k (k * m + i) <= C1 * h + INR i * dd * B').
  { intros k Hk HGd. assert (Gk := Gap k ltac:(lia) HGd).
    induction i as [|i IH]; intros Hi.
    - rewrite Nat.add_0_r. split; [apply HGd; lia|]. cbn [INR]. lra.
    - destruct (IH ltac:(lia)) as [Gd Gp]. replace (k * m + Datatypes.S i)%nat with (Datatypes.S (k * m + i)) by lia.
      destruct (Grad _ Gd) as (GD & _). destruct (HF _ GD) as [Bd _].
      set (j := (k * m + i)%nat) in *.
      set (q := {| px := st_pos s + INR (Datatypes.S j) * dd; pt := T2 j + F (p2 j) * dd; pp := P2 j + - rate0 * F (p2 j) * dd |}).
      assert (Ab : Rabs (- rate0 * F (p2 j)) = rate0 * Rabs (F (p2 j))) by (rewrite Rabs_mult, Rabs_Ropp, (Rabs_right rate0) by lra; reflexivity).
      assert (D1 := tri (T1 k) (T2 j) (F (p2 j)) dd). assert (D2 := tri (P1 k) (P2 j) (- rate0 * F (p2 j)) dd).
      rewrite Ab in D2. rewrite (Rabs_right dd) in D1, D2 by lra.
      assert (Sum : Rabs (T1 k - pt q) + Rabs (P1 k - pp q) <= C1 * h + INR (Datatypes.S i) * dd * B').
      { cbn [pt pp q]. unfold gap in Gp. rewrite S_INR. unfold B' in *.
        assert (Rabs (F (p2 j)) * dd <= B * dd) by (apply Rmult_le_compat_r; lra).
        assert (rate0 * (Rabs (F (p2 j)) * dd) <= rate0 * (B * dd)) by (apply Rmult_le_compat_l; lra).
        replace ((INR i + 1) * dd * ((1 + rate0) * B)) with (INR i * dd * ((1 + rate0) * B) + (B * dd + rate0 * (B * dd))) by ring. lra. }
      assert (Sd : 0 <= INR (Datatypes.S i) * dd <= h).
      { split; [apply Rmult_le_pos; [apply pos_INR|lra]|]. rewrite <- Emd. apply Rmult_le_compat_r; [lra|]. now apply le_INR. }
      assert (Ej : INR (Datatypes.S j) * dd = INR k * h + INR (Datatypes.S i) * dd).
      { unfold j. rewrite <- Nat.add_succ_r, plus_INR, mult_INR, <- Emd. ring. }
      destruct (Next j k Gd ltac:(lia)) as [G1 G2].
      + rewrite Ej. assert (Q := le_INR _ _ Hk). rewrite S_INR in Q.
        assert ((INR k + 1) * h <= INR n * h) by (apply Rmult_le_compat_r; lra). lra.
      + fold q. unfold dist. change (pt (p1 k)) with (T1 k). change (pp (p1 k)) with (P1 k).
        replace (px (p1 k) - px q) with (- (INR (Datatypes.S i) * dd)) by (cbn [px p1 q]; rewrite Ej; ring).
        rewrite Rabs_Ropp, (Rabs_right (INR (Datatypes.S i) * dd)) by lra.
        assert (INR (Datatypes.S i) * dd * B' <= h * B') by (apply Rmult_le_compat_r; lra). unfold KK in HK. lra.
      + split; [exact G1|]. fold q in G2. unfold gap. change (T2 (Datatypes.S j)) with (pt (p2 (Datatypes.S j))). change (P2 (Datatypes.S j)) with (pp (p2 (Datatypes.S j))).
        rewrite G2. exact Sum. }
  assert (All : forall k, (k <= n)%nat -> forall j, (j <= k * m)%nat -> good j).
  { induction k as [|k IH]; intros Hk j Hj.
    - assert (j = 0)%nat as -> by lia. exact Good0.
    - destruct (le_lt_dec j (k * m)) as [Hl|Hl]; [exact (IH ltac:(lia) j Hl)|].
      replace j with (k * m + (j - k * m))%nat by lia. apply (Inner k Hk (IH ltac:(lia))). cbn in Hj. lia. }
  assert (Flow : forall k, (k <= n)%nat -> (k * m < w_iter w')%nat /\ flows_freely (v0 / 2) phi2 (w_log w') (k * m)).
  { intros k Hk. split; [apply (All k Hk), le_n|]. intros j r v phi Hj Hr Hv Hp.
    destruct (All k Hk j Hj) as (I1 & v' & Hv' & Gv & Gp & _). destruct (S2 j I1) as (N2 & (_ & _ & A3 & _) & _). fold (r2 j) (P2 j) in N2, A3.
    rewrite N2 in Hr. injection Hr as <-. rewrite <- (holds_fun _ _ _ _ Hv' Hv), <- (holds_fun _ _ _ _ A3 Hp). auto. }
  destruct (Flow n (le_n _)) as [Fl1 Fl2]. split; [exact Fl1|]. split; [exact Fl2|]. intros k Hk. destruct (Flow k Hk) as [Fk1 Fk2].
  destruct (HC h m k fuel fuel' w w' Hh Hm H H' ltac:(lia) Fk1) as (r & r' & temp & phi & v & temp' & phi' & v' & Q); [|exact Fk2|].
  { intros i r v phi Hi Hr Hv Hp. destruct (Free i r v phi ltac:(lia) Hr Hv Hp). split; lra. }
  destruct Q as (U1 & U2 & U3 & U4 & U5 & U6 & U7 & U8 & U9 & U10 & U11).
  exists r, r'. split; [exact U1|]. split; [exact U2|]. exists (st_pos s + INR k * h), temp, phi, v, temp', phi', v'. auto 12.
Qed.

(** ** The results converge as the step is refined *)
Lemma refinements_converge (a : nat -> R) E : 0 <= E ->
  (forall m m', (0 < m)%nat -> (0 < m')%nat -> Rabs (a m - a (m * m')%nat) <= E / INR m) ->
  exists l, forall m, (0 < m)%nat -> Rabs (a m - l) <= E / INR m.
Proof.
  intros HE Ha.
  assert (Two : forall m m', (0 < m)%nat -> (0 < m')%nat -> Rabs (a m - a m') <= E / INR m + E / INR m').
  { intros m m' Hm Hm'. assert (A := Ha m m' Hm Hm'). assert (B := Ha m' m Hm' Hm). rewrite (Nat.mul_comm m' m) in B.
    replace (a m - a m') with ((a m - a (m * m')%nat) + - (a m' - a (m * m')%nat)) by ring.
    eapply Rle_trans; [apply Rabs_triang|]. rewrite Rabs_Ropp. lra. }
  assert (Tail : forall eps, 0 < eps -> exists N, forall k, (N <= k)%nat -> E / INR (Datatypes.S k) < eps).
  { intros eps He. 
    assert (HN : exists N, E / eps < INR N).
    { destruct (archimed (E / eps)) as [A _]. exists (Z.to_nat (up (E / eps))). rewrite INR_IZR_INZ, Z2Nat.id; [exact A|].
      apply le_IZR. assert (0 <= E / eps) by (apply Rmult_le_pos; [exact HE|apply Rlt_le, Rinv_0_lt_compat, He]). lra. }
    destruct HN as (N & HN). exists N. intros k Hk. apply le_INR in Hk.
    assert (P : 0 < INR (Datatypes.S k)) by (apply lt_0_INR; lia). rewrite S_INR in *.
    assert (Q : E / eps * eps = E) by (field; lra).
    apply Rmult_lt_reg_r with (INR k + 1); [exact P|]. unfold Rdiv at 1. rewrite Rmult_assoc, Rinv_l, Rmult_1_r by lra. nra. }
  destruct (R_complete (fun k => a (Datatypes.S k))) as (l & Hl).
  { intros eps He. destruct (Tail (eps / 2) ltac:(lra)) as (N & HN). exists N. intros i j Hi Hj. unfold R_dist.
    assert (A := HN i Hi). assert (B := HN j Hj). assert (Q := Two (Datatypes.S i) (Datatypes.S j) ltac:(lia) ltac:(lia)). lra. }
  exists l. intros m Hm. apply le_epsilon. intros eps He.
  destruct (Tail (eps / 2) ltac:(lra)) as (N & HN). destruct (Hl (eps / 2) ltac:(lra)) as (M & HM). unfold R_dist in HM.
  set (k := Nat.max N M). assert (A := HN k ltac:(unfold k; lia)). assert (B := HM k ltac:(unfold k; lia)).
  assert (Q := Two m (Datatypes.S k) Hm ltac:(lia)).
  replace (a m - l) with ((a m - a (Datatypes.S k)) + (a (Datatypes.S k) - l)) by ring.
  eapply Rle_trans; [apply Rabs_triang|]. lra.
Qed.

(** [r] shows the place [x] and values within [e] of [temp], [phi] and [v]. *)
Definition shows_within (e : R) (r : row R) (x temp phi v : R) : Prop :=
  exists temp' phi' v', holds r "position" x /\ holds r "core_temperature" temp' /\ holds r "crystal_fraction" phi' /\ holds r "mean_velocity" v' /\
    Rabs (temp' - temp) <= e /\ Rabs (phi' - phi) <= e /\ Rabs (v' - v) <= e.

(** The runs with the steps [h], [h/2], [h/3], ... : at every place where the run
    with the step [h] flows freely, their temperatures, crystal fractions and
    velocities converge, and the run with the step [h/m] is within [C * h / m] of
    the limits. *)
Theorem C87_results_converge :
  forall (d : json R) profile mo (sm : sim R) (s : state R) depth d0 phi1 phi2 v0,
  build_models d profile = Ok mo -> s_budget sm = mo_budget mo ->
  losing sm s depth -> smooth sm phi2 -> 0 < v0 ->
  phi1 < phi2 <= st_phi s + fastest_rate (s_cryst sm) * (st_temp s - get_solid_temperature (s_cryst sm)) ->
  vent_depth sm s depth d0 -> moves_at_vent sm s d0 ->
  exists h0 C, 0 < h0 /\ forall h n (fuels : nat -> nat) (runs : nat -> world R), 0 < h <= h0 ->
    (forall m, (0 < m)%nat -> simulate (fuels m) (with_step (h / INR m) sm) (initial_world s [] depth) = Some (Ok tt, runs m)) ->
    (n < w_iter (runs 1))%nat -> flows_freely v0 phi1 (w_log (runs 1%nat)) n ->
    exists temp phi v, forall m, (0 < m)%nat -> exists r,
      nth_error (w_log (runs m)) (n * m) = Some r /\ shows_within (C * (h / INR m)) r (st_pos s + INR n * h) temp phi v.
Proof.
  intros d profile mo sm s depth d0 phi1 phi2 v0 Hb Es K S Hv0 Hphi Vd Mov.
  destruct (C87_finer_steps_flow_as_far d profile mo sm s depth d0 phi1 phi2 v0 Hb Es K S Hv0 Hphi Vd Mov) as (h0 & C0 & Ph0 & HF).
  destruct (C79_error_proportional_to_step d profile mo sm s depth phi2 (v0 / 2) Hb Es K S ltac:(lra)) as (C & HC).
  exists h0, (Rabs C). split; [exact Ph0|]. intros h n fuels runs [Hh Hh0] HR Hn Free.
  assert (H1 := HR 1%nat ltac:(lia)). replace (h / INR 1) with h in H1 by (cbn; field).
  assert (Flow : forall m, (0 < m)%nat -> (n * m < w_iter (runs m))%nat /\ flows_freely (v0 / 2) phi2 (w_log (runs m)) (n * m)).
  { intros m Hm. destruct (HF h m n _ _ _ _ (conj Hh Hh0) Hm H1 (HR m Hm) Hn Free) as (A & B & _). auto. }
  set (T m := value (nth (n * m) (w_log (runs m)) []) "core_temperature"). set (P m := value (nth (n * m) (w_log (runs m)) []) "crystal_fraction").
  set (U m := value (nth (n * m) (w_log (runs m)) []) "mean_velocity").
  assert (Pair : forall m m', (0 < m)%nat -> (0 < m')%nat -> let e := Rabs C * h / INR m in
    Rabs (T m - T (m * m')%nat) <= e /\ Rabs (P m - P (m * m')%nat) <= e /\ Rabs (U m - U (m * m')%nat) <= e /\
    exists r, nth_error (w_log (runs m)) (n * m) = Some r /\ holds r "position" (st_pos s + INR n * h) /\ holds r "core_temperature" (T m) /\
      holds r "crystal_fraction" (P m) /\ holds r "mean_velocity" (U m)).
  { intros m m' Hm Hm' e. assert (Pm : 0 < INR m) by (apply lt_0_INR; lia). assert (Pm' : 0 < INR m') by (apply lt_0_INR; lia).
    assert (Hmm : (0 < m * m')%nat) by (apply Nat.mul_pos_pos; assumption).
    destruct (Flow m Hm) as [A1 A2]. destruct (Flow (m * m')%nat Hmm) as [B1 B2]. rewrite Nat.mul_assoc in B1, B2.
    assert (HR2 := HR (m * m')%nat Hmm). replace (h / INR (m * m')) with (h / INR m / INR m') in HR2 by (rewrite mult_INR; field; lra).
    destruct (HC (h / INR m) m' (n * m)%nat _ _ _ _ ltac:(apply Rdiv_lt_0_compat; lra) Hm' (HR m Hm) HR2 A1 B1 A2 B2) as
      (r & r' & t & p & v & t' & p' & v' & N1 & N2 & N3 & N3' & N4 & N5 & N6 & N7 & N8 & N9 & N10 & N11 & N12).
    assert (Er : nth (n * m) (w_log (runs m)) [] = r) by now apply nth_error_nth.
    assert (Er' : nth (n * (m * m')) (w_log (runs (m * m')%nat)) [] = r') by (rewrite Nat.mul_assoc; now apply nth_error_nth).
    assert (Ex : st_pos s + INR (n * m) * (h / INR m) = st_pos s + INR n * h) by (rewrite mult_INR; field; lra). rewrite Ex in N3.
    assert (Le : C * (h / INR m) <= e).
    { unfold e. replace (Rabs C * h / INR m) with (Rabs C * (h / INR m)) by (field; lra).
      apply Rmult_le_compat_r; [apply Rlt_le, Rdiv_lt_0_compat; lra|apply Rle_abs]. }
    unfold T, P, U. rewrite Er, Er', (value_of _ _ _ N4), (value_of _ _ _ N5), (value_of _ _ _ N6), (value_of _ _ _ N7), (value_of _ _ _ N8), (value_of _ _ _ N9).
    split; [lra|]. split; [lra|]. split; [lra|]. exists r. auto. }
  assert (PE : 0 <= Rabs C * h) by (apply Rmult_le_pos; [apply Rabs_pos|lra]).
  destruct (refinements_converge T (Rabs C * h) PE) as (tl & Htl); [intros m m' Hm Hm'; apply (Pair m m' Hm Hm')|].
  destruct (refinements_converge P (Rabs C * h) PE) as (pl & Hpl); [intros m m' Hm Hm'; apply (Pair m m' Hm Hm')|].
  destruct (refinements_converge U (Rabs C * h) PE) as (ul & Hul); [intros m m' Hm Hm'; apply (Pair m m' Hm Hm')|].
  exists tl, pl, ul. intros m Hm. destruct (Pair m 1%nat Hm ltac:(lia)) as (_ & _ & _ & r & N & A1 & A2 & A3 & A4).
  exists r. split; [exact N|]. exists (T m), (P m), (U m). do 4 (split; [assumption|]).
  replace (Rabs C * (h / INR m)) with (Rabs C * h / INR m) by (unfold Rdiv; ring). auto.
Qed.
