(** * Props_Close: a small error in the lava's state at the vent stays small (C90) *)
From Coq Require Import Reals Lra Lia List Classical_Prop.
From Verif Require Import Base Num Json Logger World Vesicle MeltVisc RelVisc Bubbles Terrain Lava
  Thermal Flux Integrator Factory Run Frame StepLog Spec RNum RPow StepProofs LoggerProofs RowProofs StepProps StepRow Gives Steady EffArray Props_Run Props_Step Props_Budget Props_BudgetStep Props_RunOuts
  Props_Velocity Props_Rheology Props_Material Props_Terrain Props_Thermal Props_Flux ColumnProofs TableTrace Props_Table Props_Recompute Props_Energy
  Safe Valid Props_ValidRun Cooling Props_Cooling Recompute Lipschitz ModelLip Refine Losses Props_Refine Props_RefineRun Props_Compare Props_Weaker Faster Props_Faster Props_Fewer.
Open Scope R_scope.

(** At the vent the lava is at most as hot as in the state [s0], has at least as many
    crystals, and no more of them than lava from [s0] has when it has cooled to the
    same temperature. *)
Definition starts_within (sm : sim R) (s0 s : state R) : Prop :=
  st_pos s = st_pos s0 /\ st_temp s <= st_temp s0 /\
  0 <= st_phi s - st_phi s0 <= fastest_rate (s_cryst sm) * (st_temp s0 - st_temp s).

Lemma starts_inside (sm : sim R) s0 s q : starts_within sm s0 s -> inside (region_of sm s) q -> inside (region_of sm s0) q.
Proof.
  intros (E1 & E2 & E3) (I1 & I2 & I3). unfold inside. cbn [region_of rg_x0 rg_x1 rg_ts rg_te rg_phi0 rg_cap] in *.
  rewrite E1 in I1. split; [exact I1|]. split; [lra|]. split; [lra|].
  replace (fastest_rate (s_cryst sm) * (st_temp s0 - get_solid_temperature (s_cryst sm))) with
    (fastest_rate (s_cryst sm) * (st_temp s0 - st_temp s) + fastest_rate (s_cryst sm) * (st_temp s - get_solid_temperature (s_cryst sm))) by ring. lra.
Qed.

(** One law for the gradients of all the runs that start within [s0]. *)
Lemma one_law (d : json R) profile mo (sm : sim R) s0 depth phi1 v0 :
  build_models d profile = Ok mo -> s_budget sm = mo_budget mo -> losing sm s0 depth -> smooth sm phi1 -> 0 < v0 -> ter_eff_init (s_ter sm) = 0 ->
  exists (D : point -> Prop) (F vel : point -> R) (rate : R), lip D F /\ lip D vel /\ 0 < rate /\
  forall s, starts_within sm s0 s -> losing sm s depth ->
  forall h fuel w', 0 < h -> simulate fuel (with_step h sm) (initial_world s [] depth) = Some (Ok tt, w') ->
  forall i r x temp phi dtemp dphi v, (i < w_iter w')%nat -> nth_error (w_log w') i = Some r ->
    row_state r x temp phi dtemp dphi -> holds r "mean_velocity" v ->
    x < ter_maxlen (s_ter sm) /\
    (v0 <= v -> phi <= phi1 ->
    let p := {| px := x; pt := temp; pp := phi |} in D p /\ dtemp = F p /\ dphi = - rate * F p /\ v = vel p).
Proof.
  intros Hb Es K0 S Hv0 Ez. assert (V0 := co_admissible _ _ _ K0).
  assert (Nm : s_mass sm = false).
  { assert (Q := va_mass _ _ _ V0). destruct (s_mass sm); [destruct (Q eq_refl Ez)|reflexivity]. }
  destruct (sm_cryst _ _ S) as (cr1 & grown & ts & te & Ecr). destruct (sm_cover _ _ S) as (al & fc & Ecv).
  assert (Init : forall s w0, init_effusion_rate sm (initial_world s [] depth) = (Ok tt, w0) -> w_depth w0 = depth).
  { intros s w0 E. rewrite (C19_no_search_without_target sm _ Ez) in E. apply (f_equal snd) in E. cbn [snd] in E. rewrite <- E. reflexivity. }
  destruct (gradients_full sm s0 depth phi1 v0 V0 S Hv0) as (D0 & su0 & vel0 & G0 & rate & (Lv & Prate & DG0 & X0) & HG0).
  destruct (HG0 d profile mo (s_air sm) (s_budget sm) (lv_latent (s_lava sm)) Hb Es) as (LF & _ & _);
    [rewrite with_losses_same; exact K0|]. clear HG0.
  exists D0, (fun p => - (heat_loss (s_air sm) (s_budget sm) (su0 p) / (lv_latent (s_lava sm) * G0 p))), vel0, rate.
  split; [exact LF|]. split; [exact Lv|]. split; [exact Prate|].
  destruct X0 as (w00 & c0 & gm0 & E00 & [_ Reach] & Er0 & _ & X0). rewrite (Init _ _ E00) in *.
  intros s W K h fuel w Hh H i r x temp phi dtemp dphi v Hi Hr HR Ev. assert (V := co_admissible _ _ _ K).
  destruct (gradients_full sm s depth phi1 v0 V S Hv0) as (D1 & su1 & vel1 & G1 & rate1 & (_ & _ & DG1 & X1) & HG1).
  destruct (HG1 d profile mo (s_air sm) (s_budget sm) (lv_latent (s_lava sm)) Hb Es) as (_ & _ & U1);
    [rewrite with_losses_same; exact K|]. rewrite with_losses_same in U1. clear HG1.
  destruct X1 as (w01 & c1 & gm1 & E01 & _ & Er1 & _ & X1). assert (H1 := Init _ _ E01). rewrite H1 in *.
  assert (rate1 = rate) as -> by (rewrite (Er1 _ _ _ _ Ecr), (Er0 _ _ _ _ Ecr); reflexivity).
  destruct (U1 h fuel w Hh H i r x temp phi dtemp dphi v Hi Hr HR Ev) as [Hx U]. split; [exact Hx|].
  intros Hv Hp. destruct (U Hv Hp) as (Dp & Et & Ep & Evel). cbv zeta. set (p := {| px := x; pt := temp; pp := phi |}) in *.
  assert (V1 : admissible (with_step h sm) s depth) by now apply admissible_step.
  destruct (row_world (with_step h sm) s depth V1 fuel w i r H Hi Hr) as
    (w0 & wi & wj & v' & rho & wd & sl & hb & ra & dT & dt & E0 & J0 & S0 & RL & St & _ & _ & C & Sw & _ & Ii & Ed & Ex & Et' & Ep' & Ev' & _).
  destruct (run_sequences (with_step h sm) fuel s depth w ltac:(change (h <> 0); lra) H i Hi) as (N1 & (N2 & _) & _).
  rewrite Hr in N1. injection N1 as N1. rewrite <- N1 in N2.
  destruct HR as (R1 & R2 & R3 & _).
  assert (Y0 : st_pos (w_st wi) = x) by (rewrite Ex; exact (holds_fun _ _ _ _ N2 R1)).
  assert (Y1 : st_temp (w_st wi) = temp) by exact (holds_fun _ _ _ _ Et' R2). assert (Y2 : st_phi (w_st wi) = phi) by exact (holds_fun _ _ _ _ Ep' R3).
  assert (Ap : at_ (w_st wi) = p) by (unfold at_, p; rewrite Y0, Y1, Y2; reflexivity).
  assert (Iw : inside (region_of sm s) (w_st wi)) by exact (sound_inside _ _ _ V1 _ (so_nearly _ _ _ Sw)).
  assert (Bw : box (region_of sm s) phi1 (at_ (w_st wi))) by (split; [exact Iw|cbn; lra]).
  destruct (same_values sm s depth phi1 _ V S Bw) as [_ Sy]. rewrite Ap in Bw, Sy.
  assert (B0 : box (region_of sm s0) phi1 p) by (split; [apply (starts_inside sm s0 s); [exact W|exact (proj1 Bw)]|exact Hp]).
  rewrite init_step, E01 in E0. apply (f_equal snd) in E0. cbn [snd] in E0. subst w0. rewrite H1 in Ed.
  destruct (X0 p B0) as (t00 & tb0 & A1 & A2 & A3 & A4 & A5 & A6 & A7 & A8 & A9 & A10 & A11 & A12 & A13 & A14).
  destruct (X1 p Bw) as (t01 & tb1 & Z1 & Z2 & Z3 & Z4 & Z5 & Z6 & Z7 & Z8 & Z9 & Z10 & Z11 & Z12 & Z13 & Z14).
  cbv zeta in *. specialize (A12 _ _ Ecv). specialize (Z12 _ _ Ecv). rewrite Nm in A14, Z14.
  rewrite A1 in Z1. rewrite A2 in Z2. rewrite A3 in Z3. rewrite A4 in Z4. rewrite A5 in Z5.
  apply Ok_inj in Z1, Z2, Z3, Z4, Z5.
  assert (Evv : vel1 p = vel0 p) by (rewrite A11, Z11; congruence).
  assert (Esu : su1 p = su0 p).
  { rewrite Evv in Z10, Z12. destruct (su0 p) as [a1 a2 a3 a4 a5 a6 a7 a8 a9], (su1 p) as [b1 b2 b3 b4 b5 b6 b7 b8 b9]. cbn [su_width su_depth su_temp su_hot su_crust su_cover su_vf su_mu su_v] in *. congruence. }
  assert (EG : G1 p = G0 p) by (rewrite A14, Z14, Evv, Esu; reflexivity).
  rewrite Esu, EG in Et, Ep. rewrite Evv in Evel. split; [|auto].
  apply A13. split; [|lra]. apply (Reach p t00 tb0 B0 A3 A4); [|lra].
  destruct (so_stage _ _ _ (so_nearly _ _ _ Sw)) as [(Zp & _)|(_ & _ & Hy & _)].
  - right. change (x = st_pos s0). rewrite <- Y0, Zp. apply W.
  - left. change (yield_strength_notcompatible (s_lava sm) (s_ter sm) (w_depth wi) (w_st wi) = Ok false) in Hy. rewrite Ed in Hy.
    assert (Eb : get_basal_shear_stress (s_lava sm) (s_ter sm) depth (w_st wi) = Ok tb0) by (rewrite <- A4; apply basal_same; exact Y0).
    rewrite A3 in Sy. destruct (C32_stop_criterion _ _ _ _ _ _ Sy Eb) as [_ [Z7' _]]. exact (Z7' Hy).
Qed.

(** Two Euler sums for one Lipschitz law. *)
Lemma drift h Lp n (T1 P1 T2 P2 f1 q1 f2 q2 : nat -> R) : 0 < h -> 0 <= Lp ->
  (forall k, (k < n)%nat -> T1 (S k) = T1 k + f1 k * h /\ P1 (S k) = P1 k + q1 k * h) ->
  (forall k, (k < n)%nat -> T2 (S k) = T2 k + f2 k * h /\ P2 (S k) = P2 k + q2 k * h) ->
  (forall k, (k < n)%nat -> Rabs (f1 k - f2 k) + Rabs (q1 k - q2 k) <= Lp * (Rabs (T1 k - T2 k) + Rabs (P1 k - P2 k))) ->
  forall k, (k <= n)%nat -> Rabs (T1 k - T2 k) + Rabs (P1 k - P2 k) <= exp (Lp * (INR k * h)) * (Rabs (T1 0%nat - T2 0%nat) + Rabs (P1 0%nat - P2 0%nat)).
Proof.
  intros Hh HL H1 H2 HF. induction k as [|k IH]; intros Hk.
  - cbn [INR]. rewrite Rmult_0_l, Rmult_0_r, exp_0. lra.
  - specialize (IH ltac:(lia)). destruct (H1 k ltac:(lia)) as [-> ->]. destruct (H2 k ltac:(lia)) as [-> ->]. specialize (HF k ltac:(lia)).
    set (g := Rabs (T1 k - T2 k) + Rabs (P1 k - P2 k)) in *. set (g0 := Rabs (T1 0%nat - T2 0%nat) + Rabs (P1 0%nat - P2 0%nat)) in *.
    assert (Pg : 0 <= g) by (unfold g; assert (Q := Rabs_pos (T1 k - T2 k)); assert (Q' := Rabs_pos (P1 k - P2 k)); lra).
    assert (A1 : Rabs (T1 k + f1 k * h - (T2 k + f2 k * h)) <= Rabs (T1 k - T2 k) + Rabs (f1 k - f2 k) * h).
    { replace (T1 k + f1 k * h - (T2 k + f2 k * h)) with ((T1 k - T2 k) + (f1 k - f2 k) * h) by ring.
      eapply Rle_trans; [apply Rabs_triang|]. rewrite Rabs_mult, (Rabs_right h) by lra. lra. }
    assert (A2 : Rabs (P1 k + q1 k * h - (P2 k + q2 k * h)) <= Rabs (P1 k - P2 k) + Rabs (q1 k - q2 k) * h).
    { replace (P1 k + q1 k * h - (P2 k + q2 k * h)) with ((P1 k - P2 k) + (q1 k - q2 k) * h) by ring.
      eapply Rle_trans; [apply Rabs_triang|]. rewrite Rabs_mult, (Rabs_right h) by lra. lra. }
    assert (A3 : (Rabs (f1 k - f2 k) + Rabs (q1 k - q2 k)) * h <= Lp * g * h) by (apply Rmult_le_compat_r; lra).
    apply Rle_trans with ((1 + Lp * h) * g); [unfold g in *; lra|].
    rewrite S_INR. replace (Lp * ((INR k + 1) * h)) with (Lp * h + Lp * (INR k * h)) by ring. rewrite exp_plus, Rmult_assoc.
    assert (0 <= Lp * h) by (apply Rmult_le_pos; lra).
    apply Rmult_le_compat; [lra|exact Pg|apply exp_ineq1_le|exact IH].
Qed.

(** ** C90 *)
(** Two runs of one set-up whose lava differs at the vent: at every place the
    temperatures, crystal fractions and velocities differ by at most a constant times
    the difference at the vent.  The constant does not depend on the step nor on the
    two states. *)
Theorem C90_small_errors_stay_small :
  forall (d : json R) profile mo (sm : sim R) (s0 : state R) depth phi1 v0,
  build_models d profile = Ok mo -> s_budget sm = mo_budget mo ->
  losing sm s0 depth -> smooth sm phi1 -> 0 < v0 -> ter_eff_init (s_ter sm) = 0 ->
  exists C, forall s s' h n fuel fuel' w w', 0 < h ->
    starts_within sm s0 s -> losing sm s depth -> starts_within sm s0 s' -> losing sm s' depth ->
    simulate fuel (with_step h sm) (initial_world s [] depth) = Some (Ok tt, w) ->
    simulate fuel' (with_step h sm) (initial_world s' [] depth) = Some (Ok tt, w') ->
    (n < w_iter w)%nat -> (n < w_iter w')%nat -> flows_freely v0 phi1 (w_log w) n -> flows_freely v0 phi1 (w_log w') n ->
    exists r r' x temp phi v temp' phi' v', let e := Rabs (st_temp s - st_temp s') + Rabs (st_phi s - st_phi s') in
      nth_error (w_log w) n = Some r /\ nth_error (w_log w') n = Some r' /\
      holds r "position" x /\ holds r' "position" x /\
      holds r "core_temperature" temp /\ holds r "crystal_fraction" phi /\ holds r "mean_velocity" v /\
      holds r' "core_temperature" temp' /\ holds r' "crystal_fraction" phi' /\ holds r' "mean_velocity" v' /\
      Rabs (temp - temp') <= C * e /\ Rabs (phi - phi') <= C * e /\ Rabs (v - v') <= C * e.
Proof.
  intros d profile mo sm s0 depth phi1 v0 Hb Es K0 S Hv0 Ez.
  destruct (one_law d profile mo sm s0 depth phi1 v0 Hb Es K0 S Hv0 Ez) as
    (D & F & vel & rate & (L & B & HL & HB & HF) & (Lv & Bv & HLv & HBv & HV) & Prate & HG).
  set (Lp := (1 + rate) * L). assert (HLp : 0 <= Lp) by (unfold Lp; apply Rmult_le_pos; lra).
  set (X := ter_maxlen (s_ter sm) - st_pos s0).
  exists ((1 + Lv) * exp (Lp * X)). intros s s' h n fuel fuel' w w' Hh W K W' K' H H' Hn Hn' Fr Fr'.
  assert (Qh : s_dx (with_step h sm) <> 0) by (change (h <> 0); lra).
  assert (S1 := run_sequences _ _ _ _ _ Qh H). assert (S2 := run_sequences _ _ _ _ _ Qh H'). cbv zeta in S1, S2.
  change (s_dx (with_step h sm)) with h in S1, S2. rewrite (proj1 W) in S1. rewrite (proj1 W') in S2.
  set (r1 k := nth k (w_log w) []) in *. set (r2 k := nth k (w_log w') []) in *.
  assert (VV : forall q fu z, simulate fu (with_step h sm) (initial_world q [] depth) = Some (Ok tt, z) ->
    forall i r, (i < w_iter z)%nat -> nth_error (w_log z) i = Some r -> exists v, holds r "mean_velocity" v).
  { intros q fu z Hz i r Hi Hr.
    destruct (C72_every_row_balances _ _ _ _ _ Qh Hz) as (e & hh & HBal).
    destruct (HBal i r Hi Hr) as (? & v & ? & ? & ? & ? & ? & ? & _ & A & _). eauto. }
  assert (Row : forall q fu z, starts_within sm s0 q -> losing sm q depth -> simulate fu (with_step h sm) (initial_world q [] depth) = Some (Ok tt, z) ->
    flows_freely v0 phi1 (w_log z) n -> (n < w_iter z)%nat ->
    forall i r x temp phi dtemp dphi, (i <= n)%nat -> nth_error (w_log z) i = Some r -> row_state r x temp phi dtemp dphi ->
      exists v, holds r "mean_velocity" v /\ x < ter_maxlen (s_ter sm) /\
      let p := {| px := x; pt := temp; pp := phi |} in D p /\ dtemp = F p /\ dphi = - rate * F p /\ v = vel p).
  { intros q fu z Wq Kq Hz Ff HN i r x temp phi dtemp dphi Hi Hr HR.
    destruct (VV q fu z Hz i r ltac:(lia) Hr) as (v & Hv). exists v. split; [exact Hv|].
    destruct (HG q Wq Kq h fu z Hh Hz i r x temp phi dtemp dphi v ltac:(lia) Hr HR Hv) as [G1 G2]. split; [exact G1|].
    destruct HR as (R1 & R2 & R3 & R4 & R5). destruct (Ff i r v phi Hi Hr Hv R3) as [G3 G4]. exact (G2 G3 G4). }
  assert (Dr := drift h Lp n (fun k => value (r1 k) "core_temperature") (fun k => value (r1 k) "crystal_fraction")
    (fun k => value (r2 k) "core_temperature") (fun k => value (r2 k) "crystal_fraction")
    (fun k => value (r1 k) "dtemp_dx") (fun k => value (r1 k) "dphi_dx") (fun k => value (r2 k) "dtemp_dx") (fun k => value (r2 k) "dphi_dx") Hh HLp).
  cbv beta in Dr. specialize (Dr ltac:(intros k Hk; apply (S1 k); lia) ltac:(intros k Hk; apply (S2 k); lia)).
  assert (Close : forall k, (k <= n)%nat -> exists p1 p2, D p1 /\ D p2 /\ px p1 = st_pos s0 + INR k * h /\ px p2 = st_pos s0 + INR k * h /\
    px p1 < ter_maxlen (s_ter sm) /\
    pt p1 = value (r1 k) "core_temperature" /\ pp p1 = value (r1 k) "crystal_fraction" /\ pt p2 = value (r2 k) "core_temperature" /\ pp p2 = value (r2 k) "crystal_fraction" /\
    value (r1 k) "dtemp_dx" = F p1 /\ value (r1 k) "dphi_dx" = - rate * F p1 /\ value (r2 k) "dtemp_dx" = F p2 /\ value (r2 k) "dphi_dx" = - rate * F p2 /\
    holds (r1 k) "mean_velocity" (vel p1) /\ holds (r2 k) "mean_velocity" (vel p2)).
  { intros k Hk. destruct (S1 k ltac:(lia)) as (N1 & R1 & _). destruct (S2 k ltac:(lia)) as (N2 & R2 & _).
    destruct (Row s fuel w W K H Fr Hn k _ _ _ _ _ _ Hk N1 R1) as (v & Hv & Hx & D1 & E1 & E2 & ->).
    destruct (Row s' fuel' w' W' K' H' Fr' Hn' k _ _ _ _ _ _ Hk N2 R2) as (v' & Hv' & _ & D2 & E3 & E4 & ->).
    eexists _, _. split; [exact D1|]. split; [exact D2|]. cbn [px pt pp]. fold (r1 k) (r2 k) in *. repeat (split; [first [reflexivity|assumption]|]). assumption. }
  specialize (Dr ltac:(intros k Hk; destruct (Close k ltac:(lia)) as (p1 & p2 & D1 & D2 & X1 & X2 & _ & P1 & P2 & P3 & P4 & -> & -> & -> & -> & _);
    destruct (HF _ D1) as [_ Ld]; specialize (Ld _ D2); unfold dist in Ld; rewrite X1, X2, P1, P2, P3, P4, (Rminus_diag_eq (st_pos s0 + INR k * h)), Rabs_R0 in Ld by reflexivity;
    rewrite <- Rmult_minus_distr_l, Rabs_mult, Rabs_Ropp, (Rabs_right rate) by lra;
    assert (Q := Rmult_le_compat_l rate _ _ (Rlt_le _ _ Prate) Ld); unfold Lp; lra) n (le_n _)).
  destruct (S1 0%nat ltac:(lia)) as (_ & _ & Z1 & _). destruct (S2 0%nat ltac:(lia)) as (_ & _ & Z2 & _).
  destruct (Z1 eq_refl) as [Z3 Z4]. destruct (Z2 eq_refl) as [Z5 Z6]. fold (r1 0%nat) in Z3, Z4. fold (r2 0%nat) in Z5, Z6. rewrite Z3, Z4, Z5, Z6 in Dr. clear Z1 Z2 Z3 Z4 Z5 Z6.
  destruct (S1 n Hn) as (N1 & (M1 & M2 & M3 & _) & _). destruct (S2 n Hn') as (N2 & (M4 & M5 & M6 & _) & _).
  destruct (Close n (le_n _)) as (p1 & p2 & D1 & D2 & X1 & X2 & Xm & P1 & P2 & P3 & P4 & _ & _ & _ & _ & V1 & V2).
  exists (r1 n), (r2 n), (st_pos s0 + INR n * h). do 6 eexists. cbv zeta.
  split; [exact N1|]. split; [exact N2|]. split; [exact M1|]. split; [exact M4|]. split; [exact M2|]. split; [exact M3|]. split; [exact V1|].
  split; [exact M5|]. split; [exact M6|]. split; [exact V2|].
  set (e := Rabs (st_temp s - st_temp s') + Rabs (st_phi s - st_phi s')) in *. fold (r1 n) (r2 n).
  assert (Pe : 0 <= e) by (unfold e; assert (Q := Rabs_pos (st_temp s - st_temp s')); assert (Q' := Rabs_pos (st_phi s - st_phi s')); lra).
  assert (Hexp : exp (Lp * (INR n * h)) <= exp (Lp * X)). { apply exp_le. apply Rmult_le_compat_l; [exact HLp|]. unfold X. lra. }
  set (gT := Rabs (value (r1 n) "core_temperature" - value (r2 n) "core_temperature")) in *.
  set (gP := Rabs (value (r1 n) "crystal_fraction" - value (r2 n) "crystal_fraction")) in *.
  assert (PT : 0 <= gT) by apply Rabs_pos. assert (PP : 0 <= gP) by apply Rabs_pos.
  assert (Tot : gT + gP <= exp (Lp * X) * e) by (eapply Rle_trans; [exact Dr|apply Rmult_le_compat_r; assumption]).
  set (m := exp (Lp * X) * e) in *. assert (0 <= Lv * m) by (apply Rmult_le_pos; lra).
  replace ((1 + Lv) * exp (Lp * X) * e) with (m + Lv * m) by (unfold m; ring).
  split; [lra|]. split; [lra|].
  destruct (HV _ D1) as [_ Ld]. specialize (Ld _ D2). unfold dist in Ld. rewrite X1, X2, P1, P2, P3, P4, (Rminus_diag_eq (st_pos s0 + INR n * h)), Rabs_R0 in Ld by reflexivity.
  fold gT gP in Ld. assert (Lv * (0 + gT + gP) <= Lv * m) by (apply Rmult_le_compat_l; lra). lra.
Qed.
(** The same when the crystal fraction is changed in the file, where the model of
    crystallisation reads it too. *)
Corollary C90_small_errors_in_the_file :
  forall (d : json R) profile mo (sm : sim R) (s0 : state R) depth phi1 v0,
  build_models d profile = Ok mo -> s_budget sm = mo_budget mo ->
  losing sm s0 depth -> smooth sm phi1 -> 0 < v0 -> ter_eff_init (s_ter sm) = 0 ->
  exists C, forall s s' h n fuel fuel' w w', 0 < h ->
    starts_within sm s0 s -> losing sm s depth -> starts_within sm s0 s' -> losing sm s' depth ->
    simulate fuel (with_step h (with_crystals (st_phi s) sm)) (initial_world s [] depth) = Some (Ok tt, w) ->
    simulate fuel' (with_step h (with_crystals (st_phi s') sm)) (initial_world s' [] depth) = Some (Ok tt, w') ->
    (n < w_iter w)%nat -> (n < w_iter w')%nat -> flows_freely v0 phi1 (w_log w) n -> flows_freely v0 phi1 (w_log w') n ->
    exists r r' x temp phi v temp' phi' v', let e := Rabs (st_temp s - st_temp s') + Rabs (st_phi s - st_phi s') in
      nth_error (w_log w) n = Some r /\ nth_error (w_log w') n = Some r' /\
      holds r "position" x /\ holds r' "position" x /\
      holds r "core_temperature" temp /\ holds r "crystal_fraction" phi /\ holds r "mean_velocity" v /\
      holds r' "core_temperature" temp' /\ holds r' "crystal_fraction" phi' /\ holds r' "mean_velocity" v' /\
      Rabs (temp - temp') <= C * e /\ Rabs (phi - phi') <= C * e /\ Rabs (v - v') <= C * e.
Proof.
  intros d profile mo sm s0 depth phi1 v0 Hb Es K0 S Hv0 Ez.
  destruct (C90_small_errors_stay_small d profile mo sm s0 depth phi1 v0 Hb Es K0 S Hv0 Ez) as (C & G). exists C.
  intros s s' h n fuel fuel' w w' Hh W K W' K' H H'.
  change (with_step h (with_crystals (st_phi s) sm)) with (with_crystals (st_phi s) (with_step h sm)) in H. rewrite crystals_simulate in H.
  change (with_step h (with_crystals (st_phi s') sm)) with (with_crystals (st_phi s') (with_step h sm)) in H'. rewrite crystals_simulate in H'.
  exact (G s s' h n fuel fuel' w w' Hh W K W' K' H H').
Qed.
