(** * Props_Faster: a larger effusion rate or a deeper channel flows at least as far (C86) *)
From Coq Require Import Reals Lra Lia List Classical_Prop.
From Verif Require Import Base Num Json Logger World Vesicle MeltVisc RelVisc Bubbles Terrain Lava
  Thermal Flux Integrator Factory Run Frame StepLog Spec RNum RPow StepProofs LoggerProofs RowProofs StepProps StepRow Gives Steady EffArray Props_Run Props_Step Props_Budget Props_BudgetStep Props_RunOuts
  Props_Velocity Props_Rheology Props_Material Props_Terrain Props_Thermal Props_Flux ColumnProofs TableTrace Props_Table Props_Recompute Props_Energy
  Safe Valid Props_ValidRun Cooling Props_Cooling Recompute Lipschitz ModelLip Refine Losses Props_Refine Props_RefineRun Props_Compare Props_Weaker Faster.
Open Scope R_scope.

(** The same set-up with another value of the configuration's "effusion_rate_init". *)
Definition with_rate {T} (e : T) (sm : sim T) : sim T :=
  {| s_dx := s_dx sm; s_lava := s_lava sm; s_air := s_air sm;
     s_ter := {| ter_eff_init := e; ter_width := ter_width (s_ter sm); ter_gravity := ter_gravity (s_ter sm); ter_maxlen := ter_maxlen (s_ter sm);
                 ter_default_slope := ter_default_slope (s_ter sm); ter_spline := ter_spline (s_ter sm) |};
     s_cryst := s_cryst sm; s_crust := s_crust sm; s_cover := s_cover sm; s_budget := s_budget sm; s_mass := s_mass sm |}.

(** The depth of the channel once the search for the effusion rate is over. *)
Definition vent_depth (sm : sim R) (s : state R) (depth d : R) : Prop :=
  exists w, init_effusion_rate sm (initial_world s [] depth) = (Ok tt, w) /\ w_depth w = d.
(** In a channel [d] deep the slope at the vent moves the lava. *)
Definition moves_at_vent (sm : sim R) (s : state R) (d : R) : Prop :=
  exists t0 tb, get_yield_strength (s_lava sm) s = Ok t0 /\ get_basal_shear_stress (s_lava sm) (s_ter sm) d s = Ok tb /\ t0 < tb.

Lemma vent_depth_fun sm s depth d d' : vent_depth sm s depth d -> vent_depth sm s depth d' -> d = d'.
Proof. intros (w & E & <-) (w' & E' & <-). congruence. Qed.
Lemma init_state (sm : sim R) s depth w : init_effusion_rate sm (initial_world s [] depth) = (Ok tt, w) ->
  w_st w = set_strain_rate (st_strain (w_st w)) s.
Proof.
  intros E. assert (A := init_keeps_pos sm _ _ _ E). assert (B := init_keeps_temp sm _ _ _ E). assert (C := init_keeps_phi sm _ _ _ E).
  assert (D := init_keeps_time sm _ _ _ E). cbn in A, B, C, D. destruct (w_st w), s. cbn in *. now subst.
Qed.

(** ** The search *)
Lemma depth_grows i j : (i <= j)%nat -> @depth_at R _ i <= depth_at j.
Proof. intros H. rewrite !C19_depth_grid. apply le_INR in H. lra. Qed.
Lemma try_sets_depth (sm : sim R) d w hit w' : try_depth sm d w = (Ok hit, w') -> w_depth w' = d.
Proof. intros H. apply try_depth_inv in H as (v & new & rho & _ & _ & _ & ->). reflexivity. Qed.
Lemma search_deepens (sm : sim R) : forall n i w w', search_depth sm i n w = (Ok tt, w') -> w_depth w <= depth_at i -> w_depth w <= w_depth w'.
Proof.
  induction n as [|n IH]; intros i w w' H Hd; cbn [search_depth] in H; [injection H as <-; lra|].
  apply bind_ok in H as (hit & w1 & H1 & H). apply try_sets_depth in H1.
  destruct hit; [injection H as <-; lra|]. apply IH in H; [lra|]. rewrite H1. apply depth_grows. lia.
Qed.
Lemma search_monotone (sm : sim R) e : strain_free (s_lava sm) -> ter_eff_init (s_ter sm) <= e -> forall n i w1 w2 w1' w2' x,
  w_st w2 = set_strain_rate x (w_st w1) -> w_depth w1 <= w_depth w2 \/ (0 < n)%nat ->
  search_depth sm i n w1 = (Ok tt, w1') -> search_depth (with_rate e sm) i n w2 = (Ok tt, w2') -> w_depth w1' <= w_depth w2'.
Proof.
  intros Sf He. induction n as [|n IH]; intros i w1 w2 w1' w2' x Es Hd H1 H2; cbn [search_depth] in H1, H2.
  - injection H1 as <-. injection H2 as <-. destruct Hd; [assumption|lia].
  - apply bind_ok in H1 as (h1 & x1 & T1 & H1). apply bind_ok in H2 as (h2 & x2 & T2 & H2).
    assert (D1 := try_sets_depth _ _ _ _ _ T1). assert (D2 := try_sets_depth _ _ _ _ _ T2).
    apply try_depth_inv in T1 as (v & new & rho & V1 & R1 & -> & X1). apply try_depth_inv in T2 as (v' & new' & rho' & V2 & R2 & -> & X2).
    change (mean_velocity (s_lava sm) (s_ter sm) (depth_at i) (w_st w2) = Ok (v', new')) in V2. rewrite Es in V2.
    destruct (mean_velocity_same _ _ _ _ _ _ _ _ _ Sf V1 V2) as [-> _].
    change (ter_width (s_ter (with_rate e sm))) with (ter_width (s_ter sm)) in *. change (ter_eff_init (s_ter (with_rate e sm))) with e in *.
    destruct (R_leb (ter_eff_init (s_ter sm)) _) eqn:Q1; destruct (R_leb e _) eqn:Q2; rtests.
    + injection H1 as <-. injection H2 as <-. lra.
    + injection H1 as <-. apply search_deepens in H2; [lra|]. rewrite D2. apply depth_grows. lia.
    + lra.
    + apply (IH (S i) x1 x2 w1' w2' new'); auto; [|left; lra]. rewrite X1, X2. cbn. rewrite Es. reflexivity.
Qed.
(** The search for a larger effusion rate ends at a channel at least as deep. *)
Theorem C86_larger_rate_deeper_channel : forall (sm : sim R) (s : state R) x depth depth' e d d', strain_free (s_lava sm) ->
  ter_eff_init (s_ter sm) <> 0 -> e <> 0 -> ter_eff_init (s_ter sm) <= e ->
  vent_depth sm s depth d -> vent_depth (with_rate e sm) (set_strain_rate x s) depth' d' -> d <= d'.
Proof.
  intros sm s x depth depth' e d d' Sf Hn Hn' Hle (w & E & <-) (w' & E' & <-).
  unfold init_effusion_rate in E, E'. rnum.
  change (ter_eff_init (s_ter (with_rate e sm))) with e in E'.
  rewrite (proj2 (R_eqb_false _ _) Hn) in E. rewrite (proj2 (R_eqb_false _ _) Hn') in E'.
  refine (search_monotone sm e Sf Hle _ _ _ _ _ _ x _ _ E E'); [reflexivity|]. right. unfold depth_count. lia.
Qed.

(** ** Velocities *)
Lemma jb_monotone h1 h2 t01 t02 tb1 tb2 mu1 mu2 : 0 < h1 <= h2 -> 0 < mu2 <= mu1 -> 0 <= t02 <= t01 -> t01 < tb1 <= tb2 ->
  jeffreys_bingham h1 t01 tb1 mu1 <= jeffreys_bingham h2 t02 tb2 mu2.
Proof.
  intros Hh Hmu Ht0 Htb. unfold jeffreys_bingham.
  set (r1 := t01 / tb1). set (r2 := t02 / tb2).
  assert (Hr2 : 0 <= r2).
  { unfold r2. apply Rmult_le_pos; [lra|]. apply Rlt_le, Rinv_0_lt_compat; lra. }
  assert (Hi : / tb2 <= / tb1) by (apply Rinv_le_contravar; lra).
  assert (Hi1 : 0 < / tb1) by (apply Rinv_0_lt_compat; lra).
  assert (Hi2 : 0 < / tb2) by (apply Rinv_0_lt_compat; lra).
  assert (Hr21 : r2 <= r1).
  { unfold r1, r2, Rdiv. apply Rmult_le_compat; lra. }
  assert (Hr1 : r1 < 1).
  { unfold r1, Rdiv. apply Rmult_lt_reg_r with tb1; [lra|]. rewrite Rmult_assoc, Rinv_l by lra. lra. }
  set (g := fun r => 1 - 3 / 2 * r + 1 / 2 * r ^ 3).
  assert (Hg : g r1 <= g r2).
  { destruct (Req_dec r1 r2) as [->|]; [lra|]. unfold g. apply Rlt_le, jb_shape_decreasing; lra. }
  assert (Hgp : 0 < g r1).
  { assert (E : g 1 = 0) by (unfold g; lra). rewrite <- E. unfold g. apply jb_shape_decreasing; lra. }
  assert (Hm1 : 0 < / (3 * mu1)) by (apply Rinv_0_lt_compat; lra).
  assert (Hm2 : / (3 * mu1) <= / (3 * mu2)) by (apply Rinv_le_contravar; lra).
  set (k1 := h1 * tb1 / (3 * mu1)). set (k2 := h2 * tb2 / (3 * mu2)).
  assert (Hk1 : 0 < k1).
  { unfold k1, Rdiv. apply Rmult_lt_0_compat; [apply Rmult_lt_0_compat|]; lra. }
  assert (Hp : h1 * tb1 <= h2 * tb2) by (apply Rmult_le_compat; lra).
  assert (Hp1 : 0 < h1 * tb1) by (apply Rmult_lt_0_compat; lra).
  assert (Hk : k1 <= k2) by (unfold k1, k2, Rdiv; apply Rmult_le_compat; lra).
  fold (g r1) (g r2). apply Rmult_le_compat; lra.
Qed.
Lemma basal_deeper (l : lava R) t h1 h2 s1 s2 tb : st_pos s1 = st_pos s2 -> h1 <> 0 ->
  get_basal_shear_stress l t h1 s1 = Ok tb -> get_basal_shear_stress l t h2 s2 = Ok (h2 / h1 * tb).
Proof.
  intros Ex Hh Hb. rewrite (basal_same l t h1 s1 s2 Ex) in Hb. unfold get_basal_shear_stress in *.
  assert (B : forall h, compute_basal_shear_stress (lv_yield l) t h l s2 = basal_body t h l s2)
    by (intros; destruct (lv_yield l); reflexivity).
  rewrite B in *. unfold basal_body in *.
  apply rbind_ok in Hb as (rho & -> & Hb). apply rbind_ok in Hb as (sl & -> & Hb).
  cbn [rbind]. apply rbind_ok in Hb as (sn & Hsn & Hb). rewrite Hsn. cbn [rbind] in *.
  rnum. injection Hb as <-. f_equal. field. exact Hh.
Qed.
(** Viscosity and yield strength depend on place, temperature and crystals only. *)
Lemma same_values (sm : sim R) s depth phi1 q : admissible sm s depth -> smooth sm phi1 -> box (region_of sm s) phi1 (at_ q) ->
  computes_bulk_viscosity (s_lava sm) q = computes_bulk_viscosity (s_lava sm) (state_at (at_ q)) /\
  get_yield_strength (s_lava sm) q = get_yield_strength (s_lava sm) (state_at (at_ q)).
Proof.
  intros V S B. assert (X0 := proj1 (va_pos _ _ _ V)). assert (P0 := va_phi _ _ _ V).
  destruct (viscosity_smooth (region_of sm s) phi1 X0 P0 (s_lava sm) (va_lava _ _ _ V) (sm_melt _ _ S) (sm_rel _ _ S) (sm_bub _ _ S)) as (mu & _ & Emu).
  destruct (yield_smooth (region_of sm s) phi1 X0 P0 (s_lava sm) (sm_yield_ok _ _ S) (sm_yield _ _ S)) as (t0 & _ & Et0).
  rewrite (Emu _ B), (Et0 _ B), (returns_at _ _ _ _ Emu B), (returns_at _ _ _ _ Et0 B). auto.
Qed.

(** In mass mode the flux kept since the vent is that of the velocity there. *)
Lemma vent_flux (sm : sim R) s depth w : strain_free (s_lava sm) -> ter_eff_init (s_ter sm) <> 0 ->
  init_effusion_rate sm (initial_world s [] depth) = (Ok tt, w) ->
  exists ve new rho, mean_velocity (s_lava sm) (s_ter sm) (w_depth w) s = Ok (ve, new) /\ get_bulk_density (s_lava sm) s = Ok rho /\
    w_flux w = Some (ve * ter_width (s_ter sm) * w_depth w * rho).
Proof.
  intros Sf Hn E. destruct (C19_search_result _ _ _ Hn E) as (k & strain & v & rho & [_ Ht] & Hr & Ed & _ & Ef & _ & _).
  cbn [initial_world w_st] in *. specialize (Ht k ltac:(lia)). rewrite <- Ed in Ht.
  apply C20_velocity_only_if in Ht as (mu & t0 & tb & A & B & C & Nm & Nt & Nd & Ev & _).
  rewrite Sf in A. unfold get_yield_strength in B. rewrite yield_strain in B. unfold get_basal_shear_stress in C. rewrite basal_strain in C.
  exists (v k), (3 * v k / w_depth w), rho. split; [|split; [exact Hr|rewrite Ef, Ed; reflexivity]].
  rewrite Ev. now apply C20_velocity_is_jeffreys.
Qed.

(** ** The two set-ups *)
Lemma losing_rate (sm : sim R) s depth e x depth' : losing sm s depth -> (s_mass sm = true -> e <> 0) -> 0 <= x -> 0 < depth' ->
  losing (with_rate e sm) (set_strain_rate x s) depth'.
Proof.
  intros [V A1 A2 A3 A4 A5 A6 A7] He Hx Hd. constructor; try assumption. destruct V. constructor; assumption.
Qed.
Lemma smooth_rate (sm : sim R) e phi1 : smooth sm phi1 -> smooth (with_rate e sm) phi1.
Proof. intros []. constructor; assumption. Qed.

(** ** Less heat lost per unit of lava carried *)
Lemma per_unit hl1 hl2 v1 v2 d1 d2 k : 0 < v1 <= v2 -> 0 < d1 <= d2 -> 0 < k -> 0 <= hl2 -> v1 / v2 * hl2 <= hl1 ->
  hl2 / (k * (v2 * d2)) <= hl1 / (k * (v1 * d1)).
Proof.
  intros Hv Hd Hk H2 H.
  assert (P1 : 0 < k * (v1 * d1)) by (repeat apply Rmult_lt_0_compat; lra).
  assert (P2 : 0 < k * (v2 * d2)) by (repeat apply Rmult_lt_0_compat; lra).
  apply Rle_trans with (v1 / v2 * hl2 / (k * (v1 * d1))).
  - replace (v1 / v2 * hl2 / (k * (v1 * d1))) with (hl2 * / (k * (v2 * d1))) by (field; repeat split; lra).
    unfold Rdiv. apply Rmult_le_compat_l; [exact H2|]. apply Rinv_le_contravar; [repeat apply Rmult_lt_0_compat; lra|].
    apply Rmult_le_compat_l; [lra|]. apply Rmult_le_compat_l; lra.
  - unfold Rdiv at 1 3. apply Rmult_le_compat_r; [|exact H]. apply Rlt_le, Rinv_0_lt_compat, P1.
Qed.

(** ** C86 *)
(** Two runs of one set-up that differ in the depth of the channel, whether it is
    given or found by the search: the first in a channel [d1] deep, in which the
    slope at the vent moves the lava, the second in one [d2 >= d1] deep. *)
Lemma deeper_flows_further :
  forall (d : json R) profile mo (sm : sim R) (s : state R) x depth depth' e phi1 v0 d1 d2,
  build_models d profile = Ok mo -> s_budget sm = mo_budget mo ->
  losing sm s depth -> smooth sm phi1 ->
  thins_with_heat (lv_melt (s_lava sm)) -> 0 < v0 ->
  Forall (tame sm) (s_budget sm) -> (s_mass sm = true -> e <> 0) -> 0 <= x -> 0 < depth' ->
  vent_depth sm s depth d1 -> vent_depth (with_rate e sm) (set_strain_rate x s) depth' d2 -> d1 <= d2 -> moves_at_vent sm s d1 ->
  exists h0, 0 < h0 /\ forall h n fuel fuel' w w', 0 < h <= h0 ->
    simulate fuel (with_step h sm) (initial_world s [] depth) = Some (Ok tt, w) ->
    simulate fuel' (with_step h (with_rate e sm)) (initial_world (set_strain_rate x s) [] depth') = Some (Ok tt, w') ->
    (n < w_iter w)%nat -> flows_freely v0 phi1 (w_log w) n ->
    (n < w_iter w')%nat /\
    forall i, (i <= n)%nat -> exists r r', nth_error (w_log w) i = Some r /\ nth_error (w_log w') i = Some r' /\
      at_least_as_mobile r r'.
Proof.
  intros d profile mo sm s x depth depth' e phi1 v0 d1 d2 Hb Es K S Thin Hv0 Tame He Hx Hdep Vd1 Vd2 Hd12 Mov.
  assert (K' := losing_rate sm s depth e x depth' K He Hx Hdep). assert (S' := smooth_rate sm e phi1 S).
  assert (V := co_admissible _ _ _ K). assert (V' := co_admissible _ _ _ K').
  set (sme := with_rate e sm) in *. set (s' := set_strain_rate x s) in *.
  assert (Sf := smooth_strain_free _ _ S).
  destruct (gradients_full sm s depth phi1 v0 V S Hv0) as (D1 & su1 & vel1 & G1 & rate & (_ & Prate & DG1 & X1) & HG1).
  destruct (HG1 d profile mo (s_air sm) (s_budget sm) (lv_latent (s_lava sm)) Hb Es) as ((L1 & B1 & HL1 & HB1 & HF1) & W1 & U1);
    [rewrite with_losses_same; exact K|]. rewrite with_losses_same in U1. clear HG1.
  destruct (gradients_full sme s' depth' phi1 v0 V' S' Hv0) as (D2 & su2 & vel2 & G2 & rate2 & (_ & _ & DG2 & X2) & HG2).
  destruct (HG2 d profile mo (s_air sm) (s_budget sm) (lv_latent (s_lava sm)) Hb Es) as (_ & W2 & U2);
    [change (s_air sm) with (s_air sme); change (s_budget sm) with (s_budget sme); change (lv_latent (s_lava sm)) with (lv_latent (s_lava sme));
     rewrite with_losses_same; exact K'|].
  change (s_air sm) with (s_air sme) in U2; change (s_budget sm) with (s_budget sme) in U2; change (lv_latent (s_lava sm)) with (lv_latent (s_lava sme)) in U2.
  rewrite with_losses_same in U2. clear HG2.
  change (s_air sme) with (s_air sm) in *; change (s_budget sme) with (s_budget sm) in *; change (s_lava sme) with (s_lava sm) in *.
  change (s_cryst sme) with (s_cryst sm) in *. 
  destruct X1 as (w01 & c1 & gm1 & E01 & Pc1 & Er1 & Eg1 & X1). destruct X2 as (w02 & c2 & gm2 & E02 & Pc2 & Er2 & Eg2 & X2).
  assert (H1 : w_depth w01 = d1) by (apply (vent_depth_fun sm s depth); [exists w01; auto|exact Vd1]).
  assert (H2 : w_depth w02 = d2) by (apply (vent_depth_fun sme s' depth'); [exists w02; auto|exact Vd2]).
  change (s_lava sme) with (s_lava sm) in *. change (s_cryst sme) with (s_cryst sm) in *. change (s_cover sme) with (s_cover sm) in *. change (s_crust sme) with (s_crust sm) in *.
  change (s_mass sme) with (s_mass sm) in *. change (region_of sme s') with (region_of sm s) in *.
  destruct (sm_cryst _ _ S) as (cr1 & grown & ts & te & Ecr). destruct (sm_cover _ _ S) as (al & fc & Ecv).
  assert (rate2 = rate) as -> by (rewrite (Er1 _ _ _ _ Ecr), (Er2 _ _ _ _ Ecr); reflexivity).
  assert (Vcv := va_cover _ _ _ V). rewrite Ecv in Vcv. cbn [valid_cover] in Vcv.
  assert (Pd1 : 0 < d1).
  { destruct (vent_init sm s depth V []) as (w0 & E0 & S0 & _). rewrite E01 in E0. injection E0 as <-. rewrite <- H1. exact (so_depth _ _ _ S0). }
  assert (Plat : 0 < lv_latent (s_lava sm)) by apply (va_lava _ _ _ V). assert (Pdre : 0 < lv_dre (s_lava sm)) by apply (va_lava _ _ _ V).
  destruct Mov as (t0v & tbv & Ety & Etb & Hmov).
  assert (Py0 : 0 <= t0v).
  { destruct (yield_inside (s_lava sm) s) as (z & Ez & Bz); [exact (va_phi _ _ _ V)|]. rewrite Ety in Ez. injection Ez as <-. exact Bz. }
  assert (Vis : exists mu, computes_bulk_viscosity (s_lava sm) s = Ok mu /\ 0 < mu).
  { destruct (vent_init sm s depth V []) as (w0 & E0 & S0 & _). rewrite E01 in E0. injection E0 as <-.
    destruct (sound_viscosity _ _ _ V _ S0) as [(m & Em & Pm) _]. exists m. split; [|exact Pm]. rewrite (init_state _ _ _ _ E01), Sf in Em. exact Em. }
  (* the constant of the mass mode *)
  assert (Egm : s_mass sm = true -> 0 < gm1 /\ gm2 = gm1).
  { intros Em. assert (N1 := va_mass _ _ _ V Em). assert (N2 := He Em).
    destruct (vent_flux sm s depth w01 Sf N1 E01) as (ve & new & rho & M1 & Rh1 & F1).
    destruct (vent_flux sme s' depth' w02 Sf N2 E02) as (ve' & new' & rho' & M2 & Rh2 & F2).
    change (get_bulk_density (s_lava sm) s = Ok rho') in Rh2. rewrite Rh1 in Rh2. injection Rh2 as <-.
    assert (Prho : 0 < rho).
    { unfold get_bulk_density, lava_vesicle_fraction in Rh1. destruct (va_lava _ _ _ V) as (_ & _ & _ & Vv & _).
      destruct (ves_inside _ s Vv (proj1 (va_pos _ _ _ V))) as (vf & Evf & Bv & _). rewrite Evf in Rh1. cbn [rbind] in Rh1. rnum. apply Ok_inj in Rh1.
      rewrite <- Rh1. apply Rmult_lt_0_compat; lra. }
    assert (Pw := va_width _ _ _ V). change (ter_width (s_ter sme)) with (ter_width (s_ter sm)) in *.
    assert (Pos : forall dd wx sx sy vx nx, d1 <= dd -> w_st wx = set_strain_rate sx s -> mean_velocity (s_lava sm) (s_ter sm) dd (set_strain_rate sy s) = Ok (vx, nx) ->
      0 < vx /\ exists ny, mean_velocity (s_lava sm) (s_ter sm) dd (w_st wx) = Ok (vx, ny)).
    { intros dd wx sx sy vx nx Hdd Ewx Mx.
      assert (Ebx := basal_deeper _ _ d1 dd s s tbv eq_refl ltac:(lra) Etb).
      assert (Mx' := Mx). apply C20_velocity_only_if in Mx' as (mu & t0 & tb & Q1 & Q2 & Q3 & Q4 & Q5 & Q6 & Q7 & _).
      assert (Q1s := Q1). rewrite Sf in Q1. assert (Q2s := Q2). unfold get_yield_strength in Q2. rewrite yield_strain in Q2. change (get_yield_strength (s_lava sm) s = Ok t0) in Q2.
      assert (Q3s := Q3). unfold get_basal_shear_stress in Q3. rewrite basal_strain in Q3. change (get_basal_shear_stress (s_lava sm) (s_ter sm) dd s = Ok tb) in Q3.
      rewrite Ety in Q2. injection Q2 as <-. rewrite Ebx in Q3. injection Q3 as <-.
      assert (Tb : tbv <= dd / d1 * tbv).
      { rewrite <- (Rmult_1_l tbv) at 1. apply Rmult_le_compat_r; [lra|]. apply Rmult_le_reg_r with d1; [lra|]. unfold Rdiv. rewrite Rmult_assoc, Rinv_l by lra. lra. }
      split.
      - assert (Pmu : 0 < mu).
        { destruct Vis as (m & Em1 & Pm). rewrite Q1 in Em1. injection Em1 as <-. exact Pm. }
        destruct (C22_velocity_sign _ _ _ _ _ _ _ _ _ Q1s Q2s Q3s ltac:(lra) Pmu ltac:(lra) Py0 Mx) as [G0 G1']. 
        destruct (Rle_lt_or_eq_dec _ _ G0) as [|Z]; [assumption|]. exfalso. symmetry in Z. apply G1' in Z. lra.
      - exists (3 * vx / dd). rewrite Ewx, Q7. apply C20_velocity_is_jeffreys; [rewrite Sf; exact Q1| | |assumption|assumption|assumption].
        + unfold get_yield_strength. rewrite yield_strain. exact Ety.
        + unfold get_basal_shear_stress. rewrite basal_strain. exact Ebx. }
    rewrite H1 in *. rewrite H2 in *.
    rewrite <- (set_strain_id s) in M1.
    destruct (Pos d1 w01 _ _ ve new ltac:(lra) (init_state _ _ _ _ E01) M1) as (Pve & n1 & Mw1).
    assert (Ew2 : w_st w02 = set_strain_rate (st_strain (w_st w02)) s) by exact (init_state sme s' depth' w02 E02).
    change (mean_velocity (s_lava sm) (s_ter sm) d2 (set_strain_rate x s) = Ok (ve', new')) in M2.
    destruct (Pos d2 w02 _ _ ve' new' Hd12 Ew2 M2) as (Pve' & n2 & Mw2).
    assert (P1 : 0 < ve * ter_width (s_ter sm) * d1) by (repeat apply Rmult_lt_0_compat; lra).
    assert (P2 : 0 < ve' * ter_width (s_ter sm) * d2) by (repeat apply Rmult_lt_0_compat; lra).
    rewrite (Eg1 _ _ _ Mw1 P1 F1) by (apply Rmult_lt_0_compat; lra).
    rewrite (Eg2 _ _ _ Mw2 P2 F2) by (apply Rmult_lt_0_compat; lra).
    split; [apply Rmult_lt_0_compat; [apply Rdiv_lt_0_compat; [lra|apply Rmult_lt_0_compat; lra]|exact Prate]|]. field. repeat split; try lra. }
  clear Eg1 Eg2.
  set (F1 := fun p => - (heat_loss (s_air sm) (s_budget sm) (su1 p) / (lv_latent (s_lava sm) * G1 p))) in *.
  set (F2 := fun p => - (heat_loss (s_air sm) (s_budget sm) (su2 p) / (lv_latent (s_lava sm) * G2 p))) in *.
  (* at one point the deeper channel is faster and cools less per metre *)
  assert (Here : forall p t0 tb, box (region_of sm s) phi1 p -> D1 p ->
    get_yield_strength (s_lava sm) (state_at p) = Ok t0 -> get_basal_shear_stress (s_lava sm) (s_ter sm) d1 (state_at p) = Ok tb -> 0 <= t0 < tb ->
    vel1 p <= vel2 p /\ (D2 p -> F1 p <= F2 p)).
  { intros p t0 tb Bp Dp Ey Eb Ht.
    destruct (X1 p Bp) as (t01 & tb1 & A1 & A2 & A3 & A4 & A5 & A6 & A7 & A8 & A9 & A10 & A11 & A12 & A13 & A14).
    destruct (X2 p Bp) as (t02 & tb2 & Z1 & Z2 & Z3 & Z4 & Z5 & Z6 & Z7 & Z8 & Z9 & Z10 & Z11 & Z12 & Z13 & Z14).
    cbv zeta in *. rewrite H1 in *. rewrite H2 in *.
    assert (Zb := basal_deeper _ _ d1 d2 (state_at p) (state_at p) tb eq_refl ltac:(lra) Eb).
    assert (t01 = t0) as -> by congruence. assert (t02 = t0) as -> by congruence. assert (tb1 = tb) as -> by congruence.
    assert (tb2 = d2 / d1 * tb) as -> by (apply Ok_inj; rewrite <- Zb; symmetry; exact Z4).
    assert (Mu : su_mu (su2 p) = su_mu (su1 p)) by (apply Ok_inj; rewrite <- A2; symmetry; exact Z2).
    assert (Vf : su_vf (su2 p) = su_vf (su1 p)) by (apply Ok_inj; rewrite <- A1; symmetry; exact Z1).
    assert (Tc : su_crust (su2 p) = su_crust (su1 p)) by (apply Ok_inj; rewrite <- A5; symmetry; exact Z5).
    specialize (A12 _ _ Ecv). specialize (Z12 _ _ Ecv).
    assert (Wp := W1 p Dp). assert (Pm : 0 < su_mu (su1 p)) by apply Wp.
    assert (Tb : tb <= d2 / d1 * tb).
    { rewrite <- (Rmult_1_l tb) at 1. apply Rmult_le_compat_r; [lra|]. apply Rmult_le_reg_r with d1; [lra|]. unfold Rdiv. rewrite Rmult_assoc, Rinv_l by lra. lra. }
    assert (Vel : vel1 p <= vel2 p) by (rewrite A11, Z11, Mu; apply jb_monotone; lra).
    split; [exact Vel|]. intros Dp2. assert (Wp2 := W2 p Dp2).
    assert (Sp : sped_up al fc (su1 p) (su2 p)).
    { constructor; try congruence; lra. }
    assert (Sfm : surface_of_models sm (su1 p)).
    { split; [rewrite A8; exact A9|]. intros tc Etc. apply Ok_inj. rewrite <- A5, Etc. reflexivity. }
    destruct (tame_loss sm al fc (su1 p) (su2 p) (co_air _ _ _ K) ltac:(apply Vcv) ltac:(lra) Wp Wp2 Sp Sfm _ (co_losses _ _ _ K) Tame) as [Y1 Y2].
    rewrite A10, Z10 in Y2. assert (Pv : 0 < vel1 p) by (destruct (DG1 p Dp); lra).
    unfold F1, F2. apply Ropp_le_contravar. rewrite A14, Z14, Vf.
    set (rho := lv_dre (s_lava sm) * (1 - su_vf (su1 p))). assert (Pr : 0 < rho) by (apply Rmult_lt_0_compat; [exact Pdre|assert (Q := ws_vf _ _ _ Wp); lra]).
    clearbody rho. destruct (s_mass sm).
    - destruct (Egm eq_refl) as [Pg ->].
      replace (lv_latent (s_lava sm) * (gm1 * (rho * rho * vel2 p * d2))) with (lv_latent (s_lava sm) * gm1 * rho * rho * (vel2 p * d2)) by ring.
      replace (lv_latent (s_lava sm) * (gm1 * (rho * rho * vel1 p * d1))) with (lv_latent (s_lava sm) * gm1 * rho * rho * (vel1 p * d1)) by ring.
      apply per_unit; [lra|lra|repeat apply Rmult_lt_0_compat; assumption|exact Y1|exact Y2].
    - replace (lv_latent (s_lava sm) * (vel2 p * d2 * rho * rate)) with (lv_latent (s_lava sm) * rho * rate * (vel2 p * d2)) by ring.
      replace (lv_latent (s_lava sm) * (vel1 p * d1 * rho * rate)) with (lv_latent (s_lava sm) * rho * rate * (vel1 p * d1)) by ring.
      apply per_unit; [lra|lra|repeat apply Rmult_lt_0_compat; assumption|exact Y1|exact Y2]. }
  exists (/ (L1 * (1 + rate) + 1)). assert (PL1 : 0 <= L1 * (1 + rate)) by (apply Rmult_le_pos; lra).
  split; [apply Rinv_0_lt_compat; lra|].
  intros h n fuel fuel' w w' [Hh Hh0] H H' Hn Free.
  assert (Hhl : h * (L1 * (1 + rate)) <= 1).
  { assert (Q : h * (L1 * (1 + rate) + 1) <= 1); [|nra].
    apply Rmult_le_reg_r with (/ (L1 * (1 + rate) + 1)); [apply Rinv_0_lt_compat; lra|]. rewrite Rmult_assoc, Rinv_r, Rmult_1_r, Rmult_1_l by lra. exact Hh0. }
  set (sm1 := with_step h sm) in *. set (sm2 := with_step h sme) in *.
  assert (K1 : losing sm1 s depth) by now apply losing_step.
  assert (K2 : losing sm2 s' depth') by (apply losing_step; [exact K'|exact Hh]).
  assert (V1 := co_admissible _ _ _ K1). assert (V2 := co_admissible _ _ _ K2).
  assert (Q1 : s_dx sm1 <> 0) by (change (h <> 0); lra). assert (Q2 : s_dx sm2 <> 0) by (change (h <> 0); lra).
  assert (S1 := run_sequences sm1 _ _ _ w Q1 H). assert (S2 := run_sequences sm2 _ _ _ w' Q2 H'). cbv zeta in S1, S2.
  change (s_dx sm1) with h in *. change (s_dx sm2) with h in *. change (st_pos s') with (st_pos s) in *. change (st_temp s') with (st_temp s) in *. change (st_phi s') with (st_phi s) in *.
  set (r1 k := nth k (w_log w) []) in *. set (r2 k := nth k (w_log w') []) in *.
  set (T1 k := value (r1 k) "core_temperature") in *. set (T2 k := value (r2 k) "core_temperature") in *.
  set (C1 k := value (r1 k) "crystal_fraction") in *. set (C2 k := value (r2 k) "crystal_fraction") in *.
  set (inv := fun i => (i < w_iter w')%nat /\ T1 i <= T2 i /\ C1 i = st_phi s + rate * (st_temp s - T1 i) /\ C2 i = st_phi s + rate * (st_temp s - T2 i)).
  assert (Init1 : forall w0, init_effusion_rate sm1 (initial_world s [] depth) = (Ok tt, w0) -> w0 = w01).
  { intros w0 E0. unfold sm1 in E0. rewrite init_step, E01 in E0. congruence. }
  assert (Init2 : forall w0, init_effusion_rate sm2 (initial_world s' [] depth') = (Ok tt, w0) -> w0 = w02).
  { intros w0 E0. unfold sm2 in E0. rewrite init_step, E02 in E0. congruence. }
  (* one place of the two tables *)
  assert (Place : forall i, (i <= n)%nat -> inv i -> exists v1 v2,
    holds (r1 i) "mean_velocity" v1 /\ holds (r2 i) "mean_velocity" v2 /\ v1 <= v2 /\
    let p1 := {| px := st_pos s + INR i * h; pt := T1 i; pp := C1 i |} in
    let p2 := {| px := st_pos s + INR i * h; pt := T2 i; pp := C2 i |} in
    D1 p1 /\ D1 p2 /\ F1 p2 <= F2 p2 /\ value (r1 i) "dtemp_dx" = F1 p1 /\ value (r1 i) "dphi_dx" = - rate * F1 p1 /\
    value (r2 i) "dtemp_dx" = F2 p2 /\ value (r2 i) "dphi_dx" = - rate * F2 p2).
  { intros i Hi (I1 & I2 & I3 & I4). assert (Hi1 : (i < w_iter w)%nat) by lia.
    destruct (S1 i Hi1) as (N1 & R1 & _). destruct (S2 i I1) as (N2 & R2 & _). fold (r1 i) (T1 i) (C1 i) in N1, R1. fold (r2 i) (T2 i) (C2 i) in N2, R2.
    destruct (row_world sm1 s depth V1 fuel w i _ H Hi1 N1) as
      (w0 & wi & wj & v & rho & wd & sl & hb & ra & dT & dt & E0 & J0 & S0 & RL & St & _ & _ & C & Sw & _ & Ii & Ed & Ex & Et & Ep & Ev & _).
    destruct (row_world sm2 s' depth' V2 fuel' w' i _ H' I1 N2) as
      (w0' & wi' & wj' & v' & rho' & wd' & sl' & hb' & ra' & dT' & dt' & E0' & _ & _ & _ & St' & _ & _ & C' & Sw' & _ & Ii' & Ed' & Ex' & Et' & Ep' & Ev' & _).
    apply Init1 in E0. apply Init2 in E0'. subst w0 w0'. rewrite H1 in Ed. rewrite H2 in Ed'.
    change (s_dx sm1) with h in Ex. change (s_dx sm2) with h in Ex'. change (st_pos s') with (st_pos s) in Ex'.
    assert (R1' := R1). assert (R2' := R2). destruct R1' as (A1 & A2 & A3 & A4 & A5). destruct R2' as (A1' & A2' & A3' & A4' & A5').
    assert (Y1 : st_temp (w_st wi) = T1 i) by exact (holds_fun _ _ _ _ Et A2). assert (Y2 : st_temp (w_st wi') = T2 i) by exact (holds_fun _ _ _ _ Et' A2').
    assert (Y3 : st_phi (w_st wi) = C1 i) by exact (holds_fun _ _ _ _ Ep A3). assert (Y4 : st_phi (w_st wi') = C2 i) by exact (holds_fun _ _ _ _ Ep' A3').
    destruct (Free i (r1 i) v (C1 i) Hi N1 Ev A3) as [Fv Fp].
    assert (Hcr : C2 i <= C1 i) by (rewrite I3, I4; assert (rate * T1 i <= rate * T2 i) by (apply Rmult_le_compat_l; lra); lra).
    cbv zeta. set (p1 := {| px := st_pos s + INR i * h; pt := T1 i; pp := C1 i |}). set (p2 := {| px := st_pos s + INR i * h; pt := T2 i; pp := C2 i |}).
    assert (Ap1 : at_ (w_st wi) = p1) by (unfold at_, p1; rewrite Ex, Y1, Y3; reflexivity).
    assert (Ap2 : at_ (w_st wi') = p2) by (unfold at_, p2; rewrite Ex', Y2, Y4; reflexivity).
    assert (In1 : inside (region_of sm s) (w_st wi)) by exact (sound_inside _ _ _ V1 _ (so_nearly _ _ _ Sw)).
    assert (In2 : inside (region_of sm s) (w_st wi')) by exact (sound_inside _ _ _ V2 _ (so_nearly _ _ _ Sw')).
    assert (Bp1 : box (region_of sm s) phi1 (at_ (w_st wi))) by (split; [exact In1|cbn; lra]).
    assert (Bp2 : box (region_of sm s) phi1 (at_ (w_st wi'))) by (split; [exact In2|cbn; lra]).
    destruct (same_values sm s depth phi1 _ V S Bp1) as [Sv1 Sy1]. destruct (same_values sm s depth phi1 _ V S Bp2) as [Sv2 Sy2].
    rewrite Ap1 in Bp1, Sv1, Sy1. rewrite Ap2 in Bp2, Sv2, Sy2.
    assert (Pr1 : holds (r1 i) "mean_velocity" v) by exact Ev.
    destruct (U1 h fuel w Hh H i (r1 i) _ _ _ _ _ v Hi1 N1 R1 Ev) as [_ U1i]. destruct (U1i Fv Fp) as (Dp1 & U11 & U12 & Evel1).
    fold p1 in Dp1, U11, U12, Evel1.
    destruct (hotter_flows_better sm s depth phi1 V S Thin (state_at p1) (state_at p2)) as (m1 & m2 & y1 & y2 & Z1 & Z2 & Z3 & Z4 & Z5 & Z6);
      [exact (proj1 Bp1)|exact (proj1 Bp2)|exact Fp|reflexivity|exact I2|exact Hcr|].
    (* the first lava moves here *)
    assert (Mv1 : exists tb, get_basal_shear_stress (s_lava sm) (s_ter sm) d1 (state_at p1) = Ok tb /\ y1 < tb).
    { rewrite Z4 in Sy1. destruct (basal_inside (s_lava sm) (s_ter sm) d1 (w_st wi) (va_slope _ _ _ V)) as (rh & sx & _ & _ & Eb).
      set (tb := d1 * rh * ter_gravity (s_ter sm) * sin sx) in Eb. exists tb.
      split. { rewrite <- Eb. apply basal_same. cbn. lra. }
      destruct (so_stage _ _ _ (so_nearly _ _ _ Sw)) as [(_ & _ & _ & Zi)|(_ & _ & Hy & _)].
      - assert (i = 0%nat) as -> by lia. injection St as <-. assert (Q := init_state _ _ _ _ E01).
        rewrite Q in Sy1, Eb. unfold get_yield_strength in Sy1. rewrite yield_strain in Sy1. unfold get_basal_shear_stress in Eb. rewrite basal_strain in Eb.
        assert (y1 = t0v) by (apply Ok_inj; rewrite <- Ety; symmetry; exact Sy1). assert (tb = tbv) by (apply Ok_inj; rewrite <- Etb; symmetry; exact Eb). lra.
      - rewrite Ed in Hy. destruct (C32_stop_criterion _ _ _ _ _ _ Sy1 Eb) as [_ [Z7 _]]. exact (Z7 Hy). }
    destruct Mv1 as (tb & Eb1 & Hy1).
    assert (Eb2 : get_basal_shear_stress (s_lava sm) (s_ter sm) d1 (state_at p2) = Ok tb) by (rewrite <- Eb1; apply basal_same; reflexivity).
    (* the point of the second run, in the channel of the first *)
    assert (Dp2 : D1 p2 /\ vel1 p1 <= vel1 p2).
    { destruct (X1 p1 Bp1) as (t01 & tb1 & _ & B2 & B3 & B4 & _ & _ & _ & _ & _ & _ & B11 & _ & B13 & _).
      destruct (X1 p2 Bp2) as (t02 & tb2 & _ & G2' & G3 & G4 & _ & _ & _ & _ & _ & _ & G11 & _ & G13 & _).
      cbv zeta in *. rewrite H1 in *.
      assert (t01 = y1) as -> by congruence. assert (t02 = y2) as -> by congruence. assert (tb1 = tb) as -> by congruence. assert (tb2 = tb) as -> by congruence.
      assert (Q : vel1 p1 <= vel1 p2).
      { rewrite B11, G11. rewrite Z1 in B2. rewrite Z2 in G2'. injection B2 as <-. injection G2' as <-. apply jb_monotone; lra. }
      split; [|exact Q]. apply G13. apply B13 in Dp1. lra. }
    destruct Dp2 as [Dp2 Vel12].
    destruct (Here p2 y2 tb Bp2 Dp2 Z5 Eb2 ltac:(lra)) as [Vel Fle].
    assert (Evel2 : v' = vel2 p2).
    { destruct (cs_budget _ _ _ _ _ _ _ _ _ _ _ C') as (new' & w2' & Mv' & _).
      change (mean_velocity (s_lava sm) (s_ter sm) (w_depth wi') (w_st wi') = Ok (v', new')) in Mv'. rewrite Ed' in Mv'.
      apply C20_velocity_only_if in Mv' as (mu & t0 & tb' & Q3 & Q4 & Q5 & _ & _ & _ & -> & _).
      destruct (X2 p2 Bp2) as (t02 & tb2 & _ & G2' & G3 & G4 & _ & _ & _ & _ & _ & _ & G11 & _).
      cbv zeta in *. rewrite H2 in *. rewrite Sv2, Z2 in Q3. rewrite Sy2, Z5 in Q4. change (get_yield_strength (s_lava sm) (state_at p2) = Ok t02) in G3.
      change (computes_bulk_viscosity (s_lava sm) (state_at p2) = Ok (su_mu (su2 p2))) in G2'. rewrite Z2 in G2'. rewrite Z5 in G3.
      change (get_basal_shear_stress (s_lava sm) (s_ter sm) d2 (state_at p2) = Ok tb2) in G4.
      assert (G5 : get_basal_shear_stress (s_lava sm) (s_ter sm) d2 (w_st wi') = Ok tb2) by (rewrite <- G4; apply basal_same; exact Ex').
      rewrite G5 in Q5. rewrite G11. injection Q3 as <-. injection Q4 as <-. injection Q5 as <-. injection G2' as <-. injection G3 as <-. reflexivity. }
    exists v, v'. split; [exact Ev|]. split; [exact Ev'|]. split; [lra|].
    destruct (U2 h fuel' w' Hh H' i (r2 i) _ _ _ _ _ v' I1 N2 R2 Ev') as [_ U2i]. destruct (U2i ltac:(lra) ltac:(lra)) as (Dq2 & U21 & U22 & _).
    fold p2 in Dq2, U21, U22. split; [exact Dp1|]. split; [exact Dp2|]. split; [exact (Fle Dq2)|]. auto. }
  (* the next place *)
  assert (Step : forall i, (Datatypes.S i <= n)%nat -> inv i -> inv (Datatypes.S i)).
  { intros i Hi I. destruct (Place i ltac:(lia) I) as (v1 & v2 & _ & _ & _ & Dp1 & Dp2 & F12 & E1 & E2 & E3 & E4).
    destruct I as (I1 & I2 & I3 & I4). assert (Hi1 : (i < w_iter w)%nat) by lia.
    set (p1 := {| px := st_pos s + INR i * h; pt := T1 i; pp := C1 i |}) in *. set (p2 := {| px := st_pos s + INR i * h; pt := T2 i; pp := C2 i |}) in *.
    destruct (S1 i Hi1) as (_ & _ & _ & Nx). destruct (Nx ltac:(lia)) as [Nx1 Nx2]. fold (r1 (Datatypes.S i)) (T1 (Datatypes.S i)) (C1 (Datatypes.S i)) in Nx1, Nx2.
    fold (T1 i) (C1 i) in Nx1, Nx2. rewrite E1 in Nx1. rewrite E2 in Nx2.
    destruct (S2 i I1) as (N2 & R2 & _ & Nx'). fold (r2 i) in N2.
    destruct (row_world sm2 s' depth' V2 fuel' w' i _ H' I1 N2) as
      (w0 & wi & wj & v & rho & wd & sl & hb & ra & dT & dt & E0 & J0 & S0 & RL & St & Stj & Sg & C & Sw & Fi & Ii & Ed & Ex & Et & Ep & Ev & EdT & Edp).
    apply Init2 in E0. subst w0. rewrite H2 in Ed. change (s_dx sm2) with h in Ex. change (st_pos s') with (st_pos s) in Ex.
    destruct R2 as (A1' & A2' & A3' & A4' & A5').
    assert (Y2 : st_temp (w_st wi) = T2 i) by exact (holds_fun _ _ _ _ Et A2'). assert (Y4 : st_phi (w_st wi) = C2 i) by exact (holds_fun _ _ _ _ Ep A3').
    assert (Z2 : dT = F2 p2) by (rewrite <- E3; exact (holds_fun _ _ _ _ EdT A4')).
    assert (Z3 : - ra * dT = - rate * F2 p2) by (rewrite <- E4; exact (holds_fun _ _ _ _ Edp A5')).
    set (t2 := T2 i + F2 p2 * h). set (cc2 := C2 i + - rate * F2 p2 * h).
    assert (Xj : st_temp (w_st wj) = t2).
    { rewrite (cs_temp _ _ _ _ _ _ _ _ _ _ _ C), Y2, Z2. reflexivity. }
    assert (Yj : st_phi (w_st wj) = cc2).
    { rewrite (cs_phi _ _ _ _ _ _ _ _ _ _ _ C), Y4. rnum. change (s_dx sm2) with h. unfold cc2. rewrite <- Z3. ring. }
    assert (Pj : st_pos (w_st wj) = st_pos s + INR (Datatypes.S i) * h).
    { rewrite (cs_pos _ _ _ _ _ _ _ _ _ _ _ C), Ex, S_INR. rnum. change (s_dx sm2) with h. ring. }
    assert (Ord : T1 (Datatypes.S i) <= t2).
    { rewrite Nx1. unfold t2. destruct (HF1 _ Dp1) as [_ Ql]. specialize (Ql _ Dp2). unfold dist, p1, p2 in Ql. cbn [px pt pp] in Ql.
      rewrite (Rminus_diag_eq (st_pos s + INR i * h)), Rabs_R0 in Ql by reflexivity.
      replace (C1 i - C2 i) with (rate * (T2 i - T1 i)) in Ql by (rewrite I3, I4; ring).
      rewrite Rabs_mult, (Rabs_right rate), (Rabs_right (T2 i - T1 i)), (Rabs_minus_sym (T1 i)), (Rabs_right (T2 i - T1 i)) in Ql by lra.
      fold p1 p2 in Ql. change (Rabs (F1 p1 - F1 p2) <= L1 * (0 + (T2 i - T1 i) + rate * (T2 i - T1 i))) in Ql. assert (Qa := Rle_abs (F1 p1 - F1 p2)).
      set (g := T2 i - T1 i) in *. assert (Pg : 0 <= g) by (unfold g; lra).
      assert (Qb : F1 p1 - F2 p2 <= L1 * (1 + rate) * g).
      { replace (L1 * (1 + rate) * g) with (L1 * (0 + g + rate * g)) by ring. lra. }
      assert (Qc : h * (F1 p1 - F2 p2) <= h * (L1 * (1 + rate)) * g) by (rewrite Rmult_assoc; apply Rmult_le_compat_l; lra).
      assert (Qd : h * (L1 * (1 + rate)) * g <= 1 * g) by (apply Rmult_le_compat_r; lra). unfold g in Qc, Qd. lra. }
    assert (Lin1 : C1 (Datatypes.S i) = st_phi s + rate * (st_temp s - T1 (Datatypes.S i))) by (rewrite Nx1, Nx2, I3; ring).
    assert (Lin2 : cc2 = st_phi s + rate * (st_temp s - t2)) by (unfold cc2, t2; rewrite I4; ring).
    assert (Cord : cc2 <= C1 (Datatypes.S i)).
    { rewrite Lin1, Lin2. assert (rate * T1 (Datatypes.S i) <= rate * t2) by (apply Rmult_le_compat_l; lra). lra. }
    assert (Nlt : (Datatypes.S i < w_iter w')%nat).
    { assert (Hi2 : (Datatypes.S i < w_iter w)%nat) by lia.
      destruct (S1 (Datatypes.S i) Hi2) as (M1 & MR & _). fold (r1 (Datatypes.S i)) in M1, MR.
      destruct (row_world sm1 s depth V1 fuel w (Datatypes.S i) _ H Hi2 M1) as
        (w0' & wk & wl & vk & rhok & wdk & slk & hbk & rak & dTk & dtk & E0' & _ & _ & _ & _ & _ & _ & _ & Sk & _ & Ik & Edk & Exk & Etk & Epk & Evk & _).
      apply Init1 in E0'. subst w0'. rewrite H1 in Edk. change (s_dx sm1) with h in Exk.
      destruct MR as (_ & M2 & M3 & _).
      assert (Xk : st_temp (w_st wk) = T1 (Datatypes.S i)) by exact (holds_fun _ _ _ _ Etk M2).
      assert (Yk : st_phi (w_st wk) = C1 (Datatypes.S i)) by exact (holds_fun _ _ _ _ Epk M3).
      destruct (Free (Datatypes.S i) _ vk (C1 (Datatypes.S i)) Hi M1 Evk M3) as [_ Fp].
      assert (Ink := sound_inside _ _ _ V1 _ (so_nearly _ _ _ Sk)). destruct Ink as (K1x & K1t & K1p).
      change (region_of sm1 s) with (region_of sm s) in *. cbn [region_of rg_x0 rg_x1 rg_ts rg_te rg_phi0 rg_cap] in K1x, K1t, K1p.
      assert (Inw := sound_inside _ _ _ V2 _ (so_nearly _ _ _ Sw)). destruct Inw as (K2x & K2t & K2p).
      change (region_of sm2 s') with (region_of sm s) in *. cbn [region_of rg_x0 rg_x1 rg_ts rg_te rg_phi0 rg_cap] in K2x, K2t, K2p.
      assert (Gr := cs_phi_grows _ _ _ _ _ _ _ _ _ _ _ C). rnum. apply R_leb_false in Gr. rewrite Yj, Y4 in Gr.
      assert (Tup : t2 <= st_temp s).
      { apply Rmult_le_reg_l with rate; [exact Prate|]. rewrite Y4 in K2p. lra. }
      assert (Inj : inside (region_of sm s) (w_st wj)).
      { unfold inside. cbn [region_of rg_x0 rg_x1 rg_ts rg_te rg_phi0 rg_cap]. rewrite Xj, Yj, Pj. rewrite Exk in K1x. rewrite Xk in K1t. rewrite Yk in K1p.
        rewrite Y4 in K2p. split; [exact K1x|]. split; lra. }
      assert (Ink : inside (region_of sm s) (w_st wk)).
      { unfold inside. cbn [region_of rg_x0 rg_x1 rg_ts rg_te rg_phi0 rg_cap]. auto. }
      destruct (hotter_flows_better sm s depth phi1 V S Thin (w_st wk) (w_st wj) Ink Inj) as (m1 & m2 & y1 & y2 & _ & _ & _ & Y6 & Y7 & Y8);
        [rewrite Yk; exact Fp|rewrite Exk, Pj; reflexivity|rewrite Xk, Xj; exact Ord|rewrite Yk, Yj; exact Cord|].
      destruct (basal_inside (s_lava sm) (s_ter sm) d1 (w_st wk) (va_slope _ _ _ V)) as (rh & sx & _ & _ & Eb).
      set (tb := d1 * rh * ter_gravity (s_ter sm) * sin sx) in Eb.
      assert (Edj : w_depth wj = d2) by (rewrite <- H2; exact (proj1 (C17_depth_and_flux_constant sm2 _ _ _ _ Stj))).
      assert (Eb' : get_basal_shear_stress (s_lava sm) (s_ter sm) (w_depth wj) (w_st wj) = Ok (d2 / d1 * tb)).
      { rewrite Edj. apply (basal_deeper _ _ d1 d2 (w_st wk)); [rewrite Exk, Pj; reflexivity|lra|exact Eb]. }
      destruct (so_stage _ _ _ (so_nearly _ _ _ Sk)) as [(_ & _ & _ & Zz)|(_ & _ & Hy & _)]; [lia|].
      change (yield_strength_notcompatible (s_lava sm) (s_ter sm) (w_depth wk) (w_st wk) = Ok false) in Hy. rewrite Edk in Hy.
      destruct (C32_stop_criterion _ _ _ _ _ _ Y6 Eb) as [_ [Y9 _]]. specialize (Y9 Hy).
      assert (Tb : tb <= d2 / d1 * tb).
      { rewrite <- (Rmult_1_l tb) at 1. apply Rmult_le_compat_r; [lra|]. apply Rmult_le_reg_r with d1; [lra|]. unfold Rdiv. rewrite Rmult_assoc, Rinv_l by lra. lra. }
      destruct (below_is_compatible sm s depth phi1 V S (w_st wj)) as [Cm Np];
        [rewrite Pj; assert (X0 := proj1 (va_pos _ _ _ V)); assert (0 <= INR (Datatypes.S i) * h) by (apply Rmult_le_pos; [apply pos_INR|lra]); lra|rewrite Yj; lra|].
      assert (Pass : passes sm2 wj).
      { split; [|split; [|split]].
        - apply R_leb_false. change (get_solid_temperature (s_cryst sm) < st_temp (w_st wj)). rewrite Xj. rewrite Xk in K1t. lra.
        - exact Cm.
        - change (yield_strength_notcompatible (s_lava sm) (s_ter sm) (w_depth wj) (w_st wj) = Ok false).
          apply (C32_stop_criterion (s_lava sm) (s_ter sm) (w_depth wj) (w_st wj) y2 (d2 / d1 * tb) Y7 Eb'). lra.
        - apply R_leb_false. change (st_pos (w_st wj) < ter_maxlen (s_ter sm)). rewrite Pj. rewrite Exk in K1x. apply K1x. }
      assert (Fj : w_fin wj = false).
      { destruct (cs_fin _ _ _ _ _ _ _ _ _ _ _ C) as [[_ Nq]|[Fq _]]; [destruct (Nq Pass)|congruence]. }
      apply (goes_on sm2 s' depth' K2 fuel' w02 w' (Datatypes.S i) wj J0 RL Stj).
      - rewrite (cs_iter _ _ _ _ _ _ _ _ _ _ _ C), Ii. reflexivity.
      - right. exact I1.
      - exact Fj.
      - constructor; [exact (sound_next _ _ _ V2 _ _ Sw Sg Fj)|exact Np].
      - intros t Q3 Q4. change (get_yield_strength (s_lava sm) (w_st wj) = Ok t) in Q3.
        change (get_basal_shear_stress (s_lava sm) (s_ter sm) (w_depth wj) (w_st wj) = Ok t) in Q4.
        rewrite Y7 in Q3. rewrite Eb' in Q4. apply Ok_inj in Q3. apply Ok_inj in Q4. lra. }
    destruct (Nx' Nlt) as [Nx1' Nx2']. fold (r2 (Datatypes.S i)) (T2 (Datatypes.S i)) (C2 (Datatypes.S i)) in Nx1', Nx2'. fold (r2 i) (T2 i) (C2 i) in Nx1', Nx2'.
    rewrite E3 in Nx1'. rewrite E4 in Nx2'. fold t2 in Nx1'. fold cc2 in Nx2'.
    split; [exact Nlt|]. rewrite Nx1', Nx2'. auto. }
  assert (Inv0 : inv 0%nat).
  { assert (H0 : (0 < w_iter w)%nat) by lia. destruct (S1 0%nat H0) as (M1 & _ & Z1 & _). destruct (Z1 eq_refl) as [Z2 Z3]. fold (r1 0%nat) in M1, Z2, Z3.
    assert (H0' : (0 < w_iter w')%nat).
    { assert (E0' : init_effusion_rate sm2 (initial_world s' [] depth') = (Ok tt, w02)) by (unfold sm2; rewrite init_step; exact E02).
      destruct (vent_init sm2 s' depth' V2 []) as (w0' & E0'' & S0' & _ & J0). rewrite E0' in E0''. injection E0'' as <-.
      assert (RL := H'). unfold simulate in RL. rewrite E0' in RL.
      apply (goes_on sm2 s' depth' K2 fuel' w02 w' 0%nat w02 J0 RL eq_refl J0 (or_introl eq_refl)); [exact (init_keeps_fin _ _ _ _ E0')|exact S0'|].
      intros t Y1 Y2. change (get_yield_strength (s_lava sm) (w_st w02) = Ok t) in Y1.
      change (get_basal_shear_stress (s_lava sm) (s_ter sm) (w_depth w02) (w_st w02) = Ok t) in Y2. rewrite H2 in Y2.
      assert (Ew2 : w_st w02 = set_strain_rate (st_strain (w_st w02)) s) by exact (init_state sme s' depth' w02 E02).
      rewrite (basal_deeper _ _ d1 d2 s (w_st w02) tbv) in Y2; [|rewrite Ew2; reflexivity|lra|exact Etb].
      rewrite Ew2 in Y1. unfold get_yield_strength in Y1. rewrite yield_strain in Y1.
      assert (t = t0v) as -> by (apply Ok_inj; rewrite <- Ety; symmetry; exact Y1). apply Ok_inj in Y2.
      assert (Tb : tbv <= d2 / d1 * tbv); [|lra].
      rewrite <- (Rmult_1_l tbv) at 1. apply Rmult_le_compat_r; [lra|]. apply Rmult_le_reg_r with d1; [lra|]. unfold Rdiv. rewrite Rmult_assoc, Rinv_l by lra. lra. }
    destruct (S2 0%nat H0') as (_ & _ & Z1' & _). destruct (Z1' eq_refl) as [Z2' Z3']. fold (r2 0%nat) in Z2', Z3'.
    unfold inv, T1, T2, C1, C2. rewrite Z2, Z3, Z2', Z3'. split; [exact H0'|]. split; [lra|]. split; ring. }
  assert (Inv : forall i, (i <= n)%nat -> inv i).
  { induction i as [|i IH]; intros Hi; [exact Inv0|]. apply Step; [exact Hi|]. apply IH. lia. }
  split; [apply (Inv n (le_n _))|]. intros i Hi. assert (I := Inv i Hi).
  destruct (Place i Hi I) as (v1 & v2 & P3 & P4 & P5 & _). destruct I as (I1 & I2 & I3 & I4).
  destruct (S1 i ltac:(lia)) as (N1 & (A1 & A2 & A3 & _) & _). destruct (S2 i I1) as (N2 & (A1' & A2' & A3' & _) & _).
  exists (r1 i), (r2 i). split; [exact N1|]. split; [exact N2|].
  exists (st_pos s + INR i * h), (T1 i), (C1 i), v1, (T2 i), (C2 i), v2. do 8 (split; [assumption|]). split; [exact I2|]. split; [|exact P5].
  rewrite I3, I4. assert (rate * T1 i <= rate * T2 i) by (apply Rmult_le_compat_l; lra). lra.
Qed.

(** The depth given in the configuration ("effusion_rate_init" 0): a deeper
    channel.  For all small enough steps the table of the deeper channel has every
    row of the other's (while the lava of that one flows at [v0] or more below the
    packing limit), with lava at least as hot, as poor in crystals and as fast. *)
Theorem C86_deeper_channel_flows_further :
  forall (d : json R) profile mo (sm : sim R) (s : state R) depth depth' phi1 v0,
  build_models d profile = Ok mo -> s_budget sm = mo_budget mo ->
  losing sm s depth -> smooth sm phi1 ->
  thins_with_heat (lv_melt (s_lava sm)) -> 0 < v0 ->
  Forall (tame sm) (s_budget sm) ->
  ter_eff_init (s_ter sm) = 0 -> depth <= depth' -> moves_at_vent sm s depth ->
  exists h0, 0 < h0 /\ forall h n fuel fuel' w w', 0 < h <= h0 ->
    simulate fuel (with_step h sm) (initial_world s [] depth) = Some (Ok tt, w) ->
    simulate fuel' (with_step h sm) (initial_world s [] depth') = Some (Ok tt, w') ->
    (n < w_iter w)%nat -> flows_freely v0 phi1 (w_log w) n ->
    (n < w_iter w')%nat /\
    forall i, (i <= n)%nat -> exists r r', nth_error (w_log w) i = Some r /\ nth_error (w_log w') i = Some r' /\
      at_least_as_mobile r r'.
Proof.
  intros d profile mo sm s depth depth' phi1 v0 Hb Es K S Thin Hv0 Tame Ez Hd Mov.
  assert (V := co_admissible _ _ _ K). assert (Pd := va_depth _ _ _ V).
  assert (Same : with_rate (ter_eff_init (s_ter sm)) sm = sm) by (destruct sm as [? ? ? []]; reflexivity).
  assert (Vd : forall dd, vent_depth sm s dd dd).
  { intros dd. exists (initial_world s [] dd). split; [now apply C19_no_search_without_target|reflexivity]. }
  destruct (deeper_flows_further d profile mo sm s (st_strain s) depth depth' (ter_eff_init (s_ter sm)) phi1 v0 depth depth' Hb Es K S Thin Hv0 Tame
    (va_mass _ _ _ V) (va_strain _ _ _ V) ltac:(lra) (Vd depth)) as (h0 & Hh & G); [rewrite Same, set_strain_id; apply Vd|exact Hd|exact Mov|].
  rewrite Same, set_strain_id in G. exists h0. auto.
Qed.

(** The depth found by the search: a larger "effusion_rate_init".  (The state
    the run starts in differs in its strain rate, which is computed from the
    effusion rate.) *)
Theorem C86_larger_rate_flows_further :
  forall (d : json R) profile mo (sm : sim R) (s : state R) x depth e phi1 v0 d1,
  build_models d profile = Ok mo -> s_budget sm = mo_budget mo ->
  losing sm s depth -> smooth sm phi1 ->
  thins_with_heat (lv_melt (s_lava sm)) -> 0 < v0 ->
  Forall (tame sm) (s_budget sm) ->
  0 < ter_eff_init (s_ter sm) <= e -> 0 <= x -> vent_depth sm s depth d1 -> moves_at_vent sm s d1 ->
  exists h0, 0 < h0 /\ forall h n fuel fuel' w w', 0 < h <= h0 ->
    simulate fuel (with_step h sm) (initial_world s [] depth) = Some (Ok tt, w) ->
    simulate fuel' (with_step h (with_rate e sm)) (initial_world (set_strain_rate x s) [] depth) = Some (Ok tt, w') ->
    (n < w_iter w)%nat -> flows_freely v0 phi1 (w_log w) n ->
    (n < w_iter w')%nat /\
    forall i, (i <= n)%nat -> exists r r', nth_error (w_log w) i = Some r /\ nth_error (w_log w') i = Some r' /\
      at_least_as_mobile r r'.
Proof.
  intros d profile mo sm s x depth e phi1 v0 d1 Hb Es K S Thin Hv0 Tame He Hx Vd Mov.
  assert (V := co_admissible _ _ _ K). assert (Pd := va_depth _ _ _ V).
  assert (K' := losing_rate sm s depth e x depth K ltac:(intros _; lra) Hx Pd).
  destruct (vent_init _ _ _ (co_admissible _ _ _ K') []) as (w0 & E0 & _).
  assert (Vd2 : vent_depth (with_rate e sm) (set_strain_rate x s) depth (w_depth w0)) by (exists w0; auto).
  apply (deeper_flows_further d profile mo sm s x depth depth e phi1 v0 d1 (w_depth w0)); auto; [lra|].
  apply (C86_larger_rate_deeper_channel sm s x depth depth e); auto; try lra. exact (smooth_strain_free _ _ S).
Qed.
