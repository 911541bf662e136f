(** * Props_ValidRun: C57 — a physically valid configuration runs to the end (exact reals) *)
From Coq Require Import Classical_Prop.
From Verif Require Import Base Num Json Logger World Vesicle MeltVisc RelVisc Bubbles Terrain Lava
  Thermal Flux Integrator Factory Run Frame StepLog Spec RNum RPow StepProofs LoggerProofs RowProofs StepProps StepRow
  Props_Step ColumnProofs Props_Run Props_Velocity Props_Rheology Props_Material
  Props_Terrain Props_Thermal Gives Props_Flux Safe Valid Props_RunOuts.
Open Scope R_scope.

(** ** Rows of other positions *)
Lemma row_at_R p (r : row R) : row_at p r = true -> exists q, assoc "position" r = Some (CNum q) /\ q = p.
Proof.
  unfold row_at. destruct (assoc "position" r) as [[q|q]|]; try discriminate. intros E.
  exists q. split; auto. cbn in E. apply R_eqb_true in E. auto.
Qed.
Lemma add_elsewhere p q n v name (t : table R) : p <> q -> n <> "position" ->
  logged (add_variable n q v t) p name = logged t p name.
Proof.
  intros Hpq Hn. unfold logged. induction t as [|r t IH]; cbn [add_variable].
  - cbn [find]. unfold row_at. rewrite assoc_set_other by congruence. cbn [assoc].
    rewrite (proj2 (String.eqb_eq "position" "position") eq_refl).
    replace (n_eqb p q) with false; [reflexivity|]. symmetry. now apply R_eqb_false.
  - destruct (row_at q r) eqn:E.
    + cbn [find]. destruct (row_at_R _ _ E) as (q' & Ep & ->).
      assert (E1 : row_at p r = false) by (unfold row_at; rewrite Ep; now apply R_eqb_false).
      assert (E2 : row_at p (assoc_set n v r) = false).
      { unfold row_at. rewrite assoc_set_other by congruence. rewrite Ep. now apply R_eqb_false. }
      rewrite E1, E2. reflexivity.
    + cbn [find]. destruct (row_at p r); [reflexivity|exact IH].
Qed.
Lemma logged_elsewhere p q calls name : forall (t : table R), p <> q -> no_position calls ->
  logged (log_many q calls t) p name = logged t p name.
Proof.
  induction calls as [|[n v] calls IH]; intros t Hpq Hn; [reflexivity|].
  inversion Hn; subst. unfold log_many. cbn [fold_left fst snd]. fold (log_many q calls (add_variable n q v t)).
  rewrite IH by auto. now apply add_elsewhere.
Qed.

(** ** The invariant of the loop *)
(** What holds of the world at the start of every step of a run that has not
    finished. *)
Record nearly_sound (sm : sim R) (s0 : state R) (w : world R) : Prop := {
  so_pos : st_pos s0 <= st_pos (w_st w) < ter_maxlen (s_ter sm);
  so_temp : get_solid_temperature (s_cryst sm) < st_temp (w_st w) <= st_temp s0;
  so_phi : st_phi s0 <= st_phi (w_st w);
  so_crystals : st_phi (w_st w) - st_phi s0 <= fastest_rate (s_cryst sm) * (st_temp s0 - st_temp (w_st w));
  so_depth : 0 < w_depth w;
  so_stage :
    (st_pos (w_st w) = st_pos s0 /\ st_phi (w_st w) = st_phi s0 /\ 0 <= st_strain (w_st w) /\ w_iter w = 0%nat) \/
    (0 < st_strain (w_st w) /\ is_notcompatible (s_lava sm) (w_st w) = Ok false /\
     yield_strength_notcompatible (s_lava sm) (s_ter sm) (w_depth w) (w_st w) = Ok false /\ 0 < w_eff w);
  so_flux : s_mass sm = true -> exists fl, w_flux w = Some fl /\
    (0 < fl \/ exists t, get_yield_strength (s_lava sm) (w_st w) = Ok t /\
       get_basal_shear_stress (s_lava sm) (s_ter sm) (w_depth w) (w_st w) = Ok t)
}.
Record sound (sm : sim R) (s0 : state R) (w : world R) : Prop := {
  so_nearly :> nearly_sound sm s0 w;
  so_room : ~ packed (lv_rel (s_lava sm)) (w_st w)
}.

Section Valid.
Variables (sm : sim R) (s0 : state R) (depth0 : R).
Hypothesis V : admissible sm s0 depth0.
Let g := region_of sm s0.

Lemma fastest_pos : 0 < fastest_rate (s_cryst sm).
Proof. destruct (rate_inside (s_cryst sm) s0 (va_cryst _ _ _ V)) as (r & _ & B). lra. Qed.

Lemma sound_inside w : nearly_sound sm s0 w -> inside g (w_st w).
Proof.
  intros S. destruct (so_pos _ _ _ S), (so_temp _ _ _ S). assert (P := so_phi _ _ _ S). assert (Q := so_crystals _ _ _ S).
  assert (F := fastest_pos). unfold inside, g, region_of; cbn. repeat split; try lra.
  assert (fastest_rate (s_cryst sm) * (st_temp s0 - st_temp (w_st w)) <
          fastest_rate (s_cryst sm) * (st_temp s0 - get_solid_temperature (s_cryst sm))) by (apply Rmult_lt_compat_l; lra).
  lra.
Qed.

Lemma sound_stress w : sound sm s0 w -> exists t0 tb,
  get_yield_strength (s_lava sm) (w_st w) = Ok t0 /\
  get_basal_shear_stress (s_lava sm) (s_ter sm) (w_depth w) (w_st w) = Ok tb /\ 0 <= t0 /\ 0 < tb.
Proof.
  intros S. assert (P := so_phi _ _ _ S). assert (P0 := va_phi _ _ _ V).
  destruct (yield_inside (s_lava sm) (w_st w)) as (t0 & E0 & B0); [lra|].
  destruct (basal_inside (s_lava sm) (s_ter sm) (w_depth w) (w_st w) (va_slope _ _ _ V)) as (rho & sl & Er & Es & Eb).
  exists t0, (w_depth w * rho * ter_gravity (s_ter sm) * sin sl).
  split; [exact E0|]. split; [exact Eb|]. split; [exact B0|].
  destruct (so_stage _ _ _ S) as [(Hp & _)|(_ & _ & Hy & _)].
  - assert (Hsin : 0 < sin sl) by (apply (va_downhill _ _ _ V); rewrite <- Hp; exact Es).
    destruct (va_lava _ _ _ V) as (_ & _ & _ & Hves & Hd & _).
    destruct (ves_inside _ (w_st w) Hves) as (vf & Ev & Bv & _).
    { destruct (va_pos _ _ _ V). rewrite Hp. lra. }
    destruct (C30_density_range _ _ _ Ev Hd Bv) as (rho' & Er' & _ & Pr & _). rewrite Er in Er'. injection Er' as <-.
    assert (D := so_depth _ _ _ S). assert (G := va_gravity _ _ _ V).
    apply Rmult_lt_0_compat; [apply Rmult_lt_0_compat; [apply Rmult_lt_0_compat|]|]; assumption.
  - destruct (C32_stop_criterion _ _ _ _ _ _ E0 Eb) as [_ [C _]]. specialize (C Hy). lra.
Qed.

Lemma packed_strain m x (s : state R) : packed m (set_strain_rate x s) <-> packed m s.
Proof.
  destruct m; cbn [packed]; try tauto; split; intros (vf & E & H); exists vf; (split; [|exact H]); destruct vm; exact E.
Qed.
Lemma sound_viscosity w : sound sm s0 w ->
  (exists mu, computes_bulk_viscosity (s_lava sm) (w_st w) = Ok mu /\ 0 < mu) /\
  (forall x, 0 < x -> exists mu, computes_bulk_viscosity (s_lava sm) (set_strain_rate x (w_st w)) = Ok mu /\ 0 < mu).
Proof.
  intros S. destruct (sound_inside _ S) as ((X1 & X2) & (T1 & T2) & (P1 & P2)).
  assert (A : forall x, (0 < x \/ (x = st_strain (w_st w))) ->
    exists mu, computes_bulk_viscosity (s_lava sm) (set_strain_rate x (w_st w)) = Ok mu /\ 0 < mu).
  { intros x Hx. destruct (va_pos _ _ _ V). assert (P0 := va_phi _ _ _ V).
    apply (viscosity_inside g); auto; try exact (va_lava _ _ _ V).
    2:{ rewrite packed_strain. exact (so_room _ _ _ S). }
    destruct (so_stage _ _ _ S) as [(_ & Hp & _)|(Hs & Hc & _)].
    - right. exact Hp.
    - left. split; [|cbn; lra]. unfold is_notcompatible in *. rewrite notcompat_strain. exact Hc. }
  split; [|auto]. destruct (A (st_strain (w_st w)) (or_intror eq_refl)) as (mu & E & B). exists mu. split; [|exact B].
  destruct (w_st w); exact E.
Qed.

Lemma sound_well_behaved w : sound sm s0 w ->
  (forall t, get_yield_strength (s_lava sm) (w_st w) = Ok t ->
     get_basal_shear_stress (s_lava sm) (s_ter sm) (w_depth w) (w_st w) <> Ok t) ->
  well_behaved sm w.
Proof.
  intros S Hne. assert (I := sound_inside _ S). destruct (va_lava _ _ _ V) as (_ & _ & _ & Hves & Hd & Hlat).
  destruct (cover_inside _ (va_cover _ _ _ V)) as [Ca Cf].
  destruct (so_temp _ _ _ S) as [T1 T2]. assert (Hs := va_surface _ _ _ V).
  constructor; auto.
  - exact (so_depth _ _ _ S).
  - exact (proj2 (sound_viscosity _ S)).
  - destruct (sound_stress _ S) as (t0 & tb & A & B & C & D). exists t0, tb. repeat split; auto.
    intros ->. exact (Hne tb A B).
  - destruct (ves_inside _ (w_st w) Hves) as (vf & Ev & Bv & _); [|exists vf; auto].
    destruct (so_pos _ _ _ S), (va_pos _ _ _ V). lra.
  - apply slope_inside, (va_slope _ _ _ V).
  - exact (va_air _ _ _ V).
  - exact (crust_inside g _ _ _ (va_crust _ _ _ V) I).
  - lra.
  - exact (va_cond _ _ _ V).
  - destruct (rate_inside (s_cryst sm) (w_st w) (va_cryst _ _ _ V)) as (r & E & B). exists r. split; [exact E|lra].
Qed.

(** When driving and yield stress are equal the velocity is zero and the step
    ends the run. *)
Lemma standstill w t : sound sm s0 w -> get_yield_strength (s_lava sm) (w_st w) = Ok t ->
  get_basal_shear_stress (s_lava sm) (s_ter sm) (w_depth w) (w_st w) = Ok t ->
  exists w', single_step sm w = (Ok tt, w') /\ w_fin w' = true /\ w_iter w' = w_iter w /\ w_log w' = w_log w.
Proof.
  intros S Ey Eb. destruct (proj1 (sound_viscosity _ S)) as (mu & Em & Pm).
  destruct (sound_stress _ S) as (t0 & tb & A & B & C & D).
  rewrite Ey in A. rewrite Eb in B. injection A as ->. injection B as ->.
  assert (Hd := so_depth _ _ _ S).
  assert (E := C20_velocity_is_jeffreys _ _ _ _ _ _ _ Em Ey Eb ltac:(lra) ltac:(lra) ltac:(lra)).
  cbv zeta in E. set (v := jeffreys_bingham _ _ _ _) in *.
  assert (Hv := C22_velocity_sign _ _ _ _ _ _ _ _ _ Em Ey Eb Hd Pm D C E).
  assert (v = 0) by tauto.
  unfold single_step. unfold bind at 1. unfold compute_mean_velocity. rewrite E. cbv beta iota.
  rnum. assert (Ev : R_leb v 0 = true) by (apply R_leb_true; lra). rewrite Ev.
  eexists. split; [reflexivity|]. auto.
Qed.

Lemma sound_stress_dec w : sound sm s0 w ->
  (exists t, get_yield_strength (s_lava sm) (w_st w) = Ok t /\
     get_basal_shear_stress (s_lava sm) (s_ter sm) (w_depth w) (w_st w) = Ok t) \/
  (forall t, get_yield_strength (s_lava sm) (w_st w) = Ok t ->
     get_basal_shear_stress (s_lava sm) (s_ter sm) (w_depth w) (w_st w) <> Ok t).
Proof.
  intros S. destruct (sound_stress _ S) as (t0 & tb & A & B & C & D).
  destruct (Req_dec t0 tb) as [->|Hne]; [left; eauto|]. right. intros t E1 E2. congruence.
Qed.

Lemma sound_step w : sound sm s0 w -> exists w', single_step sm w = (Ok tt, w').
Proof.
  intros S. destruct (sound_stress_dec _ S) as [(t & A & B)|Hne].
  { destruct (standstill _ _ S A B) as (w' & E & _). eauto. }
  assert (W := sound_well_behaved _ S Hne).
  destruct (proj1 (sound_viscosity _ S)) as (mu & Em & Pm).
  apply (step_never_raises sm w mu W Em Pm (va_width _ _ _ V)).
  - destruct (so_stage _ _ _ S) as [(_ & _ & _ & Hi)|(_ & _ & _ & He)]; auto.
  - intros Hm. destruct (so_flux _ _ _ S Hm) as (fl & -> & _). discriminate.
  - intros s' Hpos Hphi Htemp _. constructor.
    + destruct (va_lava _ _ _ V) as (_ & Hr & _). exact (compat_inside g _ s' Hr).
    + destruct (yield_inside (s_lava sm) s') as (t0 & E & _); [|eauto].
      assert (P := so_phi _ _ _ S). assert (P0 := va_phi _ _ _ V). lra.
    + destruct (basal_inside (s_lava sm) (s_ter sm) (w_depth w) s' (va_slope _ _ _ V)) as (rho & sl & _ & _ & E). eauto.
Qed.

(** What the row of a completed step says. *)
Definition good_row (t : table R) (p : R) : Prop :=
  exists v width rho mu temp phi, logged t p "mean_velocity" = Some (CNum v) /\
    logged t p "channel_width" = Some (CNum width) /\ logged t p "density" = Some (CNum rho) /\
    logged t p "viscosity" = Some (CNum mu) /\
    logged t p "core_temperature" = Some (CNum temp) /\ logged t p "crystal_fraction" = Some (CNum phi) /\
    0 < v /\ 0 < width /\ 0 < rho <= lv_dre (s_lava sm) /\ 0 < mu /\
    get_solid_temperature (s_cryst sm) < temp <= st_temp s0 /\
    st_phi s0 <= phi < rg_cap g.

Lemma sound_row w w' v rho wd sl hb ra dT dt : sound sm s0 w ->
  completed_step sm w w' v rho wd sl hb ra dT dt ->
  good_row (w_log w') (st_pos (w_st w)) /\ (forall p, p <> st_pos (w_st w) -> good_row (w_log w) p -> good_row (w_log w') p).
Proof.
  intros S C. assert (Hv := cs_vpos _ _ _ _ _ _ _ _ _ _ _ C). rnum. rtests.
  assert (I := sound_inside _ S).
  destruct (sound_stress_dec _ S) as [(t & A & B)|Hne].
  { exfalso. destruct (cs_budget _ _ _ _ _ _ _ _ _ _ _ C) as (new & w2 & Hm & _).
    destruct (proj1 (sound_viscosity _ S)) as (mu & Em & Pm). destruct (sound_stress _ S) as (t0 & tb & A' & B' & C0 & D0).
    rewrite A in A'. rewrite B in B'. injection A' as ->. injection B' as ->.
    assert (Q := C22_velocity_sign _ _ _ _ _ _ _ _ _ Em A B (so_depth _ _ _ S) Pm D0 C0 Hm).
    assert (v = 0) by tauto. lra. }
  assert (W := sound_well_behaved _ S Hne).
  assert (Hd := so_depth _ _ _ S).
  destruct (wb_vf _ _ W) as (vf0 & Ev & Bv).
  destruct (C30_density_range _ _ _ Ev (wb_dre _ _ W) Bv) as (rho' & Er & _ & Pr & Pr2).
  rewrite (cs_rho _ _ _ _ _ _ _ _ _ _ _ C) in Er. injection Er as <-.
  assert (Pvd : 0 < v * w_depth w) by (apply Rmult_lt_0_compat; lra).
  assert (Peff : 0 < eff_of sm v w).
  { unfold eff_of. destruct (so_stage _ _ _ S) as [(_ & _ & _ & ->)|(_ & _ & _ & He)].
    - rnum. assert (Hw := va_width _ _ _ V). apply Rmult_lt_0_compat; [apply Rmult_lt_0_compat|]; lra.
    - destruct (w_iter w); [|exact He]. rnum. assert (Hw := va_width _ _ _ V).
      apply Rmult_lt_0_compat; [apply Rmult_lt_0_compat|]; lra. }
  assert (Pw : 0 < wd).
  { assert (Ew := cs_width _ _ _ _ _ _ _ _ _ _ _ C). unfold width_of in Ew. rnum. destruct (s_mass sm) eqn:Em.
    - destruct (so_flux _ _ _ S Em) as (fl & Ef & Hfl). rewrite Ef in Ew. rewrite R_div_ok in Ew by lra. cbn [rbind] in Ew.
      rewrite R_div_ok in Ew by lra. injection Ew as <-.
      destruct Hfl as [Hfl|(t & A & B)]; [|exfalso; exact (Hne t A B)].
      apply Rdiv_lt_0_compat; [apply Rdiv_lt_0_compat; assumption|lra].
    - rewrite R_div_ok in Ew by lra. injection Ew as <-. apply Rdiv_lt_0_compat; assumption. }
  destruct (cs_log _ _ _ _ _ _ _ _ _ _ _ C) as
    (bc & sx & vf & mu & tc & f & t0 & tb & x & wb & Hn & Hlog & Hwb & (new & Hm & Hhb) & Hvf & Hmu & _ & _ & _ & _ & Hx).
  assert (Hnp : no_position (bc ++ step_calls x (set_strain_rate sx (w_st w)) vf mu rho tc f (eff_of sm v w) t0 tb)).
  { unfold no_position. rewrite map_app, Hn. apply Forall_app. split.
    - apply (budget_names_no_position (s_budget sm)).
    - rewrite step_calls_names. apply step_names_no_position. }
  (* the strain rate at which the viscosity is logged is positive *)
  assert (Pmu : 0 < mu).
  { assert (Hn0 : 0 < new).
    { destruct (proj1 (sound_viscosity _ S)) as (mu0 & Em0 & Pm0). destruct (wb_stress _ _ W) as (a0 & ab & A & B & _ & D & _).
      assert (E := C20_velocity_is_jeffreys _ _ _ _ _ _ _ Em0 A B ltac:(lra) ltac:(lra) ltac:(lra)). cbv zeta in E.
      rewrite E in Hm. injection Hm as Hm1 <-. rewrite Hm1. apply Rdiv_lt_0_compat; lra. }
    assert (Hwe : well_behaved sm (set_eff (eff_of sm v w) w)) by (destruct W; constructor; assumption).
    destruct (safe_budget sm (set_eff (eff_of sm v w) w) Hwe wd new [] Hn0) as (hb' & x2 & c2 & E & P2 & _).
    change (touched new [] (set_eff (eff_of sm v w) w)) with (set_eff (eff_of sm v w) (after_velocity new w)) in E.
    change (w_depth (set_eff (eff_of sm v w) w)) with (w_depth w) in E.
    rewrite Hhb in E. injection E as _ E. rewrite Hwb in E.
    assert (Esx : sx = x2) by (apply (f_equal (fun w => st_strain (w_st w))) in E; exact E).
    destruct (wb_mu _ _ W sx ltac:(lra)) as (mu' & E' & P). rewrite E' in Hmu. injection Hmu as <-. exact P. }
  split.
  - rewrite Hlog. destruct I as (_ & (T1 & T2) & (F1 & F2)).
    exists v, wd, rho, mu, (st_temp (w_st w)), (st_phi (w_st w)).
    assert (L : forall name c, assoc name (rev (step_calls x (set_strain_rate sx (w_st w)) vf mu rho tc f (eff_of sm v w) t0 tb)) = Some c ->
      logged (log_many (st_pos (w_st w)) (bc ++ step_calls x (set_strain_rate sx (w_st w)) vf mu rho tc f (eff_of sm v w) t0 tb) (w_log w))
        (st_pos (w_st w)) name = Some c).
    { intros name c Hc. apply logged_after; auto using R_refl. rewrite rev_app_distr, assoc_app, Hc. reflexivity. }
    subst x. repeat split; try (apply L; reflexivity); auto.
  - intros p Hp (v1 & wd1 & rho1 & mu1 & te1 & ph1 & A1 & A2 & A3 & A4 & A5 & A6 & Q). rewrite Hlog.
    exists v1, wd1, rho1, mu1, te1, ph1.
    rewrite !logged_elsewhere by auto. auto 10.
Qed.

(** The invariant is kept by a step that does not end the run. *)
Lemma sound_next w w' : sound sm s0 w -> single_step sm w = (Ok tt, w') -> w_fin w' = false -> nearly_sound sm s0 w'.
Proof.
  intros S E Hf. destruct (unfinished_completed _ _ _ E Hf) as ((P1 & P2 & P3 & P4) & v & rho & wd & sl & hb & ra & dT & dt & C).
  destruct (sound_row _ _ _ _ _ _ _ _ _ _ S C) as [(v' & wd' & _ & _ & _ & _ & Lv & _) _].
  assert (Hv := cs_vpos _ _ _ _ _ _ _ _ _ _ _ C). rnum. rtests.
  destruct (rate_inside (s_cryst sm) (w_st w) (va_cryst _ _ _ V)) as (ra' & Er & Br).
  rewrite (cs_rate _ _ _ _ _ _ _ _ _ _ _ C) in Er. injection Er as <-.
  assert (Hphi := cs_phi _ _ _ _ _ _ _ _ _ _ _ C). assert (Ht := cs_temp _ _ _ _ _ _ _ _ _ _ _ C).
  assert (Hg := cs_phi_grows _ _ _ _ _ _ _ _ _ _ _ C). assert (Hx := cs_pos _ _ _ _ _ _ _ _ _ _ _ C). rnum. rtests.
  assert (Hdx := va_dx _ _ _ V). assert (Hd := so_depth _ _ _ S).
  set (cool := st_temp (w_st w) - st_temp (w_st w')) in *.
  assert (Einc : st_phi (w_st w') - st_phi (w_st w) = ra * cool) by (unfold cool; rewrite Hphi, Ht; ring).
  assert (Pcool : 0 < cool).
  { destruct (Rlt_dec 0 cool); [assumption|]. exfalso. assert (ra * cool <= 0) by nra. lra. }
  destruct (so_temp _ _ _ S) as [T1 T2]. destruct (so_pos _ _ _ S) as [X1 X2].
  assert (F := so_phi _ _ _ S). assert (G := so_crystals _ _ _ S).
  constructor.
  - lra.
  - unfold cool in *. lra.
  - lra.
  - assert (ra * cool <= fastest_rate (s_cryst sm) * cool) by (apply Rmult_le_compat_r; lra).
    unfold cool in *. lra.
  - rewrite (cs_depth _ _ _ _ _ _ _ _ _ _ _ C). exact Hd.
  - right. split; [|split; [exact P2|split; [exact P3|]]].
    + assert (Es := cs_strain _ _ _ _ _ _ _ _ _ _ _ C). rnum. rewrite R_div_ok in Es by lra.
      injection Es as Es. rewrite <- Es. apply Rdiv_lt_0_compat; lra.
    + rewrite (cs_eff _ _ _ _ _ _ _ _ _ _ _ C). unfold eff_of.
      destruct (so_stage _ _ _ S) as [(_ & _ & _ & ->)|(_ & _ & _ & He)].
      * rnum. assert (Hw := va_width _ _ _ V). apply Rmult_lt_0_compat; [apply Rmult_lt_0_compat|]; lra.
      * destruct (w_iter w); [|exact He]. rnum. assert (Hw := va_width _ _ _ V).
        apply Rmult_lt_0_compat; [apply Rmult_lt_0_compat|]; lra.
  - intros Hm. destruct (so_flux _ _ _ S Hm) as (fl & Ef & Hfl). exists fl.
    split; [now rewrite (cs_flux _ _ _ _ _ _ _ _ _ _ _ C)|]. left.
    destruct Hfl as [Hfl|(t & A & B)]; [exact Hfl|].
    destruct (standstill _ _ S A B) as (w2 & E2 & Hf2 & _). rewrite E in E2. injection E2 as <-. congruence.
Qed.

(** If the crystals have just reached the packing limit exactly, the next step
    raises and changes nothing. *)
Lemma sound_packed w : nearly_sound sm s0 w -> packed (lv_rel (s_lava sm)) (w_st w) ->
  single_step sm w = (Err (packed_error (lv_rel (s_lava sm))), w).
Proof.
  intros S Hk. destruct (sound_inside _ S) as ((X1 & X2) & (T1 & T2) & (P1 & P2)).
  destruct (va_lava _ _ _ V) as (Hm & Hr & _ & _). assert (P0 := va_phi _ _ _ V). destruct (va_pos _ _ _ V) as [X0 _].
  change (rg_x0 g) with (st_pos s0) in X1. change (rg_phi0 g) with (st_phi s0) in P1.
  assert (E : compute_relative_viscosity (lv_rel (s_lava sm)) (w_st w) = Err (packed_error (lv_rel (s_lava sm)))).
  { apply (packed_undefined g); auto; lra. }
  destruct (melt_inside g _ (w_st w) Hm T1) as (mv & Em & _).
  destruct (yield_inside (s_lava sm) (w_st w)) as (t0 & E0 & _); [lra|].
  destruct (basal_inside (s_lava sm) (s_ter sm) (w_depth w) (w_st w) (va_slope _ _ _ V)) as (rho & sl & _ & _ & Eb).
  unfold single_step, bind at 1, compute_mean_velocity, mean_velocity.
  unfold get_yield_strength in E0. unfold get_basal_shear_stress in Eb. rewrite E0. cbn [rbind]. rewrite Eb. cbn [rbind].
  cbn [velocity_loop]. unfold computes_bulk_viscosity. rewrite Em. cbn [rbind]. rewrite E. reflexivity.
Qed.

(** ** The loop *)
Definition good_table (w : world R) : Prop :=
  forall i, (i < w_iter w)%nat -> good_row (w_log w) (st_pos s0 + INR i * s_dx sm).

Lemma sound_loop : forall fuel w r w',
  sound sm s0 w -> good_table w -> st_pos (w_st w) = st_pos s0 + INR (w_iter w) * s_dx sm ->
  run_loop sm fuel w = Some (r, w') ->
  good_table w' /\ (r = Ok tt \/ (r = Err (packed_error (lv_rel (s_lava sm))) /\ inside g (w_st w') /\
    packed (lv_rel (s_lava sm)) (w_st w'))).
Proof.
  induction fuel as [|n IH]; intros w r w' S G P H; cbn [run_loop] in H.
  - destruct (has_finished w); [|discriminate]. injection H as <- <-. auto.
  - destruct (has_finished w); [injection H as <- <-; auto|].
    destruct (sound_step _ S) as (w1 & E). rewrite E in H.
    assert (Q : good_table w1 /\ st_pos (w_st w1) = st_pos s0 + INR (w_iter w1) * s_dx sm).
    { assert (Hdx := va_dx _ _ _ V).
      destruct (step_cases _ _ _ E) as [Q|(v & rho & wd & sl & hb & ra & dT & dt & C)].
      - split.
        + intros i Hi. rewrite (ss_iter _ _ _ Q) in Hi.
          assert (Gi := G i Hi). destruct (ss_log _ _ _ Q) as [->|(bc & Hn & ->)]; [exact Gi|].
          destruct Gi as (v1 & wd1 & rho1 & mu1 & te1 & ph1 & A1 & A2 & A3 & A4 & A5 & A6 & Q').
          exists v1, wd1, rho1, mu1, te1, ph1.
          assert (Hne : st_pos s0 + INR i * s_dx sm <> st_pos (w_st w)).
          { rewrite P. assert (INR i < INR (w_iter w)) by now apply lt_INR. nra. }
          rewrite !logged_elsewhere; auto 10; unfold no_position; rewrite Hn; apply budget_names_no_position.
        + destruct (ss_st _ _ _ Q) as [x Hx]. rewrite (ss_iter _ _ _ Q), Hx. exact P.
      - destruct (sound_row _ _ _ _ _ _ _ _ _ _ S C) as [R1 R2].
        assert (Hi' := cs_iter _ _ _ _ _ _ _ _ _ _ _ C). assert (Hx := cs_pos _ _ _ _ _ _ _ _ _ _ _ C). rnum.
        split.
        + intros i Hi. rewrite Hi' in Hi. destruct (Nat.eq_dec i (w_iter w)) as [->|Hne].
          * rewrite <- P. exact R1.
          * apply R2; [|apply G; lia]. rewrite P. assert (INR i < INR (w_iter w)) by (apply lt_INR; lia). nra.
        + rewrite Hi', Hx, P, S_INR. ring. }
    destruct Q as [Q1 Q2]. destruct (w_fin w1) eqn:Ef.
    + destruct n; cbn [run_loop] in H; unfold has_finished in H; rewrite Ef in H; injection H as <- <-; auto.
    + assert (N := sound_next w w1 S E Ef).
      destruct (classic (packed (lv_rel (s_lava sm)) (w_st w1))) as [Hk|Hk].
      * destruct n; cbn [run_loop] in H; unfold has_finished in H; rewrite Ef in H; [discriminate|].
        rewrite (sound_packed w1 N Hk) in H. injection H as <- <-. split; [exact Q1|]. right.
        split; [reflexivity|]. split; [now apply sound_inside|exact Hk].
      * apply (IH w1 r w'); auto. constructor; assumption.
Qed.

(** ** The search of the initial depth *)
Lemma depth_at_pos i : 0 < depth_at (T:=R) i.
Proof.
  unfold depth_at, depth_delta, depth_start, depth_step. rnum. destruct i as [|[|i]]; try lra.
  unfold num_of_nat. rnum. assert (0 <= IZR (Z.of_nat (S (S i)))) by (apply IZR_le; lia). nra.
Qed.

(** A world that is at the vent, whatever the channel depth. *)
Record at_vent (w : world R) : Prop := {
  av_st : exists x, 0 <= x /\ w_st w = set_strain_rate x s0;
  av_depth : 0 < w_depth w;
  av_iter : w_iter w = 0%nat
}.
Definition flux_ok (w : world R) : Prop :=
  exists fl, w_flux w = Some fl /\
    (0 < fl \/ exists t, get_yield_strength (s_lava sm) (w_st w) = Ok t /\
       get_basal_shear_stress (s_lava sm) (s_ter sm) (w_depth w) (w_st w) = Ok t).
Lemma vent_sound w : at_vent w -> (s_mass sm = true -> flux_ok w) -> sound sm s0 w.
Proof.
  intros [(x & Hx & Es) Hd Hi] Hf. destruct (va_pos _ _ _ V). assert (Ht := va_temp _ _ _ V).
  constructor.
  - constructor; try (rewrite Es; cbn; try lra; fail); auto.
    left. rewrite Es. cbn. auto.
  - rewrite Es, packed_strain. destruct (va_lava _ _ _ V) as (_ & Hr & _).
    apply (vent_not_packed g); [exact Hr|lra|reflexivity].
Qed.
Lemma vent_try w d : at_vent w -> 0 < d ->
  exists b w', try_depth sm d w = (Ok b, w') /\ at_vent w' /\ flux_ok w' /\ w_log w' = w_log w.
Proof.
  intros [(x & Hx & Es) Hd Hi] Pd.
  set (w1 := set_depth d w).
  assert (A1 : at_vent w1) by (constructor; [exists x; auto|exact Pd|exact Hi]).
  destruct (va_lava _ _ _ V) as (_ & _ & _ & Hves & Hdre & _). destruct (va_pos _ _ _ V) as [X0 X1].
  (* stresses and viscosity, from the invariant with a dummy flux *)
  set (w2 := set_flux 1 w1).
  assert (S2 : sound sm s0 w2).
  { apply vent_sound.
    - constructor; [exists x; auto|exact Pd|exact Hi].
    - intros _. exists 1. split; [reflexivity|left; lra]. }
  destruct (proj1 (sound_viscosity _ S2)) as (mu & Em & Pm).
  destruct (sound_stress _ S2) as (t0 & tb & E0 & Eb & P0 & Pb).
  change (w_st w2) with (w_st w1) in *. change (w_depth w2) with d in *.
  assert (E := C20_velocity_is_jeffreys _ _ _ _ _ _ _ Em E0 Eb ltac:(lra) ltac:(lra) ltac:(lra)). cbv zeta in E.
  set (v := jeffreys_bingham _ _ _ _) in *.
  assert (Hv := C22_velocity_sign _ _ _ _ _ _ _ _ _ Em E0 Eb Pd Pm Pb P0 E). destruct Hv as [Hv Hvz].
  assert (Ewst : w_st w1 = w_st w) by reflexivity.
  destruct (ves_inside _ (w_st w) Hves) as (vf & Ev & Bv & _). { rewrite Es. cbn. lra. }
  destruct (C30_density_range _ _ _ Ev Hdre Bv) as (rho & Er & _ & Pr & _).
  unfold try_depth. unfold bind at 1, modify at 1. fold w1. cbv beta iota.
  unfold bind at 1. unfold compute_mean_velocity. change (w_depth w1) with d. rewrite E. cbv beta iota zeta.
  unfold bind at 1, modify at 1. cbv beta iota. unfold bind at 1, reads.
  set (w3 := set_eff _ _).
  assert (Er3 : get_bulk_density (s_lava sm) (w_st w3) = Ok rho).
  { change (w_st w3) with (set_strain_rate (3 * v / d) (w_st w)). rewrite density_strain. exact Er. }
  rewrite Er3. cbv beta iota. unfold bind at 1, modify, ret. rnum.
  eexists _, _. split; [reflexivity|]. split; [|split; [|reflexivity]].
  - constructor.
    + exists (3 * v / d). split; [apply Rmult_le_pos; [lra|apply Rlt_le, Rinv_0_lt_compat; lra]|].
      cbn. rewrite Es. reflexivity.
    + exact Pd.
    + exact Hi.
  - eexists. split; [reflexivity|].
    destruct (Req_dec v 0) as [Hz|Hz].
    + right. exists t0. assert (t0 = tb) as Htt by tauto. split.
      * change (get_yield_strength (s_lava sm) (set_strain_rate (3 * v / d) (w_st w)) = Ok t0).
        unfold get_yield_strength. rewrite yield_strain. exact E0.
      * change (get_basal_shear_stress (s_lava sm) (s_ter sm) d (set_strain_rate (3 * v / d) (w_st w)) = Ok t0).
        unfold get_basal_shear_stress. rewrite basal_strain, Htt. exact Eb.
    + left. assert (Hw := va_width _ _ _ V).
      apply Rmult_lt_0_compat; [apply Rmult_lt_0_compat; [apply Rmult_lt_0_compat|]|]; lra.
Qed.
Lemma vent_search : forall n i w, at_vent w -> (n = 0%nat -> flux_ok w) ->
  exists w', search_depth sm i n w = (Ok tt, w') /\ at_vent w' /\ flux_ok w' /\ w_log w' = w_log w.
Proof.
  induction n as [|n IH]; intros i w A F; cbn [search_depth].
  - exists w. repeat split; auto; apply A.
  - destruct (vent_try w _ A (depth_at_pos i)) as (b & w1 & E & A1 & F1 & L1). unfold bind. rewrite E.
    destruct b; [exists w1; auto|].
    destruct (IH (S i) w1 A1 (fun _ => F1)) as (w2 & E2 & A2 & F2 & L2). exists w2. rewrite <- L1. auto.
Qed.
Lemma vent_init log : exists w, init_effusion_rate sm (initial_world s0 log depth0) = (Ok tt, w) /\
  sound sm s0 w /\ w_log w = log /\ w_iter w = 0%nat.
Proof.
  assert (A : at_vent (initial_world s0 log depth0)).
  { constructor; [|exact (va_depth _ _ _ V)|reflexivity]. exists (st_strain s0).
    split; [exact (va_strain _ _ _ V)|]. cbn. destruct s0; reflexivity. }
  unfold init_effusion_rate. rnum. destruct (R_eqb (ter_eff_init (s_ter sm)) 0) eqn:Ez; rtests.
  - eexists. split; [reflexivity|]. split; [|auto]. apply vent_sound; [exact A|].
    intros Hm. exfalso. exact (va_mass _ _ _ V Hm Ez).
  - destruct (vent_search depth_count 0 _ A) as (w & E & A1 & F1 & L1).
    { intros Hz. apply (f_equal Z.of_nat) in Hz. unfold depth_count in Hz. rewrite Z2Nat.id in Hz by lia. cbn in Hz. lia. }
    exists w. split; [exact E|]. split; [apply vent_sound; auto|]. split; [exact L1|apply A1].
Qed.
End Valid.

(** ** C57 *)
(** What the rows of a run say: velocity, width, density and viscosity are
    positive, the temperature lies between the solidus and the vent temperature
    and the crystal fraction between its initial value and its value at the
    solidus. *)
Definition physical_rows (sm : sim R) (s0 : state R) (w : world R) : Prop :=
  forall i, (i < w_iter w)%nat ->
    exists v width rho mu temp phi,
      let at_step name x := logged (w_log w) (st_pos s0 + INR i * s_dx sm) name = Some (CNum x) in
      at_step "mean_velocity" v /\ at_step "channel_width" width /\ at_step "density" rho /\
      at_step "viscosity" mu /\ at_step "core_temperature" temp /\ at_step "crystal_fraction" phi /\
      0 < v /\ 0 < width /\ 0 < rho <= lv_dre (s_lava sm) /\ 0 < mu /\
      get_solid_temperature (s_cryst sm) < temp <= st_temp s0 /\
      st_phi s0 <= phi < st_phi s0 + fastest_rate (s_cryst sm) * (st_temp s0 - get_solid_temperature (s_cryst sm)).

Lemma steps_iter_le sm : forall n w w', steps sm n w = (Ok tt, w') -> (w_iter w' <= w_iter w + n)%nat.
Proof.
  induction n as [|n IH]; intros w w' H; [injection H as <-; lia|].
  apply steps_S_inv in H as [(e & He & _)|(w1 & H1 & H2)]; [discriminate|]. apply IH in H2.
  destruct (step_cases _ _ _ H1) as [Q|(v & rho & wd & sl & hb & ra & dT & dt & C)].
  - rewrite (ss_iter _ _ _ Q) in H2. lia.
  - rewrite (cs_iter _ _ _ _ _ _ _ _ _ _ _ C) in H2. lia.
Qed.

(** An admissible set-up — which may start anywhere below the packing limit and
    crystallize beyond it — has only one way to fail: the run ends within the
    number of steps known in advance, and ends normally unless a step makes the
    crystal fraction exactly equal to the packing limit. *)
Theorem C57_fails_only_when_packed : forall (sm : sim R) (s0 : state R) (depth0 : R),
  admissible sm s0 depth0 ->
  let fuel := step_bound (ter_maxlen (s_ter sm)) (st_pos s0) (s_dx sm) in
  exists r w, simulate fuel sm (initial_world s0 [] depth0) = Some (r, w) /\
    physical_rows sm s0 w /\
    ((r = Ok tt /\ has_finished w = true /\ (w_iter w <= fuel)%nat) \/
     (r = Err (packed_error (lv_rel (s_lava sm))) /\ packed (lv_rel (s_lava sm)) (w_st w) /\
      inside (region_of sm s0) (w_st w))).
Proof.
  intros sm s0 depth0 V fuel. destruct (vent_init _ _ _ V []) as (w0 & E0 & S0 & L0 & I0).
  assert (Hdx := va_dx _ _ _ V).
  assert (P0 : st_pos (w_st w0) = st_pos s0) by (apply (init_keeps_pos sm) in E0; exact E0).
  destruct (C11_bound_known_in_advance sm w0 Hdx) as (r & w & Hr). rewrite P0 in Hr. fold fuel in Hr.
  destruct (sound_loop _ _ _ V fuel w0 r w S0) as [G Q]; auto.
  { intros i Hi. rewrite I0 in Hi. lia. }
  { rewrite P0, I0. cbn. ring. }
  exists r, w. unfold simulate. rewrite E0. split; [exact Hr|].
  split.
  { intros i Hi. destruct (G i Hi) as (v & wd & rho & mu & te & ph & Q'). exists v, wd, rho, mu, te, ph. exact Q'. }
  destruct Q as [->|(-> & Hin & Hk)]; [left|right; auto].
  destruct (run_loop_steps _ _ _ _ Hr) as (n & Hn & Hs & Hf & _).
  split; [reflexivity|]. split; [exact Hf|]. apply steps_iter_le in Hs. rewrite I0 in Hs. lia.
Qed.

(** From a physically valid set-up (the packing limit is out of reach) the run
    never raises and ends within the number of steps known in advance; each of
    its completed steps has left a physical row. *)
Theorem C57_valid_run : forall (sm : sim R) (s0 : state R) (depth0 : R),
  valid sm s0 depth0 ->
  let fuel := step_bound (ter_maxlen (s_ter sm)) (st_pos s0) (s_dx sm) in
  exists w, simulate fuel sm (initial_world s0 [] depth0) = Some (Ok tt, w) /\
    has_finished w = true /\ (w_iter w <= fuel)%nat /\ physical_rows sm s0 w.
Proof.
  intros sm s0 depth0 V fuel.
  destruct (C57_fails_only_when_packed _ _ _ (va_admissible _ _ _ V)) as (r & w & E & G & Q). fold fuel in E, Q.
  exists w. destruct Q as [(-> & Hf & Hi)|(_ & Hk & ((X1 & _) & _ & (_ & P2)))]; [auto|]. exfalso. revert Hk.
  destruct (va_lava _ _ _ V) as (_ & Hr & _). destruct (va_pos _ _ _ V) as [X0 _]. cbn in X1.
  apply (room_not_packed (region_of sm s0)); auto; [exact (va_room _ _ _ V)|lra].
Qed.

(** The same for run(), for admissible set-ups: either it ends normally or it
    raises, leaving the file system as it was, because the lava is packed. *)
Theorem C57_configuration_fails_only_when_packed : forall sf sc (fs : fsys R) log jf folder eri name sm s0 depth0,
  prepare mass_flag fs jf = Ok (eri, name, sm, s0, depth0) ->
  admissible sm s0 depth0 ->
  exists fuel fs' log', run sf sc fuel fs (new_runner log) jf folder = Some (Ok tt, fs', log') \/
    (run sf sc fuel fs (new_runner log) jf folder = Some (Err (packed_error (lv_rel (s_lava sm))), fs, log') /\
     exists w, w_log w = log' /\ packed (lv_rel (s_lava sm)) (w_st w) /\ inside (region_of sm s0) (w_st w) /\
       simulate fuel sm (initial_world s0 [] depth0) = Some (Err (packed_error (lv_rel (s_lava sm))), w)).
Proof.
  intros sf sc fs log jf folder eri name sm s0 depth0 Hp V.
  destruct (C57_fails_only_when_packed _ _ _ V) as (r & w & E & _ & Q). set (fuel := step_bound _ _ _) in *.
  exists fuel. unfold run, new_runner. rewrite Hp. change (@clear R) with (@nil (row R)). rewrite E.
  destruct Q as [(-> & _)|(-> & Hk & Hin)].
  - destruct (C06_run_is_exportable (fun _ => True) sm fuel s0 depth0 w) as [[f Hf] _]; auto using R_refl.
    unfold write_table. destruct (w_log w) as [|first rest] eqn:El.
    + eexists _, _. left. reflexivity.
    + rewrite Hf. eexists _, _. left. reflexivity.
  - exists fs, (w_log w). right. split; [reflexivity|]. exists w. auto.
Qed.

(** The same for run(): if the files of a configuration lead to a valid set-up,
    run() on a fresh runner ends normally and has written its table. *)
Theorem C57_valid_configuration_runs : forall sf sc (fs : fsys R) log jf folder eri name sm s0 depth0,
  prepare mass_flag fs jf = Ok (eri, name, sm, s0, depth0) ->
  valid sm s0 depth0 ->
  exists fuel fs' log', run sf sc fuel fs (new_runner log) jf folder = Some (Ok tt, fs', log') /\
    (log' <> [] -> exists c, fs' (result_path sf sc folder name eri) = Some (FCsv c) /\
       write_values_to_file log' = Ok (Some c)).
Proof.
  intros sf sc fs log jf folder eri name sm s0 depth0 Hp V.
  destruct (C57_valid_run _ _ _ V) as (w & E & _). set (fuel := step_bound _ _ _) in *.
  exists fuel. unfold run, new_runner. rewrite Hp. change (@clear R) with (@nil (row R)). rewrite E.
  destruct (C06_run_is_exportable (fun _ => True) sm fuel s0 depth0 w) as [[f Hf] _]; auto using R_refl.
  unfold write_table. destruct (w_log w) as [|first rest] eqn:El.
  - eexists _, _. split; [reflexivity|]. intros H. contradiction.
  - rewrite Hf. eexists _, _. split; [reflexivity|]. intros _.
    unfold fs_write. rewrite String.eqb_refl. eexists. split; [reflexivity|].
    assert (U : forall (t : table R) rows, rmapM (csv_of_row (map fst first)) t = Ok rows -> csv_rows_until (map fst first) t = rows).
    { clear. induction t as [|q t IH]; intros rows H; cbn in H; [injection H as <-; reflexivity|].
      apply rbind_ok in H as (y & Hy & H). apply rbind_ok in H as (ys & Hys & H). injection H as <-.
      cbn [csv_rows_until]. rewrite Hy, (IH _ Hys). reflexivity. }
    unfold write_values_to_file in Hf |- *.
    destruct (rmapM (csv_of_row (map fst first)) (first :: rest)) as [rows|e] eqn:Er; [|discriminate].
    rewrite (U _ _ Er). reflexivity.
Qed.
