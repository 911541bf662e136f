(** * Props_RefineDemo: C79 on the shipped template *)
From Coq Require Import Reals Lra Lia List.
From Verif Require Import Base Num Json Logger World Vesicle MeltVisc RelVisc Bubbles Terrain Lava
  Thermal Flux Integrator Factory Run Frame StepLog Spec RNum RPow StepProofs LoggerProofs RowProofs StepProps StepRow Gives Steady EffArray Props_Run
  Props_Step Props_EffArray Props_RunOuts Props_Velocity Props_Rheology Props_Material Props_Terrain Props_Thermal Props_Flux TableTrace Props_Table
  Props_Recompute Safe Valid Props_ValidRun Cooling Props_Cooling Props_Template Recompute Lipschitz ModelLip Refine Props_Refine
  Props_RefineRun Resume Props_Resume Props_ResumeDemo.
Open Scope R_scope.

Definition template_models : models R :=
  {| mo_cryst := s_cryst (template_sim 0); mo_air := s_air (template_sim 0);
     mo_lava := s_lava (template_sim 0); mo_cover := s_cover (template_sim 0); mo_crust := s_crust (template_sim 0);
     mo_budget := s_budget (template_sim 0) |}.
Lemma template_models_built : build_models (template 0) (crust_profile (template_fs 0)) = Ok template_models.
Proof. reflexivity. Qed.
Lemma template_smooth : smooth (template_sim 0) (12 / 100).
Proof.
  constructor; cbn; try exact I; try reflexivity; rnum; try lra; repeat eexists.
Qed.
Lemma template_losing : losing (template_sim 0) (template_state 0) (14 / 10).
Proof. assert (K := template_cooling 0 ltac:(lia)). exact (co_losing _ _ _ K). Qed.

(** a state close to that of the vent *)
Definition close (q : state R) : Prop :=
  0 <= st_pos q < 30000 /\ 138615 / 100 <= st_temp q <= 138715 / 100 /\ 104 / 1000 <= st_phi q <= 12 / 100.

(** there the lava flows at some speed *)
Lemma template_fast : exists v0, 0 < v0 /\ forall q mu t0 tb, close q ->
  computes_bulk_viscosity (s_lava (template_sim 0)) q = Ok mu -> get_yield_strength (s_lava (template_sim 0)) q = Ok t0 ->
  tb = 14 / 10 * (2970 * (1 - 64 / 100)) * (981 / 100) * (1 / 2) -> v0 <= jeffreys_bingham (14 / 10) t0 tb mu.
Proof.
  assert (V := co_admissible _ _ _ template_losing). set (g := region_of (template_sim 0) (template_state 0)).
  assert (S := template_smooth).
  destruct (viscosity_smooth g (12 / 100)) with (l := s_lava (template_sim 0)) as (mu' & [(L & B & HL & HB & HM) (c & Hc & HP)] & E);
    [cbn; rnum; lra|cbn; rnum; lra|exact (va_lava _ _ _ V)|exact (sm_melt _ _ S)|exact (sm_rel _ _ S)|exact (sm_bub _ _ S)|].
  exists (14 / 10 * 7000 / (3 * (B + 1)) * (1 / 100)). split.
  { apply Rmult_lt_0_compat; [apply Rdiv_lt_0_compat; lra|lra]. }
  intros q mu t0 tb (Q1 & Q2 & Q3) Hmu Ht0 Htb.
  assert (Bx : box g (12 / 100) (at_ q)).
  { unfold box, inside, g, region_of, state_at, at_. cbn. rnum. cbn [fastest_rate]. repeat split; try lra. }
  rewrite (E q Bx) in Hmu. apply Ok_inj in Hmu. subst mu. destruct (HM _ Bx) as [M1 _]. specialize (HP _ Bx).
  set (mu := mu' (at_ q)) in *. assert (M2 : mu <= B) by (assert (X := Rle_abs mu); lra).
  unfold get_yield_strength in Ht0. cbn in Ht0. unfold R_pow in Ht0. rewrite R_power_pos in Ht0 by lra. cbn [rbind] in Ht0.
  apply Ok_inj in Ht0. revert Ht0. rnum. intros Ht0.
  assert (H1 : exp (8 / 100 * (138715 / 100 - st_temp q) - 1) <= 1).
  { replace 1 with (exp 0) at 2 by apply exp_0. apply exp_le. lra. }
  assert (H1' := exp_pos (8 / 100 * (138715 / 100 - st_temp q) - 1)).
  assert (H2 : Rpower (st_phi q) (285 / 100) <= 1).
  { rewrite <- exp_0. unfold Rpower. apply exp_le.
    assert (ln (st_phi q) < 0) by (rewrite <- ln_1; apply ln_increasing; lra). lra. }
  assert (H2' : 0 < Rpower (st_phi q) (285 / 100)) by apply Rpower_gt_0.
  assert (T : 0 <= t0 <= 6501) by lra.
  rewrite jb_factored by lra. set (r := t0 / tb).
  assert (R1 : 0 <= r <= 89 / 100).
  { unfold r. split; [apply Rmult_le_pos; [lra|apply Rlt_le, Rinv_0_lt_compat; lra]|].
    apply Rmult_le_reg_r with tb; [lra|]. unfold Rdiv at 1. rewrite Rmult_assoc, Rinv_l by lra. lra. }
  assert (R2 : 1 / 100 <= (1 - r) ^ 2 * (2 + r) / 2) by (assert (11 / 100 * (11 / 100) <= (1 - r) ^ 2) by nra; nra).
  apply Rmult_le_compat; [apply Rlt_le, Rdiv_lt_0_compat; lra|lra| |exact R2].
  unfold Rdiv at 1 3. apply Rmult_le_compat; [lra|apply Rlt_le, Rinv_0_lt_compat; lra|lra|]. apply Rinv_le_contravar; lra.
Qed.

(** With a small enough step the run has more than [N] rows, all of them close to the vent. *)
Lemma template_long v0 : 0 < v0 ->
  (forall q mu t0 tb, close q -> computes_bulk_viscosity (s_lava (template_sim 0)) q = Ok mu ->
     get_yield_strength (s_lava (template_sim 0)) q = Ok t0 ->
     tb = 14 / 10 * (2970 * (1 - 64 / 100)) * (981 / 100) * (1 / 2) -> v0 <= jeffreys_bingham (14 / 10) t0 tb mu) ->
  forall N, exists h0, 0 < h0 /\ forall h, 0 < h <= h0 -> exists w,
    simulate (step_bound 30000 0 h) (tdx h) start = Some (Ok tt, w) /\ (N < w_iter w)%nat /\
    flows_freely v0 (12 / 100) (w_log w) N.
Proof.
  intros Hv0 Fast N.
  destruct (gradient (template 0) _ template_models (template_sim 0) (template_state 0) (14 / 10) (12 / 100) v0
    template_models_built eq_refl template_losing template_smooth Hv0) as (D & F & vel & rate & (L & B & HL & HB & HF) & _ & Prate & HG).
  set (m := (INR N + 2) * (1 + B + rate * B)). assert (PN := pos_INR N).
  assert (RB : 0 <= rate * B) by (apply Rmult_le_pos; lra).
  assert (Hm : 1 <= m) by (unfold m; nra).
  exists (1 / 100 / m). split; [apply Rdiv_lt_0_compat; lra|]. intros h [Hh Hh0].
  assert (Hhm : h * m <= 1 / 100).
  { apply Rmult_le_reg_r with (/ m); [apply Rinv_0_lt_compat; lra|]. rewrite Rmult_assoc, Rinv_r, Rmult_1_r by lra. exact Hh0. }
  destruct (tdx_flows h Hh) as (w & E & I & Len & Q). exists w. split; [exact E|].
  assert (Hd : s_dx (tdx h) <> 0) by (change (h <> 0); lra).
  assert (Sq := run_sequences (tdx h) _ _ _ w Hd E). cbv zeta in Sq. change (s_dx (tdx h)) with h in Sq.
  assert (Small : forall i, (i <= N + 1)%nat -> INR i * h * (1 + B + rate * B) <= 1 / 100).
  { intros i Hi. apply le_INR in Hi. rewrite plus_INR in Hi. change (INR 1) with 1 in Hi. assert (Pi := pos_INR i).
    assert (INR i * h * (1 + B + rate * B) <= h * m); [|lra]. unfold m.
    replace (INR i * h * (1 + B + rate * B)) with (h * (INR i * (1 + B + rate * B))) by ring.
    apply Rmult_le_compat_l; [lra|]. apply Rmult_le_compat_r; lra. }
  assert (Sf : strain_free (s_lava (template_sim 0))) by (apply C21_which_models_are_strain_free; reflexivity).
  set (T i := value (nth i (w_log w) []) "core_temperature"). set (P i := value (nth i (w_log w) []) "crystal_fraction").
  (* a row whose temperature and crystals are near those of the vent *)
  assert (Near : forall i, (i < w_iter w)%nat -> 138615 / 100 <= T i <= 138715 / 100 -> 104 / 1000 <= P i <= 12 / 100 ->
    exists r v dT dP, nth_error (w_log w) i = Some r /\ holds r "core_temperature" (T i) /\ holds r "crystal_fraction" (P i) /\
      holds r "mean_velocity" v /\ v0 <= v /\ holds r "dtemp_dx" dT /\ holds r "dphi_dx" dP /\ - B <= dT <= 0 /\ 0 <= dP <= rate * B).
  { intros i Hi HT HP. destruct (Sq i Hi) as (Hr & HR & _). set (r := nth i (w_log w) []) in *.
    destruct (C76_every_column_recomputed (template 0) _ template_models (tdx h) _ _ _ w template_models_built eq_refl Sf Hd E i r Hi Hr)
      as (q & vf & mu & rho & v & width & hh & slope & tc & f & t0 & tb & rt &
          (H1 & H2 & H3 & H4 & H5 & H6 & H7 & H8 & H9 & H10 & H11 & H12 & H13 & H14 & H15) &
          (M1 & M2 & M3 & M4 & M5 & M6) & Erho & Etb & Ev & _).
    assert (HR0 := HR). destruct HR0 as (R1 & R2 & R3 & R4 & R5).
    destruct (HG h _ w Hh E i r _ _ _ _ _ v Hi Hr HR H7) as [Hx G].
    assert (Ehh : hh = 14 / 10).
    { destruct (row_step (tdx h) _ _ _ w i r Hd E Hi Hr) as
        (wi & wj & v' & rho' & wd & slp & hb & ra & dT & dt & C & SR & E1 & E2 & E3 & Cphi & Ctemp & Hn & w0' & E0' & Hs & _).
      fold start in E0'. rewrite start_ready in E0'. injection E0' as <-.
      destruct SR as [_ _ _ S4 _ _ _ _ _ _ _]. rewrite <- Hn in S4. rewrite (holds_fun _ _ _ _ H9 S4).
      exact (proj1 (C17_depth_and_flux_constant _ _ _ _ _ Hs)). }
    assert (Eq : close q).
    { rewrite (holds_fun _ _ _ _ R1 H1) in Hx. revert Hx. cbn. rnum. intros Hx.
      assert (X1 := holds_fun _ _ _ _ R1 H1).
      unfold close. rewrite <- (holds_fun _ _ _ _ R2 H2), <- (holds_fun _ _ _ _ R3 H3).
      fold (T i) (P i). split; [|split; assumption].
      assert (st_pos (template_state 0) = 0) by (cbn; rnum; lra). assert (0 <= INR i * h) by (apply Rmult_le_pos; [apply pos_INR|lra]). lra. }
    assert (Hv : v0 <= v).
    { rewrite Ev, Ehh. apply (Fast q); [exact Eq|exact M2|exact M3|].
      change (get_channel_slope (s_ter (template_sim 0)) (st_pos q) = Ok slope) in M6.
      rewrite template_slope in M6. apply Ok_inj in M6. cbn in M1. apply Ok_inj in M1. subst vf slope.
      rewrite Etb, Erho, Ehh. cbn [tdx with_step template_sim s_lava s_ter lv_dre ter_gravity]. rewrite sin_PI6. rnum. lra. }
    destruct (G Hv (proj2 HP)) as (Dp & Ed1 & Ed2 & _). destruct (HF _ Dp) as [Bd _].
    destruct (C72_rows_follow_one_another _ _ _ _ _ Hd E i r Hi Hr) as (t' & p' & dt' & dp' & A1 & A2 & A3 & A4 & _ & _ & _ & A8).
    assert (dp' = value r "dphi_dx") as -> by exact (holds_fun _ _ _ _ A4 R5). change (s_dx (tdx h)) with h in A8.
    exists r, v, (value r "dtemp_dx"), (value r "dphi_dx"). repeat (split; [assumption|]).
    rewrite Ed2 in A8 |- *. rewrite Ed1. set (y := F _) in *. apply abs_between in Bd.
    assert (Yp : 0 < - rate * y) by (apply Rmult_lt_reg_r with h; lra).
    assert (Yn : y < 0) by (apply Rnot_le_lt; intros Yn; assert (0 <= rate * y) by (apply Rmult_le_pos; lra); lra).
    split; [lra|]. split; [lra|]. assert (rate * (- y) <= rate * B) by (apply Rmult_le_compat_l; lra). lra. }
  assert (Pi : forall i, (i <= N + 1)%nat -> (i < w_iter w)%nat ->
    138715 / 100 - INR i * h * B <= T i <= 138715 / 100 /\ 104 / 1000 <= P i <= 104 / 1000 + INR i * h * (rate * B)).
  { induction i as [|i IH]; intros Hi Hi'.
    - destruct (Sq 0%nat Hi') as (_ & _ & Z & _). destruct (Z eq_refl) as [Z1 Z2]. unfold T, P. rewrite Z1, Z2. cbn. rnum. lra.
    - specialize (IH ltac:(lia) ltac:(lia)). assert (Sm := Small i ltac:(lia)). assert (Pi := pos_INR i).
      assert (Y1 : 0 <= INR i * h * B) by (repeat apply Rmult_le_pos; lra). assert (Y2 : 0 <= INR i * h * (rate * B)) by (repeat apply Rmult_le_pos; lra).
      assert (Y3 : 0 <= INR i * h) by (apply Rmult_le_pos; lra).
      destruct (Near i ltac:(lia)) as (r & v & dT & dP & Hr & N1 & N2 & _ & _ & N3 & N4 & N5 & N6); [lra|lra|].
      destruct (Sq i ltac:(lia)) as (Hr' & (_ & _ & _ & S4 & S5) & _ & Nx). rewrite Hr' in Hr. injection Hr as Hr.
      rewrite Hr in Nx, S4, S5. rewrite (holds_fun _ _ _ _ S4 N3), (holds_fun _ _ _ _ S5 N4) in Nx. rewrite <- Hr in Nx.
      destruct (Nx Hi') as [X1 X2]. fold (T i) (T (S i)) in X1. fold (P i) (P (S i)) in X2. rewrite X1, X2, S_INR.
      assert (- B * h <= dT * h <= 0) by (split; nra). assert (0 <= dP * h <= rate * B * h) by (split; nra). split; lra. }
  assert (In : forall i, (i <= N + 1)%nat -> (i < w_iter w)%nat -> 138615 / 100 <= T i <= 138715 / 100 /\ 104 / 1000 <= P i <= 12 / 100).
  { intros i Hi Hi'. destruct (Pi i Hi Hi') as [A1 A2]. assert (Sm := Small i Hi). assert (Py := pos_INR i).
    assert (Y1 : 0 <= INR i * h * B) by (repeat apply Rmult_le_pos; lra). assert (Y2 : 0 <= INR i * h * (rate * B)) by (repeat apply Rmult_le_pos; lra).
    assert (Y3 : 0 <= INR i * h) by (apply Rmult_le_pos; lra). split; lra. }
  split.
  - destruct (Nat.lt_ge_cases N (w_iter w)) as [|HN]; [assumption|exfalso].
    destruct (w_iter w) as [|k] eqn:Ek; [lia|]. destruct (In k ltac:(lia) ltac:(lia)) as [I1 I2]. destruct (Pi k ltac:(lia) ltac:(lia)) as [J1 J2].
    destruct (Near k ltac:(lia) I1 I2) as (r & v & dT & dP & Hr & N1 & N2 & _ & _ & N3 & N4 & N5 & N6).
    assert (Hk : (k < w_iter w)%nat) by lia.
    destruct (C72_rows_follow_one_another _ _ _ _ _ Hd E k r Hk Hr) as (t' & p' & dt' & dp' & A1 & A2 & A3 & A4 & _ & _ & A7 & _).
    rewrite (holds_fun _ _ _ _ A1 N1), (holds_fun _ _ _ _ A2 N2), (holds_fun _ _ _ _ A3 N3), (holds_fun _ _ _ _ A4 N4) in A7.
    destruct (A7 ltac:(congruence)) as [T1 P1]. change (s_dx (tdx h)) with h in T1, P1.
    assert (Sm := Small (S k) ltac:(lia)). assert (Py := pos_INR k). rewrite S_INR in Sm.
    assert (Y1 : 0 <= (INR k + 1) * h * B) by (repeat apply Rmult_le_pos; lra). assert (Y2 : 0 <= (INR k + 1) * h * (rate * B)) by (repeat apply Rmult_le_pos; lra).
    assert (Y3 : 0 <= (INR k + 1) * h) by (apply Rmult_le_pos; lra).
    assert (Z1 : - B * h <= dT * h <= 0) by (split; nra). assert (Z2 : 0 <= dP * h <= rate * B * h) by (split; nra).
    assert (T2 : 138615 / 100 <= st_temp (w_st w) <= 138715 / 100) by lra.
    assert (P2 : 104 / 1000 <= st_phi (w_st w) <= 12 / 100) by lra.
    destruct (row_step (tdx h) _ _ _ w k r Hd E Hk Hr) as
      (wi & wj & v' & rho' & wd & slp & hb & ra & dT' & dt & C & SR & E1 & E2 & E3 & Cphi & Ctemp & Hn & w0' & E0' & Hs & Hs1).
    fold start in E0'. rewrite start_ready in E0'. injection E0' as <-.
    assert (Ed : w_depth w = 14 / 10) by (rewrite <- E2; exact (proj1 (C17_depth_and_flux_constant _ _ _ _ _ Hs))).
    assert (X1 : st_pos (w_st w) < 30000).
    { destruct (run_rows (tdx h) _ _ _ w Hd E) as (w0 & wn & E0 & _ & HS & HI & HE). fold start in E0. rewrite start_ready in E0. injection E0 as <-.
      rewrite Ek in HS. assert (Hj : steps (tdx h) (S k) start = (Ok tt, wj)) by exact (steps_add _ _ _ _ _ Hs Hs1).
      rewrite Hj in HS. injection HS as <-.
      assert (st_pos (w_st wj) = st_pos (w_st wi) + h) by exact (cs_pos _ _ _ _ _ _ _ _ _ _ _ C).
      assert (st_pos (w_st wi) = INR k * h).
      { destruct (Sq k ltac:(lia)) as (Hr' & (R1 & _) & _). rewrite Hr in Hr'. injection Hr' as Hr'. rewrite <- Hr' in R1.
        assert (Q1 := Hn "position"). unfold holds in R1. rewrite R1 in Q1. unfold logged in Q1.
        destruct (find (row_at (st_pos (w_st wi))) (w_log wj)) as [q|] eqn:Ff; [|discriminate].
        apply find_some in Ff as [_ Ff]. unfold row_at in Ff. rewrite <- Q1 in Ff. apply R_eqb_true in Ff. revert Ff. cbn. rnum. lra. }
      assert (st_pos (w_st w) = st_pos (w_st wj)). { destruct HE as [->|S]; [reflexivity|]. destruct (ss_st _ _ _ S) as [z ->]. reflexivity. }
      lra. }
    unfold stopped_because in Q. destruct Q as [Q|[Q|[Q|Q]]].
    + revert Q. cbn. rnum. lra.
    + change (rel_is_notcompatible RelER (w_st w) = Ok true) in Q.
      unfold rel_is_notcompatible in Q. revert Q. rnum. rewrite R_div_ok by lra. cbn [rbind].
      intros Q. injection Q as Q. apply R_leb_true in Q. lra.
    + destruct Q as (t0 & tb & Q1 & Q2 & Q3). rewrite Ed in Q2. assert (t0 < tb); [|lra]. apply (yield_small (w_st w)); [lra|lra|exact Q1|exact Q2].
    + revert Q. cbn. rnum. lra.
  - intros i r v phi Hi Hr Hv Hp. assert (Hiw : (i < w_iter w)%nat) by (rewrite <- Len; apply nth_error_Some; congruence).
    destruct (In i ltac:(lia) Hiw) as [I1 I2]. destruct (Near i Hiw I1 I2) as (r' & v' & dT & dP & Hr' & N1 & N2 & N7 & N8 & _).
    rewrite Hr in Hr'. injection Hr' as <-. rewrite (holds_fun _ _ _ _ Hv N7), (holds_fun _ _ _ _ Hp N2). split; [exact N8|lra].
Qed.

(** The template, run with some step [h] and with half of it: both runs have
    more than five and ten rows, and row 5 of the one and row 10 of the other
    meet every hypothesis of C79; the constant [C] was fixed before the step. *)
Example template_refined : exists v0 C, 0 < v0 /\ forall eps, 0 < eps -> exists h w w' r r' temp temp',
  0 < h <= eps /\
  simulate (step_bound 30000 0 h) (tdx h) start = Some (Ok tt, w) /\
  simulate (step_bound 30000 0 (h / 2)) (tdx (h / 2)) start = Some (Ok tt, w') /\
  flows_freely v0 (12 / 100) (w_log w) 5 /\ flows_freely v0 (12 / 100) (w_log w') 10 /\
  nth_error (w_log w) 5 = Some r /\ nth_error (w_log w') 10 = Some r' /\
  holds r "core_temperature" temp /\ holds r' "core_temperature" temp' /\ Rabs (temp - temp') <= C * h.
Proof.
  destruct template_fast as (v0 & Hv0 & Fast). exists v0.
  destruct (C79_error_proportional_to_step (template 0) _ template_models (template_sim 0) (template_state 0) (14 / 10) (12 / 100) v0
    template_models_built eq_refl template_losing template_smooth Hv0) as (C & HC).
  exists C. split; [exact Hv0|]. intros eps He. destruct (template_long v0 Hv0 Fast 10) as (h0 & Hh0 & G).
  set (h := Rmin h0 eps). assert (0 < h) by (unfold h; apply Rmin_glb_lt; assumption).
  assert (h <= h0) by apply Rmin_l. assert (h <= eps) by apply Rmin_r.
  destruct (G h ltac:(lra)) as (w & E & I & Fw). destruct (G (h / 2) ltac:(lra)) as (w' & E' & I' & Fw').
  assert (Fw5 : flows_freely v0 (12 / 100) (w_log w) 5) by (intros i r v phi Hi; apply Fw; lia).
  destruct (HC h 2%nat 5%nat _ _ w w' H ltac:(lia) E E' ltac:(lia) I' Fw5 Fw') as
    (r & r' & temp & phi & v & temp' & phi' & v' & N1 & N2 & _ & _ & N3 & _ & _ & N4 & _ & _ & N5 & _).
  exists h, w, w', r, r', temp, temp'. split; [lra|]. repeat (split; [assumption|]). exact N5.
Qed.
