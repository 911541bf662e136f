(** * Props_Compare: smaller heat losses never stop the lava earlier (C80) *)
From Coq Require Import Reals Lra Lia List Classical_Prop.
From Verif Require Import Base Num Json Logger World Vesicle MeltVisc RelVisc Bubbles Terrain Lava
  Thermal Flux Integrator Factory Run Frame StepLog Spec RNum RPow StepProofs LoggerProofs RowProofs StepProps StepRow Gives Steady EffArray Props_Run Props_Step Props_Budget Props_BudgetStep Props_RunOuts
  Props_Velocity Props_Rheology Props_Material Props_Terrain Props_Thermal Props_Flux ColumnProofs TableTrace Props_Table Props_Recompute
  Safe Valid Props_ValidRun Cooling Props_Cooling Recompute Lipschitz ModelLip Refine Losses Props_Refine Props_RefineRun.
Open Scope R_scope.

(** ** Hotter lava with fewer crystals flows better *)
Definition thins_with_heat (m : melt_model R) : Prop :=
  match m with MeltBasic _ _ => True | MeltShaw k => 0 < k | MeltVFT _ b _ => 0 < b end.

Lemma ves_same vm (s1 s2 : state R) : st_pos s1 = st_pos s2 -> computes_vesicle_fraction vm s1 = computes_vesicle_fraction vm s2.
Proof. intros E. destruct vm; cbn [computes_vesicle_fraction]; rewrite ?E; reflexivity. Qed.
Lemma basal_same (l : lava R) t depth (s1 s2 : state R) : st_pos s1 = st_pos s2 ->
  get_basal_shear_stress l t depth s1 = get_basal_shear_stress l t depth s2.
Proof.
  intros E. unfold get_basal_shear_stress, compute_basal_shear_stress, basal_body, get_bulk_density, lava_vesicle_fraction.
  rewrite E, (ves_same _ _ _ E). reflexivity.
Qed.

Section Better.
Variables (sm : sim R) (s : state R) (depth phi1 : R).
Hypothesis V : admissible sm s depth.
Hypothesis S : smooth sm phi1.
Hypothesis Thin : thins_with_heat (lv_melt (s_lava sm)).
Let g := region_of sm s.
Local Notation lv := (s_lava sm).

Lemma melt_hotter x t1 t2 p : get_solid_temperature (s_cryst sm) < t1 <= t2 -> forall q,
  let m := lv_melt lv in
  exists v1 v2, compute_melt_viscosity m (state_at {| px := x; pt := t1; pp := p |}) = Ok v1 /\
    compute_melt_viscosity m (state_at {| px := x; pt := t2; pp := q |}) = Ok v2 /\ 0 < v2 <= v1.
Proof.
  intros Ht q m. destruct (va_lava _ _ _ V) as (Vm & _). assert (Mm := sm_melt _ _ S). fold g in Vm. fold m in Vm, Mm, Thin.
  assert (Dm : forall t, get_solid_temperature (s_cryst sm) < t -> melt_domain m t).
  { intros t Hlt. destruct m; cbn [valid_melt melt_margin melt_domain thins_with_heat] in *; [exact Vm|split; [exact Thin|lra]|split; [exact Thin|lra]]. }
  assert (Nq : forall t a b, compute_melt_viscosity m (state_at {| px := x; pt := t; pp := a |}) =
                             compute_melt_viscosity m (state_at {| px := x; pt := t; pp := b |})).
  { intros. destruct m; reflexivity. }
  destruct (Req_dec t1 t2) as [<-|Ne].
  - destruct (melt_inside g m (state_at {| px := x; pt := t1; pp := p |}) Vm) as (v & Ev & Pv); [cbn; lra|].
    exists v, v. rewrite (Nq t1 q p). split; [exact Ev|]. split; [exact Ev|lra].
  - destruct (C26_melt_viscosity m (state_at {| px := x; pt := t1; pp := p |}) t1 t2) as (v1 & v2 & E1 & E2 & B); [apply Dm; lra|apply Dm; lra|lra|].
    exists v1, v2. rewrite (Nq t2 q p). split; [exact E1|]. split; [exact E2|lra].
Qed.

Lemma rel_fewer x t1 t2 p1 p2 : st_pos s <= x -> st_phi s <= p2 <= p1 -> p1 <= phi1 ->
  let m := lv_rel lv in
  exists v1 v2, compute_relative_viscosity m (state_at {| px := x; pt := t1; pp := p1 |}) = Ok v1 /\
    compute_relative_viscosity m (state_at {| px := x; pt := t2; pp := p2 |}) = Ok v2 /\ 1 <= v2 <= v1.
Proof.
  intros Hx Hp Hp1 m. destruct (va_lava _ _ _ V) as (_ & Vr & _). assert (Rm := sm_rel _ _ S). assert (P0 := va_phi _ _ _ V).
  assert (X0 := proj1 (va_pos _ _ _ V)). fold g in Vr. fold m in Vr, Rm.
  assert (Nt : forall t a, compute_relative_viscosity m (state_at {| px := x; pt := t; pp := a |}) =
                           compute_relative_viscosity m (state_at {| px := x; pt := t1; pp := a |})).
  { intros. destruct m; cbn [below_packing] in Rm; try contradiction; reflexivity. }
  destruct (classic (exists c, costa_model m c)) as [(c & Hc)|Nc].
  { rewrite (Nt t2 p2). assert (Vc : c = 1 \/ c = 1 / 10000) by (destruct Hc as [Hc|Hc]; rewrite Hc in Vr; exact Vr).
    set (s1 := state_at {| px := x; pt := t1; pp := p1 |}). set (s2 := state_at {| px := x; pt := t1; pp := p2 |}).
    destruct (C33_costa_defined m c s1 p2 (p1 + 1) Hc Vc ltac:(lra)) as (v2 & v3 & E2 & _ & B2).
    destruct (Req_dec p1 p2) as [<-|Ne]; [exists v2, v2; split; [exact E2|split; [exact E2|lra]]|].
    destruct (C33_costa_defined m c s1 p2 p1 Hc Vc ltac:(lra)) as (v2' & v1 & E2' & E1 & B). rewrite E2 in E2'. injection E2' as <-.
    exists v1, v2. split; [exact E1|]. split; [exact E2|lra]. }
  assert (Q : exists vf limit, rel_vesicles m (state_at {| px := x; pt := t1; pp := p2 |}) = Ok vf /\ packing_limit m vf = Some limit /\
    0 <= vf < 1 /\ phi1 < limit /\ (0 < p2 + vf \/ forall vm, m <> RelPTP2 vm)).
  { assert (Ves : forall vm, valid_vesicle vm -> exists vf, computes_vesicle_fraction vm (state_at {| px := x; pt := t1; pp := p2 |}) = Ok vf /\
      0 <= vf < 1 /\ vf <= max_vesicle vm) by (intros vm Hvm; apply ves_inside; [exact Hvm|cbn; lra]).
    destruct m; cbn [valid_rel below_packing rel_vesicles packing_limit] in *; try contradiction;
      try (exfalso; apply Nc; eexists; first [left; reflexivity|right; reflexivity]).
    - exists 0, (100 / 151). split; [reflexivity|]. split; [reflexivity|]. split; [lra|]. split; [lra|]. right. discriminate.
    - exists 0, phimax. destruct (Rlt_dec 0 phimax); [|lra]. destruct (Rlt_dec 0 einstein); [|lra].
      split; [reflexivity|]. split; [reflexivity|]. split; [lra|]. split; [lra|]. right. discriminate.
    - exists 0, phimax. destruct (Rlt_dec 0 phimax); [|lra]. split; [reflexivity|]. split; [reflexivity|]. split; [lra|]. split; [lra|]. right. discriminate.
    - exists 0, (mueller_packing rp). destruct (Rlt_dec 0 rp); [|lra]. split; [reflexivity|]. split; [reflexivity|]. split; [lra|]. split; [lra|]. right. discriminate.
    - destruct (Ves vm (proj1 Vr)) as (vf & Ev & Bv & Mv). exists vf, (1 - vf). destruct Rm as [_ Rm].
      split; [exact Ev|]. split; [reflexivity|]. split; [lra|]. split; [lra|]. right. discriminate.
    - destruct (Ves vm (proj1 Vr)) as (vf & Ev & Bv & Mv). exists vf, (1 - vf). destruct Vr as (_ & Hpos & _). unfold g, region_of in Hpos. cbn in Hpos.
      destruct Rm as [_ Rm]. split; [exact Ev|]. split; [reflexivity|]. split; [lra|]. split; [lra|]. left. lra.
    - destruct (Ves vm (proj1 Vr)) as (vf & Ev & Bv & Mv). exists vf, (1 - vf). destruct Rm as [_ Rm].
      split; [exact Ev|]. split; [reflexivity|]. split; [lra|]. split; [lra|]. right. discriminate. }
  destruct Q as (vf & limit & Evf & El & Bv & Hl & Hz). rewrite (Nt t2 p2).
  destruct (Req_dec p1 p2) as [->|Ne].
  - assert (E := rel_value_correct m (state_at {| px := x; pt := t1; pp := p2 |}) vf limit Evf El Bv ltac:(cbn; lra) Hz).
    exists (rel_value m vf p2), (rel_value m vf p2). split; [exact E|]. split; [exact E|].
    assert (1 <= rel_value m vf p2) by (eapply rel_value_ge_1; eauto; lra). lra.
  - destruct (C24_relative_viscosity m (state_at {| px := x; pt := t1; pp := p2 |}) vf limit p2 p1 Evf El Bv ltac:(lra) ltac:(lra) Hz) as (v2 & v1 & E2 & E1 & B).
    exists v1, v2. split; [exact E1|]. split; [exact E2|lra].
Qed.

Lemma hotter_flows_better s1 s2 : inside g s1 -> inside g s2 -> st_phi s1 <= phi1 -> st_pos s1 = st_pos s2 ->
  st_temp s1 <= st_temp s2 -> st_phi s2 <= st_phi s1 ->
  exists m1 m2 y1 y2, computes_bulk_viscosity lv s1 = Ok m1 /\ computes_bulk_viscosity lv s2 = Ok m2 /\ 0 < m2 <= m1 /\
    get_yield_strength lv s1 = Ok y1 /\ get_yield_strength lv s2 = Ok y2 /\ 0 <= y2 <= y1.
Proof.
  intros I1 I2 Hp Ex Ht Hph. assert (X0 := proj1 (va_pos _ _ _ V)). assert (P0 := va_phi _ _ _ V).
  assert (B1 : box g phi1 (at_ s1)) by (split; [exact I1|exact Hp]).
  assert (B2 : box g phi1 (at_ s2)) by (split; [exact I2|cbn; lra]).
  destruct I1 as (X1 & T1 & F1), I2 as (X2 & T2 & F2). unfold g, region_of in X1, T1, F1, X2, T2, F2. cbn in X1, T1, F1, X2, T2, F2.
  destruct (viscosity_smooth g phi1 X0 P0 lv (va_lava _ _ _ V) (sm_melt _ _ S) (sm_rel _ _ S) (sm_bub _ _ S)) as (mu & _ & Emu).
  destruct (yield_smooth g phi1 X0 P0 lv (sm_yield_ok _ _ S) (sm_yield _ _ S)) as (t0 & _ & Et0).
  exists (mu (at_ s1)), (mu (at_ s2)), (t0 (at_ s1)), (t0 (at_ s2)).
  split; [exact (Emu _ B1)|]. split; [exact (Emu _ B2)|].
  assert (Emu1 := returns_at _ _ _ _ Emu B1). assert (Emu2 := returns_at _ _ _ _ Emu B2).
  assert (Et1 := returns_at _ _ _ _ Et0 B1). assert (Et2 := returns_at _ _ _ _ Et0 B2).
  split; [|split; [exact (Et0 _ B1)|split; [exact (Et0 _ B2)|]]].
  - destruct (melt_hotter (st_pos s1) (st_temp s1) (st_temp s2) (st_phi s1) ltac:(lra) (st_phi s2)) as (a1 & a2 & A1 & A2 & A3).
    destruct (rel_fewer (st_pos s1) (st_temp s1) (st_temp s2) (st_phi s1) (st_phi s2) ltac:(lra) ltac:(lra) Hp) as (b1 & b2 & C1 & C2 & C3).
    destruct (va_lava _ _ _ V) as (_ & _ & Vb & _).
    destruct (bub_inside (region_of sm s) _ (lv_bub lv) (state_at (at_ s1)) b1 Vb ltac:(cbn; lra) ltac:(cbn; lra) C1) as (c & Ec & Pc).
    assert (Ec2 : compute_relative_viscosity_bubbles (lv_bub lv) (state_at (at_ s2)) = Ok c).
    { rewrite <- Ec. assert (Q := sm_bub _ _ S). destruct (lv_bub lv); cbn [smooth_bubbles] in Q; try contradiction;
        cbn [compute_relative_viscosity_bubbles]; rewrite (ves_same vm (state_at (at_ s2)) (state_at (at_ s1))) by (cbn; lra); reflexivity. }
    assert (Ea2 : compute_melt_viscosity (lv_melt lv) (state_at (at_ s2)) = Ok a2) by (unfold at_; rewrite <- Ex; exact A2).
    assert (Eb2 : compute_relative_viscosity (lv_rel lv) (state_at (at_ s2)) = Ok b2) by (unfold at_; rewrite <- Ex; exact C2).
    assert (Ea1 : compute_melt_viscosity (lv_melt lv) (state_at (at_ s1)) = Ok a1) by exact A1.
    assert (Eb1 : compute_relative_viscosity (lv_rel lv) (state_at (at_ s1)) = Ok b1) by exact C1.
    unfold computes_bulk_viscosity in Emu1, Emu2. rewrite Ea1, Eb1, Ec in Emu1. rewrite Ea2, Eb2, Ec2 in Emu2.
    cbn [rbind] in Emu1, Emu2. rnum. apply Ok_inj in Emu1, Emu2. rewrite <- Emu1, <- Emu2.
    split; [apply Rmult_lt_0_compat; [apply Rmult_lt_0_compat; lra|exact Pc]|].
    apply Rmult_le_compat_r; [lra|]. apply Rmult_le_compat; lra.
  - set (sa := state_at {| px := st_pos s1; pt := st_temp s1; pp := st_phi s2 |}).
    assert (Ya : exists ya, get_yield_strength lv sa = Ok ya /\ t0 (at_ s2) <= ya /\ 0 <= t0 (at_ s2)).
    { destruct (yield_inside lv sa) as (ya & Eya & Pya); [cbn; lra|]. exists ya. split; [exact Eya|].
      assert (E2 : get_yield_strength lv (with_temp (st_temp s2) sa) = Ok (t0 (at_ s2))).
      { rewrite <- Et2. unfold sa, at_. rewrite Ex. reflexivity. }
      destruct (Rle_lt_or_eq_dec _ _ Ht) as [Hlt|Heq].
      - destruct (C31_yield_grows_with_cooling (lv_yield lv) sa (st_temp s1) (st_temp s2) ltac:(cbn; lra) Hlt) as (y1 & y2 & Q1 & Q2 & Q3 & _).
        unfold get_yield_strength in E2, Eya. rewrite Q2 in E2. injection E2 as <-.
        change (with_temp (st_temp s1) sa) with sa in Q1. rewrite Eya in Q1. injection Q1 as <-. lra.
      - rewrite <- Heq in E2. change (with_temp (st_temp s1) sa) with sa in E2. rewrite Eya in E2. injection E2 as <-. lra. }
    destruct Ya as (ya & Eya & Y1 & Y2). split; [exact Y2|]. eapply Rle_trans; [exact Y1|].
    change (get_yield_strength lv (with_phi (st_phi s1) sa) = Ok (t0 (at_ s1))) in Et1.
    destruct (Rle_lt_or_eq_dec _ _ Hph) as [Hlt|Heq].
    + destruct (C31_yield_grows_with_crystals (lv_yield lv) sa (st_phi s2) (st_phi s1) ltac:(lra)) as (y2 & y1 & Q2 & Q1 & Q3 & _).
      unfold get_yield_strength in Et1, Eya. rewrite Q1 in Et1. injection Et1 as <-.
      change (with_phi (st_phi s2) sa) with sa in Q2. rewrite Eya in Q2. injection Q2 as <-. lra.
    + rewrite <- Heq in Et1. change (with_phi (st_phi s2) sa) with sa in Et1. rewrite Eya in Et1. injection Et1 as <-. lra.
Qed.

(** Below the packing limit the model's own test passes, and the lava is not packed. *)
Lemma below_is_compatible q : 0 <= st_pos q -> st_phi q <= phi1 -> rel_is_notcompatible (lv_rel lv) q = Ok false /\ ~ packed (lv_rel lv) q.
Proof.
  intros Hx Hp. destruct (va_lava _ _ _ V) as (_ & Vr & _). assert (Rm := sm_rel _ _ S).
  assert (Dv : forall y m, 0 < m -> y < m -> y / m < 1).
  { intros y m Hm Hy. apply Rmult_lt_reg_r with m; [exact Hm|]. unfold Rdiv. rewrite Rmult_assoc, Rinv_l by lra. lra. }
  destruct (lv_rel lv); cbn [valid_rel below_packing rel_is_notcompatible packed] in *; try contradiction; rnum;
    try (split; [reflexivity|tauto]).
  - rewrite R_div_ok by lra. cbn [rbind]. split; [|tauto]. f_equal. apply R_leb_false. lra.
  - rewrite R_div_ok by lra. cbn [rbind]. split; [|lra]. f_equal. apply R_ltb_false. left. apply Dv; lra.
  - rewrite R_div_ok by lra. cbn [rbind]. split; [|lra]. f_equal. apply R_ltb_false. left. apply Dv; lra.
  - destruct Vr as [Vr _]. assert (Hm := mueller_packing_pos rp). rewrite mueller_phimax_R by exact Vr. cbn [rbind]. rewrite R_div_ok by lra. cbn [rbind]. split; [|lra].
    f_equal. apply R_ltb_false. left. apply Dv; lra.
  - destruct (ves_inside vm q (proj1 Vr) Hx) as (vf & -> & Bv & Mv). cbn [rbind]. split; [f_equal; apply R_ltb_false; lra|].
    intros (y & Ey & Q). injection Ey as <-. lra.
  - destruct (ves_inside vm q (proj1 Vr) Hx) as (vf & -> & Bv & Mv). cbn [rbind]. split; [f_equal; apply R_ltb_false; lra|].
    intros (y & Ey & Q). injection Ey as <-. lra.
  - destruct (ves_inside vm q (proj1 Vr) Hx) as (vf & -> & Bv & Mv). cbn [rbind]. split; [f_equal; apply R_ltb_false; lra|].
    intros (y & Ey & Q). injection Ey as <-. lra.
Qed.
End Better.

(** ** A run that ends normally does not end at a step that can be taken *)
Lemma steps_plus (sm : sim R) k : forall i w wi, steps sm i w = (Ok tt, wi) -> steps sm (i + k) w = steps sm k wi.
Proof.
  induction i as [|i IH]; intros w wi H; [injection H as ->; reflexivity|].
  apply steps_S_inv in H as [(e & He & _)|(w1 & H1 & H2)]; [discriminate|].
  cbn [plus steps]. rewrite H1. now apply IH.
Qed.
Lemma steps_iter_ge (sm : sim R) : forall n w w', steps sm n w = (Ok tt, w') -> (w_iter w <= w_iter w')%nat.
Proof.
  induction n as [|n IH]; intros w w' H; [injection H as ->; lia|].
  apply steps_S_inv in H as [(e & He & _)|(w1 & H1 & H2)]; [discriminate|]. apply IH in H2.
  destruct (step_cases _ _ _ H1) as [Q|(v & rho & wd & sl & hb & ra & dT & dt & C)].
  - rewrite (ss_iter _ _ _ Q) in H2. lia.
  - rewrite (cs_iter _ _ _ _ _ _ _ _ _ _ _ C) in H2. lia.
Qed.
Lemma goes_on sm s depth (K : losing sm s depth) fuel w0 w' i wi :
  w_iter w0 = 0%nat -> run_loop sm fuel w0 = Some (Ok tt, w') ->
  steps sm i w0 = (Ok tt, wi) -> w_iter wi = i -> (i = 0%nat \/ (pred i < w_iter w')%nat) ->
  w_fin wi = false -> sound sm s wi ->
  (forall t, get_yield_strength (s_lava sm) (w_st wi) = Ok t ->
     get_basal_shear_stress (s_lava sm) (s_ter sm) (w_depth wi) (w_st wi) <> Ok t) ->
  (i < w_iter w')%nat.
Proof.
  intros I0 H Hs Hi Hle Hf Sw Hne.
  destruct (run_loop_steps _ _ _ _ H) as (n & _ & Hn & Hfin & _).
  assert (Hin : (i <= n)%nat).
  { assert (Q := steps_iter_le _ _ _ _ Hn). destruct Hle as [->|Hle]; lia. }
  assert (Hlt : (i < n)%nat).
  { destruct (Nat.eq_dec i n) as [->|]; [|lia]. rewrite Hn in Hs. injection Hs as <-. congruence. }
  replace n with (i + S (n - i - 1))%nat in Hn by lia. rewrite (steps_plus _ _ _ _ _ Hs) in Hn.
  destruct (sound_step _ _ _ (co_admissible _ _ _ K) _ Sw) as (w1 & E1).
  cbn [steps] in Hn. rewrite E1 in Hn.
  destruct (cooling_step _ _ _ K _ _ Sw E1) as [(t & Y1 & Y2)|(v & rho & wd & sl & hb & ra & dT & dt & C)]; [destruct (Hne t Y1 Y2)|].
  assert (Q := cs_iter _ _ _ _ _ _ _ _ _ _ _ C). assert (Q2 := steps_iter_ge _ _ _ _ Hn). lia.
Qed.

(** What a row of a run says about the world it was written in. *)
Lemma row_world (sm : sim R) s depth (V : admissible sm s depth) fuel w' i r :
  simulate fuel sm (initial_world s [] depth) = Some (Ok tt, w') -> (i < w_iter w')%nat -> nth_error (w_log w') i = Some r ->
  exists w0 wi wj v rho wd sl hb ra dT dt,
    init_effusion_rate sm (initial_world s [] depth) = (Ok tt, w0) /\ w_iter w0 = 0%nat /\ sound sm s w0 /\
    run_loop sm fuel w0 = Some (Ok tt, w') /\
    steps sm i w0 = (Ok tt, wi) /\ steps sm (S i) w0 = (Ok tt, wj) /\ single_step sm wi = (Ok tt, wj) /\
    completed_step sm wi wj v rho wd sl hb ra dT dt /\
    sound sm s wi /\ w_fin wi = false /\ w_iter wi = i /\ w_depth wi = w_depth w0 /\ st_pos (w_st wi) = st_pos s + INR i * s_dx sm /\
    holds r "core_temperature" (st_temp (w_st wi)) /\ holds r "crystal_fraction" (st_phi (w_st wi)) /\
    holds r "mean_velocity" v /\ holds r "dtemp_dx" dT /\ holds r "dphi_dx" (- ra * dT).
Proof.
  intros H Hi Hr. assert (Pdx := va_dx _ _ _ V). assert (Hdx : s_dx sm <> 0) by lra.
  destruct (run_sequences sm fuel s depth w' Hdx H i Hi) as (N1 & (N2 & _) & _). rewrite Hr in N1. injection N1 as N1. rewrite <- N1 in N2.
  destruct (row_step sm fuel s depth w' i r Hdx H Hi Hr) as
    (wi & wj & v & rho & wd & slp & hb & ra & dT & dt & C & SR & E1 & E2 & E3 & Cphi & Ctemp & Hn & w0 & E0 & Hs & H1).
  destruct (vent_init sm s depth V []) as (w0' & E0' & S0 & _ & I0). rewrite E0 in E0'. injection E0' as <-.
  assert (H' := H). unfold simulate in H'. rewrite E0 in H'.
  assert (Sw : sound sm s wi) by (apply (run_sound sm s depth V fuel w0 w' S0 H' i wi Hs); lia).
  exists w0, wi, wj, v, rho, wd, slp, hb, ra, dT, dt.
  split; [exact E0|]. split; [exact I0|]. split; [exact S0|]. split; [exact H'|]. split; [exact Hs|].
  split; [exact (steps_add _ _ _ _ _ Hs H1)|]. split; [exact H1|]. split; [exact C|]. split; [exact Sw|].
  split.
  { destruct (run_loop_steps _ _ _ _ H') as (n & _ & Hn' & _ & Hnf). apply (Hnf i); [|exact Hs].
    assert (Q := steps_iter_le _ _ _ _ Hn'). lia. }
  split.
  { assert (Q1 := steps_iter_le _ _ _ _ Hs). destruct (Nat.eq_dec (w_iter wi) i); [assumption|exfalso].
    assert (Hp := Hn "position"). assert (Hq : st_pos (w_st wi) = st_pos s + INR i * s_dx sm).
    { unfold holds in N2. rewrite N2 in Hp. unfold logged in Hp.
      destruct (find (row_at (st_pos (w_st wi))) (w_log wj)) as [q|] eqn:Ff; [|discriminate].
      apply find_some in Ff as [_ Ff]. unfold row_at in Ff. rewrite <- Hp in Ff. now apply R_eqb_true in Ff. }
    destruct (run_rows sm fuel s depth w' Hdx H) as (w0' & wn & E0' & HW & _).
    destruct (HW i r Hi Hr) as (xi & xj & Xs & _ & Xi & _). rewrite E0 in E0'. injection E0' as <-. rewrite Hs in Xs. injection Xs as <-.
    cbn in Xi. lia. }
  split; [exact (proj1 (C17_depth_and_flux_constant sm _ _ _ _ Hs))|].
  split.
  { assert (Q := Hn "position"). unfold holds in N2. rewrite N2 in Q. unfold logged in Q.
    destruct (find (row_at (st_pos (w_st wi))) (w_log wj)) as [q|] eqn:Ff; [|discriminate].
    apply find_some in Ff as [_ Ff]. unfold row_at in Ff. rewrite <- Q in Ff. now apply R_eqb_true in Ff. }
  destruct SR as [S1 S2 S3 S4 S5 S6 S7 S8 S9 S10 S11]. unfold holds. rewrite !Hn.
  split; [exact Ctemp|]. split; [exact Cphi|]. split; [exact S1|]. split; [exact S8|]. rewrite S9. do 2 f_equal. rnum. ring.
Qed.

(** ** C80 *)
(** [r'] shows, at the same place as [r], a lava at least as hot, with at most
    as many crystals, flowing at least as fast. *)
Definition at_least_as_mobile (r r' : row R) : Prop :=
  exists x temp phi v temp' phi' v',
    holds r "position" x /\ holds r' "position" x /\
    holds r "core_temperature" temp /\ holds r' "core_temperature" temp' /\
    holds r "crystal_fraction" phi /\ holds r' "crystal_fraction" phi' /\
    holds r "mean_velocity" v /\ holds r' "mean_velocity" v' /\
    temp <= temp' /\ phi' <= phi /\ v <= v'.

(** Two set-ups that differ in the air, the heat fluxes and the latent heat only.
    If, for every warm surface, the second loses no more heat per unit of latent
    heat than the first, then for all small enough step sizes the second table
    has every row the first has (while the lava of the first flows at [v0] or
    more below the packing limit), and in each the lava is at least as hot, as
    poor in crystals and as fast. *)
Theorem C80_smaller_losses_flow_further :
  forall (d d' : json R) profile profile' mo mo' (sm : sim R) (s : state R) depth phi1 v0 a b L,
  build_models d profile = Ok mo -> s_budget sm = mo_budget mo ->
  build_models d' profile' = Ok mo' -> b = mo_budget mo' ->
  losing sm s depth -> losing (with_losses a b L sm) s depth -> smooth sm phi1 ->
  thins_with_heat (lv_melt (s_lava sm)) -> 0 < v0 ->
  (forall u, warm_surface (get_solid_temperature (s_cryst sm)) (air_temp (s_air sm)) u ->
     warm_surface (get_solid_temperature (s_cryst sm)) (air_temp a) u ->
     heat_loss a b u / L <= heat_loss (s_air sm) (s_budget sm) u / lv_latent (s_lava sm)) ->
  exists h0, 0 < h0 /\ forall h n fuel fuel' w w', 0 < h <= h0 ->
    simulate fuel (with_step h sm) (initial_world s [] depth) = Some (Ok tt, w) ->
    simulate fuel' (with_step h (with_losses a b L sm)) (initial_world s [] depth) = Some (Ok tt, w') ->
    (n < w_iter w)%nat -> flows_freely v0 phi1 (w_log w) n ->
    (n < w_iter w')%nat /\
    forall i, (i <= n)%nat -> exists r r', nth_error (w_log w) i = Some r /\ nth_error (w_log w') i = Some r' /\
      at_least_as_mobile r r'.
Proof.
  intros d d' profile profile' mo mo' sm s depth phi1 v0 a b L Hb Es Hb' Es' K K' S Thin Hv0 Less.
  assert (V := co_admissible _ _ _ K).
  destruct (gradients sm s depth phi1 v0 V S Hv0) as (D & su & vel & G & rate & _ & Prate & DG & HG).
  destruct (HG d profile mo (s_air sm) (s_budget sm) (lv_latent (s_lava sm)) Hb Es) as ((L1 & B1 & HL1 & HB1 & HF1) & W1 & G1);
    [rewrite with_losses_same; exact K|]. rewrite with_losses_same in G1.
  destruct (HG d' profile' mo' a b L Hb' Es' K') as (_ & W2 & G2). clear HG.
  set (F1 := fun p => - (heat_loss (s_air sm) (s_budget sm) (su p) / (lv_latent (s_lava sm) * G p))) in *.
  set (F2 := fun p => - (heat_loss a b (su p) / (L * G p))) in *.
  assert (P1 : 0 < lv_latent (s_lava sm)) by apply (va_lava _ _ _ V).
  assert (P2 : 0 < L) by apply (va_lava _ _ _ (co_admissible _ _ _ K')).
  assert (F12 : forall p, D p -> F1 p <= F2 p).
  { intros p Hp. specialize (Less (su p) (W1 p Hp) (W2 p Hp)). destruct (DG p Hp) as [_ PG]. unfold F1, F2.
    apply Ropp_le_contravar.
    replace (heat_loss a b (su p) / (L * G p)) with (heat_loss a b (su p) / L * / G p) by (field; lra).
    replace (heat_loss (s_air sm) (s_budget sm) (su p) / (lv_latent (s_lava sm) * G p))
      with (heat_loss (s_air sm) (s_budget sm) (su p) / lv_latent (s_lava sm) * / G p) by (field; lra).
    apply Rmult_le_compat_r; [apply Rlt_le, Rinv_0_lt_compat, PG|exact Less]. }
  exists (/ (L1 * (1 + rate) + 1)). assert (PL1 : 0 <= L1 * (1 + rate)) by (apply Rmult_le_pos; lra).
  split; [apply Rinv_0_lt_compat; lra|].
  intros h n fuel fuel' w w' [Hh Hh0] H H' Hn Free.
  assert (Hhl : h * (L1 * (1 + rate)) <= 1).
  { assert (Q : h * (L1 * (1 + rate) + 1) <= 1); [|nra].
    apply Rmult_le_reg_r with (/ (L1 * (1 + rate) + 1)); [apply Rinv_0_lt_compat; lra|]. rewrite Rmult_assoc, Rinv_r, Rmult_1_r, Rmult_1_l by lra. exact Hh0. }
  set (sm1 := with_step h sm) in *. set (sm2 := with_step h (with_losses a b L sm)) in *.
  assert (K1 : losing sm1 s depth) by now apply losing_step.
  assert (K2 : losing sm2 s depth) by (apply losing_step; [exact K'|exact Hh]).
  assert (V1 := co_admissible _ _ _ K1). assert (V2 := co_admissible _ _ _ K2).
  assert (Q1 : s_dx sm1 <> 0) by (change (h <> 0); lra). assert (Q2 : s_dx sm2 <> 0) by (change (h <> 0); lra).
  assert (S1 := run_sequences sm1 _ _ _ w Q1 H). assert (S2 := run_sequences sm2 _ _ _ w' Q2 H'). cbv zeta in S1, S2.
  change (s_dx sm1) with h in *. change (s_dx sm2) with h in *.
  set (r1 k := nth k (w_log w) []) in *. set (r2 k := nth k (w_log w') []) in *.
  set (T1 k := value (r1 k) "core_temperature") in *. set (T2 k := value (r2 k) "core_temperature") in *.
  set (C1 k := value (r1 k) "crystal_fraction") in *. set (C2 k := value (r2 k) "crystal_fraction") in *.
  set (inv := fun i => (i < w_iter w')%nat /\ T1 i <= T2 i /\ C1 i = st_phi s + rate * (st_temp s - T1 i) /\ C2 i = st_phi s + rate * (st_temp s - T2 i)).
  (* one place of the two tables *)
  assert (Place : forall i, (i <= n)%nat -> inv i -> exists v1 v2,
    holds (r1 i) "mean_velocity" v1 /\ holds (r2 i) "mean_velocity" v2 /\ v1 <= v2 /\
    let p1 := {| px := st_pos s + INR i * h; pt := T1 i; pp := C1 i |} in
    let p2 := {| px := st_pos s + INR i * h; pt := T2 i; pp := C2 i |} in
    D p1 /\ D p2 /\ value (r1 i) "dtemp_dx" = F1 p1 /\ value (r1 i) "dphi_dx" = - rate * F1 p1 /\
    value (r2 i) "dtemp_dx" = F2 p2 /\ value (r2 i) "dphi_dx" = - rate * F2 p2).
  { intros i Hi (I1 & I2 & I3 & I4). assert (Hi1 : (i < w_iter w)%nat) by lia.
    destruct (S1 i Hi1) as (N1 & R1 & _). destruct (S2 i I1) as (N2 & R2 & _). fold (r1 i) (T1 i) (C1 i) in N1, R1. fold (r2 i) (T2 i) (C2 i) in N2, R2.
    destruct (row_world sm1 s depth V1 fuel w i _ H Hi1 N1) as
      (w0 & wi & wj & v & rho & wd & sl & hb & ra & dT & dt & E0 & J0 & S0 & RL & St & _ & _ & C & Sw & _ & Ii & Ed & Ex & Et & Ep & Ev & _).
    destruct (row_world sm2 s depth V2 fuel' w' i _ H' I1 N2) as
      (w0' & wi' & wj' & v' & rho' & wd' & sl' & hb' & ra' & dT' & dt' & E0' & _ & _ & _ & St' & _ & _ & C' & Sw' & _ & Ii' & Ed' & Ex' & Et' & Ep' & Ev' & _).
    assert (w0' = w0) as ->. { unfold sm2 in E0'. unfold sm1 in E0. rewrite init_losses in E0'. rewrite init_step in E0. congruence. }
    assert (R1' := R1). assert (R2' := R2). destruct R1' as (A1 & A2 & A3 & A4 & A5). destruct R2' as (A1' & A2' & A3' & A4' & A5').
    assert (X1 : st_temp (w_st wi) = T1 i) by exact (holds_fun _ _ _ _ Et A2). assert (X2 : st_temp (w_st wi') = T2 i) by exact (holds_fun _ _ _ _ Et' A2').
    assert (Y1 : st_phi (w_st wi) = C1 i) by exact (holds_fun _ _ _ _ Ep A3). assert (Y2 : st_phi (w_st wi') = C2 i) by exact (holds_fun _ _ _ _ Ep' A3').
    destruct (Free i (r1 i) v (C1 i) Hi N1 Ev A3) as [Fv Fp].
    assert (Hcr : C2 i <= C1 i) by (rewrite I3, I4; assert (rate * T1 i <= rate * T2 i) by (apply Rmult_le_compat_l; lra); lra).
    assert (Vel : v <= v').
    { destruct (cs_budget _ _ _ _ _ _ _ _ _ _ _ C) as (new & w2 & Mv & _). destruct (cs_budget _ _ _ _ _ _ _ _ _ _ _ C') as (new' & w2' & Mv' & _).
      change (mean_velocity (s_lava sm) (s_ter sm) (w_depth wi) (w_st wi) = Ok (v, new)) in Mv.
      change (mean_velocity (s_lava sm) (s_ter sm) (w_depth wi') (w_st wi') = Ok (v', new')) in Mv'.
      destruct i as [|i].
      - injection St as <-. injection St' as <-. rewrite Mv in Mv'. injection Mv' as <- _. lra.
      - assert (Stg := so_stage _ _ _ (so_nearly _ _ _ Sw)). destruct Stg as [(_ & _ & _ & Z)|(_ & _ & Hy & _)]; [lia|].
        destruct (hotter_flows_better sm s depth phi1 V S Thin (w_st wi) (w_st wi')) as (m1 & m2 & y1 & y2 & Z1 & Z2 & Z3 & Z4 & Z5 & Z6).
        + exact (sound_inside _ _ _ V1 _ (so_nearly _ _ _ Sw)).
        + exact (sound_inside _ _ _ V2 _ (so_nearly _ _ _ Sw')).
        + rewrite Y1. exact Fp.
        + rewrite Ex, Ex'. reflexivity.
        + rewrite X1, X2. exact I2.
        + rewrite Y1, Y2. exact Hcr.
        + destruct (basal_inside (s_lava sm) (s_ter sm) (w_depth wi) (w_st wi) (va_slope _ _ _ V)) as (rh & sx & _ & _ & Eb).
          set (tb := w_depth wi * rh * ter_gravity (s_ter sm) * sin sx) in Eb.
          assert (Eb' : get_basal_shear_stress (s_lava sm) (s_ter sm) (w_depth wi') (w_st wi') = Ok tb).
          { rewrite Ed', <- Ed, <- Eb. apply basal_same. rewrite Ex, Ex'. reflexivity. }
          destruct (C32_stop_criterion _ _ _ _ _ _ Z4 Eb) as [_ [Z7 _]].
          change (yield_strength_notcompatible (s_lava sm) (s_ter sm) (w_depth wi) (w_st wi) = Ok false) in Hy. specialize (Z7 Hy).
          assert (Pd := so_depth _ _ _ (so_nearly _ _ _ Sw)).
          refine (proj1 (C23_velocity_monotone _ _ _ _ _ _ _ _ _ _ _ _ _ _ _ _ _ _ Z1 Z4 Eb Z2 Z5 Eb' Mv Mv' _ Z3 Z6 _)); [rewrite Ed, Ed' in *; lra|lra]. }
    exists v, v'. split; [exact Ev|]. split; [exact Ev'|]. split; [exact Vel|]. cbv zeta.
    destruct (G1 h fuel w Hh H i (r1 i) _ _ _ _ _ v Hi1 N1 R1 Ev) as [_ U1].
    destruct (G2 h fuel' w' Hh H' i (r2 i) _ _ _ _ _ v' I1 N2 R2 Ev') as [_ U2].
    destruct (U1 Fv Fp) as (D1 & U11 & U12 & _). destruct (U2 ltac:(lra) ltac:(lra)) as (D2 & U21 & U22 & _). auto 10. }
  (* the next place *)
  assert (Step : forall i, (Datatypes.S i <= n)%nat -> inv i -> inv (Datatypes.S i)).
  { intros i Hi I. destruct (Place i ltac:(lia) I) as (v1 & v2 & _ & _ & _ & D1 & D2 & E1 & E2 & E3 & E4).
    destruct I as (I1 & I2 & I3 & I4). assert (Hi1 : (i < w_iter w)%nat) by lia.
    set (p1 := {| px := st_pos s + INR i * h; pt := T1 i; pp := C1 i |}) in *. set (p2 := {| px := st_pos s + INR i * h; pt := T2 i; pp := C2 i |}) in *.
    destruct (S1 i Hi1) as (_ & _ & _ & Nx). destruct (Nx ltac:(lia)) as [Nx1 Nx2]. fold (r1 (Datatypes.S i)) (T1 (Datatypes.S i)) (C1 (Datatypes.S i)) in Nx1, Nx2.
    fold (T1 i) (C1 i) in Nx1, Nx2. rewrite E1 in Nx1. rewrite E2 in Nx2.
    (* the second run after its row i *)
    destruct (S2 i I1) as (N2 & R2 & _ & Nx'). fold (r2 i) in N2.
    destruct (row_world sm2 s depth V2 fuel' w' i _ H' I1 N2) as
      (w0 & wi & wj & v & rho & wd & sl & hb & ra & dT & dt & E0 & J0 & S0 & RL & St & Stj & Sg & C & Sw & Fi & Ii & Ed & Ex & Et & Ep & Ev & EdT & Edp).
    destruct R2 as (A1' & A2' & A3' & A4' & A5').
    assert (X2 : st_temp (w_st wi) = T2 i) by exact (holds_fun _ _ _ _ Et A2'). assert (Y2 : st_phi (w_st wi) = C2 i) by exact (holds_fun _ _ _ _ Ep A3').
    assert (Z2 : dT = F2 p2) by (rewrite <- E3; exact (holds_fun _ _ _ _ EdT A4')).
    assert (Z3 : - ra * dT = - rate * F2 p2) by (rewrite <- E4; exact (holds_fun _ _ _ _ Edp A5')).
    set (t2 := T2 i + F2 p2 * h). set (c2 := C2 i + - rate * F2 p2 * h).
    assert (Xj : st_temp (w_st wj) = t2).
    { rewrite (cs_temp _ _ _ _ _ _ _ _ _ _ _ C), X2, Z2. reflexivity. }
    assert (Yj : st_phi (w_st wj) = c2).
    { rewrite (cs_phi _ _ _ _ _ _ _ _ _ _ _ C), Y2. rnum. change (s_dx sm2) with h. unfold c2. rewrite <- Z3. ring. }
    assert (Pj : st_pos (w_st wj) = st_pos s + INR (Datatypes.S i) * h).
    { rewrite (cs_pos _ _ _ _ _ _ _ _ _ _ _ C), Ex, S_INR. rnum. change (s_dx sm2) with h. ring. }
    (* the order is kept *)
    assert (Ord : T1 (Datatypes.S i) <= t2).
    { rewrite Nx1. unfold t2. assert (Q := F12 p2 D2). destruct (HF1 _ D1) as [_ Ql]. specialize (Ql _ D2). unfold dist, p1, p2 in Ql. cbn [px pt pp] in Ql.
      rewrite (Rminus_diag_eq (st_pos s + INR i * h)), Rabs_R0 in Ql by reflexivity.
      replace (C1 i - C2 i) with (rate * (T2 i - T1 i)) in Ql by (rewrite I3, I4; ring).
      rewrite Rabs_mult, (Rabs_right rate), (Rabs_right (T2 i - T1 i)), (Rabs_minus_sym (T1 i)), (Rabs_right (T2 i - T1 i)) in Ql by lra.
      fold p1 p2 in Ql. change (Rabs (F1 p1 - F1 p2) <= L1 * (0 + (T2 i - T1 i) + rate * (T2 i - T1 i))) in Ql. assert (Qa := Rle_abs (F1 p1 - F1 p2)).
      set (g := T2 i - T1 i) in *. assert (Pg : 0 <= g) by (unfold g; lra).
      assert (Qb : F1 p1 - F2 p2 <= L1 * (1 + rate) * g).
      { replace (L1 * (1 + rate) * g) with (L1 * (0 + g + rate * g)) by ring. lra. }
      assert (Qc : h * (F1 p1 - F2 p2) <= h * (L1 * (1 + rate)) * g) by (rewrite Rmult_assoc; apply Rmult_le_compat_l; lra).
      assert (Qd : h * (L1 * (1 + rate)) * g <= 1 * g) by (apply Rmult_le_compat_r; lra). unfold g in Qc, Qd. lra. }
    assert (Lin1 : C1 (Datatypes.S i) = st_phi s + rate * (st_temp s - T1 (Datatypes.S i))) by (rewrite Nx1, Nx2, I3; ring).
    assert (Lin2 : c2 = st_phi s + rate * (st_temp s - t2)) by (unfold c2, t2; rewrite I4; ring).
    assert (Cord : c2 <= C1 (Datatypes.S i)).
    { rewrite Lin1, Lin2. assert (rate * T1 (Datatypes.S i) <= rate * t2) by (apply Rmult_le_compat_l; lra). lra. }
    assert (Nlt : (Datatypes.S i < w_iter w')%nat).
    { (* the first run's world at the next row *)
      assert (Hi2 : (Datatypes.S i < w_iter w)%nat) by lia.
      destruct (S1 (Datatypes.S i) Hi2) as (M1 & MR & _). fold (r1 (Datatypes.S i)) in M1, MR.
      destruct (row_world sm1 s depth V1 fuel w (Datatypes.S i) _ H Hi2 M1) as
        (w0' & wk & wl & vk & rhok & wdk & slk & hbk & rak & dTk & dtk & E0' & _ & _ & _ & _ & _ & _ & _ & Sk & _ & Ik & Edk & Exk & Etk & Epk & Evk & _).
      assert (w0' = w0) as ->. { unfold sm2 in E0. unfold sm1 in E0'. rewrite init_losses in E0. rewrite init_step in E0'. congruence. }
      destruct MR as (_ & M2 & M3 & _).
      assert (Xk : st_temp (w_st wk) = T1 (Datatypes.S i)) by exact (holds_fun _ _ _ _ Etk M2).
      assert (Yk : st_phi (w_st wk) = C1 (Datatypes.S i)) by exact (holds_fun _ _ _ _ Epk M3).
      destruct (Free (Datatypes.S i) _ vk (C1 (Datatypes.S i)) Hi M1 Evk M3) as [_ Fp].
      assert (Ink := sound_inside _ _ _ V1 _ (so_nearly _ _ _ Sk)). destruct Ink as (K1x & K1t & K1p).
      change (region_of sm1 s) with (region_of sm s) in *. cbn [region_of rg_x0 rg_x1 rg_ts rg_te rg_phi0 rg_cap] in K1x, K1t, K1p.
      assert (Inw := sound_inside _ _ _ V2 _ (so_nearly _ _ _ Sw)). destruct Inw as (K2x & K2t & K2p).
      change (region_of sm2 s) with (region_of sm s) in *. cbn [region_of rg_x0 rg_x1 rg_ts rg_te rg_phi0 rg_cap] in K2x, K2t, K2p.
      assert (Gr := cs_phi_grows _ _ _ _ _ _ _ _ _ _ _ C). rnum. apply R_leb_false in Gr. rewrite Yj, Y2 in Gr.
      assert (Tup : t2 <= st_temp s).
      { apply Rmult_le_reg_l with rate; [exact Prate|]. rewrite Y2 in K2p. lra. }
      assert (Inj : inside (region_of sm s) (w_st wj)).
      { unfold inside. cbn [region_of rg_x0 rg_x1 rg_ts rg_te rg_phi0 rg_cap]. rewrite Xj, Yj, Pj. rewrite Exk in K1x. rewrite Xk in K1t. rewrite Yk in K1p.
        change (s_dx sm1) with h in K1x. rewrite Y2 in K2p. split; [exact K1x|]. split; lra. }
      assert (Ink : inside (region_of sm s) (w_st wk)).
      { unfold inside. cbn [region_of rg_x0 rg_x1 rg_ts rg_te rg_phi0 rg_cap]. auto. }
      destruct (hotter_flows_better sm s depth phi1 V S Thin (w_st wk) (w_st wj) Ink Inj) as (m1 & m2 & y1 & y2 & _ & _ & _ & Y4 & Y5 & Y6);
        [rewrite Yk; exact Fp|rewrite Exk, Pj; reflexivity|rewrite Xk, Xj; exact Ord|rewrite Yk, Yj; exact Cord|].
      destruct (basal_inside (s_lava sm) (s_ter sm) (w_depth wk) (w_st wk) (va_slope _ _ _ V)) as (rh & sx & _ & _ & Eb).
      set (tb := w_depth wk * rh * ter_gravity (s_ter sm) * sin sx) in Eb.
      assert (Edj : w_depth wj = w_depth w0) by exact (proj1 (C17_depth_and_flux_constant sm2 _ _ _ _ Stj)).
      assert (Eb' : get_basal_shear_stress (s_lava sm) (s_ter sm) (w_depth wj) (w_st wj) = Ok tb).
      { rewrite Edj, <- Edk, <- Eb. apply basal_same. rewrite Exk, Pj. reflexivity. }
      destruct (so_stage _ _ _ (so_nearly _ _ _ Sk)) as [(_ & _ & _ & Zz)|(_ & _ & Hy & _)]; [lia|].
      change (yield_strength_notcompatible (s_lava sm) (s_ter sm) (w_depth wk) (w_st wk) = Ok false) in Hy.
      destruct (C32_stop_criterion _ _ _ _ _ _ Y4 Eb) as [_ [Y7 _]]. specialize (Y7 Hy).
      destruct (below_is_compatible sm s depth phi1 V S (w_st wj)) as [Cm Np];
        [rewrite Pj; assert (X0 := proj1 (va_pos _ _ _ V)); assert (0 <= INR (Datatypes.S i) * h) by (apply Rmult_le_pos; [apply pos_INR|lra]); lra|rewrite Yj; lra|].
      assert (Pass : passes sm2 wj).
      { split; [|split; [|split]].
        - apply R_leb_false. change (get_solid_temperature (s_cryst sm) < st_temp (w_st wj)). rewrite Xj. rewrite Xk in K1t. lra.
        - exact Cm.
        - apply (C32_stop_criterion (s_lava sm) (s_ter sm) (w_depth wj) (w_st wj) y2 tb Y5 Eb'). lra.
        - apply R_leb_false. change (st_pos (w_st wj) < ter_maxlen (s_ter sm)). rewrite Pj. rewrite Exk in K1x. apply K1x. }
      assert (Fj : w_fin wj = false).
      { destruct (cs_fin _ _ _ _ _ _ _ _ _ _ _ C) as [[_ Nq]|[Fq _]]; [destruct (Nq Pass)|congruence]. }
      apply (goes_on sm2 s depth K2 fuel' w0 w' (Datatypes.S i) wj J0 RL Stj).
      - rewrite (cs_iter _ _ _ _ _ _ _ _ _ _ _ C), Ii. reflexivity.
      - right. exact I1.
      - exact Fj.
      - constructor; [exact (sound_next _ _ _ V2 _ _ Sw Sg Fj)|exact Np].
      - intros t Q3 Q4. change (get_yield_strength (s_lava sm) (w_st wj) = Ok t) in Q3.
        change (get_basal_shear_stress (s_lava sm) (s_ter sm) (w_depth wj) (w_st wj) = Ok t) in Q4.
        rewrite Y5 in Q3. rewrite Eb' in Q4. injection Q3 as Q3. injection Q4 as Q4. lra. }
    destruct (Nx' Nlt) as [Nx1' Nx2']. fold (r2 (Datatypes.S i)) (T2 (Datatypes.S i)) (C2 (Datatypes.S i)) in Nx1', Nx2'. fold (r2 i) (T2 i) (C2 i) in Nx1', Nx2'.
    rewrite E3 in Nx1'. rewrite E4 in Nx2'. fold t2 in Nx1'. fold c2 in Nx2'.
    split; [exact Nlt|]. rewrite Nx1', Nx2'. auto. }
  assert (Inv0 : inv 0%nat).
  { assert (H0 : (0 < w_iter w)%nat) by lia. destruct (S1 0%nat H0) as (M1 & _ & Z1 & _). destruct (Z1 eq_refl) as [Z2 Z3]. fold (r1 0%nat) in M1, Z2, Z3.
    destruct (row_world sm1 s depth V1 fuel w 0%nat _ H H0 M1) as
      (w0 & wi & wj & v & rho & wd & sl & hb & ra & dT & dt & E0 & J0 & S0 & RL & St & _ & _ & C & Sw & Fi & _).
    injection St as <-.
    assert (H0' : (0 < w_iter w')%nat).
    { assert (E0' : init_effusion_rate sm2 (initial_world s [] depth) = (Ok tt, w0)) by (unfold sm2; unfold sm1 in E0; rewrite init_losses; rewrite init_step in E0; exact E0).
      destruct (vent_init sm2 s depth V2 []) as (w0' & E0'' & S0' & _ & _). rewrite E0' in E0''. injection E0'' as <-.
      unfold simulate in H'. rewrite E0' in H'.
      apply (goes_on sm2 s depth K2 fuel' w0 w' 0%nat w0 J0 H' eq_refl J0 (or_introl eq_refl) Fi S0').
      intros t Y1 Y2. destruct (cs_budget _ _ _ _ _ _ _ _ _ _ _ C) as (new & w2 & Mv & _).
      destruct (C20_velocity_only_if _ _ _ _ _ _ Mv) as (mu' & t0x & tbx & _ & Y1' & Y2' & _ & Nb & _ & Y3 & _).
      change (get_yield_strength (s_lava sm1) (w_st w0) = Ok t) in Y1. change (get_basal_shear_stress (s_lava sm1) (s_ter sm1) (w_depth w0) (w_st w0) = Ok t) in Y2.
      assert (t0x = t) as -> by congruence. assert (tbx = t) as -> by congruence.
      assert (Pv := cs_vpos _ _ _ _ _ _ _ _ _ _ _ C). rnum. apply R_leb_false in Pv.
      assert (Z : jeffreys_bingham (w_depth w0) t t mu' = 0); [|lra].
      unfold jeffreys_bingham. replace (t / t) with 1 by (field; exact Nb). replace (1 - 3 / 2 * 1 + 1 / 2 * 1 ^ 3) with 0 by field. apply Rmult_0_r. }
    destruct (S2 0%nat H0') as (_ & _ & Z1' & _). destruct (Z1' eq_refl) as [Z2' Z3']. fold (r2 0%nat) in Z2', Z3'.
    unfold inv, T1, T2, C1, C2. rewrite Z2, Z3, Z2', Z3'. split; [exact H0'|]. split; [lra|]. split; ring. }
  assert (Inv : forall i, (i <= n)%nat -> inv i).
  { induction i as [|i IH]; intros Hi; [exact Inv0|]. apply Step; [exact Hi|]. apply IH. lia. }
  split; [apply (Inv n (le_n _))|]. intros i Hi. assert (I := Inv i Hi).
  destruct (Place i Hi I) as (v1 & v2 & P3 & P4 & P5 & _). destruct I as (I1 & I2 & I3 & I4).
  destruct (S1 i ltac:(lia)) as (N1 & (A1 & A2 & A3 & _) & _). destruct (S2 i I1) as (N2 & (A1' & A2' & A3' & _) & _).
  exists (r1 i), (r2 i). split; [exact N1|]. split; [exact N2|].
  exists (st_pos s + INR i * h), (T1 i), (C1 i), v1, (T2 i), (C2 i), v2. do 8 (split; [assumption|]). split; [exact I2|]. split; [|exact P5].
  rewrite I3, I4. assert (rate * T1 i <= rate * T2 i) by (apply Rmult_le_compat_l; lra). lra.
Qed.
