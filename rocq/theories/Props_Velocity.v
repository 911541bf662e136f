(** * Properties C20-C23 (and the refuted part of C19): the mean velocity *)
From Verif Require Import Base Num Json Logger World Vesicle MeltVisc RelVisc Bubbles Terrain Lava
  Thermal Flux Integrator Spec Frame RNum Props_Run.
Open Scope R_scope.

(** The Jeffreys equation for a Bingham fluid, as in the paper: depth [h],
    yield strength [t0], basal stress [tb], viscosity [mu]. *)
Definition jeffreys_bingham (h t0 tb mu : R) : R :=
  h * tb / (3 * mu) * (1 - 3 / 2 * (t0 / tb) + 1 / 2 * (t0 / tb) ^ 3).

(** ** C20 *)
Lemma velocity_formula_R h t0 tb mu :
  mu <> 0 -> tb <> 0 -> velocity_formula h t0 tb mu = Ok (jeffreys_bingham h t0 tb mu).
Proof.
  intros Hm Hb. unfold velocity_formula, jeffreys_bingham. rnum.
  rewrite R_div_ok by lra. cbn [rbind]. rewrite R_div_ok by auto. cbn [rbind].
  unfold R_pow. rewrite R_power_3. reflexivity.
Qed.
Lemma velocity_formula_R_inv h t0 tb mu v :
  velocity_formula h t0 tb mu = Ok v ->
  mu <> 0 /\ tb <> 0 /\ v = jeffreys_bingham h t0 tb mu.
Proof.
  intros H. assert (Hn : mu <> 0 /\ tb <> 0).
  { unfold velocity_formula in H. apply rbind_ok in H as (a & Ha & H). apply rbind_ok in H as (r & Hr & _).
    rnum. apply R_div_inv in Ha as [Ha _]. apply R_div_inv in Hr as [Hr _]. split; auto. lra. }
  destruct Hn as [H1 H2]. rewrite velocity_formula_R in H by auto. injection H as <-. auto.
Qed.

Lemma velocity_loop_R fuel l s h t0 tb strain mu :
  computes_bulk_viscosity l s = Ok mu -> mu <> 0 -> tb <> 0 -> h <> 0 ->
  let v := jeffreys_bingham h t0 tb mu in
  velocity_loop (S (S fuel)) l s h t0 tb strain = Ok (v, 3 * v / h).
Proof.
  intros Hmu Hm Hb Hh v. cbn [velocity_loop]. rewrite Hmu. cbn [rbind].
  rewrite velocity_formula_R by auto. cbn [rbind]. fold v. rnum.
  rewrite R_div_ok by auto. cbn [rbind].
  match goal with |- (if ?b then _ else _) = _ => destruct b; [reflexivity|] end.
  match goal with |- (if ?b then _ else _) = _ => replace b with true; [reflexivity|] end.
  symmetry. apply R_leb_true. unfold py_max. rnum.
  replace (3 * v / h - 3 * v / h) with 0 by ring. rewrite Rabs_R0.
  destruct (R_ltb _ _) eqn:E; rtests; lra.
Qed.

(** The solver always returns the Jeffreys-Bingham velocity for the viscosity
    at the strain rate the state has on entry, and the strain rate 3v/h; it
    never runs out of iterations. *)
Theorem C20_velocity_is_jeffreys : forall (l : lava R) t depth s mu t0 tb,
  computes_bulk_viscosity l s = Ok mu ->
  get_yield_strength l s = Ok t0 ->
  get_basal_shear_stress l t depth s = Ok tb ->
  mu <> 0 -> tb <> 0 -> depth <> 0 ->
  let v := jeffreys_bingham depth t0 tb mu in
  mean_velocity l t depth s = Ok (v, 3 * v / depth).
Proof.
  intros l t depth s mu t0 tb Hmu H0 Hb Hm Hb0 Hd v. unfold mean_velocity.
  unfold get_yield_strength in H0. unfold get_basal_shear_stress in Hb. rewrite H0, Hb.
  cbn [rbind]. now apply velocity_loop_R.
Qed.

(** Conversely a velocity is only ever returned in that case. *)
Theorem C20_velocity_only_if : forall (l : lava R) t depth s v new,
  mean_velocity l t depth s = Ok (v, new) ->
  exists mu t0 tb,
    computes_bulk_viscosity l s = Ok mu /\ get_yield_strength l s = Ok t0 /\
    get_basal_shear_stress l t depth s = Ok tb /\ mu <> 0 /\ tb <> 0 /\ depth <> 0 /\
    v = jeffreys_bingham depth t0 tb mu /\ new = 3 * v / depth.
Proof.
  intros l t depth s v new H.
  apply mean_velocity_spec in H as (mu & t0 & tb & Hmu & H0 & Hb & Hv & Hn).
  apply velocity_formula_R_inv in Hv as (Hm & Hb0 & ->). rnum. apply R_div_inv in Hn as [Hd ->].
  exists mu, t0, tb. auto 10.
Qed.

(** No input makes the iteration fail to converge. *)
Theorem C20_never_fails_to_converge : forall (l : lava R) t depth s mu t0 tb msg,
  computes_bulk_viscosity l s = Ok mu -> get_yield_strength l s = Ok t0 ->
  get_basal_shear_stress l t depth s = Ok tb ->
  mean_velocity l t depth s <> Err (RuntimeError msg).
Proof.
  intros l t depth s mu t0 tb msg Hmu H0 Hb H.
  destruct (Req_dec mu 0) as [Em|Hm].
  { unfold mean_velocity in H. unfold get_yield_strength in H0. unfold get_basal_shear_stress in Hb.
    rewrite H0, Hb in H. cbn [rbind velocity_loop] in H. rewrite Hmu in H. cbn [rbind] in H.
    unfold velocity_formula in H at 1. rnum. rewrite Em, Rmult_0_r, R_div_0 in H. discriminate. }
  destruct (Req_dec tb 0) as [Eb|Hb0].
  { unfold mean_velocity in H. unfold get_yield_strength in H0. unfold get_basal_shear_stress in Hb.
    rewrite H0, Hb in H. cbn [rbind velocity_loop] in H. rewrite Hmu in H. cbn [rbind] in H.
    unfold velocity_formula in H at 1. rnum. rewrite R_div_ok in H by lra. cbn [rbind] in H.
    rewrite Eb, R_div_0 in H. discriminate. }
  destruct (Req_dec depth 0) as [Ed|Hd].
  { unfold mean_velocity in H. unfold get_yield_strength in H0. unfold get_basal_shear_stress in Hb.
    rewrite H0, Hb in H. cbn [rbind velocity_loop] in H. rewrite Hmu in H. cbn [rbind] in H.
    rewrite velocity_formula_R in H by auto. cbn [rbind] in H. rnum. rewrite Ed, R_div_0 in H. discriminate. }
  rewrite (C20_velocity_is_jeffreys l t depth s mu t0 tb) in H by auto. discriminate.
Qed.

(** The API call stores 3v/h in the state and changes nothing else. *)
Theorem C20_state_after : forall (l : lava R) t w v w',
  compute_mean_velocity l t w = (Ok v, w') ->
  w_depth w <> 0 /\ w' = set_st (set_strain_rate (3 * v / w_depth w) (w_st w)) w.
Proof.
  intros l t w v w' H. unfold compute_mean_velocity in H.
  destruct (mean_velocity l t (w_depth w) (w_st w)) as [[v0 new]|e] eqn:E; [|discriminate].
  injection H as <- <-. apply C20_velocity_only_if in E as (mu & t0 & tb & _ & _ & _ & _ & _ & Hd & _ & ->).
  auto.
Qed.

(** ** Shape of the formula: (1 - r)^2 (2 + r) / 2. *)
Lemma jb_factored h t0 tb mu : tb <> 0 -> mu <> 0 ->
  jeffreys_bingham h t0 tb mu = h * tb / (3 * mu) * ((1 - t0 / tb) ^ 2 * (2 + t0 / tb) / 2).
Proof. intros. unfold jeffreys_bingham. field. split; lra. Qed.

(** ** C21 *)
(** True for every rheology that does not read the strain rate ... *)
Theorem C21_consistent_when_strain_free : forall (l : lava R) t depth s v new,
  strain_free l -> mean_velocity l t depth s = Ok (v, new) ->
  mean_velocity l t depth (set_strain_rate new s) = Ok (v, new).
Proof.
  intros l t depth s v new Hf H.
  apply C20_velocity_only_if in H as (mu & t0 & tb & Hmu & H0 & Hb & Hm & Hb0 & Hd & -> & ->).
  apply C20_velocity_is_jeffreys; auto.
  rewrite Hf. auto.
Qed.

(** ... which is every rheology but bll and mader crystals and mader bubbles. *)
Definition reads_strain_rel (m : rel_model R) : bool :=
  match m with RelMader _ | RelBLL _ _ _ _ _ _ _ _ => true | _ => false end.
Definition reads_strain_bub (m : bubbles_model R) : bool :=
  match m with BubMader _ _ _ _ _ => true | _ => false end.
Theorem C21_which_models_are_strain_free : forall l : lava R,
  reads_strain_rel (lv_rel l) = false -> reads_strain_bub (lv_bub l) = false -> strain_free l.
Proof.
  intros l Hr Hb x s. unfold computes_bulk_viscosity. rewrite melt_strain.
  assert (E1 : compute_relative_viscosity (lv_rel l) (set_strain_rate x s) = compute_relative_viscosity (lv_rel l) s).
  { destruct (lv_rel l); try discriminate; simpl; rewrite ?ves_strain; reflexivity. }
  assert (E2 : compute_relative_viscosity_bubbles (lv_bub l) (set_strain_rate x s) = compute_relative_viscosity_bubbles (lv_bub l) s).
  { destruct (lv_bub l); try discriminate; simpl; rewrite ?ves_strain; reflexivity. }
  rewrite E1, E2. reflexivity.
Qed.

(** False otherwise: the solver ignores the strain rate it computes.  Lava with
    the Mader bubble model: the first call uses the rigid-bubble viscosity
    (capillary number 1/2), the second the deformable one. *)
Definition demo_terrain : terrain R :=
  {| ter_eff_init := 0; ter_width := 10; ter_gravity := 10; ter_maxlen := 1000;
     ter_default_slope := PI / 2; ter_spline := None |}.
Definition demo_lava : lava R :=
  {| lv_melt := MeltBasic 1 1400; lv_rel := RelER;
     lv_bub := BubMader (VConstant (1 / 2)) (MeltBasic 1 1400) RelER 1 1;
     lv_yield := YRyerson 1400; lv_ves := VConstant (1 / 2);
     lv_terupt := 1400; lv_buffer := 0; lv_latent := 350000; lv_dre := 2; lv_maxpack := 1 |}.
Definition demo_state : state R :=
  {| st_phi := 0; st_temp := 1400; st_pos := 0; st_time := 0; st_strain := 1 / 2 |}.

Lemma demo_yield x : get_yield_strength demo_lava (set_strain_rate x demo_state) = Ok 0.
Proof.
  unfold get_yield_strength. simpl. unfold R_pow. rewrite R_power_0_pos by lra. simpl. f_equal. lra.
Qed.
Lemma demo_basal x : get_basal_shear_stress demo_lava demo_terrain 1 (set_strain_rate x demo_state) = Ok 10.
Proof.
  unfold get_basal_shear_stress. simpl. unfold basal_body. simpl. rewrite sin_PI2. f_equal. lra.
Qed.
Lemma demo_melt x : compute_melt_viscosity (MeltBasic 1 1400) (set_strain_rate x demo_state) = Ok 1.
Proof.
  simpl. replace (4 / 100 * (1400 - 1400)) with 0 by lra. rewrite exp_0. f_equal. lra.
Qed.
Lemma demo_rel x : compute_relative_viscosity RelER (set_strain_rate x demo_state) = Ok 1.
Proof.
  simpl. rnum. rewrite R_div_ok by lra. simpl. unfold R_mpow. rewrite R_power_pos by lra.
  f_equal. replace (1 - 151 / 100 * 0) with 1 by lra.
  unfold Rpower. rewrite ln_1, Rmult_0_r. apply exp_0.
Qed.
Lemma demo_bub x :
  compute_relative_viscosity_bubbles (lv_bub demo_lava) (set_strain_rate x demo_state) =
  Ok (if Rlt_dec x 1 then 2 else Rpower (1 / 2) (5 / 3)).
Proof.
  cbn [lv_bub demo_lava compute_relative_viscosity_bubbles computes_vesicle_fraction rbind].
  rewrite demo_melt. cbn [rbind]. rewrite demo_rel. cbn [rbind]. rnum.
  rewrite R_div_ok by lra. cbn [rbind set_strain_rate st_strain].
  unfold R_ltb. replace (1 * (1 * 1) / 1 * x) with x by field.
  destruct (Rlt_dec x 1); unfold R_pow.
  - rewrite R_power_pos by lra. f_equal. replace (-1) with (- (1)) by lra.
    rewrite Rpower_Ropp, Rpower_1 by lra. field.
  - rewrite R_power_pos by lra. f_equal. f_equal. lra.
Qed.
Lemma demo_mu x : computes_bulk_viscosity demo_lava (set_strain_rate x demo_state) =
  Ok (if Rlt_dec x 1 then 2 else Rpower (1 / 2) (5 / 3)).
Proof.
  unfold computes_bulk_viscosity. cbn [lv_melt lv_rel demo_lava]. rewrite demo_melt. cbn [rbind].
  rewrite demo_rel. cbn [rbind]. change (lv_bub {| lv_melt := _ |}) with (lv_bub demo_lava).
  rewrite demo_bub. cbn [rbind]. rnum. f_equal. ring.
Qed.

Theorem C21_strain_dependent_refuted :
  exists (l : lava R) t depth s v1 new v2 new2,
    mean_velocity l t depth s = Ok (v1, new) /\
    mean_velocity l t depth (set_strain_rate new s) = Ok (v2, new2) /\
    v1 = 5 / 3 /\ v2 > 5.
Proof.
  exists demo_lava, demo_terrain, 1, (set_strain_rate (1 / 2) demo_state).
  assert (H1 := C20_velocity_is_jeffreys demo_lava demo_terrain 1 (set_strain_rate (1 / 2) demo_state) 2 0 10).
  rewrite demo_mu, demo_yield, demo_basal in H1.
  destruct (Rlt_dec (1 / 2) 1) as [_|?]; [|lra].
  specialize (H1 eq_refl eq_refl eq_refl ltac:(lra) ltac:(lra) ltac:(lra)). cbv zeta in H1.
  assert (E1 : jeffreys_bingham 1 0 10 2 = 5 / 3) by (unfold jeffreys_bingham; field).
  rewrite E1 in H1.
  eexists _, _, _, _. split; [exact H1|].
  rewrite set_strain_idem.
  assert (H2 := C20_velocity_is_jeffreys demo_lava demo_terrain 1 (set_strain_rate (3 * (5 / 3) / 1) demo_state) (Rpower (1 / 2) (5 / 3)) 0 10).
  rewrite demo_mu, demo_yield, demo_basal in H2.
  destruct (Rlt_dec (3 * (5 / 3) / 1) 1) as [?|_]; [lra|].
  assert (Hp : 0 < Rpower (1 / 2) (5 / 3)) by (unfold Rpower; apply exp_pos).
  assert (Hp1 : Rpower (1 / 2) (5 / 3) < 1 / 2).
  { rewrite <- (Rpower_1 (1 / 2)) at 2 by lra. unfold Rpower. apply exp_increasing.
    assert (ln (1 / 2) < 0). { rewrite <- ln_1. apply ln_increasing; lra. } lra. }
  specialize (H2 eq_refl eq_refl eq_refl ltac:(lra) ltac:(lra) ltac:(lra)). cbv zeta in H2.
  split; [exact H2|]. split; [reflexivity|].
  assert (E2 : jeffreys_bingham 1 0 10 (Rpower (1 / 2) (5 / 3)) = 10 / 3 * / Rpower (1 / 2) (5 / 3)).
  { unfold jeffreys_bingham. field. lra. }
  rewrite E2. assert (2 < / Rpower (1 / 2) (5 / 3)).
  { apply Rle_lt_trans with (/ (1 / 2)); [lra|].
    apply Rinv_lt_contravar; [apply Rmult_lt_0_compat; lra|exact Hp1]. }
  lra.
Qed.

(** ** C22 *)
Theorem C22_velocity_sign : forall (l : lava R) t depth s mu t0 tb v new,
  computes_bulk_viscosity l s = Ok mu -> get_yield_strength l s = Ok t0 ->
  get_basal_shear_stress l t depth s = Ok tb ->
  0 < depth -> 0 < mu -> 0 < tb -> 0 <= t0 ->
  mean_velocity l t depth s = Ok (v, new) ->
  0 <= v /\ (v = 0 <-> t0 = tb).
Proof.
  intros l t depth s mu t0 tb v new Hmu H0 Hb Hd Hm Htb Ht0 H.
  apply C20_velocity_only_if in H as (mu' & t0' & tb' & Hmu' & H0' & Hb' & _ & _ & _ & -> & _).
  rewrite Hmu in Hmu'. injection Hmu' as <-. rewrite H0 in H0'. injection H0' as <-.
  rewrite Hb in Hb'. injection Hb' as <-.
  rewrite jb_factored by lra.
  assert (Hr : 0 <= t0 / tb) by (apply Rmult_le_pos; [lra|]; apply Rlt_le, Rinv_0_lt_compat; lra).
  assert (Hk : 0 < depth * tb / (3 * mu)).
  { apply Rdiv_lt_0_compat; [apply Rmult_lt_0_compat; lra|lra]. }
  assert (Hsq : 0 <= (1 - t0 / tb) ^ 2) by (apply pow2_ge_0).
  split.
  - apply Rmult_le_pos; [lra|]. apply Rmult_le_pos; [|lra]. apply Rmult_le_pos; lra.
  - split.
    + intros Hz. apply Rmult_integral in Hz as [Hz|Hz]; [lra|].
      assert (Hz' : (1 - t0 / tb) ^ 2 = 0).
      { destruct (Rmult_integral _ _ Hz) as [Hz1|Hz1]; [|lra].
        destruct (Rmult_integral _ _ Hz1) as [Hz2|Hz2]; [auto|lra]. }
      assert (Hone : 1 - t0 / tb = 0).
      { simpl in Hz'. apply Rmult_integral in Hz' as [?|Hz']; [auto|lra]. }
      assert (Hq : t0 = (t0 / tb) * tb) by (field; lra).
      rewrite Hq. replace (t0 / tb) with 1 by lra. ring.
    + intros ->. replace (tb / tb) with 1 by (field; lra). replace ((1 - 1) ^ 2) with 0 by ring. field. lra.
Qed.

(** "Lava does not move when the yield strength exceeds the basal stress" is
    false of the formula: it then moves. *)
Theorem C22_moves_above_yield_refuted : forall (l : lava R) t depth s mu t0 tb v new,
  computes_bulk_viscosity l s = Ok mu -> get_yield_strength l s = Ok t0 ->
  get_basal_shear_stress l t depth s = Ok tb ->
  0 < depth -> 0 < mu -> 0 < tb -> tb < t0 ->
  mean_velocity l t depth s = Ok (v, new) -> 0 < v.
Proof.
  intros l t depth s mu t0 tb v new Hmu H0 Hb Hd Hm Htb Ht0 H.
  destruct (C22_velocity_sign l t depth s mu t0 tb v new) as [A B]; auto; [lra|].
  destruct (Req_dec v 0) as [E|]; [|lra]. apply B in E. lra.
Qed.

(** ** C23 *)
Lemma jb_shape_decreasing r1 r2 : 0 <= r1 -> r1 < r2 -> r2 <= 1 ->
  1 - 3 / 2 * r2 + 1 / 2 * r2 ^ 3 < 1 - 3 / 2 * r1 + 1 / 2 * r1 ^ 3.
Proof.
  intros H0 H1 H2.
  assert (E : (1 - 3 / 2 * r1 + 1 / 2 * r1 ^ 3) - (1 - 3 / 2 * r2 + 1 / 2 * r2 ^ 3)
    = (r2 - r1) / 2 * (3 - (r1 ^ 2 + r1 * r2 + r2 ^ 2))) by (simpl; field).
  assert (r1 ^ 2 + r1 * r2 + r2 ^ 2 < 3).
  { assert (r1 * r1 <= r2 * r2) by nra. assert (r2 * r2 <= 1) by nra.
    assert (r1 * r2 < r2 * r2) by nra. simpl. nra. }
  assert (0 < (r2 - r1) / 2 * (3 - (r1 ^ 2 + r1 * r2 + r2 ^ 2))); [|lra].
  apply Rmult_lt_0_compat; lra.
Qed.

(** Two situations: if the second has at least the depth and basal stress and
    at most the viscosity and yield strength of the first, which moves below its
    yield limit, it is at least as fast, and faster if anything differs. *)
Theorem C23_velocity_monotone :
  forall (l1 l2 : lava R) t1 t2 h1 h2 s1 s2 mu1 mu2 t01 t02 tb1 tb2 v1 v2 n1 n2,
  computes_bulk_viscosity l1 s1 = Ok mu1 -> get_yield_strength l1 s1 = Ok t01 ->
  get_basal_shear_stress l1 t1 h1 s1 = Ok tb1 ->
  computes_bulk_viscosity l2 s2 = Ok mu2 -> get_yield_strength l2 s2 = Ok t02 ->
  get_basal_shear_stress l2 t2 h2 s2 = Ok tb2 ->
  mean_velocity l1 t1 h1 s1 = Ok (v1, n1) -> mean_velocity l2 t2 h2 s2 = Ok (v2, n2) ->
  0 < h1 <= h2 -> 0 < mu2 <= mu1 -> 0 <= t02 <= t01 -> t01 < tb1 <= tb2 ->
  v1 <= v2 /\ (h1 < h2 \/ mu2 < mu1 \/ t02 < t01 \/ tb1 < tb2 -> v1 < v2).
Proof.
  intros l1 l2 t1 t2 h1 h2 s1 s2 mu1 mu2 t01 t02 tb1 tb2 v1 v2 n1 n2
    A1 A2 A3 B1 B2 B3 V1 V2 Hh Hmu Ht0 Htb.
  apply C20_velocity_only_if in V1 as (? & ? & ? & A1' & A2' & A3' & _ & _ & _ & -> & _).
  rewrite A1 in A1'. injection A1' as <-. rewrite A2 in A2'. injection A2' as <-.
  rewrite A3 in A3'. injection A3' as <-.
  apply C20_velocity_only_if in V2 as (? & ? & ? & B1' & B2' & B3' & _ & _ & _ & -> & _).
  rewrite B1 in B1'. injection B1' as <-. rewrite B2 in B2'. injection B2' as <-.
  rewrite B3 in B3'. injection B3' as <-.
  clear - Hh Hmu Ht0 Htb. unfold jeffreys_bingham.
  set (r1 := t01 / tb1). set (r2 := t02 / tb2).
  assert (Hr2 : 0 <= r2).
  { unfold r2. apply Rmult_le_pos; [lra|]. apply Rlt_le, Rinv_0_lt_compat; lra. }
  assert (Hi : / tb2 <= / tb1) by (apply Rinv_le_contravar; lra).
  assert (Hi1 : 0 < / tb1) by (apply Rinv_0_lt_compat; lra).
  assert (Hi2 : 0 < / tb2) by (apply Rinv_0_lt_compat; lra).
  assert (Hr21 : r2 <= r1).
  { unfold r1, r2, Rdiv. apply Rmult_le_compat; lra. }
  assert (Hr1 : r1 < 1).
  { unfold r1, Rdiv. apply Rmult_lt_reg_r with tb1; [lra|]. rewrite Rmult_assoc, Rinv_l by lra. lra. }
  set (g := fun r => 1 - 3 / 2 * r + 1 / 2 * r ^ 3).
  assert (Hg : g r1 <= g r2).
  { destruct (Req_dec r1 r2) as [->|]; [lra|]. unfold g. apply Rlt_le, jb_shape_decreasing; lra. }
  assert (Hgp : 0 < g r1).
  { assert (E : g 1 = 0) by (unfold g; lra). rewrite <- E. unfold g. apply jb_shape_decreasing; lra. }
  assert (Hm1 : 0 < / (3 * mu1)) by (apply Rinv_0_lt_compat; lra).
  assert (Hm2 : / (3 * mu1) <= / (3 * mu2)) by (apply Rinv_le_contravar; lra).
  set (k1 := h1 * tb1 / (3 * mu1)). set (k2 := h2 * tb2 / (3 * mu2)).
  assert (Hk1 : 0 < k1).
  { unfold k1, Rdiv. apply Rmult_lt_0_compat; [apply Rmult_lt_0_compat|]; lra. }
  assert (Hp : h1 * tb1 <= h2 * tb2) by (apply Rmult_le_compat; lra).
  assert (Hp1 : 0 < h1 * tb1) by (apply Rmult_lt_0_compat; lra).
  assert (Hk : k1 <= k2) by (unfold k1, k2, Rdiv; apply Rmult_le_compat; lra).
  fold (g r1) (g r2).
  split; [apply Rmult_le_compat; lra|].
  intros Hs.
  assert (Hstrict : k1 < k2 \/ g r1 < g r2).
  { destruct Hs as [Hs|[Hs|[Hs|Hs]]].
    - left. unfold k1, k2, Rdiv. apply Rlt_le_trans with (h2 * tb2 * / (3 * mu1)).
      + apply Rmult_lt_compat_r; [lra|]. apply Rlt_le_trans with (h2 * tb1).
        apply Rmult_lt_compat_r; lra. apply Rmult_le_compat_l; lra.
      + apply Rmult_le_compat_l; [nra|lra].
    - left. unfold k1, k2, Rdiv. apply Rlt_le_trans with (h1 * tb1 * / (3 * mu2)).
      + apply Rmult_lt_compat_l; [lra|]. apply Rinv_lt_contravar; [nra|lra].
      + apply Rmult_le_compat_r; lra.
    - right. assert (r2 < r1).
      { unfold r1, r2, Rdiv. apply Rlt_le_trans with (t01 * / tb2).
        apply Rmult_lt_compat_r; lra. apply Rmult_le_compat_l; lra. }
      unfold g. apply jb_shape_decreasing; lra.
    - left. unfold k1, k2, Rdiv. apply Rlt_le_trans with (h2 * tb2 * / (3 * mu1)).
      + apply Rmult_lt_compat_r; [lra|]. apply Rlt_le_trans with (h1 * tb2).
        apply Rmult_lt_compat_l; lra. apply Rmult_le_compat_r; lra.
      + apply Rmult_le_compat_l; [nra|lra]. }
  destruct Hstrict as [Hs1|Hs1].
  - apply Rlt_le_trans with (k2 * g r1); [apply Rmult_lt_compat_r; lra|apply Rmult_le_compat_l; lra].
  - apply Rlt_le_trans with (k1 * g r2); [apply Rmult_lt_compat_l; lra|apply Rmult_le_compat_r; lra].
Qed.

(** A deeper channel is faster (its basal stress grows with it). *)
Theorem C23_deeper_is_faster : forall (l : lava R) t h1 h2 s mu t0 tb v1 v2 n1 n2,
  computes_bulk_viscosity l s = Ok mu -> get_yield_strength l s = Ok t0 ->
  get_basal_shear_stress l t h1 s = Ok tb ->
  0 < h1 < h2 -> 0 < mu -> 0 <= t0 < tb ->
  mean_velocity l t h1 s = Ok (v1, n1) -> mean_velocity l t h2 s = Ok (v2, n2) -> v1 < v2.
Proof.
  intros l t h1 h2 s mu t0 tb v1 v2 n1 n2 Hmu H0 Hb Hh Hm Ht V1 V2.
  assert (Hb2 : get_basal_shear_stress l t h2 s = Ok (h2 / h1 * tb)).
  { unfold get_basal_shear_stress in *.
    assert (B : forall h, compute_basal_shear_stress (lv_yield l) t h l s = basal_body t h l s)
      by (intros; destruct (lv_yield l); reflexivity).
    rewrite B in *. unfold basal_body in *.
    apply rbind_ok in Hb as (rho & -> & Hb). apply rbind_ok in Hb as (sl & -> & Hb).
    cbn [rbind]. apply rbind_ok in Hb as (sn & Hsn & Hb). rewrite Hsn. cbn [rbind] in *.
    rnum. injection Hb as <-. f_equal. field. lra. }
  assert (Hq : tb < h2 / h1 * tb).
  { assert (1 < h2 / h1).
    { apply Rmult_lt_reg_r with h1; [lra|]. unfold Rdiv. rewrite Rmult_assoc, Rinv_l by lra. lra. }
    nra. }
  eapply (C23_velocity_monotone l l t t h1 h2 s s mu mu t0 t0 tb _ v1 v2 n1 n2); eauto; try lra.
Qed.

(** ** C19, refuted part: the depth the search settles on may be one at which
    the lava cannot flow.  Slope 30 degrees, 1000 kg/m3, half crystals: the
    yield strength is above 800 Pa, the basal stress of the very first depth
    (1 cm) is 50 Pa, yet the search stops there because the velocity formula is
    used outside its range. *)
Definition thin_sim : sim R :=
  {| s_dx := 10;
     s_lava := {| lv_melt := MeltBasic 1 1400; lv_rel := RelMP 1;
                  lv_bub := BubNo (VConstant (1 / 2)); lv_yield := YRyerson 1400;
                  lv_ves := VConstant (1 / 2); lv_terupt := 1400; lv_buffer := 0;
                  lv_latent := 350000; lv_dre := 2000; lv_maxpack := 1 |};
     s_air := {| air_temp := 300; air_wind := 5; air_ch := 36 / 10000; air_rho := 4 / 10; air_cp := 1100 |};
     s_ter := {| ter_eff_init := 1; ter_width := 10; ter_gravity := 10; ter_maxlen := 1000;
                 ter_default_slope := PI / 6; ter_spline := None |};
     s_cryst := CrBasic (1 / 2) (1 / 10) 1300 1400; s_crust := CtConstant 800;
     s_cover := CvBasic 0 (1 / 2); s_budget := []; s_mass := false |}.
Definition thin_state : state R :=
  {| st_phi := 1 / 2; st_temp := 1400; st_pos := 0; st_time := 0; st_strain := 1 |}.

Lemma half_pow_285 : 1 / 8 < Rpower (1 / 2) (285 / 100).
Proof.
  replace (1 / 8) with ((1 / 2) ^ 3) by (simpl; field).
  rewrite <- Rpower_pow by lra. unfold Rpower. apply exp_increasing.
  assert (ln (1 / 2) < 0). { rewrite <- ln_1. apply ln_increasing; lra. }
  replace (INR 3) with 3 by (simpl; lra). lra.
Qed.

Theorem C19_depth_where_lava_cannot_flow_refuted :
  exists (sm : sim R) w w' t0 tb,
    init_effusion_rate sm w = (Ok tt, w') /\
    ter_eff_init (s_ter sm) <= w_eff w' /\
    get_yield_strength (s_lava sm) (w_st w') = Ok t0 /\
    get_basal_shear_stress (s_lava sm) (s_ter sm) (w_depth w') (w_st w') = Ok tb /\
    0 < tb < t0.
Proof.
  set (w := initial_world thin_state [] 1).
  set (p := Rpower (1 / 2) (285 / 100)). assert (Hp := half_pow_285). fold p in Hp.
  assert (Hy : forall x, get_yield_strength (s_lava thin_sim) (set_strain_rate x thin_state) = Ok (6500 * p)).
  { intros x. unfold get_yield_strength. simpl. unfold R_pow. rewrite R_power_pos by lra.
    simpl. fold p. f_equal. lra. }
  assert (Hb : forall x, get_basal_shear_stress (s_lava thin_sim) (s_ter thin_sim) (1 / 100) (set_strain_rate x thin_state) = Ok 50).
  { intros x. unfold get_basal_shear_stress. simpl. unfold basal_body. simpl. rewrite sin_PI6. f_equal. lra. }
  assert (Hmu : forall x, computes_bulk_viscosity (s_lava thin_sim) (set_strain_rate x thin_state) = Ok 4).
  { intros x. unfold computes_bulk_viscosity. simpl. rewrite R_div_ok by lra. simpl.
    unfold R_mpow. rewrite R_power_pos by lra. simpl. f_equal.
    replace (4 / 100 * (1400 - 1400)) with 0 by lra. rewrite exp_0.
    replace (1 / 1 - 1 / 2 / 1) with (1 / 2) by lra.
    replace (-2 / 1) with (- (INR 2)) by (simpl; lra). rewrite Rpower_Ropp, Rpower_pow by lra.
    simpl. field. }
  assert (Hv := C20_velocity_is_jeffreys (s_lava thin_sim) (s_ter thin_sim) (1 / 100) (set_strain_rate 1 thin_state)
    4 (6500 * p) 50 (Hmu 1) (Hy 1) (Hb 1) ltac:(lra) ltac:(lra) ltac:(lra)). cbv zeta in Hv.
  set (v := jeffreys_bingham (1 / 100) (6500 * p) 50 4) in *.
  assert (Hv1 : 10 < v).
  { unfold v. rewrite jb_factored by lra. set (r := 6500 * p / 50).
    assert (16 < r) by (unfold r; lra).
    assert (225 < (1 - r) ^ 2) by (simpl; nra).
    assert (225 * 18 < (1 - r) ^ 2 * (2 + r)) by nra. lra. }
  exists thin_sim, w.
  assert (Ht : exists w', try_depth thin_sim (depth_at 0) w = (Ok true, w') /\ w_eff w' = v * 10 * (1 / 100) /\
     w_depth w' = 1 / 100 /\ w_st w' = set_strain_rate (3 * v / (1 / 100)) thin_state).
  { rewrite C19_depth_grid. replace (1 / 100 + INR 0 * (1 / 1000)) with (1 / 100) by (simpl; lra).
    unfold try_depth, bind, modify, compute_mean_velocity. cbn [set_depth w_depth w_st w initial_world].
    change thin_state with (set_strain_rate 1 thin_state) at 1. rewrite Hv.
    unfold reads. cbn [w_st set_eff set_st set_depth].
    rewrite density_strain. unfold get_bulk_density. cbn [lava_vesicle_fraction thin_sim s_lava lv_ves computes_vesicle_fraction rbind].
    unfold ret. eexists. split; [f_equal|].
    - cbn [thin_sim s_ter ter_eff_init ter_width]. rnum. f_equal. apply R_leb_true. lra.
    - repeat split. }
  destruct Ht as (w' & Ht & He & Hd & Hs). exists w', (6500 * p), 50. split; [|split; [|split; [|split]]].
  - unfold init_effusion_rate. cbn [thin_sim s_ter ter_eff_init]. rnum.
    assert (E : R_eqb 1 0 = false) by (apply R_eqb_false; lra). rewrite E.
    assert (Ec : depth_count = S (depth_count - 1)) by (unfold depth_count; lia). rewrite Ec.
    cbn [search_depth]. unfold bind. fold thin_sim in *. rewrite Ht. reflexivity.
  - rewrite He. cbn [thin_sim s_ter ter_eff_init]. lra.
  - rewrite Hs. apply Hy.
  - rewrite Hs, Hd. apply Hb.
  - lra.
Qed.
