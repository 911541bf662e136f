(** * ModelLip: the models as Lipschitz functions of position, temperature and crystal fraction *)
From Coq Require Import Reals Lra Lia List Sorting.Sorted.
From Coquelicot Require Import Coquelicot.
From Verif Require Import Base Num Json Logger World Vesicle MeltVisc RelVisc Bubbles Terrain Lava
  Thermal Flux Integrator Factory Run Frame StepLog Spec RNum RPow Erf Props_Velocity Props_Rheology Props_RelFormula Props_Material
  Props_Terrain Props_Thermal Props_Flux Safe Valid Cooling Recompute Lipschitz.
Open Scope R_scope.

(** A state and its point; a point as a state. *)
Definition at_ (s : state R) : point := {| px := st_pos s; pt := st_temp s; pp := st_phi s |}.
Definition state_at (p : point) : state R :=
  {| st_temp := pt p; st_phi := pp p; st_pos := px p; st_time := 0; st_strain := 0 |}.
Lemma at_state_at p : at_ (state_at p) = p.
Proof. destruct p; reflexivity. Qed.

(** Models without a jump and without strain rate. *)
Definition no_jump_ves (m : vesicle_model R) : Prop := match m with VBimodal _ _ _ => False | _ => True end.
Definition melt_margin (ts : R) (m : melt_model R) : Prop :=
  match m with MeltBasic _ _ => True | MeltShaw _ => 0 < ts | MeltVFT _ _ c => c < ts end.
Definition below_packing (phi1 : R) (m : rel_model R) : Prop :=
  match m with
  | RelER => phi1 < 100 / 151
  | RelKD phimax _ | RelMP phimax => phi1 < phimax
  | RelMueller rp => phi1 < mueller_packing rp
  | RelPTP1 vm | RelPTP2 vm | RelPTP3 vm => no_jump_ves vm /\ phi1 < 1 - max_vesicle vm
  | RelCosta1 _ | RelCosta2 _ => True
  | RelMader _ | RelBLL _ _ _ _ _ _ _ _ | RelCosta _ => False
  end.
Definition smooth_bubbles (m : bubbles_model R) : Prop :=
  match m with BubNo vm | BubRigid vm | BubDefo vm => no_jump_ves vm | BubMader _ _ _ _ _ => False end.
Definition smooth_yield (m : yield_model R) : Prop := match m with YBLL vm _ => no_jump_ves vm | _ => True end.

(** [f] is what model function [M] returns on [D]. *)
Definition returns (D : point -> Prop) (M : state R -> res R) (f : point -> R) : Prop :=
  forall s, D (at_ s) -> M s = Ok (f (at_ s)).
Lemma returns_at D M f p : returns D M f -> D p -> M (state_at p) = Ok (f p).
Proof. intros H Hp. specialize (H (state_at p)). rewrite at_state_at in H. auto. Qed.

(** Powers above 1 of non-negative functions, and the error function. *)
Lemma pospow_lip B c x y : 1 <= c -> 0 <= x <= B -> 0 <= y <= B ->
  Rabs (pospow x c - pospow y c) <= c * pospow B (c - 1) * Rabs (x - y).
Proof.
  intros Hc. assert (G : forall x y, 0 <= x < y -> y <= B -> pospow y c - pospow x c <= c * pospow B (c - 1) * (y - x) /\ 0 <= pospow y c - pospow x c).
  { clear x y. intros x y Hxy Hy.
    assert (Hi := pospow_incr x y c ltac:(lra) ltac:(lra)). split; [|lra].
    assert (Mono : forall z, 0 < z <= B -> Rpower z (c - 1) <= pospow B (c - 1)).
    { intros z Hz. rewrite pospow_pos by lra. destruct (Req_dec c 1) as [->|Hn].
      - replace (1 - 1) with 0 by ring. rewrite !Rpower_O by lra. lra.
      - apply Rle_Rpower_l; lra. }
    destruct (Req_dec x 0) as [->|Hx].
    - rewrite pospow_0, (pospow_pos y) by lra. assert (M := Mono y ltac:(lra)).
      replace (Rpower y c) with (y * Rpower y (c - 1)).
      2:{ rewrite <- (Rpower_1 y) at 1 by lra. rewrite <- Rpower_plus. f_equal. ring. }
      assert (P : 0 <= pospow B (c - 1)) by apply pospow_ge_0.
      assert (y * Rpower y (c - 1) <= y * pospow B (c - 1)) by (apply Rmult_le_compat_l; lra).
      assert (0 <= (c - 1) * (y * pospow B (c - 1))) by (repeat apply Rmult_le_pos; lra). lra.
    - rewrite (pospow_pos x), (pospow_pos y) by lra.
      destruct (MVT_cor2 (fun z => Rpower z c) (fun z => c * Rpower z (c - 1)) x y) as (z & E & Hz); [lra| |].
      { intros z Hz. apply derivable_pt_lim_power. lra. }
      rewrite E. apply Rmult_le_compat_r; [lra|]. apply Rmult_le_compat_l; [lra|]. apply Mono. lra. }
  intros Hx Hy. destruct (Rtotal_order x y) as [H|[->|H]].
  - destruct (G x y) as [A1 A2]; [lra|lra|]. rewrite (Rabs_left1 (pospow x c - pospow y c)), (Rabs_left1 (x - y)) by lra. lra.
  - replace (pospow y c - pospow y c) with 0 by ring. replace (y - y) with 0 by ring. rewrite Rabs_R0, Rmult_0_r. lra.
  - destruct (G y x) as [A1 A2]; [lra|lra|]. rewrite !Rabs_right by lra. lra.
Qed.
Lemma lip_pospow (D : point -> Prop) f c : 1 <= c -> (forall p, D p -> 0 <= f p) -> lip D f -> lip D (fun p => pospow (f p) c).
Proof.
  intros Hc H0 Hf. apply (lip_ext D (fun p => pospow (Rmax 0 (f p)) c)).
  { intros p Hp. rewrite Rmax_right; auto. }
  apply (lip_comp D (fun x => pospow (Rmax 0 x) c)); [exact Hf|]. intros B HB.
  exists (c * pospow B (c - 1)). assert (P : 0 <= c * pospow B (c - 1)) by (apply Rmult_le_pos; [lra|apply pospow_ge_0]).
  split; [exact P|]. intros x y Hx Hy.
  assert (R1 : forall z, Rabs z <= B -> 0 <= Rmax 0 z <= B).
  { intros z Hz. assert (z <= Rabs z) by apply Rle_abs. split; [apply Rmax_l|apply Rmax_lub; lra]. }
  eapply Rle_trans; [apply (pospow_lip B); auto|]. apply Rmult_le_compat_l; [exact P|].
  unfold Rmax. destruct (Rle_dec 0 x), (Rle_dec 0 y); unfold Rabs; repeat destruct (Rcase_abs _); lra.
Qed.
Lemma erf_lip x y : Rabs (erf x - erf y) <= 2 / sqrt PI * Rabs (x - y).
Proof.
  rewrite !erf_I0. rewrite <- Rmult_minus_distr_l, Rabs_mult.
  assert (P : 0 < 2 / sqrt PI) by (apply Rdiv_lt_0_compat; [lra|apply sqrt_PI_pos]).
  rewrite (Rabs_right (2 / sqrt PI)) by lra. apply Rmult_le_compat_l; [lra|].
  destruct (MVT_abs I0 gauss y x) as (c & E & _).
  { intros c _. apply is_derive_Reals, I0_derive. }
  rewrite E. rewrite <- (Rmult_1_l (Rabs (x - y))) at 2. apply Rmult_le_compat_r; [apply Rabs_pos|].
  rewrite Rabs_right by (apply Rle_ge, Rlt_le, gauss_pos). unfold gauss. rewrite <- exp_0. apply exp_le.
  assert (0 <= c ^ 2) by apply pow2_ge_0. lra.
Qed.
Lemma lip_erf (D : point -> Prop) f : lip D f -> lip D (fun p => erf (f p)).
Proof.
  intros H. apply lip_comp; [exact H|]. intros B _. exists (2 / sqrt PI).
  split; [apply Rlt_le, Rdiv_lt_0_compat; [lra|apply sqrt_PI_pos]|]. intros x y _ _. apply erf_lip.
Qed.

(** Linear splines *)
Lemma spline_polyline (l : list (R * R)) : forall p x, increasing (p :: l) -> l <> [] ->
  spline_eval (p :: l) x = Ok (polyline p l x).
Proof.
  unfold spline_eval. induction l as [|q r IH]; intros p x Hi Hne; [congruence|].
  assert (Hpq : fst p < fst q). { inversion Hi as [|? ? ? HF]; subst. now inversion HF. }
  assert (Hi' : increasing (q :: r)) by (unfold increasing in *; now inversion Hi).
  assert (Sg : segment (fst p) (snd p) (fst q) (snd q) x = Ok (chord p q x)).
  { rewrite segment_R by exact Hpq. f_equal. unfold line_through, chord. field. lra. }
  destruct p as [x0 y0]. destruct q as [x1 y1]. cbn [fst snd] in Sg. destruct r as [|q' r].
  - cbn [spline_segment polyline]. rewrite Sg. reflexivity.
  - cbn [spline_segment polyline fst]. rnum. unfold R_ltb. destruct (Rlt_dec x x1).
    + rewrite Sg. reflexivity.
    + change (spline_segment ((x1, y1) :: q' :: r) x) with (spline_segment ((x1, y1) :: q' :: r) x).
      specialize (IH (x1, y1) x Hi' ltac:(discriminate)). exact IH.
Qed.

(** ** The models on a region *)
Section Models.
Variables (g : region) (phi1 : R).
Hypothesis Hx0 : 0 <= rg_x0 g.
Hypothesis Hp0 : 0 <= rg_phi0 g.
Definition box (p : point) : Prop := inside g (state_at p) /\ pp p <= phi1.
Lemma box_x : forall p, box p -> rg_x0 g <= px p <= rg_x1 g.
Proof. intros p [(H & _) _]. cbn in H. lra. Qed.
Lemma box_t : forall p, box p -> rg_ts g <= pt p <= rg_te g.
Proof. intros p [(_ & H & _) _]. cbn in H. lra. Qed.
Lemma box_p : forall p, box p -> rg_phi0 g <= pp p <= phi1.
Proof. intros p [(_ & _ & H) H']. cbn in H. lra. Qed.
Lemma Lx : lip box px. Proof. apply (lip_x _ (rg_x0 g) (rg_x1 g)), box_x. Qed.
Lemma Lt : lip box pt. Proof. apply (lip_t _ (rg_ts g) (rg_te g)), box_t. Qed.
Lemma Lp : lip box pp. Proof. apply (lip_p _ (rg_phi0 g) phi1), box_p. Qed.
Hint Resolve Lx Lt Lp lip_const : core.

Lemma ves_smooth vm : valid_vesicle vm -> no_jump_ves vm -> exists f, lip box f /\
  returns box (computes_vesicle_fraction vm) f /\ max_vesicle vm < 1 /\ (forall p, box p -> 0 <= f p <= max_vesicle vm).
Proof.
  intros Hv Hs.
  assert (Hm : max_vesicle vm < 1) by (destruct vm; cbn in *; try contradiction; lra).
  assert (G : exists f, lip box f /\ returns box (computes_vesicle_fraction vm) f).
  { destruct vm; cbn [no_jump_ves] in Hs; try contradiction.
    - exists (fun _ => vf). split; [auto|]. intros s _. reflexivity.
    - exists (fun p => Rmax 0 (vf - coef * px p)). split.
      + apply lip_max, lip_minus; [auto|]. apply lip_mult; auto.
      + intros s _. apply C29_variable.
    - exists (fun p => vf - coef * Rmin (px p) crit). split.
      + apply lip_minus; [auto|]. apply lip_mult; [auto|]. apply lip_min. auto.
      + intros s _. apply C29_variable_bimodal.
    - exists (fun p => Rmax 0 (vf + b * (px p + 1) + a * px p ^ 2)). split.
      + apply lip_max. apply lip_plus; [apply lip_plus; [auto|]|].
        * apply lip_mult; [auto|]. apply lip_plus; auto.
        * apply lip_mult; [auto|]. apply lip_pow. auto.
      + intros s _. apply C29_poly. }
  destruct G as (f & H1 & H2). exists f. split; [exact H1|]. split; [exact H2|]. split; [exact Hm|].
  intros p Hp. destruct (ves_inside vm (state_at p) Hv) as (vf & E & B & B').
  { apply box_x in Hp. cbn. lra. }
  rewrite (returns_at _ _ _ _ H2 Hp) in E. injection E as <-. lra.
Qed.
Lemma melt_smooth m : valid_melt g m -> melt_margin (rg_ts g) m -> exists f, plip box f /\ returns box (compute_melt_viscosity m) f.
Proof.
  intros Hv Hm. destruct m; cbn [valid_melt melt_margin] in *.
  - exists (fun p => visc_erupt * exp (4 / 100 * (t_erupt - pt p))). split.
    + apply plip_mult; [now apply plip_const|]. apply plip_exp, lip_mult; [auto|]. apply lip_minus; auto.
    + intros s _. apply C26_melt_formulas.
  - exists (fun p => Rpower 10 ((slope * (10000 / pt p) - 3 / 2 * slope - 64 / 10) / (2303 / 1000)) / 10). split.
    + apply plip_div; [|apply plip_const; lra]. apply plip_Rpower; [apply plip_const; lra|].
      assert (plip box (fun p => 10000 / pt p)).
      { apply plip_div; [apply plip_const; lra|]. apply (plip_above _ _ (rg_ts g)); auto. intros p Hp. now apply box_t. }
      apply lip_div; [|apply plip_const; lra]. apply lip_minus; [|auto]. apply lip_minus; [|auto].
      apply lip_mult; [auto|]. now apply plip_lip.
    + intros s Hs. apply C26_melt_formulas. apply box_t in Hs. cbn in Hs. lra.
  - exists (fun p => Rpower 10 (a + b / (pt p - c))). split.
    + apply plip_Rpower; [apply plip_const; lra|]. apply lip_plus; [auto|]. apply lip_div; [auto|].
      apply (plip_above _ _ (rg_ts g - c)); [apply lip_minus; auto|lra|]. intros p Hp. apply box_t in Hp. lra.
    + intros s Hs. apply C26_melt_formulas. apply box_t in Hs. cbn in Hs. lra.
Qed.
Lemma ratio_smooth phimax : 0 < phimax -> phi1 < phimax -> plip box (fun p => 1 - pp p / phimax).
Proof.
  intros Hm H1. assert (E : forall a, 1 - a / phimax = (phimax - a) / phimax) by (intros; field; lra).
  apply (plip_above _ _ ((phimax - phi1) / phimax)).
  - apply lip_minus; [auto|]. apply lip_div; [auto|now apply plip_const].
  - apply Rdiv_lt_0_compat; lra.
  - intros p Hp. apply box_p in Hp. rewrite E. unfold Rdiv. apply Rmult_le_compat_r; [apply Rlt_le, Rinv_0_lt_compat; lra|lra].
Qed.
Lemma costa_smooth d ga ps e : 1 <= d -> 1 <= ga -> 0 < ps -> 0 < e < 1 -> plip box (fun p => costa_2009 d ga ps e (pp p)).
Proof.
  intros Hd Hg Hps He. unfold costa_2009. cbv zeta.
  assert (Lr : lip box (fun p => pp p / ps)) by (apply lip_div; [auto|now apply plip_const]).
  assert (Hr : forall p, box p -> 0 <= pp p / ps).
  { intros p Hp. apply box_p in Hp. apply Rmult_le_pos; [lra|apply Rlt_le, Rinv_0_lt_compat; lra]. }
  assert (Pw : forall c, 1 <= c -> lip box (fun p => pospow (pp p / ps) c)) by (intros c Hc; now apply (lip_pospow box (fun p => pp p / ps))).
  apply plip_div.
  - apply (plip_above _ _ 1); [apply lip_plus; auto|lra|]. intros p Hp.
    assert (Q := pospow_ge_0 (pp p / ps) d). lra.
  - apply plip_Rpower; [|auto].
    set (x := fun p => Rmin 25 (sqrt PI / (2 * (1 - e)) * (pp p / ps) * (1 + pospow (pp p / ps) ga))).
    assert (Lx' : lip box x).
    { unfold x. apply (lip_ext box (fun p => Rmin (sqrt PI / (2 * (1 - e)) * (pp p / ps) * (1 + pospow (pp p / ps) ga)) 25)).
      { intros p _. apply Rmin_comm. }
      apply lip_min, lip_mult; [apply lip_mult; auto|]. apply lip_plus; auto. }
    apply (plip_above _ _ e); [|lra|].
    + apply lip_minus; [auto|]. apply lip_mult; [auto|]. apply (lip_erf box x). exact Lx'.
    + intros p _. change (e <= 1 - (1 - e) * erf (x p)). assert (Q := erf_le_1 (x p)).
      assert ((1 - e) * erf (x p) <= (1 - e) * 1) by (apply Rmult_le_compat_l; lra). lra.
Qed.
Lemma rel_smooth m : valid_rel g m -> below_packing phi1 m -> exists f, plip box f /\ returns box (compute_relative_viscosity m) f.
Proof.
  intros Hv Hb. destruct m; cbn [valid_rel below_packing] in *; try contradiction.
  - exists (fun p => Rpower (1 - 151 / 100 * pp p) (- (5 / 2))). split.
    + apply plip_Rpower; [|auto]. apply (plip_above _ _ (1 - 151 / 100 * phi1)); [|lra|].
      * apply lip_minus; [auto|]. apply lip_mult; auto.
      * intros p Hp. apply box_p in Hp. lra.
    + intros s Hs. apply box_p in Hs. cbn in Hs. apply C75_newtonian_models; lra.
  - exists (fun p => Rpower (1 - pp p / phimax) (- (einstein * phimax))). split.
    + apply plip_Rpower; [apply ratio_smooth; lra|auto].
    + intros s Hs. apply box_p in Hs. cbn in Hs. apply C75_newtonian_models; lra.
  - exists (fun p => Rpower (1 - pp p / phimax) (- 2)). split.
    + apply plip_Rpower; [apply ratio_smooth; lra|auto].
    + intros s Hs. apply box_p in Hs. cbn in Hs. apply C75_newtonian_models; lra.
  - exists (fun p => Rpower (1 - pp p / mueller_packing rp) (- 2)). split.
    + apply plip_Rpower; [apply ratio_smooth; [apply mueller_packing_pos|lra]|auto].
    + intros s Hs. apply box_p in Hs. cbn in Hs. unfold mueller_packing in *.
      apply (proj2 (proj2 (proj2 (C75_newtonian_models s ltac:(lra))))); lra.
  - destruct Hv as [Hv H1]. destruct Hb as [Hj H2]. destruct (ves_smooth vm Hv Hj) as (vf & Lv & Ev & Mv & Bv).
    exists (fun p => Rpower (1 - pp p / (1 - vf p)) (- (5 / 2)) * Rpower (1 - vf p) (- 1)).
    assert (P1 : plip box (fun p => 1 - vf p)).
    { apply (plip_above _ _ (1 - max_vesicle vm)); [apply lip_minus; auto|lra|]. intros p Hp. specialize (Bv p Hp). lra. }
    split.
    + apply plip_mult; apply plip_Rpower; auto.
      apply (plip_above _ _ (1 - phi1 / (1 - max_vesicle vm))).
      * apply lip_minus; [auto|]. now apply lip_div.
      * assert (phi1 / (1 - max_vesicle vm) < 1); [|lra]. apply Rmult_lt_reg_r with (1 - max_vesicle vm); [lra|].
        unfold Rdiv. rewrite Rmult_assoc, Rinv_l by lra. lra.
      * intros p Hp. specialize (Bv p Hp). apply box_p in Hp. unfold Rminus at 1 3. apply Rplus_le_compat_l, Ropp_le_contravar.
        unfold Rdiv. apply Rmult_le_compat; [lra|apply Rlt_le, Rinv_0_lt_compat; lra|lra|]. apply Rinv_le_contravar; lra.
    + intros s Hs. specialize (Bv _ Hs). assert (E := Ev _ Hs). apply box_p in Hs. cbn [at_ pp] in Hs |- *.
      apply (C75_crystals_and_bubbles vm s _ E); lra.
  - destruct Hv as (Hv & H0 & H1). destruct Hb as [Hj H2]. destruct (ves_smooth vm Hv Hj) as (vf & Lv & Ev & Mv & Bv).
    exists (fun p => Rpower (1 - pp p - vf p) (- ((5 * pp p + 2 * vf p) / (2 * (pp p + vf p))))). split.
    + apply plip_Rpower.
      * apply (plip_above _ _ (1 - phi1 - max_vesicle vm)); [apply lip_minus; [apply lip_minus; auto|auto]|lra|].
        intros p Hp. specialize (Bv p Hp). apply box_p in Hp. lra.
      * apply lip_opp, lip_div; [apply lip_plus; apply lip_mult; auto|].
        apply (plip_above _ _ (2 * rg_phi0 g)); [apply lip_mult; [auto|apply lip_plus; auto]|lra|].
        intros p Hp. specialize (Bv p Hp). apply box_p in Hp. lra.
    + intros s Hs. specialize (Bv _ Hs). assert (E := Ev _ Hs). apply box_p in Hs. cbn [at_ pp] in Hs |- *.
      apply (C75_crystals_and_bubbles vm s _ E); lra.
  - destruct Hv as [Hv H1]. destruct Hb as [Hj H2]. destruct (ves_smooth vm Hv Hj) as (vf & Lv & Ev & Mv & Bv).
    exists (fun p => Rpower (1 - vf p / (1 - pp p)) (- 1) * Rpower (1 - pp p) (- (5 / 2))).
    destruct (Rlt_dec phi1 (rg_phi0 g)) as [Hempty|Hne].
    { split; [|intros s Hs; apply box_p in Hs; lra]. apply (plip_ext _ (fun _ => 1)); [|apply plip_const; lra].
      intros p Hp. apply box_p in Hp. lra. }
    assert (M0 : 0 <= max_vesicle vm) by (destruct vm; cbn in *; try contradiction; lra).
    assert (P1 : plip box (fun p => 1 - pp p)).
    { apply (plip_above _ _ (1 - phi1)); [apply lip_minus; auto|lra|]. intros p Hp. apply box_p in Hp. lra. }
    split.
    + apply plip_mult; apply plip_Rpower; auto.
      apply (plip_above _ _ (1 - max_vesicle vm / (1 - phi1))).
      * apply lip_minus; [auto|]. now apply lip_div.
      * assert (max_vesicle vm / (1 - phi1) < 1); [|lra]. apply Rmult_lt_reg_r with (1 - phi1); [lra|].
        unfold Rdiv. rewrite Rmult_assoc, Rinv_l by lra. lra.
      * intros p Hp. specialize (Bv p Hp). apply box_p in Hp. unfold Rminus at 1 3. apply Rplus_le_compat_l, Ropp_le_contravar.
        unfold Rdiv. apply Rmult_le_compat; [lra|apply Rlt_le, Rinv_0_lt_compat; lra|lra|]. apply Rinv_le_contravar; lra.
    + intros s Hs. specialize (Bv _ Hs). assert (E := Ev _ Hs). apply box_p in Hs. cbn [at_ pp] in Hs |- *.
      apply (C75_crystals_and_bubbles vm s _ E); lra.
  - assert (Q : forall s, box (at_ s) -> 0 <= st_phi s) by (intros s Hs; apply box_p in Hs; cbn in Hs; lra).
    destruct Hv as [->| ->]; [exists (fun p => costa_2009 (114 / 10) (16 / 10) (67 / 100) (1 / 100) (pp p))|exists (fun p => costa_2009 (1148 / 100) (152 / 100) (62 / 100) (5 / 1000) (pp p))]; (split; [apply costa_smooth; lra|intros s Hs; apply C75_costa_models; auto]).
  - assert (Q : forall s, box (at_ s) -> 0 <= st_phi s) by (intros s Hs; apply box_p in Hs; cbn in Hs; lra).
    destruct Hv as [->| ->]; [exists (fun p => costa_2009 (445 / 100) (855 / 100) (28 / 100) (1 / 1000) (pp p))|exists (fun p => costa_2009 (75 / 10) (55 / 10) (26 / 100) (2 / 10000) (pp p))]; (split; [apply costa_smooth; lra|intros s Hs; apply C75_costa_models; auto]).
Qed.
Lemma bub_smooth rm m : valid_bubbles g rm m -> smooth_bubbles m -> exists f, plip box f /\ returns box (compute_relative_viscosity_bubbles m) f.
Proof.
  intros Hv Hs. destruct m; cbn [valid_bubbles smooth_bubbles] in *; try contradiction;
    destruct (ves_smooth vm Hv Hs) as (vf & Lv & Ev & Mv & Bv);
    assert (P1 : plip box (fun p => 1 - vf p)) by
      (apply (plip_above _ _ (1 - max_vesicle vm)); [apply lip_minus; auto|lra|]; intros p Hp; specialize (Bv p Hp); lra).
  - exists (fun _ => 1). split; [apply plip_const; lra|]. intros s Hs'. cbn [compute_relative_viscosity_bubbles].
    rewrite (Ev _ Hs'). cbn [rbind]. rnum. reflexivity.
  - exists (fun p => Rpower (1 - vf p) (- 1)). split; [apply plip_Rpower; auto|]. intros s Hs'. specialize (Bv _ Hs').
    cbn [compute_relative_viscosity_bubbles]. rewrite (Ev _ Hs'). cbn [rbind]. rnum. unfold R_mpow. now rewrite R_power_pos by lra.
  - exists (fun p => Rpower (1 - vf p) (5 / 3)). split; [apply plip_Rpower; auto|]. intros s Hs'. specialize (Bv _ Hs').
    cbn [compute_relative_viscosity_bubbles]. rewrite (Ev _ Hs'). cbn [rbind]. rnum. unfold R_mpow. now rewrite R_power_pos by lra.
Qed.
Lemma viscosity_smooth l : valid_lava g l -> melt_margin (rg_ts g) (lv_melt l) -> below_packing phi1 (lv_rel l) ->
  smooth_bubbles (lv_bub l) -> exists f, plip box f /\ returns box (computes_bulk_viscosity l) f.
Proof.
  intros (H1 & H2 & H3 & _) M1 M2 M3.
  destruct (melt_smooth _ H1 M1) as (a & Pa & Ea). destruct (rel_smooth _ H2 M2) as (b & Pb & Eb).
  destruct (bub_smooth _ _ H3 M3) as (c & Pc & Ec).
  exists (fun p => a p * b p * c p). split; [apply plip_mult; [now apply plip_mult|exact Pc]|].
  intros s Hs. unfold computes_bulk_viscosity. rewrite (Ea _ Hs), (Eb _ Hs), (Ec _ Hs). reflexivity.
Qed.
Lemma yield_smooth l : (match lv_yield l with YBLL vm _ => valid_vesicle vm | _ => True end) -> smooth_yield (lv_yield l) ->
  exists f, lip box f /\ returns box (get_yield_strength l) f.
Proof.
  intros Hv Hs. assert (Pw : lip box (fun p => pospow (pp p) (285 / 100))).
  { apply lip_pospow; [lra| |auto]. intros p Hp. apply box_p in Hp. lra. }
  assert (Ex : forall t, lip box (fun p => 1 / 100 * exp (8 / 100 * (t - pt p) - 1))).
  { intros t. apply lip_mult; [auto|]. apply plip_lip, plip_exp, lip_minus; [|auto]. apply lip_mult; [auto|]. apply lip_minus; auto. }
  assert (F : forall s vf, yield_vesicles (lv_yield l) s = Ok vf -> box (at_ s) ->
    get_yield_strength l s = Ok (yield_value (lv_yield l) vf (st_phi s) (st_temp s))).
  { intros s vf E Hb. apply C31_yield_formulas; [exact E|]. apply box_p in Hb. cbn in Hb. lra. }
  assert (F0 : yield_vesicles (lv_yield l) = (fun _ => Ok 0) -> returns box (get_yield_strength l) (fun p => yield_value (lv_yield l) 0 (pp p) (pt p))).
  { intros E s Hb. apply F; [now rewrite E|exact Hb]. }
  destruct (lv_yield l); cbn [smooth_yield yield_vesicles yield_value] in *.
  - eexists. split; [|apply F0; reflexivity]. apply lip_plus; [apply Ex|]. now apply lip_mult.
  - eexists. split; [|apply F0; reflexivity]. apply lip_plus; [apply Ex|]. now apply lip_mult.
  - eexists. split; [|apply F0; reflexivity]. apply Ex.
  - eexists. split; [|apply F0; reflexivity]. now apply lip_mult.
  - destruct (ves_smooth _ Hv Hs) as (vf & Lv & Ev & Mv & Bv).
    exists (fun p => Rpower 10 (80 * (pp p - 35 / 100)) + Rpower 10 (198 / 100 * (pp p + vf p - 35 / 100))). split.
    + apply lip_plus; apply plip_lip, plip_Rpower; try (apply plip_const; lra); apply lip_mult; auto; apply lip_minus; auto. apply lip_plus; auto.
    + intros s Hb. rewrite (F s _ (Ev s Hb) Hb). reflexivity.
Qed.
Lemma spline_smooth (pts : list (R * R)) : increasing pts -> (2 <= length pts)%nat ->
  exists f, lip box f /\ forall p, spline_eval pts (px p) = Ok (f p).
Proof.
  intros Hi Hl. destruct pts as [|p l]; [cbn in Hl; lia|]. assert (Hne : l <> []) by (destruct l; [cbn in Hl; lia|discriminate]).
  destruct (polyline_lip l p Hi Hne) as (_ & L & HL & HP). exists (fun q => polyline p l (px q)). split.
  - apply lip_comp; [auto|]. intros B _. exists L. auto.
  - intros q. now apply spline_polyline.
Qed.
Lemma slope_smooth t : slope_defined t -> exists f, lip box f /\ forall p, get_channel_slope t (px p) = Ok (f p).
Proof.
  unfold slope_defined, get_channel_slope. destruct (ter_spline t) as [pts|].
  - intros (xs & ys & E). apply make_spline_ok in E as (_ & _ & Hl & Hi). now apply spline_smooth.
  - intros _. exists (fun _ => ter_default_slope t). auto.
Qed.
Lemma crust_smooth m ta : valid_crust g ta m -> exists f, lip box f /\ returns box (compute_crust_temperature m) f /\ forall p, box p -> ta <= f p.
Proof.
  intros Hv. assert (G : exists f, lip box f /\ returns box (compute_crust_temperature m) f).
  { destruct m; cbn [valid_crust compute_crust_temperature] in *.
    - exists (fun _ => tc). split; [auto|]. intros s _. reflexivity.
    - contradiction.
    - exists (fun _ => tc2). split; [auto|]. intros s Hs. apply box_x in Hs. cbn [at_ px] in Hs. cbn [compute_crust_temperature]. rnum.
      now rewrite (proj2 (R_leb_false _ _)) by lra.
    - destruct tbl as [tbl|].
      + destruct Hv as (first & last & Hi & Hh & (l & El) & HA & HB & _).
        destruct (Nat.le_gt_cases 2 (length tbl)) as [H2|H2].
        * destruct (spline_smooth tbl Hi H2) as (f & Lf & Ef). exists f. split; [exact Lf|]. intros s Hs.
          cbn [compute_crust_temperature]. rewrite (Ef (at_ s) : spline_eval tbl (st_pos s) = _). reflexivity.
        * exists (fun _ => 0). split; [auto|]. intros s Hs. exfalso.
          destruct tbl as [|a [|]]; [destruct l; discriminate| |cbn in H2; lia]. destruct Hs as [((X1 & X2) & _) _]. cbn in X1, X2.
          cbn in Hh. injection Hh as <-. destruct l as [|b [|]]; cbn [app] in El; try discriminate. injection El as <-. lra.
      + exists (fun _ => tc). split; [auto|]. intros s _. reflexivity.
    - exists (fun p => pt p - 712). split; [apply lip_minus; auto|]. intros s _. cbn [compute_crust_temperature]. rnum. reflexivity. }
  destruct G as (f & H1 & H2). exists f. split; [exact H1|]. split; [exact H2|].
  intros p Hp. destruct (crust_inside g ta m (state_at p) Hv (proj1 Hp)) as (tc & E & B).
  rewrite (returns_at _ _ _ _ H2 Hp) in E. injection E as <-. exact B.
Qed.
End Models.

(** ** The heat fluxes *)
Section Fluxes.
Variables (D : point -> Prop) (a : air R) (H : R) (th tc f vf mu v : point -> R).
Let ta := air_temp a.
Definition surface_of (p : point) (width : R) : surface :=
  {| su_width := width; su_depth := H; su_temp := pt p; su_hot := th p; su_crust := tc p; su_cover := f p; su_vf := vf p;
     su_mu := mu p; su_v := v p |}.
Hypothesis Hta : 1 <= ta.
Hypothesis HH : 0 < H.
Hypothesis Lt : lip D pt.
Hypothesis Lth : lip D th.
Hypothesis Ltc : lip D tc.
Hypothesis Lf : lip D f.
Hypothesis Lvf : lip D vf.
Hypothesis Lmu : lip D mu.
Hypothesis Lv : lip D v.
Hypothesis Bth : forall p, D p -> 401 / 400 * ta <= th p.
Hypothesis Btc : forall p, D p -> 401 / 400 * ta <= tc p.
Hypothesis Bf : forall p, D p -> 0 <= f p <= 1.
Hint Resolve Lth Ltc Lf Lvf Lmu Lv lip_const : core.
Lemma Pth : plip D th. Proof. apply (plip_above _ _ (401 / 400 * ta)); auto. lra. Qed.
Lemma Ptc : plip D tc. Proof. apply (plip_above _ _ (401 / 400 * ta)); auto. lra. Qed.
Lemma lip_mix x y : lip D x -> lip D y -> lip D (fun p => f p * x p + (1 - f p) * y p).
Proof. intros Lx Ly. apply lip_plus; apply lip_mult; auto. apply lip_minus; auto. Qed.
Lemma plip_mix x y m : lip D x -> lip D y -> 0 < m -> (forall p, D p -> m <= x p) -> (forall p, D p -> m <= y p) ->
  plip D (fun p => f p * x p + (1 - f p) * y p).
Proof. intros Lx Ly Hm Hx Hy. apply (plip_above _ _ m); [now apply lip_mix|exact Hm|]. intros p Hp. apply mix_ge; auto. Qed.
Lemma net_smooth : plip D (fun p => net_fourth_powers (f p) (tc p) (th p) ta).
Proof.
  unfold net_fourth_powers. apply plip_mix with (m := (401 / 400 * ta) ^ 4 - ta ^ 4).
  - apply lip_minus; [now apply lip_pow|auto].
  - apply lip_minus; [now apply lip_pow|auto].
  - assert (ta ^ 4 < (401 / 400 * ta) ^ 4) by (apply fourth_lt; lra). lra.
  - intros p Hp. specialize (Btc p Hp). assert ((401 / 400 * ta) ^ 4 <= tc p ^ 4) by (apply pow_incr; lra). lra.
  - intros p Hp. specialize (Bth p Hp). assert ((401 / 400 * ta) ^ 4 <= th p ^ 4) by (apply pow_incr; lra). lra.
Qed.
Lemma flux_smooth sm g : is_loss sm g -> lip D (fun p => flux_law a (surface_of p 1) g).
Proof.
  intros Hl. destruct g; cbn [flux_law surface_of su_width su_depth su_temp su_hot su_crust su_cover su_vf su_mu su_v].
  - assert (Pt : plip D (fun p => radiating_temperature a (surface_of p 1))).
    { unfold radiating_temperature, root4. cbn [surface_of su_hot su_crust su_cover]. apply plip_pospow. exact net_smooth. }
    apply lip_mult; [|auto]. apply lip_mult; [|apply lip_pow; now apply plip_lip]. apply lip_mult; [auto|].
    assert (Cf : forall x, lip D x -> lip D (fun p => cont_fit (x p))).
    { intros x Lx. unfold cont_fit. apply lip_minus; [apply lip_plus; [auto|now apply lip_mult]|]. apply lip_mult; [auto|now apply lip_pow]. }
    destruct k; cbn [emissivity_of].
    + auto.
    + apply lip_mix; auto.
    + apply lip_mix; auto.
    + unfold lin_fit. apply lip_minus; [auto|]. apply lip_mult; [auto|now apply plip_lip].
  - unfold conductive_flux. apply lip_mult; [|auto]. unfold Rdiv at 1. apply lip_mult; [|auto].
    apply lip_mult; [apply lip_pow; apply lip_minus; [auto|now apply lip_mult]|]. apply lip_minus; auto.
  - apply lip_mult; [|auto]. apply lip_mult; [auto|]. apply lip_minus; [|auto].
    unfold convecting_temperature. cbn [surface_of su_hot su_crust su_cover]. apply plip_lip, plip_pospow.
    assert (P1 := Pth). assert (P2 := Ptc).
    apply plip_mix with (m := 1); [apply plip_lip; now apply plip_pospow|apply plip_lip; now apply plip_pospow|lra| |];
      intros p Hp; [specialize (Btc p Hp)|specialize (Bth p Hp)]; rewrite pospow_pos by lra;
      rewrite <- (Rpower_1_l 1.333); apply Rpower_pos_incr_le; lra.
  - auto.
  - apply lip_mult; [|auto]. apply lip_mult; [auto|]. apply lip_pow. unfold Rdiv. apply lip_mult; auto.
  - apply lip_mult; [|auto]. apply lip_mult; [|auto]. apply lip_mult; [auto|]. apply plip_lip, plip_pospow.
    unfold mean_temperature. cbn [surface_of su_hot su_crust su_cover].
    apply plip_mix with (m := 1); auto; [lra| |]; intros p Hp; [specialize (Btc p Hp)|specialize (Bth p Hp)]; lra.
Qed.
Lemma flux_width p w g : flux_law a (surface_of p w) g = w * flux_law a (surface_of p 1) g.
Proof.
  destruct g; cbn [flux_law surface_of su_width su_depth su_temp su_hot su_crust su_cover su_vf su_mu su_v];
    unfold radiating_temperature, convecting_temperature, mean_temperature, conductive_flux;
    cbn [surface_of su_width su_depth su_temp su_hot su_crust su_cover su_vf su_mu su_v]; unfold Rdiv; ring.
Qed.
End Fluxes.
