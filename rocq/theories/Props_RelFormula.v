(** * Property C75: which formula each relative viscosity model evaluates,
    including the strain-rate dependent regimes (exact reals) *)
From Verif Require Import Base Num Json Logger World Vesicle MeltVisc RelVisc Bubbles Terrain Lava
  Spec Frame RNum RPow Erf Props_Rheology Props_Material.
Open Scope R_scope.

(** ** The crystal-only and crystal-and-bubble models *)
(** Einstein-Roscoe, Krieger-Dougherty, Maron-Pierce, Mueller. *)
Theorem C75_newtonian_models : forall (s : state R),
  0 <= st_phi s ->
  (st_phi s < 100 / 151 ->
     compute_relative_viscosity RelER s = Ok (Rpower (1 - 151 / 100 * st_phi s) (- (5 / 2)))) /\
  (forall phimax b, 0 < phimax -> 0 < b -> st_phi s < phimax ->
     compute_relative_viscosity (RelKD phimax b) s = Ok (Rpower (1 - st_phi s / phimax) (- (b * phimax)))) /\
  (forall phimax, 0 < phimax -> st_phi s < phimax ->
     compute_relative_viscosity (RelMP phimax) s = Ok (Rpower (1 - st_phi s / phimax) (- 2))) /\
  (forall rp, 0 < rp ->
     let phimax := 55 / 100 * exp (- ((ln rp / ln 10) ^ 2 / 2)) in
     st_phi s < phimax ->
     compute_relative_viscosity (RelMueller rp) s = Ok (Rpower (1 - st_phi s / phimax) (- 2))).
Proof.
  intros s Hp. split; [|split; [|split]].
  - intros H. apply (rel_value_correct RelER s 0 (100 / 151)); try reflexivity; try lra. right; discriminate.
  - intros phimax b H1 H2 H. apply (rel_value_correct (RelKD phimax b) s 0 phimax); try reflexivity; try lra.
    + cbn. destruct (Rlt_dec 0 phimax); [|lra]. destruct (Rlt_dec 0 b); [auto|lra].
    + right; discriminate.
  - intros phimax H1 H. apply (rel_value_correct (RelMP phimax) s 0 phimax); try reflexivity; try lra.
    + cbn. destruct (Rlt_dec 0 phimax); [auto|lra].
    + right; discriminate.
  - intros rp H1 phimax H. apply (rel_value_correct (RelMueller rp) s 0 phimax); try reflexivity; try lra.
    + cbn. destruct (Rlt_dec 0 rp); [auto|lra].
    + right; discriminate.
Qed.

(** Phan-Thien & Pham, three limits, with [vf] the vesicle fraction. *)
Theorem C75_crystals_and_bubbles : forall vm (s : state R) vf,
  computes_vesicle_fraction vm s = Ok vf -> 0 <= vf < 1 -> 0 <= st_phi s -> st_phi s + vf < 1 ->
  compute_relative_viscosity (RelPTP1 vm) s =
    Ok (Rpower (1 - st_phi s / (1 - vf)) (- (5 / 2)) * Rpower (1 - vf) (- 1)) /\
  (0 < st_phi s + vf -> compute_relative_viscosity (RelPTP2 vm) s =
    Ok (Rpower (1 - st_phi s - vf) (- ((5 * st_phi s + 2 * vf) / (2 * (st_phi s + vf)))))) /\
  compute_relative_viscosity (RelPTP3 vm) s =
    Ok (Rpower (1 - vf / (1 - st_phi s)) (- 1) * Rpower (1 - st_phi s) (- (5 / 2))).
Proof.
  intros vm s vf Hvf Hv Hp Hs. split; [|split].
  - apply (rel_value_correct (RelPTP1 vm) s vf (1 - vf)); auto; try lra. right; discriminate.
  - intros H. apply (rel_value_correct (RelPTP2 vm) s vf (1 - vf)); auto; lra.
  - apply (rel_value_correct (RelPTP3 vm) s vf (1 - vf)); auto; try lra. right; discriminate.
Qed.

(** Costa et al. (2009): the published expression, and the four parameter sets. *)
Definition costa_2009 (delta gama phi_star epsilon phi : R) : R :=
  let r := phi / phi_star in
  let x := Rmin 25 (sqrt PI / (2 * (1 - epsilon)) * r * (1 + pospow r gama)) in
  (1 + pospow r delta) / Rpower (1 - (1 - epsilon) * erf x) (5 / 2 * phi_star).
Theorem C75_costa_models : forall (s : state R), 0 <= st_phi s ->
  compute_relative_viscosity (RelCosta1 1) s = Ok (costa_2009 (114 / 10) (16 / 10) (67 / 100) (1 / 100) (st_phi s)) /\
  compute_relative_viscosity (RelCosta1 (1 / 10000)) s
    = Ok (costa_2009 (1148 / 100) (152 / 100) (62 / 100) (5 / 1000) (st_phi s)) /\
  compute_relative_viscosity (RelCosta2 1) s
    = Ok (costa_2009 (445 / 100) (855 / 100) (28 / 100) (1 / 1000) (st_phi s)) /\
  compute_relative_viscosity (RelCosta2 (1 / 10000)) s
    = Ok (costa_2009 (75 / 10) (55 / 10) (26 / 100) (2 / 10000) (st_phi s)).
Proof.
  intros s Hp.
  assert (K : forall d g p e, 0 < d -> 0 < g -> 0 < p -> 0 < e < 1 ->
    costa_formula d g p e (st_phi s) = Ok (costa_2009 d g p e (st_phi s))).
  { intros d g p e Hd Hg Hs He. exact (proj1 (costa_value d g p e (st_phi s) Hd Hg Hs He Hp)). }
  assert (E1 : R_eqb 1 1 = true) by now apply R_eqb_true.
  assert (E2 : R_eqb (1 / 10000) 1 = false) by (apply R_eqb_false; lra).
  assert (E3 : R_eqb (1 / 10000) (1 / 10000) = true) by now apply R_eqb_true.
  cbn [compute_relative_viscosity]. rnum. rewrite E1, E2, E3. repeat split; apply K; lra.
Qed.

(** ** mader: Newtonian up to half the packing limit; beyond, a power law *)
(** The flow index of Mader et al. (2013), eq. 50. *)
Definition mader_index (rp phi : R) : R := 1 - 2 / 10 * rp * (phi / mueller_packing rp) ^ 4.

Lemma mader_value rp (s : state R) :
  0 < rp -> 0 <= st_phi s < mueller_packing rp ->
  compute_relative_viscosity (RelMader rp) s =
    let q := st_phi s / mueller_packing rp in
    if R_leb (1 / 2) q then
      if R_ltb (mader_index rp (st_phi s)) (9 / 10) then
        if R_leb (st_strain s) 0
        then Err (ValueError "strain_rate must be > 0 when n < 1 (non-Newtonian case)")
        else Ok (Rpower (1 - q) (- 2) * Rpower (st_strain s) (mader_index rp (st_phi s) - 1))
      else Ok (Rpower (1 - q) (- 2))
    else Ok (Rpower (1 - q) (- 2)).
Proof.
  intros Hrp Hp. cbn [compute_relative_viscosity]. rewrite mueller_phimax_R by auto.
  assert (Hm := mueller_packing_pos rp). cbn [rbind]. rnum. rewrite R_div_ok by lra. cbn [rbind].
  unfold R_pow. rewrite R_power_4. cbn [rbind]. cbv zeta. fold (mader_index rp (st_phi s)).
  assert (st_phi s / mueller_packing rp < 1) by (apply div_lt_1; lra).
  unfold R_mpow. rewrite !R_power_pos by lra. cbn [rbind].
  destruct (R_leb (1 / 2) _); [|reflexivity]. destruct (R_ltb _ _); [|reflexivity].
  destruct (R_leb (st_strain s) 0) eqn:E; [reflexivity|]. rtests. rewrite R_power_pos by lra. reflexivity.
Qed.

Theorem C75_mader : forall rp (s : state R),
  0 < rp -> 0 <= st_phi s < mueller_packing rp ->
  let q := st_phi s / mueller_packing rp in
  let n := 1 - 2 / 10 * rp * q ^ 4 in
  (q < 1 / 2 \/ 9 / 10 <= n ->
     compute_relative_viscosity (RelMader rp) s = Ok (Rpower (1 - q) (- 2))) /\
  (1 / 2 <= q -> n < 9 / 10 -> 0 < st_strain s ->
     compute_relative_viscosity (RelMader rp) s = Ok (Rpower (1 - q) (- 2) * Rpower (st_strain s) (n - 1))) /\
  (1 / 2 <= q -> n < 9 / 10 -> st_strain s <= 0 ->
     compute_relative_viscosity (RelMader rp) s
     = Err (ValueError "strain_rate must be > 0 when n < 1 (non-Newtonian case)")).
Proof.
  intros rp s Hrp Hp q n. rewrite mader_value by auto. cbv zeta. fold q. unfold mader_index. fold q. fold n.
  split; [|split].
  - intros H. destruct (R_leb (1 / 2) q) eqn:E1; [|reflexivity]. destruct (R_ltb n (9 / 10)) eqn:E2; [|reflexivity].
    rtests. destruct H; lra.
  - intros H1 H2 H3. rewrite (proj2 (R_leb_true _ _) H1), (proj2 (R_ltb_true _ _) H2).
    rewrite (proj2 (R_leb_false _ _)) by lra. reflexivity.
  - intros H1 H2 H3. rewrite (proj2 (R_leb_true _ _) H1), (proj2 (R_ltb_true _ _) H2).
    rewrite (proj2 (R_leb_true _ _) H3). reflexivity.
Qed.

(** Faster shear, strictly lower viscosity, once the power law applies. *)
Definition with_strain (x : R) (s : state R) : state R := set_strain_rate x s.
Lemma Rpower_strict_decr x y e : 0 < x < y -> e < 0 -> Rpower y e < Rpower x e.
Proof.
  intros H He. unfold Rpower. apply exp_increasing. assert (ln x < ln y) by (apply ln_increasing; lra). nra.
Qed.
Theorem C75_mader_shear_thinning : forall rp (s : state R) g1 g2,
  0 < rp -> 0 <= st_phi s < mueller_packing rp ->
  let q := st_phi s / mueller_packing rp in
  1 / 2 <= q -> 1 - 2 / 10 * rp * q ^ 4 < 9 / 10 -> 0 < g1 < g2 ->
  exists x1 x2, compute_relative_viscosity (RelMader rp) (with_strain g1 s) = Ok x1 /\
    compute_relative_viscosity (RelMader rp) (with_strain g2 s) = Ok x2 /\ 0 < x2 < x1.
Proof.
  intros rp s g1 g2 Hrp Hp q Hq Hn Hg.
  assert (F : forall g, 0 < g -> compute_relative_viscosity (RelMader rp) (with_strain g s)
    = Ok (Rpower (1 - q) (- 2) * Rpower g ((1 - 2 / 10 * rp * q ^ 4) - 1))).
  { intros g H. apply (proj1 (proj2 (C75_mader rp (with_strain g s) Hrp Hp))); auto. }
  eexists _, _. split; [apply F; lra|]. split; [apply F; lra|]. split.
  - apply Rmult_lt_0_compat; apply Rpower_gt_0.
  - apply Rmult_lt_compat_l; [apply Rpower_gt_0|]. apply Rpower_strict_decr; lra.
Qed.

(** ** bll: three phases *)
(** The capillary number the model uses (capped at 10), the flow index (kept
    between 0.2 and 1.2), the strain rate it raises to a power. *)
Definition capillary (radius mv surf strain : R) : R := Rmin 10 (radius * mv / surf * strain).
Definition bll_index (phicrit phi vf ca : R) : R :=
  Rmin (12 / 10) (Rmax (2 / 10) (1 + (7 / 10 - 55 / 100 * ca) * (phicrit - (phi * (1 - vf) + vf)))).
Definition bll_strain (strain : R) : R := if Rle_dec strain 0 then 1 / 1000000000000 else strain.

Lemma py_min_R a b : @py_min R RNum a b = Rmin a b.
Proof. unfold py_min, Rmin. rnum. unfold R_ltb. destruct (Rlt_dec b a), (Rle_dec a b); lra. Qed.
Lemma py_max_R a b : @py_max R RNum a b = Rmax a b.
Proof. unfold py_max, Rmax. rnum. unfold R_ltb. destruct (Rlt_dec a b), (Rle_dec a b); lra. Qed.

Theorem C75_bll : forall vm mm phimax bsolid bgas radius surf phicrit (s : state R) vf mv,
  computes_vesicle_fraction vm s = Ok vf -> compute_melt_viscosity mm s = Ok mv ->
  0 < phimax -> surf <> 0 -> vf < 1 -> st_phi s < phimax ->
  let m := RelBLL vm mm phimax bsolid bgas radius surf phicrit in
  let base := Rpower (1 - st_phi s / phimax) (- bsolid) * Rpower (1 - vf) (- bgas) in
  let n := bll_index phicrit (st_phi s) vf (capillary radius mv surf (st_strain s)) in
  (st_phi s * (1 - vf) + vf <= phicrit -> compute_relative_viscosity m s = Ok base) /\
  (phicrit < st_phi s * (1 - vf) + vf ->
     compute_relative_viscosity m s = Ok (base * Rpower (bll_strain (st_strain s)) (n - 1))) /\
  2 / 10 <= n <= 12 / 10.
Proof.
  intros vm mm phimax bs bg ra su pc s vf mv Hvf Hmv Hpm Hsu Hv Hp m base n.
  assert (Hn : 2 / 10 <= n <= 12 / 10).
  { unfold n, bll_index. unfold Rmin, Rmax. repeat destruct (Rle_dec _ _); lra. }
  assert (Hst : 0 < bll_strain (st_strain s)).
  { unfold bll_strain. destruct (Rle_dec _ _); lra. }
  assert (Hs' : (if R_leb (st_strain s) 0 then 1 / 1000000000000 else st_strain s) = bll_strain (st_strain s)).
  { unfold bll_strain, R_leb. destruct (Rle_dec (st_strain s) 0); reflexivity. }
  assert (Hq : st_phi s / phimax < 1) by (apply div_lt_1; lra).
  assert (G : compute_relative_viscosity m s =
    if R_ltb pc (st_phi s * (1 - vf) + vf) then Ok (base * Rpower (bll_strain (st_strain s)) (n - 1)) else Ok base).
  { unfold m. cbn [compute_relative_viscosity]. rewrite Hvf, Hmv. cbn [rbind].
    rnum. rewrite R_div_ok by lra. cbn [rbind].
    rewrite (proj2 (R_leb_false 1 vf)) by lra. rewrite R_div_ok by lra. cbn [rbind]. cbv zeta. rewrite Hs'.
    destruct (R_ltb pc (st_phi s * (1 - vf) + vf)).
    - rewrite py_min_R, py_max_R. unfold R_pow. rewrite !R_power_pos by lra. cbn [rbind].
      rewrite (proj2 (R_leb_false _ 0)) by lra. unfold base, n, bll_index.
      replace (if R_ltb 10 (ra * mv / su * st_strain s) then 10 else ra * mv / su * st_strain s)
        with (capillary ra mv su (st_strain s)).
      2:{ unfold capillary, Rmin, R_ltb. destruct (Rle_dec _ _), (Rlt_dec _ _); lra. }
      replace (pc - st_phi s * (1 - vf) - vf) with (pc - (st_phi s * (1 - vf) + vf)) by ring. reflexivity.
    - unfold R_pow. rewrite !R_power_pos by lra. cbn [rbind].
      rewrite (proj2 (R_leb_false _ 0)) by lra. reflexivity. }
  split; [|split; [|exact Hn]].
  - intros H. rewrite G. now rewrite (proj2 (R_ltb_false _ _)) by lra.
  - intros H. rewrite G. now rewrite (proj2 (R_ltb_true _ _) H).
Qed.

(** Above the critical packing the lava is shear thinning ([n < 1]) exactly
    when the capillary number is below 14/11, and the flow index only leaves
    1 then: at and above 14/11 it is at least 1. *)
Theorem C75_bll_regime : forall phicrit phi vf ca,
  phicrit < phi * (1 - vf) + vf ->
  (bll_index phicrit phi vf ca < 1 <-> ca < 14 / 11) /\
  (bll_index phicrit phi vf ca = 1 <-> ca = 14 / 11) /\
  (1 < bll_index phicrit phi vf ca <-> 14 / 11 < ca).
Proof.
  intros pc phi vf ca H. unfold bll_index. set (d := phi * (1 - vf) + vf) in *.
  set (e := (7 / 10 - 55 / 100 * ca) * (pc - d)).
  assert (K1 : e < 0 <-> ca < 14 / 11) by (unfold e; split; intros; nra).
  assert (K2 : 0 < e <-> 14 / 11 < ca) by (unfold e; split; intros; nra).
  unfold Rmin, Rmax. repeat destruct (Rle_dec _ _); repeat split; intros; try lra;
    try (apply K1; lra); try (apply K2; lra).
  all: try (assert (~ ca < 14 / 11) by (intros Hc; apply K1 in Hc; lra));
       try (assert (~ 14 / 11 < ca) by (intros Hc; apply K2 in Hc; lra)); try lra.
  all: try (apply K1 in H0; lra); try (apply K2 in H0; lra); subst; unfold e in *; lra.
Qed.
(** Compared with a Newtonian lava of the same make-up: for a strain rate above
    1/s it is more fluid below the critical capillary number and stiffer above;
    below 1/s the other way round. *)
Lemma Rpower_lt_1 x e : 0 < x -> ln x * e < 0 -> Rpower x e < 1.
Proof. intros Hx H. unfold Rpower. rewrite <- exp_0. apply exp_increasing. lra. Qed.
Lemma Rpower_gt_1 x e : 0 < x -> 0 < ln x * e -> 1 < Rpower x e.
Proof. intros Hx H. unfold Rpower. rewrite <- exp_0 at 1. apply exp_increasing. lra. Qed.
Theorem C75_bll_against_newtonian : forall vm mm phimax bsolid bgas radius surf phicrit (s : state R) vf mv,
  computes_vesicle_fraction vm s = Ok vf -> compute_melt_viscosity mm s = Ok mv ->
  0 < phimax -> surf <> 0 -> vf < 1 -> st_phi s < phimax -> phicrit < st_phi s * (1 - vf) + vf ->
  0 < st_strain s ->
  let ca := radius * mv / surf * st_strain s in
  let base := Rpower (1 - st_phi s / phimax) (- bsolid) * Rpower (1 - vf) (- bgas) in
  exists x, compute_relative_viscosity (RelBLL vm mm phimax bsolid bgas radius surf phicrit) s = Ok x /\ 0 < x /\
    (1 < st_strain s -> ca < 14 / 11 -> x < base) /\ (1 < st_strain s -> 14 / 11 < ca -> base < x) /\
    (st_strain s < 1 -> ca < 14 / 11 -> base < x) /\ (st_strain s < 1 -> 14 / 11 < ca -> x < base) /\
    (st_strain s = 1 \/ ca = 14 / 11 -> x = base).
Proof.
  intros vm mm phimax bs bg ra su pc s vf mv Hvf Hmv Hpm Hsu Hv Hp Hc Hg ca base.
  assert (F := proj1 (proj2 (C75_bll vm mm phimax bs bg ra su pc s vf mv Hvf Hmv Hpm Hsu Hv Hp)) Hc).
  replace (bll_strain (st_strain s)) with (st_strain s) in F.
  2:{ unfold bll_strain. destruct (Rle_dec (st_strain s) 0); lra. }
  fold base in F. set (c := capillary ra mv su (st_strain s)) in F.
  assert (Hcc : (ca < 14 / 11 <-> c < 14 / 11) /\ (14 / 11 < ca <-> 14 / 11 < c) /\ (ca = 14 / 11 <-> c = 14 / 11)).
  { unfold c, capillary. fold ca. unfold Rmin. destruct (Rle_dec 10 ca); lra. }
  destruct Hcc as (C1 & C2 & C3).
  destruct (C75_bll_regime pc (st_phi s) vf c Hc) as (N1 & N2 & N3). set (n := bll_index pc (st_phi s) vf c) in *.
  assert (Hb : 0 < base) by (apply Rmult_lt_0_compat; apply Rpower_gt_0).
  assert (L1 : 1 < st_strain s -> 0 < ln (st_strain s)) by (intros; rewrite <- ln_1; apply ln_increasing; lra).
  assert (L2 : st_strain s < 1 -> ln (st_strain s) < 0) by (intros; rewrite <- ln_1; apply ln_increasing; lra).
  assert (D : forall y, y < 1 -> base * y < base) by (intros; nra).
  assert (U : forall y, 1 < y -> base < base * y) by (intros; nra).
  eexists. split; [exact F|]. split; [apply Rmult_lt_0_compat; [auto|apply Rpower_gt_0]|].
  split; [|split; [|split; [|split]]].
  - intros H1 H2. apply D, Rpower_lt_1; auto. apply L1 in H1. assert (n < 1) by tauto. nra.
  - intros H1 H2. apply U, Rpower_gt_1; auto. apply L1 in H1. assert (1 < n) by tauto. nra.
  - intros H1 H2. apply U, Rpower_gt_1; auto. apply L2 in H1. assert (n < 1) by tauto. nra.
  - intros H1 H2. apply D, Rpower_lt_1; auto. apply L2 in H1. assert (1 < n) by tauto. nra.
  - intros [H|H].
    + rewrite H, Rpower_1_l. ring.
    + assert (E : n = 1) by tauto. rewrite E. replace (1 - 1) with 0 by ring. rewrite Rpower_O by auto. ring.
Qed.
(** A lava that is all gas has no finite viscosity. *)
Theorem C75_bll_all_gas : forall vm mm phimax bsolid bgas radius surf phicrit (s : state R) vf mv,
  computes_vesicle_fraction vm s = Ok vf -> compute_melt_viscosity mm s = Ok mv -> surf <> 0 -> 1 <= vf ->
  compute_relative_viscosity (RelBLL vm mm phimax bsolid bgas radius surf phicrit) s = n_inf.
Proof.
  intros vm mm phimax bs bg ra su pc s vf mv Hvf Hmv Hsu Hv. cbn [compute_relative_viscosity].
  rewrite Hvf, Hmv. cbn [rbind]. rnum. rewrite R_div_ok by lra. cbn [rbind].
  now rewrite (proj2 (R_leb_true 1 vf)) by lra.
Qed.

(** ** The hypotheses are met *)
(** A state with 40 % crystals sheared at 2/s; 20 % bubbles; constant melt viscosity 1000. *)
Definition crystals_demo (phi strain : R) : state R :=
  {| st_temp := 1400; st_phi := phi; st_pos := 0; st_time := 0; st_strain := strain |}.
Example crystals_newtonian : 0 <= st_phi (crystals_demo (4 / 10) 2) < 100 / 151.
Proof. cbn. lra. Qed.
(** rp = 1: the packing limit is 0.55, so 50 % crystals are beyond half of it
    and the flow index is 1 - 0.2 (10/11)^4 < 0.9. *)
Example crystals_mader :
  0 <= st_phi (crystals_demo (5 / 10) 2) < mueller_packing 1 /\
  1 / 2 <= st_phi (crystals_demo (5 / 10) 2) / mueller_packing 1 /\
  1 - 2 / 10 * 1 * (st_phi (crystals_demo (5 / 10) 2) / mueller_packing 1) ^ 4 < 9 / 10 /\
  0 < st_strain (crystals_demo (5 / 10) 2).
Proof.
  assert (E : mueller_packing 1 = 55 / 100).
  { unfold mueller_packing. rewrite ln_1. replace (- ((0 / ln 10) ^ 2 / 2)) with 0 by (unfold Rdiv; ring).
    rewrite exp_0. lra. }
  rewrite E. cbn [crystals_demo st_phi st_strain]. lra.
Qed.
Example crystals_bll :
  exists x, compute_relative_viscosity
      (RelBLL (VConstant (2 / 10)) (MeltBasic 1000 1400) (6 / 10) 2 1 (1 / 1000) (4 / 10) (3 / 10))
      (crystals_demo (4 / 10) 2) = Ok x /\
    Rpower (1 - (4 / 10) / (6 / 10)) (- 2) * Rpower (1 - 2 / 10) (- 1) < x.
Proof.
  assert (Hm : compute_melt_viscosity (MeltBasic 1000 1400) (crystals_demo (4 / 10) 2) = Ok 1000).
  { cbn [compute_melt_viscosity]. rnum. cbn [rbind crystals_demo st_temp]. f_equal.
    replace (4 / 100 * (1400 - 1400)) with 0 by ring. rewrite exp_0. ring. }
  destruct (C75_bll_against_newtonian (VConstant (2 / 10)) (MeltBasic 1000 1400) (6 / 10) 2 1 (1 / 1000) (4 / 10) (3 / 10)
    (crystals_demo (4 / 10) 2) (2 / 10) 1000 eq_refl Hm) as (x & E & _ & _ & K & _);
    cbn [crystals_demo st_phi st_strain] in *; try lra.
  exists x. split; [exact E|]. apply K; lra.
Qed.
