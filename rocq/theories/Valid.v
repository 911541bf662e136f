(** * Valid: physical ranges of a configuration, and what the models do inside them (exact reals) *)
From Verif Require Import Base Num Json Logger World Vesicle MeltVisc RelVisc Bubbles Terrain Lava
  Thermal Flux Integrator Frame StepLog Spec RNum RPow StepProofs Props_Velocity Props_Rheology Props_Material
  Props_Terrain Props_Thermal Gives Props_Flux Safe.
Open Scope R_scope.

(** ** The physical ranges *)
(** The part of the state space a run can visit: from the vent position to the
    maximum channel length, from the solidus to the eruption temperature, from
    the initial crystal fraction to the one reached at the solidus when the
    fastest crystallization rate applies all the way. *)
Record region : Type := {
  rg_x0 : R; rg_x1 : R;     (* vent position, maximum channel length *)
  rg_ts : R; rg_te : R;     (* solidus, temperature at the vent *)
  rg_phi0 : R; rg_cap : R   (* crystal fraction at the vent, at the solidus *)
}.
Definition inside (g : region) (s : state R) : Prop :=
  rg_x0 g <= st_pos s < rg_x1 g /\ rg_ts g < st_temp s <= rg_te g /\ rg_phi0 g <= st_phi s < rg_cap g.

Definition valid_vesicle (m : vesicle_model R) : Prop :=
  match m with
  | VConstant vf => 0 <= vf < 1
  | VBimodal _ vf1 vf2 => 0 <= vf1 < 1 /\ 0 <= vf2 < 1
  | VVariable vf coef => 0 <= vf < 1 /\ 0 <= coef
  | VVariableBimodal crit vf coef => 0 <= crit /\ 0 <= vf < 1 /\ 0 <= coef /\ 0 <= vf - coef * crit
  | VPoly vf a b => 0 <= vf < 1 /\ a <= 0 /\ b <= 0
  end.
(** The largest fraction a model gives downstream of the vent. *)
Definition max_vesicle (m : vesicle_model R) : R :=
  match m with
  | VConstant vf | VVariable vf _ | VVariableBimodal _ vf _ | VPoly vf _ _ => vf
  | VBimodal _ vf1 vf2 => Rmax vf1 vf2
  end.
Definition valid_melt (g : region) (m : melt_model R) : Prop :=
  match m with
  | MeltBasic visc_erupt _ => 0 < visc_erupt
  | MeltShaw _ => 0 <= rg_ts g
  | MeltVFT _ _ c => c <= rg_ts g
  end.
(** Parameters in range, and fewer crystals at the vent than the model can pack. *)
Definition valid_rel (g : region) (m : rel_model R) : Prop :=
  match m with
  | RelER => rg_phi0 g < 100 / 151
  | RelKD phimax b => 0 < phimax /\ 0 < b /\ rg_phi0 g < phimax
  | RelMP phimax => 0 < phimax /\ rg_phi0 g < phimax
  | RelMueller rp => 0 < rp /\ rg_phi0 g < mueller_packing rp
  | RelMader rp => 0 < rp /\ 2 * rg_phi0 g < mueller_packing rp
  | RelBLL vm mm phimax bsolid _ _ surf _ =>
      valid_vesicle vm /\ valid_melt g mm /\ 0 < phimax /\ 0 < surf /\ rg_phi0 g < phimax /\
      (0 < bsolid \/ rg_cap g <= phimax)
  | RelPTP1 vm | RelPTP3 vm =>
      valid_vesicle vm /\ rg_phi0 g < 1 - max_vesicle vm
  | RelPTP2 vm =>
      valid_vesicle vm /\ 0 < rg_phi0 g /\ rg_phi0 g < 1 - max_vesicle vm
  | RelCosta1 p | RelCosta2 p => p = 1 \/ p = 1 / 10000
  | RelCosta _ => False
  end.
(** The packing limit is not reached before the solidus; er, mader and costa
    need no such condition, because their own test (if any is needed) stops the
    run in time. *)
Definition room_for_crystals (g : region) (m : rel_model R) : Prop :=
  match m with
  | RelKD phimax _ | RelMP phimax | RelBLL _ _ phimax _ _ _ _ _ => rg_cap g <= phimax
  | RelMueller rp => rg_cap g <= mueller_packing rp
  | RelPTP1 vm | RelPTP2 vm | RelPTP3 vm => rg_cap g <= 1 - max_vesicle vm
  | _ => True
  end.
(** The crystal fraction is exactly the packing limit: the one value at which
    the model's own test lets the flow go on and its formula is undefined. *)
Definition packed (m : rel_model R) (s : state R) : Prop :=
  match m with
  | RelKD phimax _ | RelMP phimax | RelBLL _ _ phimax _ _ _ _ _ => st_phi s = phimax
  | RelMueller rp => st_phi s = mueller_packing rp
  | RelPTP1 vm | RelPTP2 vm | RelPTP3 vm =>
      exists vf, computes_vesicle_fraction vm s = Ok vf /\ st_phi s = 1 - vf
  | _ => False
  end.
Definition valid_bubbles (g : region) (rm : rel_model R) (m : bubbles_model R) : Prop :=
  match m with
  | BubNo vm | BubRigid vm | BubDefo vm => valid_vesicle vm
  | BubMader vm mm rm' _ surf => valid_vesicle vm /\ valid_melt g mm /\ rm' = rm /\ surf <> 0
  end.
Definition valid_lava (g : region) (l : lava R) : Prop :=
  valid_melt g (lv_melt l) /\ valid_rel g (lv_rel l) /\ valid_bubbles g (lv_rel l) (lv_bub l) /\
  valid_vesicle (lv_ves l) /\ 0 < lv_dre l /\ 0 < lv_latent l.
Definition valid_cryst (m : cryst_model R) : Prop :=
  match m with
  | CrBasic _ grown ts te => 0 < grown /\ ts < te
  | CrBimodal _ _ r1 r2 _ _ | CrBimodalTemp _ _ r1 r2 _ _ => 0 < r1 /\ 0 < r2
  | CrMelts _ _ _ _ => False
  end.
(** Crystal fraction gained per degree, at most. *)
Definition fastest_rate (m : cryst_model R) : R :=
  match m with
  | CrBasic _ grown ts te => grown / (te - ts)
  | CrBimodal _ _ r1 r2 _ _ | CrBimodalTemp _ _ r1 r2 _ _ => Rmax r1 r2
  | CrMelts _ _ _ _ => 0
  end.
Definition valid_crust (g : region) (ta : R) (m : crust_model R) : Prop :=
  match m with
  | CtConstant tc | CtField tc None => ta <= tc
  | CtHon => False
  | CtBimodal crit tc2 => crit < rg_x0 g /\ ta <= tc2
  | CtField _ (Some tbl) => exists first last,
      increasing tbl /\ hd_error tbl = Some first /\ (exists l, tbl = l ++ [last]) /\
      fst first <= rg_x0 g /\ rg_x1 g <= fst last /\ Forall (fun p => ta <= snd p) tbl
  | CtHR2001 => ta <= rg_ts g - 712
  end.
Definition valid_cover (m : cover_model R) : Prop :=
  match m with
  | CvBasic alpha fc => alpha <= 0 /\ 0 <= fc <= 1
  | CvBimodal _ a1 a2 f1 f2 => a1 <= 0 /\ a2 <= 0 /\ 0 <= f1 <= 1 /\ 0 <= f2 <= 1
  end.
Definition slope_defined (t : terrain R) : Prop :=
  match ter_spline t with
  | None => True
  | Some pts => exists xs ys, make_spline xs ys = Ok pts
  end.
Definition region_of (sm : sim R) (s0 : state R) : region :=
  {| rg_x0 := st_pos s0; rg_x1 := ter_maxlen (s_ter sm);
     rg_ts := get_solid_temperature (s_cryst sm); rg_te := st_temp s0;
     rg_phi0 := st_phi s0;
     rg_cap := st_phi s0 + fastest_rate (s_cryst sm) * (st_temp s0 - get_solid_temperature (s_cryst sm)) |}.

(** A physically admissible set-up: models, initial state and channel depth. *)
Record admissible (sm : sim R) (s0 : state R) (depth : R) : Prop := {
  va_dx : 0 < s_dx sm;
  va_depth : 0 < depth;
  va_width : 0 < ter_width (s_ter sm);
  va_gravity : 0 < ter_gravity (s_ter sm);
  va_slope : slope_defined (s_ter sm);
  va_downhill : forall sl, get_channel_slope (s_ter sm) (st_pos s0) = Ok sl -> 0 < sin sl;
  va_pos : 0 <= st_pos s0 < ter_maxlen (s_ter sm);
  va_temp : get_solid_temperature (s_cryst sm) < st_temp s0;
  va_phi : 0 <= st_phi s0;
  va_strain : 0 <= st_strain s0;
  va_lava : valid_lava (region_of sm s0) (s_lava sm);
  va_cryst : valid_cryst (s_cryst sm);
  va_air : 0 < air_temp (s_air sm);
  va_surface : air_temp (s_air sm) <= get_solid_temperature (s_cryst sm) - lv_buffer (s_lava sm);
  va_crust : valid_crust (region_of sm s0) (air_temp (s_air sm)) (s_crust sm);
  va_cover : valid_cover (s_cover sm);
  va_cond : forall tb cbd, In (FConduction tb cbd) (s_budget sm) -> cbd <> 0;
  va_mass : s_mass sm = true -> ter_eff_init (s_ter sm) <> 0
}.
(** A physically valid set-up: moreover the packing limit is out of reach. *)
Record valid (sm : sim R) (s0 : state R) (depth : R) : Prop := {
  va_admissible :> admissible sm s0 depth;
  va_room : room_for_crystals (region_of sm s0) (lv_rel (s_lava sm))
}.

(** ** What the models do inside *)
Lemma ves_inside vm (s : state R) : valid_vesicle vm -> 0 <= st_pos s ->
  exists vf, computes_vesicle_fraction vm s = Ok vf /\ 0 <= vf < 1 /\ vf <= max_vesicle vm.
Proof.
  intros Hv Hp. destruct vm; cbn [valid_vesicle max_vesicle] in *.
  - eexists. split; [reflexivity|lra].
  - rewrite C29_bimodal. eexists. split; [reflexivity|].
    assert (vf1 <= Rmax vf1 vf2) by apply Rmax_l. assert (vf2 <= Rmax vf1 vf2) by apply Rmax_r.
    destruct (Rle_dec _ _); lra.
  - rewrite C29_variable. eexists. split; [reflexivity|]. unfold Rmax. destruct (Rle_dec _ _); [nra|lra].
  - rewrite C29_variable_bimodal. eexists. split; [reflexivity|].
    assert (0 <= Rmin (st_pos s) crit) by (apply Rmin_glb; lra).
    assert (Rmin (st_pos s) crit <= crit) by apply Rmin_r. nra.
  - destruct (C29_vesicles_defined (VPoly vf a b) s) as (x & E). exists x. split; [exact E|].
    destruct Hv as (H1 & H2 & H3).
    assert (B := C29_poly_range vf a b s x ltac:(lra) H2 H3 Hp E). lra.
Qed.
Lemma melt_inside g mm (s : state R) : valid_melt g mm -> rg_ts g < st_temp s ->
  exists mv, compute_melt_viscosity mm s = Ok mv /\ 0 < mv.
Proof.
  intros Hv Ht. destruct (C26_melt_formulas s) as (F1 & F2 & F3). destruct mm; cbn [valid_melt] in Hv.
  - rewrite F1. eexists. split; [reflexivity|]. apply Rmult_lt_0_compat; [lra|apply exp_pos].
  - rewrite F3 by lra. eexists. split; [reflexivity|]. apply Rdiv_lt_0_compat; [apply Rpower_gt_0|lra].
  - rewrite F2 by lra. eexists. split; [reflexivity|apply Rpower_gt_0].
Qed.

Lemma bll_inside vm mm phimax bs bg ra su pc (s : state R) vf mv :
  computes_vesicle_fraction vm s = Ok vf -> compute_melt_viscosity mm s = Ok mv ->
  0 < phimax -> 0 < su -> 0 <= vf < 1 -> 0 <= st_phi s < phimax ->
  exists x, compute_relative_viscosity (RelBLL vm mm phimax bs bg ra su pc) s = Ok x /\ 0 < x.
Proof.
  intros Hvf Hmv Hpm Hsu Hv Hp.
  cbn [rel_is_notcompatible compute_relative_viscosity] in *. rewrite Hvf in *. cbn [rbind] in *.
  rewrite Hmv. cbn [rbind]. rnum.
  rewrite R_div_ok by lra. cbn [rbind].
  assert (E1 : R_leb 1 vf = false) by (apply R_leb_false; lra). rewrite E1.
  rewrite R_div_ok by lra. cbn [rbind].
  assert (Hq : st_phi s / phimax < 1) by (apply div_lt_1; lra).
  set (st := if R_leb (st_strain s) 0 then 1 / 1000000000000 else st_strain s).
  assert (Hst : 0 < st). { unfold st. destruct (R_leb (st_strain s) 0) eqn:E; rtests; lra. }
  assert (E3 : R_leb st 0 = false) by (apply R_leb_false; lra).
  destruct (R_ltb pc (st_phi s * (1 - vf) + vf)).
  - unfold R_pow. rewrite !R_power_pos by lra. cbn [rbind]. rewrite E3.
    eexists. split; [reflexivity|]. repeat apply Rmult_lt_0_compat; apply Rpower_gt_0.
  - unfold R_pow. rewrite !R_power_pos by lra. cbn [rbind]. rewrite E3.
    eexists. split; [reflexivity|]. apply Rmult_lt_0_compat; apply Rpower_gt_0.
Qed.

Lemma Ok_inj {A} (x y : A) : Ok x = Ok y -> x = y.
Proof. congruence. Qed.
Lemma div_le_1 a b : 0 < b -> a / b <= 1 -> a <= b.
Proof. intros Hb H. replace a with (a / b * b) by (field; lra). nra. Qed.
Lemma set_phi_same (s : state R) : set_crystal_fraction (st_phi s) s = s.
Proof. destruct s; reflexivity. Qed.

(** Out of reach means never packed. *)
Lemma room_not_packed g m (s : state R) :
  room_for_crystals g m -> valid_rel g m -> 0 <= st_pos s -> st_phi s < rg_cap g -> ~ packed m s.
Proof.
  intros Hr Hv Hx Hp Hk. destruct m; cbn [room_for_crystals packed valid_rel] in *; try contradiction; try lra.
  all: destruct Hk as (vf & Ev & Ek); destruct Hv as (Hves & _);
    destruct (ves_inside vm s Hves Hx) as (vf' & Ev' & Bv & Bm); rewrite Ev in Ev'; injection Ev' as <-; lra.
Qed.
Lemma vent_not_packed g m (s : state R) :
  valid_rel g m -> 0 <= st_pos s -> st_phi s = rg_phi0 g -> ~ packed m s.
Proof.
  intros Hv Hx Hp Hk. destruct m; cbn [packed valid_rel] in *; try contradiction; try lra.
  all: destruct Hk as (vf & Ev & Ek); destruct Hv as (Hves & Hv);
    destruct (ves_inside vm s Hves Hx) as (vf' & Ev' & Bv & Bm); rewrite Ev in Ev'; injection Ev' as <-; lra.
Qed.
(** A packed lava has no viscosity: this exception is raised. *)
Definition packed_error (m : rel_model R) : exn :=
  match m with
  | RelKD _ _ | RelMP _ | RelMueller _ | RelPTP2 _ => ValueError "math domain error"
  | _ => ZeroDivisionError
  end.
Lemma packed_undefined g m (s : state R) :
  valid_rel g m -> 0 <= rg_phi0 g -> st_phi s < rg_cap g -> rg_ts g < st_temp s -> 0 <= st_pos s ->
  packed m s -> compute_relative_viscosity m s = Err (packed_error m).
Proof.
  intros Hv Hp0 Hp Ht Hx Hk.
  destruct m; cbn [packed valid_rel packed_error] in *; try contradiction; cbn [compute_relative_viscosity].
  - rnum. rewrite R_div_ok by lra. cbn [rbind]. rewrite Hk. unfold R_mpow.
    replace (1 - phimax / phimax) with 0 by (field; lra). apply R_power_0_neg. nra.
  - rnum. rewrite R_div_ok by lra. cbn [rbind]. rewrite Hk. unfold R_mpow.
    replace (1 - phimax / phimax) with 0 by (field; lra). apply R_power_0_neg. lra.
  - rewrite mueller_phimax_R by lra. assert (Hm := mueller_packing_pos rp). cbn [rbind]. rnum.
    rewrite R_div_ok by lra. cbn [rbind]. rewrite Hk. unfold R_mpow.
    replace (1 - mueller_packing rp / mueller_packing rp) with 0 by (field; lra). apply R_power_0_neg. lra.
  - destruct Hv as (Hves & Hmelt & H1 & H2 & H3 & H4).
    destruct (ves_inside vm s Hves Hx) as (vf & -> & Bv & _). destruct (melt_inside g mm s Hmelt Ht) as (mv & -> & _).
    cbn [rbind]. rnum. rewrite R_div_ok by lra. cbn [rbind]. rewrite (proj2 (R_leb_false 1 vf)) by lra.
    rewrite R_div_ok by lra. cbn [rbind]. rewrite Hk. replace (1 - phimax / phimax) with 0 by (field; lra).
    unfold R_pow. rewrite R_power_0_neg by lra. cbn [rbind]. now destruct (R_ltb _ _).
  - destruct Hk as (vf & Ev & Ek). destruct Hv as (Hves & Hv).
    destruct (ves_inside vm s Hves Hx) as (vf' & Ev' & Bv & Bm). rewrite Ev in *. injection Ev' as <-. cbn [rbind]. rnum.
    rewrite R_div_ok by lra. cbn [rbind]. rewrite Ek. replace (1 - (1 - vf) / (1 - vf)) with 0 by (field; lra).
    unfold R_pow. rewrite R_power_0_neg by lra. reflexivity.
  - destruct Hk as (vf & Ev & Ek). destruct Hv as (Hves & H0 & Hv).
    destruct (ves_inside vm s Hves Hx) as (vf' & Ev' & Bv & Bm). rewrite Ev in *. injection Ev' as <-. cbn [rbind]. rnum.
    rewrite R_div_ok by lra. cbn [rbind]. rewrite Ek. replace (1 - (1 - vf) - vf) with 0 by ring.
    unfold R_mpow. apply R_power_0_neg.
    assert (0 < (5 * (1 - vf) + 2 * vf) / (2 * (1 - vf + vf))) by (apply Rdiv_lt_0_compat; lra). lra.
  - destruct Hk as (vf & Ev & Ek). destruct Hv as (Hves & Hv).
    destruct (ves_inside vm s Hves Hx) as (vf' & Ev' & Bv & Bm). rewrite Ev in *. injection Ev' as <-. cbn [rbind]. rnum.
    destruct (Req_dec vf 0) as [->|Hz].
    + rewrite Ek. replace (1 - (1 - 0)) with 0 by ring. rewrite R_div_0. reflexivity.
    + rewrite R_div_ok by lra. cbn [rbind]. rewrite Ek. replace (1 - vf / (1 - (1 - vf))) with 0 by (field; lra).
      unfold R_pow. rewrite R_power_0_neg by lra. reflexivity.
Qed.

(** The crystal factor: defined and positive inside the region, at a positive
    strain rate where the model's own test passes, and at the vent whatever the
    strain rate. *)
Lemma rel_inside g m (s : state R) :
  valid_rel g m -> 0 <= rg_x0 g -> 0 <= rg_phi0 g ->
  rg_x0 g <= st_pos s -> rg_ts g < st_temp s -> rg_phi0 g <= st_phi s < rg_cap g ->
  ((rel_is_notcompatible m s = Ok false /\ 0 < st_strain s) \/ st_phi s = rg_phi0 g) -> ~ packed m s ->
  exists x, compute_relative_viscosity m s = Ok x /\ 0 < x.
Proof.
  intros Hv Hx0 Hp0 Hx Ht Hp Hc Hk.
  assert (Hlim : forall vf limit, rel_vesicles m s = Ok vf -> packing_limit m vf = Some limit -> 0 <= vf < 1 ->
    st_phi s < limit -> (0 < st_phi s + vf \/ forall vm, m <> RelPTP2 vm) ->
    exists x, compute_relative_viscosity m s = Ok x /\ 0 < x).
  { intros vf limit A B C D E. exists (rel_value m vf (st_phi s)). split.
    - apply (rel_value_correct m s vf limit); auto. lra.
    - assert (V := rel_value_ge_1 m vf limit (st_phi s) B C ltac:(lra) E). lra. }
  destruct m; cbn [valid_rel] in Hv.
  - apply (Hlim 0 (100 / 151)); try reflexivity; try lra; [|right; discriminate].
    destruct Hc as [[Hc _]|He]; [|lra]. cbn [rel_is_notcompatible] in Hc. rnum.
    rewrite R_div_ok in Hc by lra. cbn [rbind] in Hc. injection Hc as Hc. rtests. lra.
  - assert (L : st_phi s < phimax).
    { destruct Hc as [[Hc _]|He]; [|lra]. cbn [rel_is_notcompatible packed] in Hc, Hk. rnum.
      rewrite R_div_ok in Hc by lra. cbn [rbind] in Hc. apply Ok_inj in Hc. rtests. apply div_le_1 in Hc; lra. }
    apply (Hlim 0 phimax); try reflexivity; try lra; [|right; discriminate].
    cbn [packing_limit]. destruct (Rlt_dec 0 phimax); [|lra]. destruct (Rlt_dec 0 einstein); [auto|lra].
  - assert (L : st_phi s < phimax).
    { destruct Hc as [[Hc _]|He]; [|lra]. cbn [rel_is_notcompatible packed] in Hc, Hk. rnum.
      rewrite R_div_ok in Hc by lra. cbn [rbind] in Hc. apply Ok_inj in Hc. rtests. apply div_le_1 in Hc; lra. }
    apply (Hlim 0 phimax); try reflexivity; try lra; [|right; discriminate].
    cbn [packing_limit]. destruct (Rlt_dec 0 phimax); [auto|lra].
  - assert (Hm := mueller_packing_pos rp). assert (L : st_phi s < mueller_packing rp).
    { destruct Hc as [[Hc _]|He]; [|lra]. cbn [rel_is_notcompatible packed] in Hc, Hk. rewrite mueller_phimax_R in Hc by lra.
      cbn [rbind] in Hc. rnum. rewrite R_div_ok in Hc by lra. cbn [rbind] in Hc. apply Ok_inj in Hc. rtests.
      apply div_le_1 in Hc; lra. }
    apply (Hlim 0 (mueller_packing rp)); try reflexivity; try lra; [|right; discriminate].
    cbn [packing_limit]. destruct (Rlt_dec 0 rp); [auto|lra].
  - destruct Hv as [Hr H2]. assert (Hm := mueller_packing_pos rp).
    destruct Hc as [[Hc Hs]|He].
    + apply C25_mader_defined; auto. lra.
    + rewrite C24_mader_newtonian; auto; [|lra|].
      * assert (E : compute_relative_viscosity (RelMueller rp) s = Ok (rel_value (RelMueller rp) 0 (st_phi s))).
        { apply (rel_value_correct _ s 0 (mueller_packing rp)); try reflexivity; try lra; [|right; discriminate].
          cbn [packing_limit]. destruct (Rlt_dec 0 rp); [auto|lra]. }
        rewrite E. eexists. split; [reflexivity|]. cbn [rel_value]. apply Rpower_gt_0.
      * left. apply Rmult_lt_reg_r with (mueller_packing rp); [lra|]. unfold Rdiv at 1.
        rewrite Rmult_assoc, Rinv_l by lra. lra.
  - destruct Hv as (Hves & Hmelt & H1 & H2 & H3 & H4).
    destruct (ves_inside vm s Hves) as (vf & Ev & Bv & _); [lra|].
    destruct (melt_inside g mm s Hmelt Ht) as (mv & Em & _).
    assert (L : st_phi s < phimax).
    { destruct Hc as [[Hc _]|He]; [|lra]. cbn [rel_is_notcompatible packed] in Hc, Hk. rewrite Ev in Hc. cbn [rbind] in Hc.
      rnum. apply Ok_inj in Hc. rtests. nra. }
    apply (bll_inside _ _ _ _ _ _ _ _ _ vf mv); auto; lra.
  - destruct Hv as (Hves & H1). destruct (ves_inside vm s Hves) as (vf & Ev & Bv & Bm); [lra|].
    assert (L : st_phi s < 1 - vf).
    { destruct Hc as [[Hc _]|He]; [|lra]. cbn [rel_is_notcompatible packed] in Hc, Hk. rewrite Ev in Hc. cbn [rbind] in Hc.
      rnum. apply Ok_inj in Hc. rtests. destruct (Req_dec (st_phi s) (1 - vf)); [|lra]. exfalso. eauto. }
    apply (Hlim vf (1 - vf)); auto; try lra. right; discriminate.
  - destruct Hv as (Hves & H0 & H1). destruct (ves_inside vm s Hves) as (vf & Ev & Bv & Bm); [lra|].
    assert (L : st_phi s < 1 - vf).
    { destruct Hc as [[Hc _]|He]; [|lra]. cbn [rel_is_notcompatible packed] in Hc, Hk. rewrite Ev in Hc. cbn [rbind] in Hc.
      rnum. apply Ok_inj in Hc. rtests. destruct (Req_dec (st_phi s) (1 - vf)); [|lra]. exfalso. eauto. }
    apply (Hlim vf (1 - vf)); auto; try lra.
  - destruct Hv as (Hves & H1). destruct (ves_inside vm s Hves) as (vf & Ev & Bv & Bm); [lra|].
    assert (L : st_phi s < 1 - vf).
    { destruct Hc as [[Hc _]|He]; [|lra]. cbn [rel_is_notcompatible packed] in Hc, Hk. rewrite Ev in Hc. cbn [rbind] in Hc.
      rnum. apply Ok_inj in Hc. rtests. destruct (Req_dec (st_phi s) (1 - vf)); [|lra]. exfalso. eauto. }
    apply (Hlim vf (1 - vf)); auto; try lra. right; discriminate.
  - destruct (C33_costa_defined (RelCosta1 strain) strain s (st_phi s) (st_phi s + 1)) as (x & y & E & _ & B);
      [now left|exact Hv|lra|]. rewrite set_phi_same in E. exists x. split; [exact E|lra].
  - destruct (C33_costa_defined (RelCosta2 strain) strain s (st_phi s) (st_phi s + 1)) as (x & y & E & _ & B);
      [now right|exact Hv|lra|]. rewrite set_phi_same in E. exists x. split; [exact E|lra].
  - contradiction.
Qed.

(** The models' own test can always be evaluated. *)
Lemma compat_inside g m (s : state R) : valid_rel g m -> exists b, rel_is_notcompatible m s = Ok b.
Proof.
  intros Hv. destruct m; cbn [valid_rel rel_is_notcompatible] in *; rnum.
  - rewrite R_div_ok by lra. eexists; reflexivity.
  - rewrite R_div_ok by lra. eexists; reflexivity.
  - rewrite R_div_ok by lra. eexists; reflexivity.
  - destruct Hv as [Hr _]. rewrite mueller_phimax_R by auto. cbn [rbind]. assert (Hm := mueller_packing_pos rp).
    rewrite R_div_ok by lra. eexists; reflexivity.
  - destruct Hv as [Hr _]. rewrite mueller_phimax_R by auto. cbn [rbind]. assert (Hm := mueller_packing_pos rp).
    rewrite R_div_ok by lra. eexists; reflexivity.
  - destruct (C29_vesicles_defined vm s) as (vf & ->). eexists; reflexivity.
  - destruct (C29_vesicles_defined vm s) as (vf & ->). eexists; reflexivity.
  - destruct (C29_vesicles_defined vm s) as (vf & ->). eexists; reflexivity.
  - destruct (C29_vesicles_defined vm s) as (vf & ->). eexists; reflexivity.
  - eexists; reflexivity.
  - eexists; reflexivity.
  - eexists; reflexivity.
Qed.

Lemma bub_inside g rm m (s : state R) rv :
  valid_bubbles g rm m -> 0 <= st_pos s -> rg_ts g < st_temp s ->
  compute_relative_viscosity rm s = Ok rv ->
  exists x, compute_relative_viscosity_bubbles m s = Ok x /\ 0 < x.
Proof.
  intros Hv Hp Ht Hr.
  destruct m; cbn [valid_bubbles] in Hv.
  - destruct (ves_inside vm s Hv Hp) as (vf & Ev & Bv & _). cbn [compute_relative_viscosity_bubbles].
    rewrite Ev. cbn [rbind]. rnum. exists 1. split; [reflexivity|lra].
  - destruct (ves_inside vm s Hv Hp) as (vf & Ev & Bv & _). cbn [compute_relative_viscosity_bubbles].
    rewrite Ev. cbn [rbind]. rnum. unfold R_mpow. rewrite R_power_pos by lra. eexists. split; [reflexivity|apply Rpower_gt_0].
  - destruct (ves_inside vm s Hv Hp) as (vf & Ev & Bv & _). cbn [compute_relative_viscosity_bubbles].
    rewrite Ev. cbn [rbind]. rnum. unfold R_mpow. rewrite R_power_pos by lra. eexists. split; [reflexivity|apply Rpower_gt_0].
  - destruct Hv as (Hves & Hmelt & -> & Hs). destruct (ves_inside vm s Hves Hp) as (vf & Ev & Bv & _).
    destruct (melt_inside g mm s Hmelt Ht) as (mv & Em & _).
    cbn [compute_relative_viscosity_bubbles]. rewrite Ev, Em, Hr. cbn [rbind]. rnum.
    rewrite R_div_ok by auto. cbn [rbind]. unfold R_pow.
    destruct (R_ltb _ _); rewrite R_power_pos by lra; (eexists; split; [reflexivity|apply Rpower_gt_0]).
Qed.

Lemma viscosity_inside g l (s : state R) :
  valid_lava g l -> 0 <= rg_x0 g -> 0 <= rg_phi0 g ->
  rg_x0 g <= st_pos s -> rg_ts g < st_temp s -> rg_phi0 g <= st_phi s < rg_cap g ->
  ((is_notcompatible l s = Ok false /\ 0 < st_strain s) \/ st_phi s = rg_phi0 g) -> ~ packed (lv_rel l) s ->
  exists mu, computes_bulk_viscosity l s = Ok mu /\ 0 < mu.
Proof.
  intros (H1 & H2 & H3 & _) Hx0 Hp0 Hx Ht Hp Hc Hk.
  destruct (melt_inside g _ s H1 Ht) as (a & Ea & Pa).
  destruct (rel_inside g _ s H2 Hx0 Hp0 Hx Ht Hp Hc Hk) as (b & Eb & Pb).
  destruct (bub_inside g _ _ s b H3 ltac:(lra) Ht Eb) as (c & Ec & Pc).
  exists (a * b * c). split; [|apply Rmult_lt_0_compat; [apply Rmult_lt_0_compat|]; assumption].
  unfold computes_bulk_viscosity. rewrite Ea, Eb, Ec. reflexivity.
Qed.

Lemma yield_inside (l : lava R) (s : state R) : 0 <= st_phi s ->
  exists t0, get_yield_strength l s = Ok t0 /\ 0 <= t0.
Proof.
  intros Hp. destruct (C31_yield_grows_with_crystals (lv_yield l) s (st_phi s) (st_phi s + 1)) as (t1 & t2 & E & _ & B & _); [lra|].
  rewrite set_phi_same in E. exists t1. split; [exact E|lra].
Qed.
Lemma slope_inside (t : terrain R) x : slope_defined t -> exists sl, get_channel_slope t x = Ok sl.
Proof.
  unfold slope_defined, get_channel_slope. destruct (ter_spline t) as [pts|]; [|eauto].
  intros (xs & ys & E). eapply C48_defined_everywhere, E.
Qed.
Lemma basal_inside (l : lava R) (t : terrain R) depth (s : state R) :
  slope_defined t -> exists rho sl, get_bulk_density l s = Ok rho /\ get_channel_slope t (st_pos s) = Ok sl /\
    get_basal_shear_stress l t depth s = Ok (depth * rho * ter_gravity t * sin sl).
Proof.
  intros Hs. destruct (slope_inside t (st_pos s) Hs) as (sl & Esl).
  destruct (C29_vesicles_defined (lv_ves l) s) as (vf & Ev).
  assert (Er : get_bulk_density l s = Ok (lv_dre l * (1 - vf))).
  { unfold get_bulk_density, lava_vesicle_fraction. rewrite Ev. cbn [rbind]. rnum. reflexivity. }
  exists (lv_dre l * (1 - vf)), sl. split; [exact Er|]. split; [exact Esl|]. now apply C32_basal_stress.
Qed.
Lemma rate_inside m (s : state R) : valid_cryst m ->
  exists rate, compute_crystallization_rate m s = Ok rate /\ 0 < rate <= fastest_rate m.
Proof.
  intros Hv. destruct m; cbn [valid_cryst compute_crystallization_rate fastest_rate] in *; rnum.
  - rewrite R_div_ok by lra. eexists. split; [reflexivity|]. split; [apply Rdiv_lt_0_compat; lra|lra].
  - assert (r1 <= Rmax r1 r2) by apply Rmax_l. assert (r2 <= Rmax r1 r2) by apply Rmax_r.
    destruct (R_leb _ _); (eexists; split; [reflexivity|lra]).
  - assert (r1 <= Rmax r1 r2) by apply Rmax_l. assert (r2 <= Rmax r1 r2) by apply Rmax_r.
    destruct (R_leb _ _); (eexists; split; [reflexivity|lra]).
  - contradiction.
Qed.
Lemma crust_inside g ta m (s : state R) : valid_crust g ta m -> inside g s ->
  exists tc, compute_crust_temperature m s = Ok tc /\ ta <= tc.
Proof.
  intros Hv ((X1 & X2) & (T1 & T2) & _). destruct m; cbn [valid_crust compute_crust_temperature] in *; rnum.
  - eauto.
  - contradiction.
  - assert (E : R_leb (st_pos s) crit = false) by (apply R_leb_false; lra). rewrite E. eexists. split; [reflexivity|lra].
  - destruct tbl as [tbl|]; [|eauto]. destruct Hv as (f & la & Hi & Hh & Hl & Hf & Hla & HF).
    set (hi := fold_right Rmax ta (map snd tbl)).
    assert (HF' : Forall (fun p => ta <= snd p <= hi) tbl).
    { rewrite Forall_forall in *. intros p Hp. split; [auto|]. unfold hi. clear - Hp.
      induction tbl as [|q r IH]; [destruct Hp|]. cbn [map fold_right]. destruct Hp as [->|Hp]; [apply Rmax_l|].
      eapply Rle_trans; [apply IH, Hp|apply Rmax_r]. }
    destruct (C48_within_bounds tbl f la (st_pos s) ta hi Hi Hh Hl ltac:(lra) HF') as (y & E & B).
    rewrite E. cbn [rmap]. exists y. split; [reflexivity|lra].
  - eexists. split; [reflexivity|lra].
Qed.
Lemma cover_inside m : valid_cover m ->
  (forall pos, fst (cover_parameters m pos) <= 0) /\ (forall pos, 0 <= snd (cover_parameters m pos) <= 1).
Proof.
  intros Hv. destruct m; cbn [valid_cover cover_parameters] in *; split; intros pos; try (cbn; lra);
    destruct (Rle_dec _ _); cbn; lra.
Qed.
