(** * Props_RefineRun: the results depend on the step size by an amount proportional to it (C79) *)
From Coq Require Import Reals Lra Lia List Classical_Prop.
From Verif Require Import Base Num Json Logger World Vesicle MeltVisc RelVisc Bubbles Terrain Lava
  Thermal Flux Integrator Factory Run Frame StepLog Spec RNum RPow StepProofs LoggerProofs RowProofs StepProps StepRow Gives Steady EffArray Props_Run Props_Step Props_Budget Props_BudgetStep Props_RunOuts
  Props_Velocity Props_Rheology Props_Material Props_Terrain Props_Thermal Props_Flux ColumnProofs TableTrace Props_Table Props_Recompute
  Safe Valid Props_ValidRun Cooling Props_Cooling Recompute Lipschitz ModelLip Refine Losses Props_Refine.
Open Scope R_scope.

Lemma run_sound sm s0 depth0 (V : admissible sm s0 depth0) : forall fuel w w', sound sm s0 w ->
  run_loop sm fuel w = Some (Ok tt, w') ->
  forall i wi, steps sm i w = (Ok tt, wi) -> (w_iter w + i < w_iter w')%nat -> sound sm s0 wi.
Proof.
  induction fuel as [|n IH]; intros w w' S H i wi Hs Hi; cbn [run_loop] in H.
  - destruct (has_finished w); [|discriminate]. injection H as <-. lia.
  - destruct (has_finished w); [injection H as <-; lia|].
    destruct (single_step sm w) as [[[]|e] w1] eqn:E; [|discriminate].
    destruct i as [|i]; [injection Hs as <-; exact S|].
    cbn [steps] in Hs. rewrite E in Hs.
    destruct (w_fin w1) eqn:Ef.
    + assert (w1 = w') as <- by (destruct n; cbn [run_loop] in H; unfold has_finished in H; rewrite Ef in H; congruence).
      exfalso. destruct (step_cases _ _ _ E) as [Q|(v & rho & wd & sl & hb & ra & dT & dt & C)].
      * rewrite (ss_iter _ _ _ Q) in Hi. lia.
      * rewrite (cs_iter _ _ _ _ _ _ _ _ _ _ _ C) in Hi. lia.
    + assert (N := sound_next _ _ _ V w w1 S E Ef).
      assert (Hk : ~ packed (lv_rel (s_lava sm)) (w_st w1)).
      { intros Hk. destruct n; cbn [run_loop] in H; unfold has_finished in H; rewrite Ef in H; [discriminate|].
        rewrite (sound_packed _ _ _ V w1 N Hk) in H. discriminate. }
      destruct (unfinished_completed _ _ _ E Ef) as (_ & v & rho & wd & sl & hb & ra & dT & dt & C).
      eapply (IH w1 w'); [constructor; assumption|exact H|exact Hs|].
      rewrite (cs_iter _ _ _ _ _ _ _ _ _ _ _ C). lia.
Qed.
Lemma admissible_step sm s0 d h : admissible sm s0 d -> 0 < h -> admissible (with_step h sm) s0 d.
Proof. intros [] Hh. constructor; assumption. Qed.
Lemma init_step (sm : sim R) h w : init_effusion_rate (with_step h sm) w = init_effusion_rate sm w.
Proof.
  unfold init_effusion_rate. cbn [with_step s_ter].
  assert (Q : forall n i w, search_depth (with_step h sm) i n w = search_depth sm i n w).
  { induction n as [|n IH]; intros i w'; [reflexivity|]. cbn [search_depth]. unfold bind.
    change (try_depth (with_step h sm) (depth_at i) w') with (try_depth sm (depth_at i) w').
    destruct (try_depth sm (depth_at i) w') as [[[]|e] w1]; auto. }
  destruct (n_eqb _ _); [reflexivity|apply Q].
Qed.

Lemma holds_fun r n x y : holds r n x -> holds r n y -> x = y.
Proof. unfold holds. congruence. Qed.

(** ** A set-up whose models have no jump *)
(** Models without a threshold, none of which reads the strain rate; [phi1] is a
    crystal fraction below the packing limit. *)
Record smooth (sm : sim R) (phi1 : R) : Prop := {
  sm_melt : melt_margin (get_solid_temperature (s_cryst sm)) (lv_melt (s_lava sm));
  sm_rel : below_packing phi1 (lv_rel (s_lava sm));
  sm_bub : smooth_bubbles (lv_bub (s_lava sm));
  sm_ves : no_jump_ves (lv_ves (s_lava sm));
  sm_yield : smooth_yield (lv_yield (s_lava sm));
  sm_yield_ok : match lv_yield (s_lava sm) with YBLL vm _ => valid_vesicle vm | _ => True end;
  sm_cryst : exists a b c e, s_cryst sm = CrBasic a b c e;
  sm_cover : exists a f, s_cover sm = CvBasic a f
}.
Lemma smooth_strain_free sm phi1 : smooth sm phi1 -> strain_free (s_lava sm).
Proof.
  intros S. apply C21_which_models_are_strain_free.
  - assert (Q := sm_rel _ _ S). destruct (lv_rel (s_lava sm)); cbn in *; try reflexivity; contradiction.
  - assert (Q := sm_bub _ _ S). destruct (lv_bub (s_lava sm)); cbn in *; try reflexivity; contradiction.
Qed.
Lemma losing_step sm s d h : losing sm s d -> 0 < h -> losing (with_step h sm) s d.
Proof. intros [] Hh. constructor; try assumption. now apply admissible_step. Qed.

(** What the functions of [gradients_full] are. *)
Definition explicit (sm : sim R) (s : state R) (depth phi1 v0 : R) (D : point -> Prop) (su : point -> surface) (vel G : point -> R) (rate : R) : Prop :=
  exists w0 c0 gm, init_effusion_rate sm (initial_world s [] depth) = (Ok tt, w0) /\
  (0 < c0 /\ forall p t0 tb, box (region_of sm s) phi1 p -> get_yield_strength (s_lava sm) (state_at p) = Ok t0 ->
     get_basal_shear_stress (s_lava sm) (s_ter sm) (w_depth w0) (state_at p) = Ok tb -> t0 < tb \/ px p = st_pos s -> v0 <= vel p -> c0 <= tb) /\
  (forall c grown ts te, s_cryst sm = CrBasic c grown ts te -> rate = grown / (te - ts)) /\
  (forall ve new y, mean_velocity (s_lava sm) (s_ter sm) (w_depth w0) (w_st w0) = Ok (ve, new) -> 0 < ve * ter_width (s_ter sm) * w_depth w0 ->
     w_flux w0 = Some y -> 0 < y -> gm = ve * ter_width (s_ter sm) * w_depth w0 / y * rate) /\
  forall p, box (region_of sm s) phi1 p -> exists t0 tb, let u := su p in let H := w_depth w0 in
    lava_vesicle_fraction (s_lava sm) (state_at p) = Ok (su_vf u) /\ computes_bulk_viscosity (s_lava sm) (state_at p) = Ok (su_mu u) /\
    get_yield_strength (s_lava sm) (state_at p) = Ok t0 /\ get_basal_shear_stress (s_lava sm) (s_ter sm) H (state_at p) = Ok tb /\
    compute_crust_temperature (s_crust sm) (state_at p) = Ok (su_crust u) /\
    su_width u = 1 /\ su_depth u = H /\ su_temp u = pt p /\ su_hot u = pt p - lv_buffer (s_lava sm) /\ su_v u = vel p /\
    vel p = jeffreys_bingham H t0 tb (su_mu u) /\
    (forall al fc, s_cover sm = CvBasic al fc -> su_cover u = fc * exp (al * vel p)) /\
    (D p <-> c0 <= tb /\ v0 <= vel p) /\
    (let rho := lv_dre (s_lava sm) * (1 - su_vf u) in G p = if s_mass sm then gm * (rho * rho * vel p * H) else vel p * H * rho * rate).

Section Gradient.
Variables (sm : sim R) (s : state R) (depth phi1 v0 : R).
Hypothesis V : admissible sm s depth.
Hypothesis S : smooth sm phi1.
Hypothesis Hv0 : 0 < v0.
Let g := region_of sm s.
Local Notation lv := (s_lava sm).
Local Notation at_point x temp phi := {| px := x; pt := temp; pp := phi |}.

(** The gradient as a function of position, temperature and crystal fraction:
    the same function for every step size; the losses enter through the heat
    lost by the surface and the latent heat only. *)
Lemma gradients_full : exists (D : point -> Prop) (su : point -> surface) (vel G : point -> R) (rate : R),
  (lip D vel /\ 0 < rate /\ (forall p, D p -> v0 <= vel p /\ 0 < G p) /\ explicit sm s depth phi1 v0 D su vel G rate) /\
  forall (d : json R) profile mo a b L,
  build_models d profile = Ok mo -> b = mo_budget mo -> losing (with_losses a b L sm) s depth ->
  let F := fun p => - (heat_loss a b (su p) / (L * G p)) in
  lip D F /\
  (forall p, D p -> warm_surface (get_solid_temperature (s_cryst sm)) (air_temp a) (su p)) /\
  forall h fuel w', 0 < h -> simulate fuel (with_step h (with_losses a b L sm)) (initial_world s [] depth) = Some (Ok tt, w') ->
  forall i r x temp phi dtemp dphi v, (i < w_iter w')%nat -> nth_error (w_log w') i = Some r ->
    row_state r x temp phi dtemp dphi -> holds r "mean_velocity" v -> 
    x < ter_maxlen (s_ter sm) /\
    (v0 <= v -> phi <= phi1 ->
    let p := {| px := x; pt := temp; pp := phi |} in D p /\ dtemp = F p /\ dphi = - rate * F p /\ v = vel p).
Proof.
  destruct (va_pos _ _ _ V) as [X0 X1]. assert (Ph0 := va_phi _ _ _ V).
  destruct (va_lava _ _ _ V) as (Vm & Vr & Vb & Vv & Pdre & Plat).
  destruct (vent_init sm s depth V []) as (w0 & E0 & S0 & _ & _).
  set (H := w_depth w0). assert (PH : 0 < H) by exact (so_depth _ _ _ S0).
  set (B := box g phi1).
  destruct (ves_smooth g phi1 X0 _ Vv (sm_ves _ _ S)) as (vf & Lvf & Evf & Mvf & Bvf).
  destruct (viscosity_smooth g phi1 X0 Ph0 lv (va_lava _ _ _ V) (sm_melt _ _ S) (sm_rel _ _ S) (sm_bub _ _ S)) as (mu & Pmu & Emu).
  destruct (yield_smooth g phi1 X0 Ph0 lv (sm_yield_ok _ _ S) (sm_yield _ _ S)) as (t0 & Lt0 & Et0).
  destruct (slope_smooth g phi1 _ (va_slope _ _ _ V)) as (sl & Lsl & Esl).
  destruct (crust_smooth g phi1 _ _ (va_crust _ _ _ V)) as (tc & Ltc & Etc & _).
  destruct (sm_cryst _ _ S) as (c1 & grown & ts & te & Ecr). destruct (sm_cover _ _ S) as (al & fc & Ecv).
  assert (Vc := va_cryst _ _ _ V). rewrite Ecr in Vc. cbn [valid_cryst] in Vc.
  set (rate := grown / (te - ts)). assert (Prate : 0 < rate) by (unfold rate; apply Rdiv_lt_0_compat; lra).
  assert (Vcv := va_cover _ _ _ V). rewrite Ecv in Vcv. cbn [valid_cover] in Vcv.
  set (rho := fun p => lv_dre lv * (1 - vf p)).
  set (tb := fun p => H * rho p * ter_gravity (s_ter sm) * sin (sl p)).
  set (vel := fun p => jeffreys_bingham H (t0 p) (tb p) (mu p)).
  destruct Pmu as [Lmu (cm & Pcm & Bmu)].
  destruct (sound_stress sm s depth V w0 S0) as (t0v & tbv & _ & Etbv & _ & Ptbv). fold H in Etbv.
  set (c0 := Rmin tbv (3 * cm * v0 / H)).
  assert (Pc0 : 0 < c0). { unfold c0. apply Rmin_glb_lt; [exact Ptbv|]. apply Rdiv_lt_0_compat; [|exact PH]. repeat apply Rmult_lt_0_compat; lra. }
  assert (Etb : forall p, B p -> get_basal_shear_stress lv (s_ter sm) H (state_at p) = Ok (tb p)).
  { intros p Bp. assert (Q : basal_body (s_ter sm) H lv (state_at p) = Ok (tb p)).
    { unfold basal_body, get_bulk_density, lava_vesicle_fraction. rewrite (returns_at _ _ _ _ Evf Bp). cbn [rbind state_at st_pos].
      rewrite (Esl p). cbn [rbind]. rnum. reflexivity. }
    unfold get_basal_shear_stress, compute_basal_shear_stress. destruct (lv_yield lv); exact Q. }
  assert (Reach : forall p y b, B p -> get_yield_strength lv (state_at p) = Ok y -> get_basal_shear_stress lv (s_ter sm) H (state_at p) = Ok b ->
    y < b \/ px p = st_pos s -> v0 <= vel p -> c0 <= b).
  { intros p y b Bp Ey Eb Or Hvp. rewrite (Etb p Bp) in Eb. rewrite (returns_at _ _ _ _ Et0 Bp) in Ey. apply Ok_inj in Eb. apply Ok_inj in Ey. subst y b.
    destruct Or as [Q|Q].
    - assert (P0 : 0 <= t0 p).
      { destruct (yield_inside lv (state_at p)) as (z & Ez & Bz); [apply box_p in Bp; cbn in Bp |- *; lra|].
        rewrite (returns_at _ _ _ _ Et0 Bp) in Ez. injection Ez as <-. exact Bz. }
      eapply Rle_trans; [apply Rmin_r|]. assert (Pb : 0 < tb p) by lra. assert (Bm := Bmu p Bp).
      assert (Q1 : vel p <= H * tb p / (3 * mu p)).
      { unfold vel. rewrite jb_factored by lra. set (y := t0 p / tb p).
        assert (Y0 : 0 <= y) by (unfold y; apply Rmult_le_pos; [lra|apply Rlt_le, Rinv_0_lt_compat; lra]).
        assert (Y1 : y < 1). { unfold y. apply Rmult_lt_reg_r with (tb p); [lra|]. unfold Rdiv. rewrite Rmult_assoc, Rinv_l by lra. lra. }
        assert (Y2 : (1 - y) ^ 2 * (2 + y) / 2 <= 1). { nra. }
        assert (Y3 : 0 <= H * tb p / (3 * mu p)). { apply Rlt_le, Rdiv_lt_0_compat; [apply Rmult_lt_0_compat; lra|lra]. }
        rewrite <- (Rmult_1_r (H * tb p / (3 * mu p))) at 2. apply Rmult_le_compat_l; assumption. }
      assert (Q2 : v0 * (3 * mu p) <= H * tb p).
      { assert (QQ : v0 <= H * tb p / (3 * mu p)) by lra. apply Rmult_le_reg_r with (/ (3 * mu p)); [apply Rinv_0_lt_compat; lra|].
        rewrite Rmult_assoc, Rinv_r, Rmult_1_r by lra. exact QQ. }
      apply Rmult_le_reg_r with H; [exact PH|]. unfold Rdiv. rewrite Rmult_assoc, Rinv_l by lra. nra.
    - assert (Qb : get_basal_shear_stress lv (s_ter sm) H (state_at p) = get_basal_shear_stress lv (s_ter sm) H (w_st w0)).
      { assert (Ew := init_keeps_pos sm _ _ _ E0). cbn in Ew. rewrite <- Q in Ew. change (px p) with (st_pos (state_at p)) in Ew. symmetry in Ew.
        unfold get_basal_shear_stress, compute_basal_shear_stress, basal_body, get_bulk_density, lava_vesicle_fraction. rewrite Ew.
        assert (Qv : computes_vesicle_fraction (lv_ves lv) (state_at p) = computes_vesicle_fraction (lv_ves lv) (w_st w0)) by (destruct (lv_ves lv); cbn [computes_vesicle_fraction]; rewrite ?Ew; reflexivity).
        rewrite Qv. reflexivity. }
      rewrite (Etb p Bp), Etbv in Qb. apply Ok_inj in Qb. rewrite Qb. apply Rmin_l. }
  set (D := fun p => B p /\ c0 <= tb p /\ v0 <= vel p).
  assert (DB : forall p, D p -> B p) by (intros p [Q _]; exact Q).
  assert (Drho : plip D rho).
  { apply plip_mult; [now apply plip_const|]. apply (plip_above _ _ (1 - max_vesicle (lv_ves lv))).
    - apply lip_minus; [apply lip_const|]. now apply (lip_sub B).
    - lra.
    - intros p Hp. specialize (Bvf p (DB p Hp)). lra. }
  assert (Dtb : plip D tb).
  { apply (plip_above _ _ c0); [|exact Pc0|intros p Hp; apply Hp].
    apply lip_mult; [|apply lip_sin; now apply (lip_sub B)]. apply lip_mult; [|apply lip_const].
    apply lip_mult; [apply lip_const|now apply plip_lip]. }
  assert (Dmu : plip D mu). { split; [now apply (lip_sub B)|]. exists cm. split; [exact Pcm|]. intros p Hp. apply Bmu, DB, Hp. }
  assert (Dt0 : lip D t0) by now apply (lip_sub B).
  assert (Dr : lip D (fun p => t0 p / tb p)) by now apply lip_div.
  assert (Dvel : plip D vel).
  { apply (plip_above _ _ v0); [|exact Hv0|intros p Hp; apply Hp]. unfold vel, jeffreys_bingham.
    apply lip_mult.
    - apply lip_div; [apply lip_mult; [apply lip_const|now apply plip_lip]|]. apply plip_mult; [apply plip_const; lra|exact Dmu].
    - apply lip_plus; [apply lip_minus; [apply lip_const|]|]; apply lip_mult; try apply lip_const; [exact Dr|now apply lip_pow]. }
  set (f := fun p => fc * exp (al * vel p)).
  assert (Df : lip D f). { apply lip_mult; [apply lip_const|]. apply plip_lip, plip_exp, lip_mult; [apply lip_const|now apply plip_lip]. }
  assert (Bf : forall p, D p -> 0 <= f p <= 1).
  { intros p Hp. destruct Hp as (_ & _ & Hp). unfold f. assert (Q := exp_pos (al * vel p)).
    assert (exp (al * vel p) <= 1) by (rewrite <- exp_0; apply exp_le; nra). nra. }
  set (th := fun p => pt p - lv_buffer lv).
  assert (Dt : lip D pt) by (apply (lip_sub B); [exact DB|apply Lt]).
  assert (Dth : lip D th) by (apply lip_minus; [exact Dt|apply lip_const]).
  assert (Dtc : lip D tc) by now apply (lip_sub B).
  set (su := fun p => surface_of H th tc f vf mu vel p).
  (* in mass mode: the effusion rate at the vent and the mass flux *)
  set (E := match mean_velocity lv (s_ter sm) H (w_st w0) with
            | Ok (ve, _) => if Rlt_dec 0 (ve * ter_width (s_ter sm) * H) then ve * ter_width (s_ter sm) * H else 1 | Err _ => 1 end).
  set (fl := match w_flux w0 with Some y => if Rlt_dec 0 y then y else 1 | None => 1 end).
  assert (PE : 0 < E). { unfold E. destruct (mean_velocity _ _ _ _) as [[ve ?]|]; [destruct (Rlt_dec _ _)|]; lra. }
  assert (Pfl : 0 < fl). { unfold fl. destruct (w_flux w0) as [y|]; [destruct (Rlt_dec _ _)|]; lra. }
  set (G := fun p => if s_mass sm then E * rho p * rate * (rho p * vel p * (H / fl)) else vel p * H * rho p * rate).
  assert (PG : plip D G).
  { unfold G. destruct (s_mass sm).
    - apply plip_mult; [apply plip_mult; [apply plip_mult; [now apply plip_const|exact Drho]|now apply plip_const]|].
      apply plip_mult; [apply plip_mult; [exact Drho|exact Dvel]|]. apply plip_const. now apply Rdiv_lt_0_compat.
    - apply plip_mult; [apply plip_mult; [apply plip_mult; [exact Dvel|now apply plip_const]|exact Drho]|now apply plip_const]. }
  exists D, (fun p => su p 1), vel, G, rate. split.
  { split; [now apply plip_lip|]. split; [exact Prate|]. split.
    { intros p Hp. split; [apply Hp|]. destruct PG as [_ (c & Pc & Bc)]. specialize (Bc p Hp). lra. }
    exists w0, c0, (E / fl * rate). split; [exact E0|]. split; [split; [exact Pc0|exact Reach]|].
    split; [intros c1' grown' ts' te' Q; rewrite Ecr in Q; injection Q as <- <- <- <-; reflexivity|].
    split; [intros ve new y Q1 Q2 Q3 Q4; unfold E, fl, H; rewrite Q1, Q3; destruct (Rlt_dec _ _); [|contradiction]; destruct (Rlt_dec 0 y); [reflexivity|contradiction]|].
    intros p Bp. exists (t0 p), (tb p). cbv zeta. unfold su, surface_of. cbn [su_width su_depth su_temp su_hot su_crust su_cover su_vf su_mu su_v]. fold H.
    split; [exact (returns_at _ _ _ _ Evf Bp)|]. split; [exact (returns_at _ _ _ _ Emu Bp)|]. split; [exact (returns_at _ _ _ _ Et0 Bp)|].
    split.
    { assert (Q : basal_body (s_ter sm) H lv (state_at p) = Ok (tb p)).
      { unfold basal_body, get_bulk_density, lava_vesicle_fraction. rewrite (returns_at _ _ _ _ Evf Bp). cbn [rbind state_at st_pos].
        rewrite (Esl p). cbn [rbind]. rnum. reflexivity. }
      unfold get_basal_shear_stress, compute_basal_shear_stress. destruct (lv_yield lv); exact Q. }
    split; [exact (returns_at _ _ _ _ Etc Bp)|]. do 5 (split; [reflexivity|]). split; [reflexivity|].
    split; [intros al' fc' Q; rewrite Ecv in Q; injection Q as <- <-; reflexivity|].
    split; [split; [intros Q; apply Q|intros [Q1 Q2]; split; [exact Bp|split; assumption]]|].
    unfold G, rho. destruct (s_mass sm); [|reflexivity]. field. lra. }
  intros d profile mo a b L Hb Es K. cbv zeta.
  assert (Dsol : forall p, D p -> get_solid_temperature (s_cryst sm) < pt p <= st_temp s).
  { intros p Hp. destruct (proj1 (DB p Hp)) as (_ & Q & _). exact Q. }
  assert (Bth : forall p, D p -> 401 / 400 * air_temp a <= th p <= 2600).
  { intros p Hp. apply Dsol in Hp. unfold th. assert (Q := co_surface _ _ _ K). assert (Q' := co_surface_max _ _ _ K). cbn in Q, Q'. lra. }
  assert (Btc : forall p, D p -> 401 / 400 * air_temp a <= tc p <= 2600).
  { intros p Hp. assert (Ip := proj1 (DB p Hp)).
    destruct (crust_inside g _ _ _ (co_crust _ _ _ K) Ip) as (y & Ey & By). assert (Qy := co_crust_max _ _ _ K _ _ Ip Ey).
    change (s_crust (with_losses a b L sm)) with (s_crust sm) in Ey.
    rewrite (returns_at _ _ _ _ Etc (DB p Hp)) in Ey. injection Ey as ->. split; [exact By|exact Qy]. }
  set (total := fun p => heat_loss a b (su p 1)).
  assert (Dtot : lip D total).
  { apply (lip_sum D b (fun q p => flux_law a (su p 1) q)). intros q Hq.
    assert (Lq := co_losses _ _ _ K). rewrite Forall_forall in Lq.
    apply (flux_smooth D a H th tc f vf mu vel) with (sm := with_losses a b L sm);
      auto using plip_lip.
    - apply (co_air _ _ _ K).
    - now apply (lip_sub B).
    - intros p Hp. apply Bth, Hp.
    - intros p Hp. apply Btc, Hp. }
  assert (PL : 0 < L). { destruct (va_lava _ _ _ (co_admissible _ _ _ K)) as (_ & _ & _ & _ & _ & Q). exact Q. }
  set (F := fun p => - (total p / (L * G p))).
  split; [|split].
  { apply lip_opp, lip_div; [exact Dtot|]. apply plip_mult; [now apply plip_const|exact PG]. }
  { intros p Hp. specialize (Bvf p (DB p Hp)). specialize (Bmu p (DB p Hp)). assert (Vp := proj2 (proj2 Hp)).
    constructor; cbn [su surface_of su_width su_depth su_temp su_hot su_crust su_cover su_vf su_mu su_v]; auto; try lra.
    apply Dsol, Hp. }
  intros h fuel w' Hh Hrun i r x temp phi dtemp dphi v Hi Hr (R1 & R2 & R3 & R4 & R5) Rv.
  set (sm' := with_step h (with_losses a b L sm)) in *.
  assert (Hdx : s_dx sm' <> 0) by (change (h <> 0); lra).
  assert (V' : admissible sm' s depth) by (apply admissible_step; [exact (co_admissible _ _ _ K)|exact Hh]).
  destruct (row_step sm' fuel s depth w' i r Hdx Hrun Hi Hr) as
    (wi & wj & v' & rho' & wd & slp & hb & ra & dT & dt & C & SR & E1 & E2 & E3 & Cphi & Ctemp & Hn & w0' & E0' & Hs & H1).
  assert (w0' = w0) as ->. { unfold sm' in E0'. rewrite init_losses, E0 in E0'. congruence. }
  assert (Sw : sound sm' s wi).
  { destruct (vent_init sm' s depth V' []) as (w0' & E0'' & S0' & _ & I0). rewrite E0' in E0''. injection E0'' as <-.
    unfold simulate in Hrun. rewrite E0' in Hrun. apply (run_sound sm' s depth V' fuel w0 w' S0' Hrun i wi Hs). lia. }
  assert (Hin : inside g (w_st wi)) by exact (sound_inside sm' s depth V' wi (so_nearly _ _ _ Sw)).
  assert (Ed : w_depth wi = H) by exact (proj1 (C17_depth_and_flux_constant sm' _ _ _ _ Hs)).
  assert (Hal := factory_leaves_alone _ _ _ Hb). assert (Hsp := factory_spares _ _ _ Hb). rewrite <- Es in Hal, Hsp. change b with (s_budget sm') in Hal, Hsp.
  assert (Hf : strain_free (s_lava sm')) by exact (smooth_strain_free sm phi1 S).
  destruct (step_columns sm' wi wj v' rho' wd slp hb ra dT dt Hf Hal Hsp C) as
    (u & t0' & tb' & (U1 & U2 & U3 & U4 & U5 & U6) & Htc & Hvf & Hmu & Ht0 & Htb & Ev & _ & _ & HG).
  assert (Hx : st_pos (w_st wi) = x).
  { assert (Q := Hn "position"). unfold holds in R1. rewrite R1 in Q. unfold logged in Q.
    destruct (find (row_at (st_pos (w_st wi))) (w_log wj)) as [q|] eqn:Ff; [|discriminate].
    apply find_some in Ff as [_ Ff]. unfold row_at in Ff. rewrite <- Q in Ff. now apply R_eqb_true in Ff. }
  assert (Hte : st_temp (w_st wi) = temp) by (rewrite <- Hn in Ctemp; exact (holds_fun _ _ _ _ Ctemp R2)).
  assert (Hph : st_phi (w_st wi) = phi) by (rewrite <- Hn in Cphi; exact (holds_fun _ _ _ _ Cphi R3)).
  destruct SR as [S1 S2 S3 S4 S5 S6 S7 S8 S9 S10 S11].
  rewrite <- Hn in S1, S6, S8, S9. assert (Hvv := holds_fun _ _ _ _ S1 Rv). assert (HdT := holds_fun _ _ _ _ S8 R4).
  assert (Hdp := holds_fun _ _ _ _ S9 R5). symmetry in Hvv, HdT. destruct Hvv, HdT.
  split. { rewrite <- Hx. apply (so_pos _ _ _ Sw). }
  intros Gv Gp. cbv zeta. set (p := {| px := x; pt := temp; pp := phi |}).
  assert (Ep : at_ (w_st wi) = p) by (unfold at_, p; rewrite Hx, Hte, Hph; reflexivity).
  assert (Bp : B p). { split; [|exact Gp]. rewrite <- Ep. exact Hin. }
  assert (Bw : B (at_ (w_st wi))) by (rewrite Ep; exact Bp).
  change (s_lava sm') with (with_latent L lv) in *. change (s_ter sm') with (s_ter sm) in *. change (s_crust sm') with (s_crust sm) in *.
  change (s_cover sm') with (s_cover sm) in *. change (s_air sm') with a in *. change (s_cryst sm') with (s_cryst sm) in *.
  change (s_budget sm') with b in *. change (s_mass sm') with (s_mass sm) in *.
  change (lava_vesicle_fraction (with_latent L lv)) with (lava_vesicle_fraction lv) in *.
  change (computes_bulk_viscosity (with_latent L lv)) with (computes_bulk_viscosity lv) in *.
  change (get_yield_strength (with_latent L lv)) with (get_yield_strength lv) in *.
  change (get_basal_shear_stress (with_latent L lv)) with (get_basal_shear_stress lv) in *.
  rewrite (Etc _ Bw), Ep in Htc. injection Htc as Htc. unfold lava_vesicle_fraction in Hvf. rewrite (Evf _ Bw), Ep in Hvf. injection Hvf as Hvf.
  rewrite (Emu _ Bw), Ep in Hmu. injection Hmu as Hmu. assert (Ht0' := Ht0). rewrite (Et0 _ Bw), Ep in Ht0. injection Ht0 as Ht0.
  assert (Hrho := cs_rho _ _ _ _ _ _ _ _ _ _ _ C). change (get_bulk_density lv (w_st wi) = Ok rho') in Hrho. unfold get_bulk_density in Hrho.
  unfold lava_vesicle_fraction in Hrho. rewrite (Evf _ Bw), Ep in Hrho. cbn [rbind] in Hrho. rnum. apply Ok_inj in Hrho.
  change (rho p = rho') in Hrho.
  assert (Hsl := cs_slope _ _ _ _ _ _ _ _ _ _ _ C). change (s_ter sm') with (s_ter sm) in Hsl.
  rewrite Hx, (Esl p : get_channel_slope _ x = _) in Hsl. injection Hsl as Hsl.
  assert (Etbp : tb' = tb p).
  { assert (Q : basal_body (s_ter sm) (w_depth wi) lv (w_st wi) = Ok tb').
    { unfold get_basal_shear_stress, compute_basal_shear_stress in Htb. destruct (lv_yield lv); exact Htb. }
    unfold basal_body, get_bulk_density, lava_vesicle_fraction in Q. rewrite (Evf _ Bw), Ep in Q. cbn [rbind] in Q.
    rewrite Hx, (Esl p : get_channel_slope _ x = _), Ed in Q. cbn [rbind] in Q. rnum. apply Ok_inj in Q. symmetry. exact Q. }
  assert (Evel : v = vel p) by (rewrite Ev, Ed, Etbp; unfold vel; now rewrite Ht0, Hmu).
  assert (Dp : D p).
  { split; [exact Bp|]. split; [|rewrite <- Evel; exact Gv].
    destruct (so_stage _ _ _ (so_nearly _ _ _ Sw)) as [(I0 & _)|(_ & _ & Hy & _)].
    - assert (wi = w0) as ->.
      { destruct i as [|i]; [now injection Hs|]. exfalso.
        destruct (run_sequences sm' fuel s depth w' Hdx Hrun _ Hi) as (N1 & (N2 & _) & _). rewrite Hr in N1. injection N1 as N1.
        rewrite <- N1 in N2. assert (N3 := holds_fun _ _ _ _ R1 N2). change (s_dx sm') with h in N3.
        assert (0 < INR (Datatypes.S i) * h) by (apply Rmult_lt_0_compat; [apply lt_0_INR; lia|exact Hh]). lra. }
      rewrite <- Etbp. rewrite Ed, Etbv in Htb. apply Ok_inj in Htb. unfold c0. rewrite Htb. apply Rmin_l.
    - rewrite Ed in Hy, Htb. destruct (C32_stop_criterion _ _ _ _ _ _ Ht0' Htb) as [_ [Q _]]. specialize (Q Hy).
      assert (P0 : 0 <= t0').
      { destruct (yield_inside lv (w_st wi)) as (z & Ez & Bz); [rewrite Hph; unfold p in Bp; apply box_p in Bp; cbn in Bp; lra|].
        rewrite Ht0' in Ez. injection Ez as <-. exact Bz. }
      eapply Rle_trans; [apply Rmin_r|]. rewrite <- Etbp.
      assert (Pb : 0 < tb') by lra. assert (Bm := Bmu p Bp). rewrite Hmu in Bm.
      assert (Q1 : v <= H * tb' / (3 * su_mu u)).
      { rewrite Ev, Ed, jb_factored by lra. set (y := t0' / tb').
        assert (Y0 : 0 <= y) by (unfold y; apply Rmult_le_pos; [lra|apply Rlt_le, Rinv_0_lt_compat; lra]).
        assert (Y1 : y < 1). { unfold y. apply Rmult_lt_reg_r with tb'; [lra|]. unfold Rdiv. rewrite Rmult_assoc, Rinv_l by lra. lra. }
        assert (Y2 : (1 - y) ^ 2 * (2 + y) / 2 <= 1). { nra. }
        assert (Y3 : 0 <= H * tb' / (3 * su_mu u)). { apply Rlt_le, Rdiv_lt_0_compat; [apply Rmult_lt_0_compat; lra|lra]. }
        rewrite <- (Rmult_1_r (H * tb' / (3 * su_mu u))) at 2. apply Rmult_le_compat_l; assumption. }
      assert (Q2 : v0 * (3 * su_mu u) <= H * tb').
      { assert (v0 <= H * tb' / (3 * su_mu u)) by lra. apply Rmult_le_reg_r with (/ (3 * su_mu u)); [apply Rinv_0_lt_compat; lra|].
        rewrite Rmult_assoc, Rinv_r, Rmult_1_r by lra. exact H0. }
      apply Rmult_le_reg_r with H; [exact PH|]. unfold Rdiv. rewrite Rmult_assoc, Rinv_l by lra. nra. }
  split; [exact Dp|].
  assert (Eu : u = su p wd).
  { unfold su, surface_of. destruct u as [u1 u2 u3 u4 u5 u6 u7 u8 u9]. cbn [su_width su_depth su_temp su_hot su_crust su_cover su_vf su_mu su_v] in *.
    assert (u3 = pt p) by (rewrite U4, Hte; reflexivity).
    assert (u4 = th p) by (rewrite U5, Hte; reflexivity).
    assert (u6 = f p) by (rewrite U6, Ecv, Evel; reflexivity). congruence. }
  destruct (C72_fluxes_add_up_in_every_row d profile mo sm' fuel s depth w' Hb Es Hf Hdx Hrun i r Hi Hr) as (qs & Hqs & Hsum).
  assert (Ehb : hb = wd * total p).
  { rewrite (holds_fun _ _ _ _ S6 Hsum). unfold total, heat_loss. change (s_budget sm') with b in Hqs.
    assert (HG' : forall q, In q b -> holds r (flux_name q) (flux_law a u q)).
    { intros q Hq. unfold holds. rewrite Hn. exact (proj1 (HG q Hq)). }
    clear -Hqs HG' Eu. induction Hqs as [|q y ql yl Hq _ IH]; cbn [map fold_right]; [ring|].
    rewrite IH by (intros; apply HG'; now right). rewrite (holds_fun _ _ _ _ Hq (HG' q (or_introl eq_refl))).
    rewrite Eu. unfold su. rewrite (flux_width a). ring. }
  assert (Era : ra = rate).
  { assert (Q := cs_rate _ _ _ _ _ _ _ _ _ _ _ C). change (s_cryst sm') with (s_cryst sm) in Q. rewrite Ecr in Q.
    cbn [compute_crystallization_rate] in Q. rnum. rewrite R_div_ok in Q by lra. injection Q as <-. reflexivity. }
  destruct (C72_every_row_balances sm' fuel s depth w' Hdx Hrun) as (eff & hh & HB).
  destruct (HB i r Hi Hr) as (x' & v' & width & rr & hb' & rt & dt' & sl' & A1 & A2 & A3 & A4 & A5 & A6 & A7 & _ & A9 & A10 & A11 & _ & A13 & _ & A15 & A16 & A17 & A18).
  rewrite <- Hn in S2, S3, S4, S5, S7.
  assert (v' = v) as -> by exact (holds_fun _ _ _ _ A2 S1). assert (width = wd) as -> by exact (holds_fun _ _ _ _ A3 S2).
  assert (rr = rho') as -> by exact (holds_fun _ _ _ _ A4 S3). assert (hb' = hb) as -> by exact (holds_fun _ _ _ _ A5 S6).
  assert (rt = ra) as -> by exact (holds_fun _ _ _ _ A6 S7). assert (dt' = dtemp) as -> by exact (holds_fun _ _ _ _ A7 S8).
  assert (hh = H) as -> by (rewrite <- Ed; exact (holds_fun _ _ _ _ A9 S4)).
  change (lv_latent (s_lava sm')) with L in *. change (s_mass sm') with (s_mass sm) in *.
  rewrite Ehb, Era, <- Hrho in A17. rewrite Era, <- Hrho in A18.
  assert (Pr : 0 < rho p). { destruct Drho as [_ (cr & Pcr & Bcr)]. specialize (Bcr p Dp). lra. }
  assert (Pv : 0 < v) by lra.
  assert (EF : dtemp = F p).
  { unfold F, G. rewrite <- Evel. destruct (s_mass sm) eqn:Em.
    - specialize (A16 eq_refl).
      assert (Ew : eff = w_eff w') by congruence.
      (* the effusion rate is that of the first step *)
      assert (H0 : (0 < w_iter w')%nat) by lia.
      destruct (run_sequences sm' fuel s depth w' Hdx Hrun 0%nat H0) as (M1 & _).
      destruct (row_step sm' fuel s depth w' 0%nat _ Hdx Hrun H0 M1) as
        (wa & wb & va & ? & ? & ? & ? & ? & ? & ? & Ca & _ & Ea & _ & _ & _ & _ & _ & w0' & Ea0 & Hsa & _).
      assert (w0' = w0) as ->. { unfold sm' in Ea0. rewrite init_losses, E0 in Ea0. congruence. }
      injection Hsa as <-. assert (Qe := cs_eff _ _ _ _ _ _ _ _ _ _ _ Ca).
      destruct (vent_init sm' s depth V' []) as (w0' & E0'' & S0' & _ & I0'). rewrite Ea0 in E0''. injection E0'' as <-.
      unfold eff_of in Qe. rewrite I0' in Qe. rnum. change (wb.(w_eff) = va * ter_width (s_ter sm) * H) in Qe.
      destruct (cs_budget _ _ _ _ _ _ _ _ _ _ _ Ca) as (new & w2 & Mv & _).
      change (mean_velocity lv (s_ter sm) H (w_st w0) = Ok (va, new)) in Mv.
      assert (Pva : 0 < va) by (assert (Z := cs_vpos _ _ _ _ _ _ _ _ _ _ _ Ca); rnum; now apply R_leb_false in Z).
      assert (Pw : 0 < va * ter_width (s_ter sm) * H) by (repeat apply Rmult_lt_0_compat; auto; exact (va_width _ _ _ V)).
      assert (EE : eff = E). { rewrite Ew, <- Ea, Qe. unfold E. rewrite Mv. destruct (Rlt_dec _ _); [reflexivity|contradiction]. }
      (* the mass flux is that of the vent *)
      assert (Efl : w_flux w0 = Some (rho p * v * wd * H)).
      { rewrite <- (proj2 (C17_depth_and_flux_constant sm' _ _ _ _ Hs)), E3, A16, Hrho. reflexivity. }
      assert (Pf : 0 < rho p * v * wd * H).
      { destruct (so_flux _ _ _ (so_nearly _ _ _ S0') Em) as (y & Ey & [Hy|(t & Y1 & Y2)]).
        - rewrite Efl in Ey. injection Ey as ->. exact Hy.
        - exfalso. destruct (C20_velocity_only_if _ _ _ _ _ _ Mv) as (mu' & t0x & tbx & _ & Y1' & Y2' & _ & Nb & _ & Y3 & _).
          change (get_yield_strength lv (w_st w0) = Ok t) in Y1. change (get_basal_shear_stress lv (s_ter sm) H (w_st w0) = Ok t) in Y2.
          assert (t0x = t) as -> by congruence. assert (tbx = t) as -> by congruence.
          assert (Z : jeffreys_bingham H t t mu' = 0); [|change (va = jeffreys_bingham H t t mu') in Y3; lra].
          unfold jeffreys_bingham. replace (t / t) with 1 by (field; exact Nb). replace (1 - 3 / 2 * 1 + 1 / 2 * 1 ^ 3) with 0 by field. apply Rmult_0_r. }
      assert (Ef : fl = rho p * v * wd * H). { unfold fl. rewrite Efl. destruct (Rlt_dec _ _); [reflexivity|contradiction]. }
      rewrite EE in A17. rewrite Ef.
      assert (Pwd : wd <> 0) by (intros Q; rewrite Q in Pf; lra).
      assert (A17' : wd * total p = - dtemp * (E * rho p * L * rate)) by exact A17.
      apply Rmult_eq_reg_r with (- (E * rho p * L * rate)); [|assert (0 < E * rho p * L * rate) by (apply Rmult_lt_0_compat; [apply Rmult_lt_0_compat; [apply Rmult_lt_0_compat|]|]; assumption); lra].
      replace (dtemp * - (E * rho p * L * rate)) with (wd * total p) by lra.
      field. repeat split; try assumption; lra.
    - specialize (A15 eq_refl). rewrite <- A15 in A17, A18.
      apply Rmult_eq_reg_r with (- (v * wd * H * rho p * L * rate)); [|intros Q; apply A18; lra].
      replace (dtemp * - (v * wd * H * rho p * L * rate)) with (wd * total p) by lra.
      field. repeat split; intros Q; apply A18; rewrite Q; ring. }
  change (dtemp = F p /\ dphi = - rate * F p /\ v = vel p). split; [exact EF|]. split; [rewrite <- EF, <- Hdp, Era; rnum; ring|exact Evel].
Qed.
Lemma gradients : exists (D : point -> Prop) (su : point -> surface) (vel G : point -> R) (rate : R),
  lip D vel /\ 0 < rate /\ (forall p, D p -> v0 <= vel p /\ 0 < G p) /\
  forall (d : json R) profile mo a b L,
  build_models d profile = Ok mo -> b = mo_budget mo -> losing (with_losses a b L sm) s depth ->
  let F := fun p => - (heat_loss a b (su p) / (L * G p)) in
  lip D F /\
  (forall p, D p -> warm_surface (get_solid_temperature (s_cryst sm)) (air_temp a) (su p)) /\
  forall h fuel w', 0 < h -> simulate fuel (with_step h (with_losses a b L sm)) (initial_world s [] depth) = Some (Ok tt, w') ->
  forall i r x temp phi dtemp dphi v, (i < w_iter w')%nat -> nth_error (w_log w') i = Some r ->
    row_state r x temp phi dtemp dphi -> holds r "mean_velocity" v -> 
    x < ter_maxlen (s_ter sm) /\
    (v0 <= v -> phi <= phi1 ->
    let p := {| px := x; pt := temp; pp := phi |} in D p /\ dtemp = F p /\ dphi = - rate * F p /\ v = vel p).
Proof.
  destruct gradients_full as (D & su & vel & G & rate & (A & B & C & _) & Q). exists D, su, vel, G, rate. auto.
Qed.
End Gradient.

(** The same for one set-up. *)
Lemma gradient (d : json R) profile mo (sm : sim R) s depth phi1 v0 :
  build_models d profile = Ok mo -> s_budget sm = mo_budget mo -> losing sm s depth -> smooth sm phi1 -> 0 < v0 ->
  exists (D : point -> Prop) (F vel : point -> R) (rate : R), lip D F /\ lip D vel /\ 0 < rate /\
  forall h fuel w', 0 < h -> simulate fuel (with_step h sm) (initial_world s [] depth) = Some (Ok tt, w') ->
  forall i r x temp phi dtemp dphi v, (i < w_iter w')%nat -> nth_error (w_log w') i = Some r ->
    row_state r x temp phi dtemp dphi -> holds r "mean_velocity" v -> 
    x < ter_maxlen (s_ter sm) /\
    (v0 <= v -> phi <= phi1 ->
    let p := {| px := x; pt := temp; pp := phi |} in D p /\ dtemp = F p /\ dphi = - rate * F p /\ v = vel p).
Proof.
  intros Hb Es K S Hv0.
  destruct (gradients sm s depth phi1 v0 (co_admissible _ _ _ K) S Hv0) as (D & su & vel & G & rate & HV & Prate & _ & HG').
  destruct (HG' d profile mo (s_air sm) (s_budget sm) (lv_latent (s_lava sm)) Hb Es) as (HF & _ & HG);
    [rewrite with_losses_same; exact K|]. clear HG'. rewrite with_losses_same in HG.
  exists D, (fun p => - (heat_loss (s_air sm) (s_budget sm) (su p) / (lv_latent (s_lava sm) * G p))), vel, rate. auto.
Qed.

(** ** C79 for a configuration *)
(** The rows of a table up to row [n] show a velocity of at least [v0] and a
    crystal fraction of at most [phi1]. *)
Definition flows_freely (v0 phi1 : R) (t : table R) (n : nat) : Prop :=
  forall i r v phi, (i <= n)%nat -> nth_error t i = Some r ->
    holds r "mean_velocity" v -> holds r "crystal_fraction" phi -> v0 <= v /\ phi <= phi1.

(** A configuration the factory accepts, with physical parameters, heat losses
    only and models without jumps.  There is a number [C], the same for every
    step size, such that the table of a run with the step [h] and the table of a
    run with the step [h/m] show, at the same place, core temperatures, crystal
    fractions and velocities that differ by at most [C * h] -- as long as the
    lava flows at [v0] or more and stays below the packing limit. *)
Theorem C79_error_proportional_to_step : forall (d : json R) profile mo (sm : sim R) (s : state R) depth phi1 v0,
  build_models d profile = Ok mo -> s_budget sm = mo_budget mo ->
  losing sm s depth -> smooth sm phi1 -> 0 < v0 ->
  exists C, forall h m n fuel fuel' w w', 0 < h -> (0 < m)%nat ->
    simulate fuel (with_step h sm) (initial_world s [] depth) = Some (Ok tt, w) ->
    simulate fuel' (with_step (h / INR m) sm) (initial_world s [] depth) = Some (Ok tt, w') ->
    (n < w_iter w)%nat -> (n * m < w_iter w')%nat ->
    flows_freely v0 phi1 (w_log w) n -> flows_freely v0 phi1 (w_log w') (n * m) ->
    exists r r' temp phi v temp' phi' v',
      nth_error (w_log w) n = Some r /\ nth_error (w_log w') (n * m) = Some r' /\
      holds r "position" (st_pos s + INR n * h) /\ holds r' "position" (st_pos s + INR n * h) /\
      holds r "core_temperature" temp /\ holds r "crystal_fraction" phi /\ holds r "mean_velocity" v /\
      holds r' "core_temperature" temp' /\ holds r' "crystal_fraction" phi' /\ holds r' "mean_velocity" v' /\
      Rabs (temp - temp') <= C * h /\ Rabs (phi - phi') <= C * h /\ Rabs (v - v') <= C * h.
Proof.
  intros d profile mo sm s depth phi1 v0 Hb Es K S Hv0.
  destruct (gradient d profile mo sm s depth phi1 v0 Hb Es K S Hv0) as
    (D & F & vel & rate & (L & B & HL & HB & HF) & (Lv & Bv & HLv & HBv & HV) & Prate & HG).
  set (L' := (1 + rate) * L). set (B' := (1 + rate) * B). set (X := ter_maxlen (s_ter sm) - st_pos s).
  assert (HL' : 0 <= L') by (unfold L'; apply Rmult_le_pos; lra). assert (HB' : 0 <= B') by (unfold B'; apply Rmult_le_pos; lra).
  assert (PX : 0 < X). { unfold X. destruct (va_pos _ _ _ (co_admissible _ _ _ K)). lra. }
  set (C1 := (1 + B') * (exp (L' * X) - 1)).
  assert (PC1 : 0 <= C1). { unfold C1. apply Rmult_le_pos; [lra|]. assert (0 <= L' * X) by (apply Rmult_le_pos; lra).
    assert (exp 0 <= exp (L' * X)) by now apply exp_le. rewrite exp_0 in *. lra. }
  exists ((1 + Lv) * C1). intros h m n fuel fuel' w w' Hh Hm H H' Hn Hn' Fw Fw'.
  assert (Mp : 0 < INR m) by (apply lt_0_INR; lia). assert (Hd : 0 < h / INR m) by (apply Rdiv_lt_0_compat; lra).
  assert (Q : s_dx (with_step h sm) <> 0) by (change (h <> 0); lra).
  assert (Q' : s_dx (with_step (h / INR m) sm) <> 0) by (change (h / INR m <> 0); lra).
  assert (VV : forall k fu z, 0 < k -> simulate fu (with_step k sm) (initial_world s [] depth) = Some (Ok tt, z) ->
    forall i r, (i < w_iter z)%nat -> nth_error (w_log z) i = Some r -> exists v, holds r "mean_velocity" v).
  { intros k fu z Hk Hz i r Hi Hr. assert (Qk : s_dx (with_step k sm) <> 0) by (change (k <> 0); lra).
    destruct (C72_every_row_balances _ _ _ _ _ Qk Hz) as (e & hh & HBal).
    destruct (HBal i r Hi Hr) as (? & v & ? & ? & ? & ? & ? & ? & _ & A & _). eauto. }
  assert (Row : forall k fu z N, 0 < k -> simulate fu (with_step k sm) (initial_world s [] depth) = Some (Ok tt, z) ->
    flows_freely v0 phi1 (w_log z) N -> (N < w_iter z)%nat ->
    forall i r x temp phi dtemp dphi, (i <= N)%nat -> nth_error (w_log z) i = Some r -> row_state r x temp phi dtemp dphi ->
      exists v, holds r "mean_velocity" v /\ x < ter_maxlen (s_ter sm) /\
      let p := {| px := x; pt := temp; pp := phi |} in D p /\ dtemp = F p /\ dphi = - rate * F p /\ v = vel p).
  { intros k fu z N Hk Hz Ff HN i r x temp phi dtemp dphi Hi Hr HR.
    destruct (VV k fu z Hk Hz i r ltac:(lia) Hr) as (v & Hv). exists v. split; [exact Hv|].
    destruct (HG k fu z Hk Hz i r x temp phi dtemp dphi v ltac:(lia) Hr HR Hv) as [G1 G2]. split; [exact G1|].
    destruct HR as (R1 & R2 & R3 & R4 & R5). destruct (Ff i r v phi Hi Hr Hv R3) as [G3 G4]. exact (G2 G3 G4). }
  destruct (C79_refining_the_step sm h m n fuel fuel' s depth w w' L' B' Hh Hm HL' H H' Hn Hn') as
    (r & r' & x & temp & phi & dtemp & dphi & temp' & phi' & dtemp' & dphi' & N1 & N2 & N3 & N4 & N5 & N6).
  { intros j q' x' t' p' dt' dp' Hj Hq' HR'.
    destruct (Row _ _ _ _ Hd H' Fw' Hn' j q' _ _ _ _ _ ltac:(lia) Hq' HR') as (v' & _ & _ & D' & E1' & E2' & _).
    assert (Ab : forall y, Rabs (- rate * y) = rate * Rabs y) by (intros y; rewrite Rabs_mult, Rabs_Ropp, (Rabs_right rate) by lra; reflexivity).
    split.
    - destruct (HF _ D') as [Bd _]. rewrite E1', E2', Ab. unfold B'.
      assert (rate * Rabs (F {| px := x'; pt := t'; pp := p' |}) <= rate * B) by (apply Rmult_le_compat_l; lra). lra.
    - intros i q x0 t p dt dp Hi Hq HR.
      destruct (Row _ _ _ _ Hh H Fw Hn i q _ _ _ _ _ ltac:(lia) Hq HR) as (v & _ & _ & D0 & E1 & E2 & _).
      destruct (HF _ D0) as [_ Ld]. specialize (Ld _ D').
      rewrite E1, E2, E1', E2'. rewrite <- Rmult_minus_distr_l, Ab. unfold dist in Ld. cbn [px pt pp] in Ld.
      set (e := Rabs (F _ - F _)) in *. unfold L'.
      assert (rate * e <= rate * (L * (Rabs (x0 - x') + Rabs (t - t') + Rabs (p - p')))) by (apply Rmult_le_compat_l; lra). lra. }
  destruct (Row _ _ _ _ Hh H Fw Hn n r _ _ _ _ _ (le_n _) N1 N3) as (v & Hv & Hx & Dn & _ & _ & Ev).
  destruct (Row _ _ _ _ Hd H' Fw' Hn' (n * m)%nat r' _ _ _ _ _ (le_n _) N2 N4) as (v' & Hv' & _ & Dn' & _ & _ & Ev').
  exists r, r', temp, phi, v, temp', phi', v'. subst x.
  destruct N3 as (A1 & A2 & A3 & _). destruct N4 as (A1' & A2' & A3' & _).
  do 10 (split; [assumption|]).
  assert (Tot : Rabs (temp - temp') + Rabs (phi - phi') <= C1 * h).
  { eapply Rle_trans; [exact N6|]. unfold C1.
    replace (h * (1 + B') * (exp (L' * (INR n * h)) - 1)) with ((1 + B') * (exp (L' * (INR n * h)) - 1) * h) by ring.
    apply Rmult_le_compat_r; [lra|]. apply Rmult_le_compat_l; [lra|].
    assert (exp (L' * (INR n * h)) <= exp (L' * X)); [|lra]. apply exp_le. apply Rmult_le_compat_l; [exact HL'|]. unfold X. lra. }
  assert (P1 := Rabs_pos (temp - temp')). assert (P2 := Rabs_pos (phi - phi')).
  assert (Z : 0 <= C1 * h) by (apply Rmult_le_pos; lra).
  assert (E : (1 + Lv) * C1 * h = C1 * h + Lv * (C1 * h)) by ring. assert (0 <= Lv * (C1 * h)) by (apply Rmult_le_pos; lra).
  rewrite E.
  split; [lra|]. split; [lra|].
  destruct (HV _ Dn) as [_ G]. specialize (G _ Dn'). rewrite <- Ev, <- Ev' in G. unfold dist in G. cbn [px pt pp] in G.
  rewrite (Rminus_diag_eq (st_pos s + INR n * h)), Rabs_R0 in G by reflexivity. eapply Rle_trans; [exact G|].
  assert (Lv * (0 + Rabs (temp - temp') + Rabs (phi - phi')) <= Lv * (C1 * h)) by (apply Rmult_le_compat_l; lra). lra.
Qed.
