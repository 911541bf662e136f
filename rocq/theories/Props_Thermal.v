(** * Properties C34-C36: crystallization, crust temperature, crust cover *)
From Verif Require Import Base Num Json Logger World Vesicle MeltVisc RelVisc Bubbles Terrain Lava
  Thermal Flux Integrator Frame StepLog StepProofs StepProps Spec RNum RPow Props_Rheology Props_Terrain
  Props_Velocity Props_Run.
Open Scope R_scope.

(** ** C34 *)
Theorem C34_basic_rate : forall phi0 grown ts te (s : state R),
  te <> ts ->
  exists rate, compute_crystallization_rate (CrBasic phi0 grown ts te) s = Ok rate /\
    rate * (te - ts) = grown /\ (0 < grown -> ts < te -> 0 < rate).
Proof.
  intros phi0 grown ts te s H. cbn [compute_crystallization_rate]. rnum. rewrite R_div_ok by lra.
  eexists. split; [reflexivity|]. split; [field; lra|]. intros. apply Rdiv_lt_0_compat; lra.
Qed.
Theorem C34_basic_degenerate : forall phi0 grown t (s : state R),
  compute_crystallization_rate (CrBasic phi0 grown t t) s = Err ZeroDivisionError.
Proof.
  intros. cbn [compute_crystallization_rate]. rnum. replace (t - t) with 0 by ring. apply R_div_0.
Qed.
Theorem C34_bimodal_rate : forall phi0 crit r1 r2 ts te (s : state R),
  (st_pos s <= crit -> compute_crystallization_rate (CrBimodal phi0 crit r1 r2 ts te) s = Ok r1) /\
  (crit < st_pos s -> compute_crystallization_rate (CrBimodal phi0 crit r1 r2 ts te) s = Ok r2).
Proof.
  intros. cbn [compute_crystallization_rate]. rnum. split; intros H.
  - now rewrite (proj2 (R_leb_true _ _)).
  - now rewrite (proj2 (R_leb_false _ _)).
Qed.
Theorem C34_bimodal_f_temp_rate : forall phi0 crit r1 r2 ts te (s : state R),
  (crit <= st_temp s -> compute_crystallization_rate (CrBimodalTemp phi0 crit r1 r2 ts te) s = Ok r1) /\
  (st_temp s < crit -> compute_crystallization_rate (CrBimodalTemp phi0 crit r1 r2 ts te) s = Ok r2).
Proof.
  intros. cbn [compute_crystallization_rate]. rnum. split; intros H.
  - now rewrite (proj2 (R_leb_true _ _)).
  - now rewrite (proj2 (R_leb_false _ _)).
Qed.
(** melts with its table: minus the central difference over one kelvin of the
    interpolated crystal fraction; the fraction itself is the table's. *)
Theorem C34_melts_rate : forall phi0 ts te xs ys tbl (s : state R),
  make_spline xs ys = Ok tbl ->
  exists hot cold,
    get_crystal_fraction (CrMelts phi0 ts te (Some tbl)) (st_temp s + 1) = Ok hot /\
    get_crystal_fraction (CrMelts phi0 ts te (Some tbl)) (st_temp s - 1) = Ok cold /\
    compute_crystallization_rate (CrMelts phi0 ts te (Some tbl)) s = Ok ((cold - hot) / 2).
Proof.
  intros phi0 ts te xs ys tbl s H.
  destruct (C48_defined_everywhere xs ys tbl (st_temp s + 1) H) as [hot Hh].
  destruct (C48_defined_everywhere xs ys tbl (st_temp s - 1) H) as [cold Hc].
  exists hot, cold. cbn [get_crystal_fraction compute_crystallization_rate]. rnum.
  split; [exact Hh|]. split; [exact Hc|]. rewrite Hh, Hc. cbn [rbind]. rewrite R_div_ok by lra. f_equal. lra.
Qed.
(** When crystals grow on cooling in the table (fraction decreasing in
    temperature) on one segment around T, the rate is minus the slope of that
    segment, hence positive. *)
Theorem C34_melts_rate_on_segment : forall phi0 ts te tbl before p q after (s : state R),
  increasing tbl -> tbl = before ++ p :: q :: after ->
  fst p <= st_temp s - 1 -> st_temp s + 1 < fst q ->
  compute_crystallization_rate (CrMelts phi0 ts te (Some tbl)) s = Ok ((snd p - snd q) / (fst q - fst p)).
Proof.
  intros phi0 ts te tbl before p q after s HS E H1 H2.
  cbn [get_crystal_fraction compute_crystallization_rate]. rnum.
  rewrite !(C48_between_neighbours tbl before p q after) by (auto; lra).
  cbn [rbind]. rewrite R_div_ok by lra. f_equal. unfold line_through. field. lra.
Qed.
(** Over any number of steps of a run that starts at the eruption temperature:
    the crystals grown are the configured amount times the fraction of the
    cooling interval covered; all of them when the solidus is reached. *)
Theorem C34_basic_total_growth : forall (sm : sim R) phi0 grown ts te n w w',
  s_cryst sm = CrBasic phi0 grown ts te -> te <> ts -> st_temp (w_st w) = te ->
  steps sm n w = (Ok tt, w') ->
  st_phi (w_st w') - st_phi (w_st w) = grown * ((te - st_temp (w_st w')) / (te - ts)) /\
  (st_temp (w_st w') = ts -> st_phi (w_st w') = st_phi (w_st w) + grown).
Proof.
  intros sm phi0 grown ts te n w w' Hc Hne Ht H.
  assert (I := C13_constant_rate_invariant sm phi0 grown ts te n w w' Hc Hne H). cbv zeta in I.
  rewrite Ht in I.
  assert (E : st_phi (w_st w') - st_phi (w_st w) = grown / (te - ts) * (te - st_temp (w_st w'))) by lra.
  split.
  - rewrite E. field. lra.
  - intros E2. rewrite E2 in E. replace (grown / (te - ts) * (te - ts)) with grown in E by (field; lra). lra.
Qed.

(** ** C35 *)
Lemma log10_incr x y : 0 < x < y -> log10 x < log10 y.
Proof.
  intros H. unfold log10. apply div_lt_compat.
  - rewrite <- ln_1. apply ln_increasing; lra.
  - apply ln_increasing; lra.
Qed.
Theorem C35_hon : forall (s : state R),
  (0 < st_time s ->
     compute_crust_temperature CtHon s = Ok (- 140 * log10 (st_time s / 3600) + 303 + 27315 / 100)) /\
  (st_time s <= 0 -> compute_crust_temperature CtHon s = Err (ValueError "math domain error")).
Proof.
  intros s. cbn [compute_crust_temperature]. unfold hon_temperature. rnum. rewrite R_div_ok by lra. cbn [rbind].
  unfold R_log10. split; intros H.
  - assert (0 < st_time s / 3600) by (apply Rdiv_lt_0_compat; lra).
    destruct (Rlt_dec 0 (st_time s / 3600)); [reflexivity|contradiction].
  - destruct (Rlt_dec 0 (st_time s / 3600)); [lra|reflexivity].
Qed.
Theorem C35_hon_decreasing : forall (s1 s2 : state R) t1 t2,
  0 < st_time s1 < st_time s2 ->
  compute_crust_temperature CtHon s1 = Ok t1 -> compute_crust_temperature CtHon s2 = Ok t2 -> t2 < t1.
Proof.
  intros s1 s2 t1 t2 H H1 H2.
  rewrite (proj1 (C35_hon s1)) in H1 by lra. rewrite (proj1 (C35_hon s2)) in H2 by lra.
  injection H1 as <-. injection H2 as <-.
  assert (log10 (st_time s1 / 3600) < log10 (st_time s2 / 3600)); [|lra].
  apply log10_incr. split; [apply Rdiv_lt_0_compat; lra|apply div_lt_compat; lra].
Qed.
(** One hour after the start the crust is at 303 degrees Celsius. *)
Theorem C35_hon_after_one_hour : forall (s : state R),
  st_time s = 3600 -> compute_crust_temperature CtHon s = Ok (303 + 27315 / 100).
Proof.
  intros s H. rewrite (proj1 (C35_hon s)) by lra. f_equal. rewrite H. unfold log10.
  replace (3600 / 3600) with 1 by field. rewrite ln_1. unfold Rdiv at 1. ring.
Qed.
Theorem C35_bimodal : forall crit tc2 (s : state R),
  (st_pos s <= crit -> compute_crust_temperature (CtBimodal crit tc2) s = compute_crust_temperature CtHon s) /\
  (crit < st_pos s -> compute_crust_temperature (CtBimodal crit tc2) s = Ok tc2).
Proof.
  intros. cbn [compute_crust_temperature]. rnum. split; intros H.
  - now rewrite (proj2 (R_leb_true _ _)).
  - now rewrite (proj2 (R_leb_false _ _)).
Qed.
Theorem C35_constant : forall tc (s : state R), compute_crust_temperature (CtConstant tc) s = Ok tc.
Proof. reflexivity. Qed.
(** field: through every point of the measured profile (Celsius in the file). *)
Theorem C35_field : forall lines (rows : list (R * R)) header tbl tc (s : state R) r,
  Forall2 (fun line r => exists c0 c1 more, split_on tab_char line = c0 :: c1 :: more /\
             parse_float c0 = Ok (fst r) /\ parse_float c1 = Ok (snd r)) lines rows ->
  read_crust_temperature_table (header :: lines) = Ok tbl ->
  In r rows -> st_pos s = fst r ->
  compute_crust_temperature (CtField tc (Some tbl)) s = Ok (snd r + 27315 / 100).
Proof.
  intros lines rows header tbl tc s r HF H Hin Hp. unfold read_crust_temperature_table in H. cbn [tl] in H.
  assert (E : rmapM read_ct_line lines = Ok (map (fun r => (fst r, snd r + 27315 / 100)) rows)).
  { clear -HF. induction HF as [|line r lines rows (c0 & c1 & more & Hs & H0 & H1) HF IH]; [reflexivity|].
    cbn [rmapM map]. unfold read_ct_line at 1, column. rewrite Hs. cbn [nth_error]. rewrite H0, H1. cbn [rbind].
    rewrite IH. reflexivity. }
  rewrite E in H. cbn [rbind] in H. apply make_spline_ok in H as (Et & _ & HL & HS).
  assert (Et' : tbl = map (fun r => (fst r, snd r + 27315 / 100)) rows).
  { rewrite Et. clear. induction rows as [|a l IH]; cbn; [auto|]. now rewrite IH. }
  cbn [compute_crust_temperature]. rewrite Hp.
  assert (Hin' : In (fst r, snd r + 27315 / 100) tbl).
  { rewrite Et'. apply in_map_iff. exists r. auto. }
  assert (Q := C48_through_points tbl _ HS HL Hin'). cbn [fst snd] in Q. rewrite Q. reflexivity.
Qed.

(** With hon (or bimodal near the vent) and a flow that starts at time 0, no
    step can complete. *)
Theorem C35_hon_first_step_fails : forall (sm : sim R) (w w' : world R),
  s_crust sm = CtHon -> st_time (w_st w) <= 0 ->
  single_step sm w = (Ok tt, w') -> w_fin w' = true /\ st_pos (w_st w') = st_pos (w_st w).
Proof.
  intros sm w w' Hc Ht H. apply step_cases in H as [S|(v & rho & width & slope & hb & rate & dtemp & dt & C)].
  - destruct S as [(x & E) _ _ _ _ F _ _]. rewrite E. auto.
  - destruct C as [_ _ _ _ _ _ _ _ _ _ _ _ _ _ _ _ _ _ _ L].
    destruct L as (bc & sx & vf & mu & tc & f & t0 & tb & x & wb & _ & _ & _ & _ & _ & _ & Htc & _).
    rewrite Hc, (proj2 (C35_hon _)) in Htc by auto. discriminate.
Qed.

(** ** C36 *)
(** Specification: the cover model's parameters in force at a position. *)
Definition cover_parameters (m : cover_model R) (pos : R) : R * R :=
  match m with
  | CvBasic alpha fc => (alpha, fc)
  | CvBimodal crit a1 a2 f1 f2 => if Rle_dec pos crit then (a1, f1) else (a2, f2)
  end.

Theorem C36_cover_formula : forall m (l : lava R) t w f w',
  compute_effective_cover_fraction m l t w = (Ok f, w') <->
  exists v, compute_mean_velocity l t w = (Ok v, w') /\
    f = snd (cover_parameters m (st_pos (w_st w))) * exp (fst (cover_parameters m (st_pos (w_st w))) * v).
Proof.
  intros m l t w f w'. destruct m; cbn [compute_effective_cover_fraction cover_parameters]; split.
  - intros H. apply bind_ok in H as (v & w1 & Hv & H). exists v. cbn in H. injection H as <- <-. auto.
  - intros (v & Hv & ->). unfold bind. rewrite Hv. reflexivity.
  - intros H. apply bind_ok in H as (pos & w1 & Hp & H). apply get_ok in Hp as [-> ->].
    apply bind_ok in H as (v & w1 & Hv & H). exists v. rnum. unfold R_leb in H.
    destruct (Rle_dec (st_pos (w_st w)) crit); cbn in H; injection H as <- <-; auto.
  - intros (v & Hv & ->). unfold bind, get. rewrite Hv. rnum. unfold R_leb.
    destruct (Rle_dec (st_pos (w_st w)) crit); reflexivity.
Qed.

Theorem C36_cover_is_a_fraction : forall m (l : lava R) t w f w' v,
  (forall pos, fst (cover_parameters m pos) <= 0) ->
  (forall pos, 0 <= snd (cover_parameters m pos) <= 1) ->
  compute_mean_velocity l t w = (Ok v, w') -> 0 <= v ->
  compute_effective_cover_fraction m l t w = (Ok f, w') ->
  0 <= f <= snd (cover_parameters m (st_pos (w_st w))) /\ f <= 1.
Proof.
  intros m l t w f w' v Ha Hf Hv Hv0 H. apply C36_cover_formula in H as (v' & Hv' & ->).
  rewrite Hv in Hv'. injection Hv' as <-.
  specialize (Ha (st_pos (w_st w))). specialize (Hf (st_pos (w_st w))).
  destruct (cover_parameters m (st_pos (w_st w))) as [a fc]. cbn [fst snd] in *.
  assert (exp (a * v) <= 1). { rewrite <- exp_0. apply exp_le. nra. }
  assert (0 < exp (a * v)) by apply exp_pos. split; nra.
Qed.
(** Faster flow breaks up the crust. *)
Theorem C36_cover_decreases_with_velocity : forall m (l : lava R) t w1 w2 f1 f2 w1' w2' v1 v2,
  st_pos (w_st w1) = st_pos (w_st w2) ->
  (forall pos, fst (cover_parameters m pos) < 0) -> (forall pos, 0 < snd (cover_parameters m pos)) ->
  compute_mean_velocity l t w1 = (Ok v1, w1') -> compute_mean_velocity l t w2 = (Ok v2, w2') ->
  compute_effective_cover_fraction m l t w1 = (Ok f1, w1') ->
  compute_effective_cover_fraction m l t w2 = (Ok f2, w2') ->
  v1 < v2 -> f2 < f1.
Proof.
  intros m l t w1 w2 f1 f2 w1' w2' v1 v2 Hp Ha Hf Hv1 Hv2 H1 H2 Hlt.
  apply C36_cover_formula in H1 as (v & Hv & ->). rewrite Hv1 in Hv. injection Hv as <-.
  apply C36_cover_formula in H2 as (v & Hv & ->). rewrite Hv2 in Hv. injection Hv as <-.
  rewrite Hp. specialize (Ha (st_pos (w_st w2))). specialize (Hf (st_pos (w_st w2))).
  destruct (cover_parameters m (st_pos (w_st w2))) as [a fc]. cbn [fst snd] in *.
  apply Rmult_lt_compat_l; auto. apply exp_increasing. nra.
Qed.
