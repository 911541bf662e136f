(** * Props_Table: the result table satisfies the equations of the model (C72) *)
From Coq Require Import Reals Lra.
From Verif Require Import Base Num Json Logger World Vesicle MeltVisc RelVisc Bubbles Terrain Lava
  Thermal Flux Integrator Factory Run RNum Spec Frame StepLog StepProofs LoggerProofs RowProofs StepProps StepRow ColumnProofs
  EffArray Props_Step Props_Terrain Props_Run Props_RunOuts TableTrace Steady Props_Budget Props_BudgetStep.
Open Scope R_scope.

Definition holds (r : row R) (name : string) (x : R) : Prop := assoc name r = Some (CNum x).

Lemma init_keeps_temp (sm : sim R) : keeps (fun w => st_temp (w_st w)) (init_effusion_rate sm).
Proof.
  unfold init_effusion_rate. destruct (n_eqb _ _).
  - intros w r w' H. injection H as _ <-. reflexivity.
  - assert (Hfr : forall A (m : M (T:=R) A), framed [] m -> keeps (fun w => st_temp (w_st w)) m).
    { intros A m Hm. apply (keeps_framed _ [] m); auto. }
    generalize 0%nat. induction depth_count as [|n IH]; intros i; cbn [search_depth].
    + apply Hfr, framed_ret.
    + apply keeps_bind.
      * unfold try_depth.
        repeat (apply keeps_bind; [first [apply Hfr, framed_velocity | apply Hfr, framed_pure
           | intros w r w' H; injection H as _ <-; reflexivity] | intros ]).
        apply Hfr, framed_ret.
      * intros []; [apply Hfr, framed_ret | apply IH].
Qed.

Lemma init_keeps_phi (sm : sim R) : keeps (fun w => st_phi (w_st w)) (init_effusion_rate sm).
Proof.
  unfold init_effusion_rate. destruct (n_eqb _ _).
  - intros w r w' H. injection H as _ <-. reflexivity.
  - assert (Hfr : forall A (m : M (T:=R) A), framed [] m -> keeps (fun w => st_phi (w_st w)) m).
    { intros A m Hm. apply (keeps_framed _ [] m); auto. }
    generalize 0%nat. induction depth_count as [|n IH]; intros i; cbn [search_depth].
    + apply Hfr, framed_ret.
    + apply keeps_bind.
      * unfold try_depth.
        repeat (apply keeps_bind; [first [apply Hfr, framed_velocity | apply Hfr, framed_pure
           | intros w r w' H; injection H as _ <-; reflexivity] | intros ]).
        apply Hfr, framed_ret.
      * intros []; [apply Hfr, framed_ret | apply IH].
Qed.

(** The steps a run makes, and the row each of them wrote. *)
Lemma run_rows (sm : sim R) fuel s depth w' : s_dx sm <> 0 ->
  simulate fuel sm (initial_world s [] depth) = Some (Ok tt, w') ->
  exists w0 wn, init_effusion_rate sm (initial_world s [] depth) = (Ok tt, w0) /\
    (forall i r, (i < w_iter w')%nat -> nth_error (w_log w') i = Some r -> written_by sm w0 i r) /\
    steps sm (w_iter w') w0 = (Ok tt, wn) /\ w_iter wn = w_iter w' /\
    (w' = wn \/ stopped_step sm wn w').
Proof.
  intros Hdx H. unfold simulate in H.
  destruct (init_effusion_rate sm (initial_world s [] depth)) as [[[]|e] w0] eqn:E0; [|discriminate H].
  assert (L0 := init_keeps_log sm _ _ _ E0). assert (I0 := init_keeps_iter sm _ _ _ E0). cbn [initial_world w_log w_iter] in L0, I0.
  destruct (run_trace sm fuel w0 w' Hdx I0 L0 H) as (done & rest & wn & HL & Hlen & HW & HS & Hdone & HE).
  exists w0, wn. split; [reflexivity|]. split; [|split; [exact HS|split]].
  - intros i r Hi Hr. apply HW. rewrite HL, nth_error_app1 in Hr by lia. exact Hr.
  - destruct HE as [[-> _]|S]; [reflexivity|]. rewrite (ss_iter _ _ _ S). reflexivity.
  - destruct HE as [[-> _]|S]; auto.
Qed.

(** What is known of row [i], in terms of the step that wrote it. *)
Lemma row_step (sm : sim R) fuel s depth w' i r : s_dx sm <> 0 ->
  simulate fuel sm (initial_world s [] depth) = Some (Ok tt, w') ->
  (i < w_iter w')%nat -> nth_error (w_log w') i = Some r ->
  exists wi wj v rho width slope hb rate dtemp dt,
    completed_step sm wi wj v rho width slope hb rate dtemp dt /\
    step_row (w_log wj) (st_pos (w_st wi)) v width rho (w_depth wi) (w_eff wj) hb rate dtemp slope /\
    w_eff wj = w_eff w' /\ w_depth wi = w_depth w' /\ w_flux wi = w_flux w' /\
    logged (w_log wj) (st_pos (w_st wi)) "crystal_fraction" = Some (CNum (st_phi (w_st wi))) /\
    logged (w_log wj) (st_pos (w_st wi)) "core_temperature" = Some (CNum (st_temp (w_st wi))) /\
    (forall name, assoc name r = logged (w_log wj) (st_pos (w_st wi)) name) /\
    (exists w0, init_effusion_rate sm (initial_world s [] depth) = (Ok tt, w0) /\ steps sm i w0 = (Ok tt, wi) /\
       single_step sm wi = (Ok tt, wj)).
Proof.
  intros Hdx H Hi Hr. destruct (run_rows sm fuel s depth w' Hdx H) as (w0 & wn & E0 & HW & HS & HI & HE).
  destruct (HW i r Hi Hr) as (wi & wj & Hs & H1 & Ii & Ij & Hn).
  assert (Hne : w_iter wj <> w_iter wi) by lia.
  destruct (C10_row_is_entry_state sm wi wj H1 Hne (R_refl _)) as (? & ? & ? & ? & ? & ? & ? & ? & ? & _ & _ & _ & _ & _ & _ & _ & _ & _ & Cphi & Ctemp & _).
  assert (H1' := H1). apply step_cases in H1' as [S|(v & rho & wd & sl & hb & ra & dT & dt & C)].
  { rewrite (ss_iter _ _ _ S) in Hne. contradiction. }
  assert (Hwj : steps sm (S i) w0 = (Ok tt, wj)) by exact (steps_add sm _ _ _ _ Hs H1).
  assert (Split : forall k a w, steps sm (a + k) w = (Ok tt, wn) -> exists wa, steps sm a w = (Ok tt, wa) /\ steps sm k wa = (Ok tt, wn)).
  { clear. intros k a. induction a as [|a IH]; intros w H; [exists w; auto|]. cbn [plus] in H.
    apply steps_S_inv in H as [(e & He & _)|(w1 & H1 & H2)]; [discriminate|]. destruct (IH _ H2) as (wa & A & B).
    exists wa. split; [|exact B]. cbn [steps]. rewrite H1. exact A. }
  assert (Hk : exists k, steps sm k wj = (Ok tt, wn)).
  { destruct (Split (w_iter w' - S i)%nat (S i) w0) as (wa & A & B); [replace (S i + (w_iter w' - S i))%nat with (w_iter w') by lia; exact HS|].
    rewrite Hwj in A. injection A as <-. eauto. }
  destruct Hk as (k & Hk).
  assert (Ee : w_eff wn = w_eff wj) by (eapply C17_effusion_rate_constant; [|exact Hk]; lia).
  destruct (C17_depth_and_flux_constant sm _ _ _ _ Hk) as [Ed Ef].
  exists wi, wj, v, rho, wd, sl, hb, ra, dT, dt. split; [exact C|].
  split; [exact (completed_row _ _ _ _ _ _ _ _ _ _ _ C (R_refl _))|].
  assert (Fin : w_eff wj = w_eff w' /\ w_depth wj = w_depth w' /\ w_flux wj = w_flux w').
  { destruct HE as [->|S]; [auto|]. rewrite (ss_depth _ _ _ S), (ss_flux _ _ _ S).
    split; [|auto]. destruct (ss_eff _ _ _ S) as [Q|Q]; [congruence|lia]. }
  destruct Fin as (F1 & F2 & F3). split; [exact F1|].
  rewrite <- (cs_depth _ _ _ _ _ _ _ _ _ _ _ C), <- (cs_flux _ _ _ _ _ _ _ _ _ _ _ C).
  split; [exact F2|]. split; [exact F3|]. rewrite (cs_depth _ _ _ _ _ _ _ _ _ _ _ C) in *. split; [exact Cphi|]. split; [exact Ctemp|]. split; [exact Hn|].
  exists w0. auto.
Qed.

(** C72.  In the table of a run that ends normally, every row of a completed
    step satisfies the equations of the model, with the cells of that row:
    flow = velocity * width * depth, heat lost = latent heat released per
    metre, crystals grown = rate * cooling.  [eff] is the one effusion rate,
    [h] the one depth, of the whole table. *)
Theorem C72_every_row_balances : forall (sm : sim R) fuel s depth w',
  s_dx sm <> 0 -> simulate fuel sm (initial_world s [] depth) = Some (Ok tt, w') ->
  exists eff h, forall i r, (i < w_iter w')%nat -> nth_error (w_log w') i = Some r ->
  exists x v width rho hb rate dtemp slope,
    holds r "position" x /\ holds r "mean_velocity" v /\ holds r "channel_width" width /\ holds r "density" rho /\
    holds r "heat_budget" hb /\ holds r "dphi_dtemp" rate /\ holds r "dtemp_dx" dtemp /\ holds r "slope" slope /\
    holds r "channel_depth" h /\ assoc "effusion_rate" r = Some (CStr eff) /\
    holds r "dphi_dx" (- rate * dtemp) /\ holds r "dtemp_dt" (- dtemp * v * 60) /\
    0 < v /\
    get_channel_slope (s_ter sm) x = Ok slope /\
    (s_mass sm = false -> v * width * h = eff) /\
    (s_mass sm = true -> w_flux w' = Some (rho * v * width * h)) /\
    hb = - dtemp * (eff * rho * lv_latent (s_lava sm) * rate) /\
    eff * rho * lv_latent (s_lava sm) * rate <> 0.
Proof.
  intros sm fuel s depth w' Hdx H. exists (w_eff w'), (w_depth w'). intros i r Hi Hr.
  destruct (C62_table_of_a_run sm fuel s depth w' Hdx H) as (_ & done & rest & HL & Hlen & HE & _).
  assert (Hp : assoc "position" r = Some (CNum (st_pos s + INR i * s_dx sm))).
  { rewrite HL, nth_error_app1 in Hr by lia. apply (HE _ _ Hr). }
  destruct (row_step sm fuel s depth w' i r Hdx H Hi Hr) as
    (wi & wj & v & rho & wd & sl & hb & ra & dT & dt & C & SR & E1 & E2 & E3 & Cphi & Ctemp & Hn & w0 & E0 & Hs & H1).
  assert (Hx : st_pos (w_st wi) = st_pos s + INR i * s_dx sm).
  { assert (Q := Hn "position"). rewrite Hp in Q. unfold logged in Q. destruct (find (row_at (st_pos (w_st wi))) (w_log wj)) as [q|] eqn:F; [|discriminate].
    apply find_some in F as [_ F]. unfold row_at in F. rewrite <- Q in F. now apply R_eqb_true in F. }
  exists (st_pos (w_st wi)), v, wd, rho, hb, ra, dT, sl. unfold holds. rewrite !Hn.
  destruct SR as [S1 S2 S3 S4 S5 S6 S7 S8 S9 S10 S11]. rewrite E1 in S5. rewrite E2 in S4. revert S9 S11. rnum. intros S9 S11.
  split; [rewrite <- Hn, Hp, Hx; reflexivity|].
  split; [exact S1|]. split; [exact S2|]. split; [exact S3|]. split; [exact S6|]. split; [exact S7|]. split; [exact S8|]. split; [exact S10|].
  split; [exact S4|]. split; [exact S5|]. split; [rewrite S9; do 2 f_equal; ring|]. split; [rewrite S11; do 2 f_equal; lra|].
  destruct C as [_ Hv _ Hw Hsl _ Hd _ _ _ _ _ _ _ _ Heff _ _ _ _].
  rnum. apply R_leb_false in Hv. split; [exact Hv|]. split; [exact Hsl|].
  unfold width_of in Hw. rewrite <- Heff, E1 in Hw, Hd. rewrite E2, E3 in Hw.
  split; [|split; [|split]].
  - intros Hm. rewrite Hm in Hw. rnum. apply R_div_inv in Hw as [Hz ->]. field. split; intros Q; apply Hz; rewrite Q; ring.
  - intros Hm. rewrite Hm in Hw. destruct (w_flux w') as [fr|]; [|discriminate]. f_equal.
    apply rbind_ok in Hw as (a & Ha & Hb). rnum. apply R_div_inv in Ha as [Hz ->]. apply R_div_inv in Hb as [Hz2 ->].
    field. repeat split; auto; intros Q; apply Hz; rewrite Q; ring.
  - rnum. apply R_div_inv in Hd as [Hz ->]. field. repeat split; intros Q; apply Hz; rewrite Q; ring.
  - rnum. apply R_div_inv in Hd as [Hz _]. exact Hz.
Qed.

(** C72.  From one row to the next the core temperature and the crystal
    fraction change by the logged slopes times the step size; the first row
    holds the initial state. *)
Theorem C72_rows_follow_one_another : forall (sm : sim R) fuel s depth w',
  s_dx sm <> 0 -> simulate fuel sm (initial_world s [] depth) = Some (Ok tt, w') ->
  forall i r, (i < w_iter w')%nat -> nth_error (w_log w') i = Some r ->
  exists temp phi dtemp dphi,
    holds r "core_temperature" temp /\ holds r "crystal_fraction" phi /\
    holds r "dtemp_dx" dtemp /\ holds r "dphi_dx" dphi /\
    (i = 0%nat -> temp = st_temp s /\ phi = st_phi s) /\
    (forall r', (S i < w_iter w')%nat -> nth_error (w_log w') (S i) = Some r' ->
       holds r' "core_temperature" (temp + dtemp * s_dx sm) /\ holds r' "crystal_fraction" (phi + dphi * s_dx sm)) /\
    (S i = w_iter w' ->
       st_temp (w_st w') = temp + dtemp * s_dx sm /\ st_phi (w_st w') = phi + dphi * s_dx sm) /\
    0 < dphi * s_dx sm.
Proof.
  intros sm fuel s depth w' Hdx H i r Hi Hr.
  destruct (row_step sm fuel s depth w' i r Hdx H Hi Hr) as
    (wi & wj & v & rho & wd & sl & hb & ra & dT & dt & C & SR & E1 & E2 & E3 & Cphi & Ctemp & Hn & w0 & E0 & Hs & H1).
  exists (st_temp (w_st wi)), (st_phi (w_st wi)), dT, (dT * (- ra)). unfold holds. rewrite !Hn.
  destruct SR as [S1 S2 S3 S4 S5 S6 S7 S8 S9 S10 S11]. rnum.
  assert (Ht := cs_temp _ _ _ _ _ _ _ _ _ _ _ C). assert (Hph := cs_phi _ _ _ _ _ _ _ _ _ _ _ C).
  assert (Hg := cs_phi_grows _ _ _ _ _ _ _ _ _ _ _ C). rnum. apply R_leb_false in Hg.
  split; [exact Ctemp|]. split; [exact Cphi|]. split; [exact S8|]. split; [exact S9|].
  assert (Hj : steps sm (S i) w0 = (Ok tt, wj)) by exact (steps_add sm _ _ _ _ Hs H1).
  split; [|split; [|split]].
  - intros ->. injection Hs as ->.
    split; [exact (init_keeps_temp sm _ _ _ E0)|exact (init_keeps_phi sm _ _ _ E0)].
  - intros r' Hi' Hr'.
    destruct (row_step sm fuel s depth w' (S i) r' Hdx H Hi' Hr') as
      (wi' & wj' & v' & rho' & wd' & sl' & hb' & ra' & dT' & dt' & C' & SR' & _ & _ & _ & Cphi' & Ctemp' & Hn' & w0' & E0' & Hs' & _).
    rewrite E0 in E0'. injection E0' as <-. rewrite Hj in Hs'. injection Hs' as <-.
    rewrite !Hn', Ctemp', Cphi', Ht, Hph. auto.
  - intros Hlast. destruct (run_rows sm fuel s depth w' Hdx H) as (w0' & wn & E0' & _ & HS & _ & HE).
    rewrite E0 in E0'. injection E0' as <-. rewrite <- Hlast, Hj in HS. injection HS as <-.
    destruct HE as [->|S]; [auto|]. destruct (ss_st _ _ _ S) as [x ->]. cbn [set_strain_rate st_temp st_phi]. auto.
  - lra.
Qed.

(** C72.  For a configuration the factory accepts, the flux columns of every
    row add up to its heat_budget column. *)
Theorem C72_fluxes_add_up_in_every_row : forall (d : json R) profile mo (sm : sim R) fuel s depth w',
  build_models d profile = Ok mo -> s_budget sm = mo_budget mo -> strain_free (s_lava sm) ->
  s_dx sm <> 0 -> simulate fuel sm (initial_world s [] depth) = Some (Ok tt, w') ->
  forall i r, (i < w_iter w')%nat -> nth_error (w_log w') i = Some r ->
  exists qs, Forall2 (fun f q => holds r (flux_name f) q) (s_budget sm) qs /\
    holds r "heat_budget" (fold_right Rplus 0 qs).
Proof.
  intros d profile mo sm fuel s depth w' Hb Es Hf Hdx H i r Hi Hr.
  destruct (run_rows sm fuel s depth w' Hdx H) as (w0 & wn & E0 & HW & _).
  destruct (HW i r Hi Hr) as (wi & wj & Hs & H1 & Ii & Ij & Hn).
  destruct (C42_row_of_a_step d profile mo sm wi wj Hb Es Hf (R_refl _) H1 ltac:(lia)) as (qs & rho & rate & dtemp & A & B & _).
  exists qs. unfold holds. split.
  - clear -B Hn. induction B as [|f q fl ql Q _ IH]; constructor; [now rewrite Hn|exact IH].
  - rewrite Hn, A, py_sum_R. reflexivity.
Qed.
