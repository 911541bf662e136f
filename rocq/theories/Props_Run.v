(** * Properties C11-C16, C19: runs in exact real arithmetic *)
From Verif Require Import Base Num Json Logger World Vesicle MeltVisc RelVisc Bubbles Terrain Lava
  Thermal Flux Integrator Factory Run Spec Frame StepLog StepProofs LoggerProofs RowProofs StepProps
  ColumnProofs StepRow RNum.
Open Scope R_scope.

Lemma R_refl (p : R) : n_eqb p p = true.
Proof. rnum. now apply R_eqb_true. Qed.

(** ** C11 *)

(** While unfinished, the position is below the limit, so [n] steps end the
    loop as soon as [n * step_size] covers what is left of the channel. *)
Theorem C11_run_terminates : forall (sm : sim R) (w : world R) (n : nat),
  0 < s_dx sm -> (0 < n)%nat ->
  ter_maxlen (s_ter sm) <= st_pos (w_st w) + INR n * s_dx sm ->
  exists r w', run_loop sm n w = Some (r, w') /\
    (w_iter w' <= w_iter w + n)%nat /\
    (r = Ok tt -> has_finished w' = true).
Proof.
  intros sm w n Hdx. revert w. induction n as [|n IH]; intros w Hn Hlen; [lia|].
  cbn [run_loop]. unfold has_finished.
  destruct (w_fin w) eqn:Ef.
  { exists (Ok tt), w. repeat split; auto; lia. }
  destruct (single_step sm w) as [[[]|e] w1] eqn:Es.
  - destruct (w_fin w1) eqn:Ef1.
    + exists (Ok tt), w1.
      replace (run_loop sm n w1) with (Some (Ok tt, w1))
        by (destruct n; simpl; unfold has_finished; rewrite Ef1; reflexivity).
      repeat split; auto.
      apply step_cases in Es as [S|(v & rho & wd & sl & hb & ra & dT & dt & C)].
      * rewrite (ss_iter _ _ _ S). lia.
      * rewrite (cs_iter _ _ _ _ _ _ _ _ _ _ _ C). lia.
    + destruct (unfinished_completed sm w w1 Es Ef1) as [(_ & _ & _ & Hp) (v & rho & wd & sl & hb & ra & dT & dt & C)].
      rnum. rtests.
      assert (Hpos := cs_pos _ _ _ _ _ _ _ _ _ _ _ C). rnum. rewrite Hpos in Hp.
      rewrite S_INR in Hlen.
      destruct (Nat.eq_dec n 0) as [->|Hn0]; [simpl in Hlen; lra|].
      destruct (IH w1) as (r & w' & Hr & Hi & Hfin); [lia|rewrite Hpos; lra|].
      exists r, w'. rewrite Hr. repeat split; auto.
      rewrite (cs_iter _ _ _ _ _ _ _ _ _ _ _ C) in Hi. lia.
  - exists (Err e), w1. split; [reflexivity|]. split.
    + assert (K : forall w r w', single_step sm w = (r, w') -> (w_iter w' <= S (w_iter w))%nat).
      { clear. intros w r w' H. destruct r as [[]|e].
        - apply step_cases in H as [S|(v & rho & wd & sl & hb & ra & dT & dt & C)].
          + rewrite (ss_iter _ _ _ S). lia.
          + rewrite (cs_iter _ _ _ _ _ _ _ _ _ _ _ C). lia.
        - assert (MI : forall A (m : M (T:=R) A) names, framed names m -> keeps w_iter m).
          { intros A m names Hm. eapply keeps_framed; eauto. }
          unfold single_step in H.
          apply bind_err in H as [H|(v & w1 & H1 & H)].
          { rewrite (MI _ _ _ (framed_velocity _ _) _ _ _ H). lia. }
          rewrite <- (MI _ _ _ (framed_velocity _ _) _ _ _ H1).
          destruct (n_leb v zero); [discriminate|].
          assert (KC : keeps w_iter (step_compute sm v)).
          { unfold step_compute.
            repeat (apply keeps_bind; [first [eapply MI, framed_get | eapply MI, framed_pure
               | eapply MI, framed_lift | eapply MI, framed_budget
               | intros w0 r0 w0' H0; unfold first_effusion_rate in H0; destruct (w_iter w0) eqn:E0;
                 injection H0 as _ <-; cbn; auto
               | unfold channel_width; destruct (s_mass sm);
                 repeat (apply keeps_bind; [first [eapply MI, framed_pure | eapply MI, framed_lift | eapply MI, framed_get] | intros ? ]);
                 eapply MI, framed_lift ] | intros ? ]).
            eapply MI, framed_ret. }
          apply bind_err in H as [H|(x & w2 & H2 & H)]; [rewrite (KC _ _ _ H); lia|].
          rewrite <- (KC _ _ _ H2).
          apply bind_err in H as [H|(phi & w3 & H3 & H)]; [discriminate|].
          injection H3 as <- <-.
          destruct (n_leb _ _); [discriminate|].
          apply bind_err in H as [H|(u & w4 & H4 & H)].
          { rewrite (MI _ _ _ (framed_step_log sm x) _ _ _ H). lia. }
          rewrite <- (MI _ _ _ (framed_step_log sm x) _ _ _ H4).
          apply bind_err in H as [H|(u' & w5 & H5 & H)].
          { unfold step_update in H.
            repeat (apply bind_err in H as [H|(? & ? & Hx & H)];
              [first [discriminate H | injection H as _ <-; cbn; lia] |
               first [injection Hx as _ <- | unfold lift in Hx; injection Hx as _ <-]; cbn [w_iter set_st] in * ]).
            discriminate H. }
          apply step_update_spec in H5 as (dt & sr & _ & _ & ->).
          assert (KS : keeps w_iter (step_checks sm x)).
          { assert (MM : keeps w_iter (modify (T:=R) set_finished))
              by (intros w0 r0 w0' H0; injection H0 as _ <-; reflexivity).
            unfold step_checks. destruct (n_leb _ _); [exact MM|].
            apply keeps_bind; [eapply MI, framed_pure|intros nc]. destruct nc; [exact MM|].
            apply keeps_bind; [eapply MI, framed_pure|intros yc]. destruct yc; [exact MM|].
            apply keeps_bind; [eapply MI, framed_get|intros pos].
            destruct (n_leb _ _); [exact MM|eapply MI, framed_ret]. }
          rewrite (KS _ _ _ H). cbn. lia. }
      apply K in Es. lia.
    + discriminate.
Qed.

(** The bound, from the configuration: max(1, ceil((max_length - start)/step)). *)
Definition step_bound (maxlen start dx : R) : nat :=
  Nat.max 1 (Z.to_nat (up ((maxlen - start) / dx))).

Theorem C11_bound_known_in_advance : forall (sm : sim R) (w : world R),
  0 < s_dx sm ->
  exists r w', run_loop sm (step_bound (ter_maxlen (s_ter sm)) (st_pos (w_st w)) (s_dx sm)) w = Some (r, w').
Proof.
  intros sm w Hdx. set (n := step_bound _ _ _).
  destruct (C11_run_terminates sm w n Hdx) as (r & w' & H & _); eauto.
  { unfold n, step_bound. lia. }
  set (q := (ter_maxlen (s_ter sm) - st_pos (w_st w)) / s_dx sm).
  assert (Hq : q <= INR n).
  { apply Rle_trans with (IZR (up q)). { destruct (archimed q); lra. }
    rewrite INR_IZR_INZ. apply IZR_le. unfold n, step_bound. fold q. lia. }
  apply Rmult_le_compat_r with (r := s_dx sm) in Hq; [|lra].
  unfold q in Hq at 1. unfold Rdiv in Hq. rewrite Rmult_assoc, Rinv_l, Rmult_1_r in Hq by lra. lra.
Qed.

(** A whole run() ends (with a result or an exception), whatever the files hold,
    as soon as the step size that was read is positive. *)
Theorem C11_run_always_ends : forall sf sc (fs : fsys R) log jf folder,
  (forall eri name sm st depth, prepare mass_flag fs jf = Ok (eri, name, sm, st, depth) -> 0 < s_dx sm) ->
  exists fuel r, run sf sc fuel fs log jf folder = Some r.
Proof.
  intros sf sc fs log jf folder H. unfold run.
  destruct (prepare mass_flag fs jf) as [[[[[eri name] sm] st] depth]|e]; [|exists O; eauto].
  specialize (H _ _ _ _ _ eq_refl). unfold simulate.
  destruct (init_effusion_rate sm (initial_world st log depth)) as [[[]|e] w0] eqn:Ei.
  - destruct (C11_bound_known_in_advance sm w0 H) as (r & w' & Hr).
    eexists. rewrite Hr. destruct r as [[]|e]; [|eauto].
    destruct (write_table _ _ _). eauto.
  - exists O. eauto.
Qed.

(** ** C12 *)
(** A step either leaves crystals and temperature alone or grows crystals and,
    for a positive rate, cools. *)
Theorem C12_step_grows_crystals : forall (sm : sim R) w w',
  single_step sm w = (Ok tt, w') ->
  (w_iter w' = w_iter w /\ st_phi (w_st w') = st_phi (w_st w) /\ st_temp (w_st w') = st_temp (w_st w)) \/
  (w_iter w' = S (w_iter w) /\ st_phi (w_st w) < st_phi (w_st w') /\
   forall rate, compute_crystallization_rate (s_cryst sm) (w_st w) = Ok rate -> 0 < rate ->
     st_temp (w_st w') < st_temp (w_st w)).
Proof.
  intros sm w w' H. apply step_cases in H as [S|(v & rho & wd & sl & hb & ra & dT & dt & C)].
  - left. destruct (ss_st _ _ _ S) as [x ->]. rewrite (ss_iter _ _ _ S). auto.
  - right. destruct C as [_ _ _ _ _ Hr _ Hg Hphi Ht _ _ _ _ _ _ _ Hi _ _]. rnum. rtests.
    split; auto. split; auto. intros rate Hrate Hpos. rewrite Hr in Hrate. injection Hrate as <-.
    rewrite Hphi in Hg. rewrite Ht.
    assert (dT * s_dx sm * ra < 0) by lra.
    assert (dT * s_dx sm < 0); [|lra].
    apply Rnot_le_lt. intros Hle. assert (0 <= dT * s_dx sm * ra) by (apply Rmult_le_pos; lra). lra.
Qed.

(** Along any number of steps: monotone, strictly as soon as a step completed. *)
Theorem C12_crystals_only_grow : forall (sm : sim R) n w w',
  steps sm n w = (Ok tt, w') ->
  (forall s rate, compute_crystallization_rate (s_cryst sm) s = Ok rate -> 0 < rate) ->
  st_phi (w_st w) <= st_phi (w_st w') /\ st_temp (w_st w') <= st_temp (w_st w) /\
  (w_iter w' <> w_iter w ->
     st_phi (w_st w) < st_phi (w_st w') /\ st_temp (w_st w') < st_temp (w_st w)).
Proof.
  intros sm n. induction n as [|n IH]; intros w w' H Hr.
  - injection H as <-. repeat split; try lra; intros; contradiction.
  - apply steps_S_inv in H as [(e & He & _)|(w1 & H1 & H2)]; [discriminate|].
    destruct (IH _ _ H2 Hr) as (A & B & D).
    assert (Hrate := C12_step_grows_crystals sm w w1 H1).
    destruct Hrate as [(Hi & Hp & Ht)|(Hi & Hp & Ht)].
    + rewrite <- Hp, <- Ht, <- Hi. auto.
    + assert (Ht' : st_temp (w_st w1) < st_temp (w_st w)).
      { apply step_cases in H1 as [S|(v & rho & wd & sl & hb & ra & dT & dt & C)].
        - rewrite (ss_iter _ _ _ S) in Hi. lia.
        - eapply Ht; [apply (cs_rate _ _ _ _ _ _ _ _ _ _ _ C)|]. eapply Hr, (cs_rate _ _ _ _ _ _ _ _ _ _ _ C). }
      split; [lra|]. split; [lra|]. intros _. lra.
Qed.

(** ** C13 *)
Theorem C13_increment_is_rate_times_cooling : forall (sm : sim R) w w',
  single_step sm w = (Ok tt, w') -> w_iter w' <> w_iter w ->
  exists rate, compute_crystallization_rate (s_cryst sm) (w_st w) = Ok rate /\
    st_phi (w_st w') - st_phi (w_st w) = rate * (st_temp (w_st w) - st_temp (w_st w')).
Proof.
  intros sm w w' H Hi. apply step_cases in H as [S|(v & rho & wd & sl & hb & ra & dT & dt & C)].
  { rewrite (ss_iter _ _ _ S) in Hi. contradiction. }
  destruct C as [_ _ _ _ _ Hr _ Hg Hphi Ht _ _ _ _ _ _ _ _ _ _]. rnum.
  exists ra. split; auto. rewrite Hphi, Ht. ring.
Qed.

(** Constant rate: phi + rate * T is conserved by any number of steps. *)
Theorem C13_constant_rate_invariant : forall (sm : sim R) phi0 grown ts te n w w',
  s_cryst sm = CrBasic phi0 grown ts te -> te <> ts ->
  steps sm n w = (Ok tt, w') ->
  let rate := grown / (te - ts) in
  st_phi (w_st w') + rate * st_temp (w_st w') = st_phi (w_st w) + rate * st_temp (w_st w).
Proof.
  intros sm phi0 grown ts te n w w' Hc Hne. revert w w'. induction n as [|n IH]; intros w w' H rate.
  - injection H as <-. reflexivity.
  - apply steps_S_inv in H as [(e & He & _)|(w1 & H1 & H2)]; [discriminate|].
    assert (A := IH _ _ H2). cbv zeta in A. fold rate in A. rewrite A. clear A.
    apply step_cases in H1 as [S|(v & rho & wd & sl & hb & ra & dT & dt & C)].
    + destruct (ss_st _ _ _ S) as [x ->]. reflexivity.
    + destruct C as [_ _ _ _ _ Hr _ _ Hphi Ht _ _ _ _ _ _ _ _ _ _]. rnum.
      rewrite Hc in Hr. cbn [compute_crystallization_rate] in Hr. rnum.
      apply R_div_inv in Hr as [_ ->]. rewrite Hphi, Ht. unfold rate. ring.
Qed.

(** Hence a run with the constant rate never has more crystals than the
    fraction reached by cooling from eruption to its current temperature; while
    unfinished it is hotter than the solidus, so it stays below
    phi_start + crystals_grown when it started at the eruption temperature. *)
Theorem C13_crystals_bounded_while_unfinished : forall (sm : sim R) phi0 grown ts te n w w',
  s_cryst sm = CrBasic phi0 grown ts te -> ts < te -> 0 < grown ->
  steps sm (S n) w = (Ok tt, w') -> st_temp (w_st w) = te -> has_finished w' = false ->
  st_phi (w_st w') < st_phi (w_st w) + grown.
Proof.
  intros sm phi0 grown ts te n w w' Hc Hts Hg H Ht Hf.
  assert (I := C13_constant_rate_invariant sm phi0 grown ts te (S n) w w' Hc ltac:(lra) H).
  cbv zeta in I. apply steps_snoc in H as (w1 & _ & H).
  destruct (unfinished_completed sm w1 w' H Hf) as [(P & _) _].
  rewrite Hc in P. cbn [get_solid_temperature] in P. rnum. rtests.
  rewrite Ht in I. set (r := grown / (te - ts)) in *.
  assert (Hr : 0 < r) by (apply Rdiv_lt_0_compat; lra).
  assert (E : r * (te - ts) = grown) by (unfold r; field; lra).
  assert (r * ts < r * st_temp (w_st w')) by (apply Rmult_lt_compat_l; lra). lra.
Qed.

(** ** C14 *)
(** The row of the step shows the heat budget, density and effusion rate that
    satisfy the balance. *)
Theorem C14_energy_balance : forall (sm : sim R) w w',
  single_step sm w = (Ok tt, w') -> w_iter w' <> w_iter w ->
  exists eff rho hb,
    let at_pos := logged (w_log w') (st_pos (w_st w)) in
    at_pos "effusion_rate" = Some (CStr eff) /\
    at_pos "density" = Some (CNum rho) /\
    at_pos "heat_budget" = Some (CNum hb) /\
    eff * rho * lv_latent (s_lava sm) * (st_phi (w_st w') - st_phi (w_st w)) = hb * s_dx sm.
Proof.
  intros sm w w' H Hi. apply step_cases in H as [S|(v & rho & wd & sl & hb & ra & dT & dt & C)].
  { rewrite (ss_iter _ _ _ S) in Hi. contradiction. }
  destruct (completed_row _ _ _ _ _ _ _ _ _ _ _ C (R_refl _)).
  exists (w_eff w'), rho, hb. cbv zeta. repeat split; auto.
  destruct C as [_ _ _ _ _ _ Hd _ Hphi _ _ _ _ _ _ He _ _ _ _]. rnum.
  rewrite He. apply R_div_inv in Hd as [Hnz ->]. rewrite Hphi. field.
  repeat split; intros E; apply Hnz; rewrite E; ring.
Qed.

(** ** C15 *)
Theorem C15_volume_conservation : forall (sm : sim R) w w',
  s_mass sm = false -> single_step sm w = (Ok tt, w') -> w_iter w' <> w_iter w ->
  exists v width depth eff,
    let at_pos := logged (w_log w') (st_pos (w_st w)) in
    at_pos "mean_velocity" = Some (CNum v) /\
    at_pos "channel_width" = Some (CNum width) /\
    at_pos "channel_depth" = Some (CNum depth) /\
    at_pos "effusion_rate" = Some (CStr eff) /\
    v * width * depth = eff /\
    (w_iter w = 0%nat -> width = ter_width (s_ter sm)).
Proof.
  intros sm w w' Hm H Hi. apply step_cases in H as [S|(v & rho & wd & sl & hb & ra & dT & dt & C)].
  { rewrite (ss_iter _ _ _ S) in Hi. contradiction. }
  destruct (completed_row _ _ _ _ _ _ _ _ _ _ _ C (R_refl _)).
  exists v, wd, (w_depth w), (w_eff w'). cbv zeta. repeat split; auto.
  - destruct C as [_ _ _ Hw _ _ _ _ _ _ _ _ _ _ _ He _ _ _ _].
    rewrite He. unfold width_of in Hw. rewrite Hm in Hw. rnum.
    apply R_div_inv in Hw as [Hnz ->]. field. split; intros E; apply Hnz; rewrite E; ring.
  - intros H0. destruct C as [_ _ _ Hw _ _ _ _ _ _ _ _ _ _ _ He _ _ _ _].
    unfold width_of in Hw. rewrite Hm in Hw. unfold eff_of in Hw. rewrite H0 in Hw. rnum.
    apply R_div_inv in Hw as [Hnz ->]. field. split; intros E; apply Hnz; rewrite E; ring.
Qed.

(** The same for all the steps of a run: the effusion rate in all of them is
    the one of the first. *)
Theorem C15_volume_conserved_along_run : forall (sm : sim R) n w w1 w2 w3,
  s_mass sm = false -> w_iter w = 0%nat ->
  single_step sm w = (Ok tt, w1) -> w_iter w1 = 1%nat ->
  steps sm n w1 = (Ok tt, w2) -> single_step sm w2 = (Ok tt, w3) -> w_iter w3 <> w_iter w2 ->
  exists v0 v width depth,
    logged (w_log w1) (st_pos (w_st w)) "mean_velocity" = Some (CNum v0) /\
    logged (w_log w3) (st_pos (w_st w2)) "mean_velocity" = Some (CNum v) /\
    logged (w_log w3) (st_pos (w_st w2)) "channel_width" = Some (CNum width) /\
    logged (w_log w3) (st_pos (w_st w2)) "channel_depth" = Some (CNum depth) /\
    v * width * depth = v0 * ter_width (s_ter sm) * w_depth w.
Proof.
  intros sm n w w1 w2 w3 Hm H0 H1 Hi1 H2 H3 Hi3.
  assert (E : w_eff w2 = w_eff w1 /\ w_iter w2 <> 0%nat).
  { clear H3 Hi3. assert (Hnz : w_iter w1 <> 0%nat) by lia. clear H1 Hi1 H0.
    revert w1 Hnz H2. induction n as [|n IH]; intros w1 Hnz H2.
    - injection H2 as <-. auto.
    - apply steps_S_inv in H2 as [(e & He & _)|(w4 & H4 & H5)]; [discriminate|].
      assert (A : w_eff w4 = w_eff w1 /\ w_iter w4 <> 0%nat).
      { apply step_cases in H4 as [S|(v & rho & wd & sl & hb & ra & dT & dt & C)].
        - rewrite (ss_iter _ _ _ S). destruct (ss_eff _ _ _ S); auto; contradiction.
        - rewrite (cs_eff _ _ _ _ _ _ _ _ _ _ _ C), (cs_iter _ _ _ _ _ _ _ _ _ _ _ C).
          unfold eff_of. destruct (w_iter w1); [contradiction|]. split; auto. }
      destruct A as [A1 A2]. destruct (IH _ A2 H5) as [B1 B2]. rewrite B1. auto. }
  destruct E as [E Hnz].
  apply step_cases in H1 as [S|(v0 & rho0 & wd0 & sl0 & hb0 & ra0 & dT0 & dt0 & C0)].
  { rewrite (ss_iter _ _ _ S) in Hi1. lia. }
  apply step_cases in H3 as [S|(v & rho & wd & sl & hb & ra & dT & dt & C)].
  { rewrite (ss_iter _ _ _ S) in Hi3. contradiction. }
  exists v0, v, wd, (w_depth w2).
  assert (R0 := completed_row _ _ _ _ _ _ _ _ _ _ _ C0 (R_refl _)).
  assert (R1 := completed_row _ _ _ _ _ _ _ _ _ _ _ C (R_refl _)).
  split; [apply R0|]. split; [apply R1|]. split; [apply R1|]. split; [apply R1|].
  destruct C as [_ _ _ Hw _ _ _ _ _ _ _ _ _ _ _ _ _ _ _ _].
  assert (He0 := cs_eff _ _ _ _ _ _ _ _ _ _ _ C0). unfold eff_of in He0. rewrite H0 in He0.
  unfold width_of in Hw. rewrite Hm in Hw. unfold eff_of in Hw.
  destruct (w_iter w2); [contradiction|]. rewrite E, He0 in Hw. rnum.
  apply R_div_inv in Hw as [Hd ->]. field. split; intros Ez; apply Hd; rewrite Ez; ring.
Qed.

(** ** C16 *)
Theorem C16_mass_conservation : forall (sm : sim R) w w' flux,
  s_mass sm = true -> w_flux w = Some flux ->
  single_step sm w = (Ok tt, w') -> w_iter w' <> w_iter w ->
  w_flux w' = Some flux /\
  exists v width depth rho,
    let at_pos := logged (w_log w') (st_pos (w_st w)) in
    at_pos "mean_velocity" = Some (CNum v) /\
    at_pos "channel_width" = Some (CNum width) /\
    at_pos "channel_depth" = Some (CNum depth) /\
    at_pos "density" = Some (CNum rho) /\
    rho * v * width * depth = flux.
Proof.
  intros sm w w' flux Hm Hf H Hi. apply step_cases in H as [S|(v & rho & wd & sl & hb & ra & dT & dt & C)].
  { rewrite (ss_iter _ _ _ S) in Hi. contradiction. }
  split; [rewrite (cs_flux _ _ _ _ _ _ _ _ _ _ _ C); auto|].
  destruct (completed_row _ _ _ _ _ _ _ _ _ _ _ C (R_refl _)).
  exists v, wd, (w_depth w), rho. cbv zeta. repeat split; auto.
  destruct C as [_ _ _ Hw _ _ _ _ _ _ _ _ _ _ _ _ _ _ _ _].
  unfold width_of in Hw. rewrite Hm, Hf in Hw. rnum.
  apply rbind_ok in Hw as (a & Ha & Hw).
  apply R_div_inv in Ha as [Hnz ->]. apply R_div_inv in Hw as [Hnz2 ->]. field.
  repeat split; auto; intros E; apply Hnz; rewrite E; ring.
Qed.

(** ... and along the whole run the flux stays the one the search left. *)
Theorem C16_mass_conserved_along_run : forall (sm : sim R) n w w1 w2 flux,
  s_mass sm = true -> w_flux w = Some flux ->
  steps sm n w = (Ok tt, w1) -> single_step sm w1 = (Ok tt, w2) -> w_iter w2 <> w_iter w1 ->
  exists v width depth rho,
    let at_pos := logged (w_log w2) (st_pos (w_st w1)) in
    at_pos "mean_velocity" = Some (CNum v) /\
    at_pos "channel_width" = Some (CNum width) /\
    at_pos "channel_depth" = Some (CNum depth) /\
    at_pos "density" = Some (CNum rho) /\
    rho * v * width * depth = flux.
Proof.
  intros sm n w w1 w2 flux Hm Hf H1 H2 Hi.
  assert (Hf1 : w_flux w1 = Some flux).
  { clear H2 Hi. revert w Hf H1. induction n as [|n IH]; intros w Hf H1.
    - injection H1 as <-. auto.
    - apply steps_S_inv in H1 as [(e & He & _)|(w3 & H3 & H4)]; [discriminate|].
      apply (IH w3); auto. rewrite (step_keeps_flux sm _ _ _ H3). auto. }
  now apply (C16_mass_conservation sm w1 w2 flux Hm Hf1 H2 Hi).
Qed.

(** ** C19 *)
(** The grid of depths. *)
Theorem C19_depth_grid : forall i, depth_at i = 1 / 100 + INR i * (1 / 1000).
Proof.
  intros i. unfold depth_at, depth_start, depth_step, depth_delta, depth_start, depth_step.
  rnum. destruct i as [|[|i]].
  - simpl. lra.
  - simpl. lra.
  - rewrite <- INR_IZR_INZ. lra.
Qed.
Theorem C19_last_depth : depth_at (depth_count - 1) = 49.999 /\ depth_at depth_count = 50.
Proof.
  rewrite !C19_depth_grid. rewrite minus_INR by (unfold depth_count; lia).
  unfold depth_count. rewrite INR_IZR_INZ, Z2Nat.id by lia. simpl. lra.
Qed.

(** What the search did: [k] tries, the strain rate each leaves feeding the
    next; [v j] is the velocity at the j-th depth. *)
Definition tried (sm : sim R) (s : state R) (k : nat) (strain v : nat -> R) : Prop :=
  strain 0%nat = st_strain s /\
  forall j, (j < k)%nat ->
    mean_velocity (s_lava sm) (s_ter sm) (depth_at j) (set_strain_rate (strain j) s)
      = Ok (v j, strain (S j)).
Definition flow_rate (sm : sim R) (v : nat -> R) (j : nat) : R :=
  v j * ter_width (s_ter sm) * depth_at j.

Lemma try_depth_inv (sm : sim R) d w hit w' :
  try_depth sm d w = (Ok hit, w') ->
  exists v new rho,
    mean_velocity (s_lava sm) (s_ter sm) d (w_st w) = Ok (v, new) /\
    get_bulk_density (s_lava sm) (w_st w) = Ok rho /\
    hit = R_leb (ter_eff_init (s_ter sm)) (v * ter_width (s_ter sm) * d) /\
    w' = set_flux (v * ter_width (s_ter sm) * d * rho)
          (set_eff (v * ter_width (s_ter sm) * d)
             (set_st (set_strain_rate new (w_st w)) (set_depth d w))).
Proof.
  intros H. unfold try_depth in H.
  apply bind_ok in H as (u & w1 & H1 & H). injection H1 as <- <-.
  apply bind_ok in H as (v & w2 & H2 & H). apply mean_velocity_M in H2 as (new & Hv & ->).
  apply bind_ok in H as (u' & w3 & H3 & H). injection H3 as <- <-.
  apply bind_ok in H as (rho & w4 & H4 & H). apply reads_ok in H4 as [Hrho ->].
  apply bind_ok in H as (u'' & w5 & H5 & H). injection H5 as <- <-.
  injection H as <- <-. rnum. cbn [w_st set_st set_eff set_depth w_depth] in *.
  rewrite density_strain in Hrho. exists v, new, rho. repeat split; auto.
Qed.

Lemma set_strain_idem x y (s : state R) : set_strain_rate x (set_strain_rate y s) = set_strain_rate x s.
Proof. reflexivity. Qed.
Lemma set_strain_id (s : state R) : set_strain_rate (st_strain s) s = s.
Proof. destruct s; reflexivity. Qed.

Lemma search_inv sm s n : forall i w w' strain v,
  tried sm s i strain v -> w_st w = set_strain_rate (strain i) s ->
  (forall j, (j < i)%nat -> flow_rate sm v j < ter_eff_init (s_ter sm)) ->
  search_depth sm i n w = (Ok tt, w') ->
  exists k strain v, (i <= k <= i + n)%nat /\
    tried sm s k strain v /\
    w_st w' = set_strain_rate (strain k) s /\
    (k = i -> w' = w) /\
    ((i < k)%nat -> exists rho, get_bulk_density (s_lava sm) s = Ok rho /\
       w_depth w' = depth_at (k - 1) /\ w_eff w' = flow_rate sm v (k - 1) /\
       w_flux w' = Some (flow_rate sm v (k - 1) * rho)) /\
    (forall j, (j < k - 1)%nat -> flow_rate sm v j < ter_eff_init (s_ter sm)) /\
    ((i < k)%nat /\ ter_eff_init (s_ter sm) <= flow_rate sm v (k - 1) \/
     k = (i + n)%nat /\ forall j, (j < k)%nat -> flow_rate sm v j < ter_eff_init (s_ter sm)).
Proof.
  induction n as [|n IH]; intros i w w' strain v Ht Hw Hlt H; cbn [search_depth] in H.
  - injection H as <-. exists i, strain, v.
    split; [lia|]. split; [auto|]. split; [auto|]. split; [auto|]. split; [intros; lia|].
    split; [intros j Hj; apply Hlt; lia|]. right. split; [lia|auto].
  - apply bind_ok in H as (hit & w1 & H1 & H). apply try_depth_inv in H1 as (vi & new & rho & Hv & Hrho & -> & Hw1).
    rewrite Hw in Hv, Hrho. rewrite density_strain in Hrho.
    set (strain' := fun j => if Nat.leb j i then strain j else new).
    set (v' := fun j => if Nat.ltb j i then v j else vi).
    assert (Hs0 : strain' 0%nat = strain 0%nat) by reflexivity.
    assert (Hvi : v' i = vi) by (unfold v'; rewrite Nat.ltb_irrefl; reflexivity).
    assert (Hsi : strain' (S i) = new).
    { unfold strain'. destruct (Nat.leb (S i) i) eqn:E; [apply Nat.leb_le in E; lia|reflexivity]. }
    assert (Hvj : forall j, (j < i)%nat -> v' j = v j).
    { intros j Hj. unfold v'. destruct (Nat.ltb j i) eqn:E; auto. apply Nat.ltb_ge in E. lia. }
    assert (Hsj : forall j, (j <= i)%nat -> strain' j = strain j).
    { intros j Hj. unfold strain'. destruct (Nat.leb j i) eqn:E; auto. apply Nat.leb_gt in E. lia. }
    assert (Ht' : tried sm s (S i) strain' v').
    { destruct Ht as [T0 Tj]. split; [rewrite Hs0; auto|]. intros j Hj.
      destruct (Nat.eq_dec j i) as [->|Hne].
      - rewrite Hvi, Hsi, Hsj by lia. exact Hv.
      - rewrite Hvj, !Hsj by lia. apply Tj. lia. }
    assert (Hlt' : forall j, (j < i)%nat -> flow_rate sm v' j < ter_eff_init (s_ter sm)).
    { intros j Hj. unfold flow_rate. rewrite Hvj by auto. apply Hlt. auto. }
    assert (Hflow : flow_rate sm v' i = vi * ter_width (s_ter sm) * depth_at i)
      by (unfold flow_rate; rewrite Hvi; reflexivity).
    assert (Hst1 : w_st w1 = set_strain_rate (strain' (S i)) s).
    { rewrite Hw1, Hsi. cbn [w_st set_flux set_eff set_st]. rewrite Hw. reflexivity. }
    destruct (R_leb (ter_eff_init (s_ter sm)) (vi * ter_width (s_ter sm) * depth_at i)) eqn:Eh.
    + injection H as <-. rtests. exists (S i), strain', v'.
      replace (S i - 1)%nat with i by lia.
      split; [lia|]. split; [auto|]. split; [auto|]. split; [intros; lia|].
      split.
      { intros _. exists rho. rewrite Hw1, Hflow. repeat split; auto. }
      split; [auto|]. left. split; [lia|]. rewrite Hflow. auto.
    + rtests. destruct (IH (S i) w1 w' strain' v') as (k & st2 & v2 & Hk & Ht2 & Hst2 & Hkeq & Hset & Hlt2 & Hend); auto.
      { intros j Hj. destruct (Nat.eq_dec j i) as [->|]; [rewrite Hflow; auto|apply Hlt'; lia]. }
      exists k, st2, v2. split; [lia|]. split; [auto|]. split; [auto|].
      split; [intros; lia|]. split.
      { intros _. destruct (Nat.eq_dec k (S i)) as [E|Hne].
        - specialize (Hkeq E). subst w'. rewrite E. replace (S i - 1)%nat with i by lia.
          assert (Hv2 : v2 i = vi /\ True).
          { split; auto. destruct Ht2 as [T20 T2]. destruct Ht' as [_ T1].
            assert (Hall : forall j, (j <= i)%nat -> st2 j = strain' j).
            { intros j. induction j as [|j IHj]; intros Hj.
              - destruct Ht as [T0 _]. rewrite Hs0, T0. exact T20.
              - assert (A := T2 j ltac:(lia)). assert (B := T1 j ltac:(lia)).
                rewrite IHj, B in A by lia. injection A as _ A. auto. }
            assert (A := T2 i ltac:(lia)). assert (B := T1 i ltac:(lia)).
            rewrite Hall, B in A by lia. injection A as A _. rewrite <- A. auto. }
          destruct Hv2 as [Hv2 _]. unfold flow_rate. rewrite Hv2.
          exists rho. rewrite Hw1. repeat split; auto.
        - apply Hset. lia. }
      split; [auto|]. destruct Hend as [[? ?]|[? ?]]; [left|right]; split; auto; lia.
Qed.

(** The search ends at the first depth whose flow rate reaches the target and
    leaves that depth, flow rate and mass flux; if none of the 49990 depths
    reaches it, it ends without any error at the last one, 49.999 m. *)
Theorem C19_search_result : forall (sm : sim R) (w w' : world R),
  ter_eff_init (s_ter sm) <> 0 ->
  init_effusion_rate sm w = (Ok tt, w') ->
  let target := ter_eff_init (s_ter sm) in
  exists k strain v rho,
    tried sm (w_st w) (S k) strain v /\ get_bulk_density (s_lava sm) (w_st w) = Ok rho /\
    w_depth w' = depth_at k /\ w_eff w' = flow_rate sm v k /\
    w_flux w' = Some (flow_rate sm v k * rho) /\
    (forall j, (j < k)%nat -> flow_rate sm v j < target) /\
    (target <= flow_rate sm v k \/
     (w_depth w' = 49.999 /\ Z.of_nat k = 49989%Z /\ flow_rate sm v k < target)).
Proof.
  intros sm w w' Hne H target. unfold init_effusion_rate in H. rnum.
  assert (E : R_eqb (ter_eff_init (s_ter sm)) 0 = false) by (apply R_eqb_false; auto).
  rewrite E in H. clear E.
  destruct (search_inv sm (w_st w) depth_count 0 w w' (fun _ => st_strain (w_st w)) (fun _ => 0))
    as (k & strain & v & Hk & Ht & Hst & Hk0 & Hset & Hlt & Hend).
  - split; auto. intros; lia.
  - now rewrite set_strain_id.
  - intros; lia.
  - exact H.
  - assert (Hkpos : (0 < k)%nat).
    { destruct Hend as [[? _]|[-> _]]; [auto|]. unfold depth_count. lia. }
    destruct (Hset Hkpos) as (rho & Hrho & Hd & He & Hf).
    exists (k - 1)%nat, strain, v, rho. replace (S (k - 1)) with k by lia.
    do 5 (split; [assumption|]). split; [exact Hlt|].
    destruct Hend as [[_ ?]|[Hkn Hall]]; [left; auto|right].
    split; [|split].
    + rewrite Hd, Hkn. simpl plus. apply C19_last_depth.
    + rewrite Hkn. unfold depth_count. lia.
    + apply Hall. lia.
Qed.

(** With effusion_rate_init = 0 the search does nothing. *)
Theorem C19_no_search_without_target : forall (sm : sim R) (w : world R),
  ter_eff_init (s_ter sm) = 0 -> init_effusion_rate sm w = (Ok tt, w).
Proof.
  intros sm w H. unfold init_effusion_rate. rnum.
  assert (E : R_eqb (ter_eff_init (s_ter sm)) 0 = true) by (apply R_eqb_true; auto).
  now rewrite E.
Qed.
