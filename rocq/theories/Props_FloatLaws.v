(** * Property C78: the equations of the model hold in IEEE binary64 up to rounding *)
From Coq Require Import ZArith Reals Lra Psatz.
From Flocq Require Import Core BinarySingleNaN.
From Verif Require Import Base Num Json Logger World Vesicle MeltVisc RelVisc Bubbles Terrain Lava
  Thermal Flux Integrator Factory Run Spec Frame StepLog StepProofs LoggerProofs RowProofs StepProps
  StepRow ColumnProofs Props_Step FNum FFacts FloatErr Props_Float.
Open Scope R_scope.

(** The real number a double stands for (0 for infinities and NaN). *)
Definition real (x : f64) : R := B2R (val x).
Definition finite (x : f64) : Prop := is_finite (val x) = true.
(** Finite and between 2^-200 and 2^200 in magnitude, i.e. about 1e-60 to 1e60. *)
Definition moderate (x : f64) : Prop :=
  finite x /\ bpow radix2 (-200) <= Rabs (real x) <= bpow radix2 200.

Section Binary64.
Context (L : libm).
Local Instance FL : Num f64 := FNum L.

Lemma moderate_within x : moderate x -> within 200 (val x).
Proof. intros H; exact H. Qed.
Lemma eqb_self (x : f64) : is_nan (val x) = false -> n_eqb x x = true.
Proof.
  intros H. change (Beqb (val x) (val x) = true). rewrite Beqb_refl, H. reflexivity.
Qed.
Lemma div_val (x y z : f64) : n_div x y = Ok z -> val z = Bdiv mode_NE (val x) (val y).
Proof.
  change (n_div x y) with (f_div x y). unfold f_div. destruct (negb _ && _)%bool; [discriminate|].
  intros H. injection H as <-. reflexivity.
Qed.

(** [width = eff / (v * h)] *)
Lemma width_law eff v h width : moderate eff -> moderate v -> moderate h ->
  n_div eff (v * h)%num = Ok width ->
  Rabs (real v * real width * real h - real eff) <= bpow radix2 (-51) * Rabs (real eff).
Proof.
  intros He Hv Hh H. apply div_val in H. change (val (v * h)%num) with (Bmult mode_NE (val v) (val h)) in H.
  unfold real. rewrite H.
  destruct (mult_within 200 200 (val v) (val h)) as (W1 & e1 & E1 & M1); try (lia || assumption).
  destruct (div_within 200 (200 + 200) (val eff) _ ltac:(lia) ltac:(lia) ltac:(lia) (moderate_within _ He) (W1))
    as (_ & e2 & E2 & M2).
  rewrite M2, M1. assert (Nv := within_nonzero _ _ (moderate_within _ Hv)).
  assert (Nh := within_nonzero _ _ (moderate_within _ Hh)).
  destruct u_small as [U0 U1]. assert (Q1 := E1). apply Rabs_le_inv in Q1.
  assert (N1 : 1 + e1 <> 0) by lra.
  replace (B2R (val v) * (B2R (val eff) / (B2R (val v) * B2R (val h) * (1 + e1)) * (1 + e2)) * B2R (val h) - B2R (val eff))
    with (((1 + e2) / (1 + e1) - 1) * B2R (val eff)) by (field; auto).
  rewrite Rabs_mult. apply Rmult_le_compat_r; [apply Rabs_pos|]. apply chain1; assumption.
Qed.

(** [width = (flux / (v * h)) / rho] *)
Lemma width_law_mass flux v h rho a width : moderate flux -> moderate v -> moderate h -> moderate rho ->
  n_div flux (v * h)%num = Ok a -> n_div a rho = Ok width ->
  Rabs (real v * real width * real h * real rho - real flux) <= bpow radix2 (-50) * Rabs (real flux).
Proof.
  intros He Hv Hh Hr H H'. apply div_val in H, H'. change (val (v * h)%num) with (Bmult mode_NE (val v) (val h)) in H.
  unfold real. rewrite H', H.
  destruct (mult_within 200 200 (val v) (val h)) as (W1 & e1 & E1 & M1); try (lia || assumption).
  destruct (div_within 200 (200 + 200) (val flux) _ ltac:(lia) ltac:(lia) ltac:(lia) (moderate_within _ He) (W1))
    as (W2 & e2 & E2 & M2).
  destruct (div_within (200 + (200 + 200)) 200 _ (val rho) ltac:(lia) ltac:(lia) ltac:(lia) (W2) (moderate_within _ Hr))
    as (_ & e3 & E3 & M3).
  rewrite M3, M2, M1. assert (Nv := within_nonzero _ _ (moderate_within _ Hv)).
  assert (Nh := within_nonzero _ _ (moderate_within _ Hh)). assert (Nr := within_nonzero _ _ (moderate_within _ Hr)).
  destruct u_small as [U0 U1]. assert (Q1 := E1). apply Rabs_le_inv in Q1.
  assert (N1 : 1 + e1 <> 0) by lra.
  match goal with |- Rabs ?X <= _ => replace X with (((1 + e2) * (1 + e3) / (1 + e1) - 1) * B2R (val flux)) by (field; auto) end.
  rewrite Rabs_mult. apply Rmult_le_compat_r; [apply Rabs_pos|]. apply chain2; assumption.
Qed.

(** [dtemp = (- hb) / (eff * rho * latent * rate)] *)
Lemma heat_law hb eff rho lat rate dtemp :
  moderate hb -> moderate eff -> moderate rho -> moderate lat -> moderate rate ->
  n_div (- hb)%num (eff * rho * lat * rate)%num = Ok dtemp ->
  Rabs (real hb + real eff * real rho * real lat * real rate * real dtemp) <= bpow radix2 (-50) * Rabs (real hb).
Proof.
  intros Hq He Hr Hl Hra H. apply div_val in H.
  change (val (eff * rho * lat * rate)%num) with
    (Bmult mode_NE (Bmult mode_NE (Bmult mode_NE (val eff) (val rho)) (val lat)) (val rate)) in H.
  change (val (- hb)%num) with (Bopp (val hb)) in H. unfold real. rewrite H.
  destruct (mult_within 200 200 (val eff) (val rho)) as (W1 & e1 & E1 & M1); try (lia || assumption).
  destruct (mult_within (200 + 200) 200 _ (val lat) ltac:(lia) ltac:(lia) ltac:(lia) (W1) (moderate_within _ Hl)) as (W2 & e2 & E2 & M2).
  destruct (mult_within (200 + 200 + 200) 200 _ (val rate) ltac:(lia) ltac:(lia) ltac:(lia) (W2) (moderate_within _ Hra)) as (W3 & e3 & E3 & M3).
  destruct (div_within 200 (200 + 200 + 200 + 200) (Bopp (val hb)) _ ltac:(lia) ltac:(lia) ltac:(lia) (within_opp _ _ (moderate_within _ Hq)) (W3))
    as (_ & e4 & E4 & M4).
  rewrite M4, M3, M2, M1, B2R_Bopp.
  assert (N1 := within_nonzero _ _ (moderate_within _ He)). assert (N2 := within_nonzero _ _ (moderate_within _ Hr)).
  assert (N3 := within_nonzero _ _ (moderate_within _ Hl)). assert (N4 := within_nonzero _ _ (moderate_within _ Hra)).
  destruct u_small as [U0 U1].
  assert (Q1 := E1). assert (Q2 := E2). assert (Q3 := E3). apply Rabs_le_inv in Q1, Q2, Q3.
  assert (1 + e1 <> 0) by lra. assert (1 + e2 <> 0) by lra. assert (1 + e3 <> 0) by lra.
  match goal with |- Rabs ?X <= _ =>
    replace X with (- (((1 + e4) / ((1 + e1) * (1 + e2) * (1 + e3)) - 1) * B2R (val hb))) by (field; auto 10) end.
  rewrite Rabs_Ropp, Rabs_mult. apply Rmult_le_compat_r; [apply Rabs_pos|]. apply chain3; assumption.
Qed.

(** C78.  A binary64 step that completes writes a row whose cells satisfy the
    equations of the model as real numbers, up to a few units in the last
    place: velocity * width * depth is the effusion rate to 2^-51, and the heat
    lost is the latent heat released to 2^-50 - whatever exp, log, sin, pow, erf
    return, provided the cells involved are finite and neither absurdly small
    nor absurdly large (1e-60 to 1e60). *)
Theorem C78_row_balances : forall (sm : sim f64) w w',
  single_step sm w = (Ok tt, w') -> w_iter w' <> w_iter w -> is_nan (val (st_pos (w_st w))) = false ->
  exists v width rho h eff hb rate dtemp,
    let cell name x := logged (w_log w') (st_pos (w_st w)) name = Some (CNum x) in
    cell "mean_velocity" v /\ cell "channel_width" width /\ cell "density" rho /\ cell "channel_depth" h /\
    cell "heat_budget" hb /\ cell "dphi_dtemp" rate /\ cell "dtemp_dx" dtemp /\
    logged (w_log w') (st_pos (w_st w)) "effusion_rate" = Some (CStr eff) /\
    (s_mass sm = false -> moderate v -> moderate h -> moderate eff ->
       Rabs (real v * real width * real h - real eff) <= bpow radix2 (-51) * Rabs (real eff)) /\
    (s_mass sm = true -> exists flux, w_flux w = Some flux /\
       (moderate v -> moderate h -> moderate rho -> moderate flux ->
        Rabs (real v * real width * real h * real rho - real flux) <= bpow radix2 (-50) * Rabs (real flux))) /\
    (moderate hb -> moderate eff -> moderate rho -> moderate (lv_latent (s_lava sm)) -> moderate rate ->
       Rabs (real hb + real eff * real rho * real (lv_latent (s_lava sm)) * real rate * real dtemp)
         <= bpow radix2 (-50) * Rabs (real hb)).
Proof.
  intros sm w w' H Hi Hp.
  apply step_cases in H as [S|(v & rho & wd & sl & hb & ra & dT & dt & C)].
  { rewrite (ss_iter _ _ _ S) in Hi. contradiction. }
  destruct (completed_row _ _ _ _ _ _ _ _ _ _ _ C (eqb_self _ Hp)).
  exists v, wd, rho, (w_depth w), (w_eff w'), hb, ra, dT. cbv zeta.
  repeat (split; [assumption|]).
  assert (Hw := cs_width _ _ _ _ _ _ _ _ _ _ _ C). assert (Hd := cs_dtemp _ _ _ _ _ _ _ _ _ _ _ C).
  rewrite (cs_eff _ _ _ _ _ _ _ _ _ _ _ C). unfold width_of in Hw.
  split; [|split].
  - intros Hm Hv Hh He. rewrite Hm in Hw. exact (width_law _ _ _ _ He Hv Hh Hw).
  - intros Hm. rewrite Hm in Hw. destruct (w_flux w) as [fl|]; [|discriminate].
    exists fl. split; [reflexivity|]. intros Hv Hh Hr Hf. apply rbind_ok in Hw as (a & A & B).
    exact (width_law_mass _ _ _ _ _ _ Hf Hv Hh Hr A B).
  - intros. eapply heat_law; eassumption.
Qed.

(** One step moves temperature, crystal fraction and position by the logged
    gradient times the step, up to rounding. *)
Theorem C78_step_advances : forall (sm : sim f64) w w',
  single_step sm w = (Ok tt, w') -> w_iter w' <> w_iter w -> is_nan (val (st_pos (w_st w))) = false ->
  exists dtemp dphi rate,
    let cell name x := logged (w_log w') (st_pos (w_st w)) name = Some (CNum x) in
    let advanced old grad new := finite new ->
      Rabs (real new - (real old + real grad * real (s_dx sm))) <=
        bpow radix2 (-51) * (Rabs (real old) + Rabs (real grad * real (s_dx sm))) + bpow radix2 (-1073) in
    cell "dtemp_dx" dtemp /\ cell "dphi_dx" dphi /\ cell "dphi_dtemp" rate /\
    advanced (st_temp (w_st w)) dtemp (st_temp (w_st w')) /\
    advanced (st_phi (w_st w)) dphi (st_phi (w_st w')) /\
    (finite dphi -> Rabs (real dphi + real rate * real dtemp) <=
       bpow radix2 (-53) * Rabs (real rate * real dtemp) + bpow radix2 (-1075)).
Proof.
  intros sm w w' H Hi Hp.
  apply step_cases in H as [S|(v & rho & wd & sl & hb & ra & dT & dt & C)].
  { rewrite (ss_iter _ _ _ S) in Hi. contradiction. }
  destruct (completed_row _ _ _ _ _ _ _ _ _ _ _ C (eqb_self _ Hp)).
  exists dT, (dT * (- ra))%num, ra. cbv zeta. repeat (split; [assumption|]).
  unfold finite, real. split; [|split].
  - rewrite (cs_temp _ _ _ _ _ _ _ _ _ _ _ C). apply advance_error.
  - rewrite (cs_phi _ _ _ _ _ _ _ _ _ _ _ C). apply advance_error.
  - change (val (dT * - ra)%num) with (Bmult mode_NE (val dT) (Bopp (val ra))). intros F.
    destruct (mult_finite _ _ F) as (_ & _ & E). rewrite E, B2R_Bopp.
    assert (Q := rnd_error (B2R (val dT) * - B2R (val ra))).
    rewrite (Rabs_mult (B2R (val dT))), Rabs_Ropp, <- Rabs_mult, (Rmult_comm (B2R (val dT)) (B2R (val ra))) in Q.
    match goal with |- Rabs ?X <= _ => match type of Q with Rabs ?Y <= _ => replace X with Y by ring end end.
    exact Q.
Qed.

Lemma steps_iter_le (sm : sim f64) : forall n w w', steps sm n w = (Ok tt, w') -> (w_iter w' <= w_iter w + n)%nat.
Proof.
  induction n as [|n IH]; intros w w' H; [injection H as <-; lia|].
  apply steps_S_inv in H as [(e & He & _)|(w1 & H1 & H2)]; [discriminate|]. apply IH in H2.
  destruct (step_cases _ _ _ H1) as [Q|(v & rho & wd & sl & hb & ra & dT & dt & C)].
  - rewrite (ss_iter _ _ _ Q) in H2. lia.
  - rewrite (cs_iter _ _ _ _ _ _ _ _ _ _ _ C) in H2. lia.
Qed.

(** After [n] completed steps the temperature is the vent's plus the sum of the
    logged gradients times the step, up to [n] such rounding errors. *)
Definition sum (n : nat) (f : nat -> R) : R := fold_right (fun i s => f i + s) 0 (seq 0 n).
Lemma sum_S n f : sum (S n) f = sum n f + f n.
Proof.
  unfold sum. rewrite seq_S, fold_right_app. cbn [fold_right plus].
  generalize (seq 0 n). intros l. induction l as [|i l IH]; cbn [fold_right]; [lra|]. rewrite IH. lra.
Qed.
Theorem C78_temperature_accumulates : forall (sm : sim f64) n w w' M,
  steps sm n w = (Ok tt, w') -> w_iter w' = (w_iter w + n)%nat ->
  (forall i wi, (i <= n)%nat -> steps sm i w = (Ok tt, wi) ->
     is_nan (val (st_pos (w_st wi))) = false /\ finite (st_temp (w_st wi)) /\ Rabs (real (st_temp (w_st wi))) <= M) ->
  exists grad : nat -> f64,
    (forall i, (i < n)%nat -> exists wi wj, steps sm i w = (Ok tt, wi) /\ single_step sm wi = (Ok tt, wj) /\
       logged (w_log wj) (st_pos (w_st wi)) "dtemp_dx" = Some (CNum (grad i))) /\
    ((forall i, (i < n)%nat -> Rabs (real (grad i) * real (s_dx sm)) <= M) ->
     Rabs (real (st_temp (w_st w')) - (real (st_temp (w_st w)) + sum n (fun i => real (grad i) * real (s_dx sm))))
       <= INR n * (bpow radix2 (-50) * M + bpow radix2 (-1073))).
Proof.
  intros sm n w w' M. revert w'. induction n as [|n IH]; intros w' H Hi Hok.
  - injection H as <-. exists (fun _ => n_lit 0 1). split; [intros; lia|]. intros _.
    unfold sum. simpl. rewrite Rplus_0_r, Rminus_diag_eq, Rabs_R0 by reflexivity. lra.
  - assert (HS := H). apply steps_snoc in H as (w1 & H1 & H2).
    assert (I1 := steps_iter_le sm n w w1 H1).
    assert (I2 : (w_iter w' <= S (w_iter w1))%nat).
    { destruct (step_position _ _ _ _ H2) as [(-> & _)|(-> & _)]; lia. }
    destruct (IH w1 H1) as (g & Hg & B).
    { lia. }
    { intros i wi Hin Hs. apply (Hok i wi); [lia|exact Hs]. }
    assert (Hne : w_iter w' <> w_iter w1) by lia.
    destruct (Hok n w1) as (Np & F1 & M1); [lia|exact H1|].
    destruct (Hok (S n) w') as (_ & F2 & M2); [lia|exact HS|].
    destruct (C78_step_advances sm w1 w' H2 Hne Np) as (dT & dphi & ra & X1 & _ & _ & X2 & _). cbv zeta in X1, X2.
    exists (fun i => if Nat.eqb i n then dT else g i). split.
    + intros i Hin. destruct (Nat.eqb_spec i n) as [->|Q]; [exists w1, w'; auto|]. apply Hg. lia.
    + intros HM. rewrite sum_S. cbv beta. rewrite Nat.eqb_refl.
      assert (E : sum n (fun i => real (if Nat.eqb i n then dT else g i) * real (s_dx sm)) =
                  sum n (fun i => real (g i) * real (s_dx sm))).
      { unfold sum. assert (G : forall i, In i (seq 0 n) -> (i < n)%nat) by (intros i Hin; apply in_seq in Hin; lia).
        revert G. generalize (seq 0 n). intros l G. induction l as [|i l IHl]; [reflexivity|]. cbn [fold_right].
        rewrite IHl by (intros j Hj; apply G; right; exact Hj).
        destruct (Nat.eqb_spec i n) as [->|Q]; [exfalso; specialize (G n (or_introl eq_refl)); lia|reflexivity]. }
      rewrite E. specialize (X2 F2).
      assert (B' := B (fun i Hin => ltac:(specialize (HM i ltac:(lia)); cbv beta in HM; destruct (Nat.eqb_spec i n); [lia|exact HM]))).
      assert (HMn := HM n ltac:(lia)). cbv beta in HMn. rewrite Nat.eqb_refl in HMn.
      rewrite S_INR. set (S' := sum n _) in *. set (d := real dT * real (s_dx sm)) in *.
      assert (Tr := Rabs_triang (real (st_temp (w_st w')) - (real (st_temp (w_st w1)) + d))
         (real (st_temp (w_st w1)) - (real (st_temp (w_st w)) + S'))).
      match type of Tr with Rabs ?Y <= _ => match goal with |- Rabs ?X <= _ => replace X with Y by ring end end.
      apply Rle_trans with (1 := Tr). rewrite Rmult_plus_distr_r, Rmult_1_l.
      replace (bpow radix2 (-50)) with (2 * bpow radix2 (-51)) in * by (change 2 with (bpow radix2 1); rewrite <- bpow_plus; reflexivity).
      assert (P := bpow_gt_0 radix2 (-51)).
      set (b := bpow radix2 (-51)) in *. clearbody b. nra.
Qed.

(** Positions are exact as long as the step and the start are whole multiples of
    a power of two (whole metres, for example) and stay below 2^53 of them. *)
Theorem C78_positions_exact : forall (sm : sim f64) n w w' (m k e : Z),
  finite (st_pos (w_st w)) -> finite (s_dx sm) ->
  real (st_pos (w_st w)) = IZR m * bpow radix2 e -> real (s_dx sm) = IZR k * bpow radix2 e ->
  (-1074 <= e <= 970)%Z -> (Z.abs m + Z.of_nat n * Z.abs k <= 2 ^ 53)%Z ->
  steps sm n w = (Ok tt, w') -> w_iter w' = (w_iter w + n)%nat ->
  finite (st_pos (w_st w')) /\
  real (st_pos (w_st w')) = real (st_pos (w_st w)) + INR n * real (s_dx sm).
Proof.
  intros sm n w w' m k e F0 Fd E0 Ed He Hb H Hi.
  assert (G : finite (st_pos (w_st w')) /\ real (st_pos (w_st w')) = IZR (m + Z.of_nat n * k) * bpow radix2 e).
  { revert w' H Hi. induction n as [|n IH]; intros w' H Hi.
    - injection H as <-. rewrite Z.mul_0_l, Z.add_0_r. auto.
    - apply steps_snoc in H as (w1 & H1 & H2). assert (I1 := steps_iter_le sm n w w1 H1).
      assert (I2 : (w_iter w' <= S (w_iter w1))%nat).
      { destruct (step_position _ _ _ _ H2) as [(-> & _)|(-> & _)]; lia. }
      destruct (IH ltac:(nia) w1 H1 ltac:(lia)) as (A & B).
      destruct (step_position _ _ _ _ H2) as [(Q & _)|(_ & Q)]; [lia|].
      unfold finite, real. rewrite Q.
      replace (m + Z.of_nat (S n) * k)%Z with (m + Z.of_nat n * k + k)%Z by lia.
      apply plus_exact; auto. nia. }
  destruct G as [G1 G2]. split; [exact G1|]. rewrite G2, E0, Ed, plus_IZR, mult_IZR, INR_IZR_INZ. ring.
Qed.
End Binary64.
