(** * StepProps: one step and many steps (any arithmetic) *)
From Verif Require Import Base Num Json Logger World Vesicle MeltVisc RelVisc Bubbles Terrain Lava
  Thermal Flux Integrator Frame StepLog StepProofs LoggerProofs RowProofs.

Section Props.
Context {T : Type} {N : Num T}.
Open Scope num_scope.

(** Everything that is known about a step that completed. *)
Record completed_step (sm : sim T) (w w' : world T) (v rho width slope hb rate dtemp dt : T) : Prop := {
  cs_budget : exists new w2,
    mean_velocity (s_lava sm) (s_ter sm) (w_depth w) (w_st w) = Ok (v, new) /\
    compute_heat_budget sm width (w_depth w) (set_eff (eff_of sm v w) (after_velocity new w)) = (Ok hb, w2);
  cs_vpos : (v <=? zero) = false;
  cs_rho : get_bulk_density (s_lava sm) (w_st w) = Ok rho;
  cs_width : width_of sm v rho w = Ok width;
  cs_slope : get_channel_slope (s_ter sm) (st_pos (w_st w)) = Ok slope;
  cs_rate : compute_crystallization_rate (s_cryst sm) (w_st w) = Ok rate;
  cs_dtemp : (- hb) / (eff_of sm v w * rho * lv_latent (s_lava sm) * rate) = Ok dtemp;
  cs_phi_grows : (st_phi (w_st w') <=? st_phi (w_st w)) = false;
  cs_phi : st_phi (w_st w') = st_phi (w_st w) + (dtemp * (- rate)) * s_dx sm;
  cs_temp : st_temp (w_st w') = st_temp (w_st w) + dtemp * s_dx sm;
  cs_pos : st_pos (w_st w') = st_pos (w_st w) + s_dx sm;
  cs_dt : s_dx sm / v = Ok dt;
  cs_time : st_time (w_st w') = st_time (w_st w) + dt;
  cs_strain : n_lit 3 1 * v / w_depth w = Ok (st_strain (w_st w'));
  cs_depth : w_depth w' = w_depth w;
  cs_eff : w_eff w' = eff_of sm v w;
  cs_flux : w_flux w' = w_flux w;
  cs_iter : w_iter w' = S (w_iter w);
  cs_fin : (w_fin w' = true /\ ~ passes sm w') \/ (w_fin w' = w_fin w /\ passes sm w');
  cs_log : exists bcalls sx vf mu tc f t0 tb x wb,
    map fst bcalls = budget_names (s_budget sm) /\
    w_log w' = log_many (st_pos (w_st w))
      (bcalls ++ step_calls x (set_strain_rate sx (w_st w)) vf mu rho tc f (eff_of sm v w) t0 tb) (w_log w) /\
    wb = touched sx bcalls (set_eff (eff_of sm v w) w) /\
    (exists new, mean_velocity (s_lava sm) (s_ter sm) (w_depth w) (w_st w) = Ok (v, new) /\
       compute_heat_budget sm width (w_depth w)
        (set_eff (eff_of sm v w) (after_velocity new w)) = (Ok hb, wb)) /\
    lava_vesicle_fraction (s_lava sm) (w_st w) = Ok vf /\
    computes_bulk_viscosity (s_lava sm) (set_strain_rate sx (w_st w)) = Ok mu /\
    compute_crust_temperature (s_crust sm) (w_st w) = Ok tc /\
    (exists cs wc, compute_effective_cover_fraction (s_cover sm) (s_lava sm) (s_ter sm)
       (touched sx cs wb) = (Ok f, wc)) /\
    get_yield_strength (s_lava sm) (w_st w) = Ok t0 /\
    get_basal_shear_stress (s_lava sm) (s_ter sm) (w_depth w) (w_st w) = Ok tb /\
    x = {| sv_v := v; sv_depth := w_depth w; sv_rho := rho; sv_width := width; sv_slope := slope;
           sv_rate := rate; sv_dtemp_dx := dtemp; sv_dtemp_dt := - dtemp * v * n_lit 60 1;
           sv_dphi_dx := dtemp * (- rate);
           sv_new_phi := st_phi (w_st w) + (dtemp * (- rate)) * s_dx sm;
           sv_new_temp := st_temp (w_st w) + dtemp * s_dx sm |}
}.

(** A step that stopped early. *)
Record stopped_step (sm : sim T) (w w' : world T) : Prop := {
  ss_st : exists strain, w_st w' = set_strain_rate strain (w_st w);
  ss_depth : w_depth w' = w_depth w;
  ss_flux : w_flux w' = w_flux w;
  ss_iter : w_iter w' = w_iter w;
  ss_eff : w_eff w' = w_eff w \/ w_iter w = O;
  ss_fin : w_fin w' = true;
  ss_log : w_log w' = w_log w \/
    exists bcalls, map fst bcalls = budget_names (s_budget sm) /\
      w_log w' = log_many (st_pos (w_st w)) bcalls (w_log w);
  ss_why : exists v new, mean_velocity (s_lava sm) (s_ter sm) (w_depth w) (w_st w) = Ok (v, new) /\
    (((v <=? zero) = true /\ w_log w' = w_log w /\ w_eff w' = w_eff w) \/
     ((v <=? zero) = false /\ w_eff w' = eff_of sm v w /\
      exists rho width hb rate dtemp w2 bcalls,
        get_bulk_density (s_lava sm) (w_st w) = Ok rho /\
        width_of sm v rho w = Ok width /\
        compute_heat_budget sm width (w_depth w) (set_eff (eff_of sm v w) (after_velocity new w)) = (Ok hb, w2) /\
        compute_crystallization_rate (s_cryst sm) (w_st w) = Ok rate /\
        (- hb) / (eff_of sm v w * rho * lv_latent (s_lava sm) * rate) = Ok dtemp /\
        (st_phi (w_st w) + (dtemp * (- rate)) * s_dx sm <=? st_phi (w_st w)) = true /\
        map fst bcalls = budget_names (s_budget sm) /\
        w_log w' = log_many (st_pos (w_st w)) bcalls (w_log w)))
}.

Lemma step_cases sm w w' :
  single_step sm w = (Ok tt, w') ->
  stopped_step sm w w' \/
  exists v rho width slope hb rate dtemp dt, completed_step sm w w' v rho width slope hb rate dtemp dt.
Proof.
  intros H. apply single_step_inv in H. destruct H as
    [v new Hv Hle -> | v x w2 C Hle -> | v x w2 w3 w4 C Hle Hl Hu Hc].
  - left. constructor; simpl; eauto 10.
  - left. destruct C as (new & Hv & Hvp & Hx). apply step_compute_spec in Hx.
    destruct Hx as (rho & width & slope & hb & rate & dtemp & Hrho & Hwid & Hsl & Hhb & Hrate & Hdt & Hx
      & strain & calls & E2 & Hn).
    change (w_st (after_velocity new w)) with (set_strain_rate new (w_st w)) in *.
    rewrite density_strain in Hrho. rewrite cryst_strain in Hrate. subst x.
    cbn [sv_new_phi] in Hle. rewrite E2.
    constructor.
    + exists strain. reflexivity.
    + reflexivity.
    + reflexivity.
    + reflexivity.
    + change (eff_of sm v w = w_eff w \/ w_iter w = O). unfold eff_of. destruct (w_iter w); auto.
    + reflexivity.
    + right. exists calls. split; [exact Hn|reflexivity].
    + exists v, new. split; [exact Hv|]. right. split; [exact Hvp|]. split; [reflexivity|].
      exists rho, width, hb, rate, dtemp, w2, calls.
      split; [exact Hrho|]. split; [exact Hwid|]. split; [exact Hhb|]. split; [exact Hrate|].
      split; [exact Hdt|]. split; [exact Hle|]. split; [exact Hn|]. reflexivity.
  - right. destruct C as (new & Hv & Hvp & Hx). apply step_compute_spec in Hx.
    destruct Hx as (rho & width & slope & hb & rate & dtemp & Hrho & Hwid & Hsl & Hhb & Hrate & Hdt & Hx
      & strain & calls & E2 & Hn).
    change (touched strain calls (set_eff (eff_of sm v (after_velocity new w)) (after_velocity new w)))
      with (touched strain calls (set_eff (eff_of sm v w) w)) in E2.
    apply step_log_spec in Hl.
    destruct Hl as (vf & mu & rho' & tc & f & t0 & tb & strain2 & wc & Hvf & Hmu & Hrho' & Htc & (cs & Hcov) & Ht0 & Htb & E3).
    apply step_update_spec in Hu as (dt & sr & Hdt' & Hsr & E4).
    assert (Hst2 : w_st w2 = set_strain_rate strain (w_st w)) by (rewrite E2; reflexivity).
    change (w_st (after_velocity new w)) with (set_strain_rate new (w_st w)) in *.
    rewrite density_strain in Hrho.
    rewrite cryst_strain in Hrate.
    rewrite Hst2, density_strain in Hrho'. rewrite Hrho in Hrho'. injection Hrho' as <-.
    rewrite Hst2 in Hvf, Hmu, Htc, Ht0, Htb.
    unfold lava_vesicle_fraction in Hvf. rewrite ves_strain in Hvf.
    rewrite crust_strain in Htc.
    unfold get_yield_strength in Ht0. rewrite yield_strain in Ht0.
    unfold get_basal_shear_stress in Htb. rewrite basal_strain in Htb.
    assert (Hd2 : w_depth w2 = w_depth w) by (rewrite E2; reflexivity). rewrite Hd2 in Htb.
    assert (Hstr : st_strain (w_st w2) = strain) by (rewrite Hst2; reflexivity).
    rewrite Hstr in Hcov.
    assert (Hw4 : w_st w' = w_st w4 /\ w_depth w' = w_depth w4 /\ w_eff w' = w_eff w4 /\
       w_flux w' = w_flux w4 /\ w_iter w' = w_iter w4 /\ w_log w' = w_log w4).
    { destruct Hc as [[-> _]|[-> _]]; repeat split; reflexivity. }
    destruct Hw4 as (Q1 & Q2 & Q3 & Q4 & Q5 & Q6).
    assert (Hpass : passes sm w' <-> passes sm w4).
    { unfold passes. rewrite Q1, Q2. tauto. }
    exists v, rho, width, slope, hb, rate, dtemp, dt.
    subst x. cbn [sv_v sv_depth sv_rho sv_width sv_slope sv_rate sv_dtemp_dx sv_dtemp_dt sv_dphi_dx
                  sv_new_phi sv_new_temp] in *.
    constructor; rewrite ?Q1, ?Q2, ?Q3, ?Q4, ?Q5, ?Q6, ?E4, ?E3, ?E2;
      try reflexivity; try assumption.
    + exists new, w2. split; auto.
    + rewrite Hpass. destruct Hc as [[-> Hp]|[-> Hp]]; [left; auto|right; split; auto].
      rewrite E4, E3, E2. reflexivity.
    + exists calls, strain, vf, mu, tc, f, t0, tb. eexists. exists w2.
      split; [exact Hn|]. split.
      { cbn [touched set_log w_log w_st set_st incr_iter set_eff st_pos set_strain_rate w_eff].
        rewrite log_many_app. reflexivity. }
      split; [exact E2|]. split; [exists new; split; [exact Hv|exact Hhb]|].
      split; [exact Hvf|]. split; [exact Hmu|]. split; [exact Htc|].
      split; [exists cs, wc; exact Hcov|].
      split; [exact Ht0|]. split; [exact Htb|]. reflexivity.
Qed.

(** *** Errors too: what a step can never change *)
Definition keeps {A X} (P : world T -> X) (m : M (T:=T) A) : Prop :=
  forall w r w', m w = (r, w') -> P w' = P w.
Lemma keeps_bind {A B X} (P : world T -> X) (m : M A) (f : A -> M B) :
  keeps P m -> (forall a, keeps P (f a)) -> keeps P (bind m f).
Proof.
  intros Hm Hf w r w' H. unfold bind in H. destruct (m w) as [[a|e] w1] eqn:E.
  - rewrite (Hf a _ _ _ H). eapply Hm; eauto.
  - injection H as <- <-. eapply Hm; eauto.
Qed.
Lemma keeps_framed {A X} (P : world T -> X) names (m : M (T:=T) A) :
  (forall s c w, P (touched s c w) = P w) -> framed names m -> keeps P m.
Proof. intros HP Hm w r w' H. destruct (Hm _ _ _ H) as (s & c & _ & -> & _). apply HP. Qed.

Lemma framed_step_log sm x : framed step_names (@step_log T _ sm x).
Proof.
  unfold step_log, step_names.
  repeat (first
    [ apply framed_pure | apply framed_get | apply framed_lift | apply framed_ret
    | apply framed_log | apply framed_cover
    | eapply framed_bind'; [ | intros | ] ]); reflexivity.
Qed.

Lemma step_keeps {X} (P : world T -> X) sm :
  (forall s c w, P (touched s c w) = P w) ->
  (forall e w, P (set_eff e w) = P w) ->
  (forall s w, P (set_st s w) = P w) ->
  (forall w, P (incr_iter w) = P w) ->
  (forall w, P (set_finished w) = P w) ->
  keeps P (single_step sm).
Proof.
  intros Ht He Hs Hi Hf.
  assert (Hfr : forall A names (m : M (T:=T) A), framed names m -> keeps P m)
    by (intros; eapply keeps_framed; eauto).
  assert (Hmod : forall g, (forall w, P (g w) = P w) -> keeps P (modify g)).
  { intros g Hg w r w' H. injection H as _ <-. apply Hg. }
  unfold single_step. apply keeps_bind; [eapply Hfr, framed_velocity|intros v].
  destruct (v <=? zero); [apply Hmod; auto|].
  apply keeps_bind.
  { unfold step_compute.
    repeat (apply keeps_bind; [first [eapply Hfr, framed_get | eapply Hfr, framed_pure
       | eapply Hfr, framed_lift | eapply Hfr, framed_budget
       | intros w r w' H; unfold first_effusion_rate in H; destruct (w_iter w);
         injection H as _ <-; auto
       | unfold channel_width; destruct (s_mass sm);
         repeat (apply keeps_bind; [first [eapply Hfr, framed_pure | eapply Hfr, framed_lift | eapply Hfr, framed_get] | intros ]);
         eapply Hfr, framed_lift ] | intros ]).
    eapply Hfr, framed_ret. }
  intros x. apply keeps_bind; [eapply Hfr, framed_get|intros phi].
  destruct (sv_new_phi x <=? phi); [apply Hmod; auto|].
  apply keeps_bind; [eapply Hfr, framed_step_log|intros _].
  apply keeps_bind.
  { unfold step_update.
    repeat (apply keeps_bind; [first [eapply Hfr, framed_lift | apply Hmod; intros; auto] | intros ]).
    apply Hmod; auto. }
  intros _. unfold step_checks.
  destruct (_ <=? _); [apply Hmod; auto|].
  apply keeps_bind; [eapply Hfr, framed_pure|intros nc]. destruct nc; [apply Hmod; auto|].
  apply keeps_bind; [eapply Hfr, framed_pure|intros yc]. destruct yc; [apply Hmod; auto|].
  apply keeps_bind; [eapply Hfr, framed_get|intros pos].
  destruct (_ <=? _); [apply Hmod; auto|eapply Hfr, framed_ret].
Qed.

Lemma step_keeps_depth sm : keeps w_depth (single_step sm).
Proof. apply step_keeps; reflexivity. Qed.
Lemma step_keeps_flux sm : keeps w_flux (single_step sm).
Proof. apply step_keeps; reflexivity. Qed.

(** *** Many steps *)
Lemma steps_S_inv sm n w r w' :
  steps sm (S n) w = (r, w') ->
  (exists e, r = Err e /\ single_step sm w = (r, w')) \/
  exists w1, single_step sm w = (Ok tt, w1) /\ steps sm n w1 = (r, w').
Proof.
  simpl. destruct (single_step sm w) as [[[]|e] w1]; intros H; eauto.
  injection H as <- <-. left. eauto.
Qed.

Lemma steps_snoc sm n w w' :
  steps sm (S n) w = (Ok tt, w') ->
  exists w1, steps sm n w = (Ok tt, w1) /\ single_step sm w1 = (Ok tt, w').
Proof.
  revert w; induction n as [|n IH]; intros w H.
  - apply steps_S_inv in H as [(e & He & _)|(w1 & H1 & H2)]; [discriminate|].
    injection H2 as <-. exists w. auto.
  - apply steps_S_inv in H as [(e & He & _)|(w1 & H1 & H2)]; [discriminate|].
    apply IH in H2 as (w2 & H2 & H3). exists w2. split; auto.
    cbn [steps]. rewrite H1. exact H2.
Qed.

(** The run loop is a number of steps. *)
Lemma run_loop_steps sm fuel w w' :
  run_loop sm fuel w = Some (Ok tt, w') ->
  exists n, (n <= fuel)%nat /\ steps sm n w = (Ok tt, w') /\ w_fin w' = true /\
    forall k wk, (k < n)%nat -> steps sm k w = (Ok tt, wk) -> w_fin wk = false.
Proof.
  revert w; induction fuel as [|f IH]; intros w H; cbn [run_loop] in H; unfold has_finished in H.
  - destruct (w_fin w) eqn:E; [|discriminate]. injection H as <-.
    exists O. repeat split; auto. intros; lia.
  - destruct (w_fin w) eqn:E.
    + injection H as <-. exists O. repeat split; auto; [lia|]. intros; lia.
    + destruct (single_step sm w) as [[[]|e] w1] eqn:Es; [|discriminate].
      apply IH in H as (n & Hn & Hs & Hf & Hk). exists (S n).
      split; [lia|]. split; [cbn [steps]; now rewrite Es|]. split; auto.
      intros [|k] wk Hlt Hk'; [injection Hk' as <-; auto|].
      cbn [steps] in Hk'. rewrite Es in Hk'. apply (Hk k wk); [lia|auto].
Qed.

(** The loop stops as soon as a step finishes: every step but the last is
    completed and passes. *)
Lemma unfinished_completed sm w w' :
  single_step sm w = (Ok tt, w') -> w_fin w' = false ->
  passes sm w' /\
  exists v rho width slope hb rate dtemp dt, completed_step sm w w' v rho width slope hb rate dtemp dt.
Proof.
  intros H Hf. apply step_cases in H as [S|(v & rho & wd & sl & hb & ra & dT & dt & C)].
  - rewrite (ss_fin _ _ _ S) in Hf. discriminate.
  - destruct (cs_fin _ _ _ _ _ _ _ _ _ _ _ C) as [[Hf' _]|[_ Hp]]; [congruence|]. split; eauto 10.
Qed.
End Props.
