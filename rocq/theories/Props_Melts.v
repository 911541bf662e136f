(** * C56: "melts" selected in the configuration *)
From Verif Require Import Base Num Json Logger World Vesicle MeltVisc RelVisc Bubbles Terrain Lava
  Thermal Flux Integrator Factory Run Spec Frame StepLog StepProofs LoggerProofs RowProofs StepProps
  ColumnProofs Props_Step Props_Factory RNum.

(** Whatever the arithmetic and the other settings: a configuration that says
    "melts" yields a crystallization model without its look-up table. *)
Theorem C56_factory_never_loads_the_table : forall {T} {N : Num T} flag fs jf d eri name (sm : sim T) st depth,
  load_json fs jf = Ok d -> says d "models" "crystallization_rate_model" "melts" ->
  prepare flag fs jf = Ok (eri, name, sm, st, depth) ->
  exists phi ts te, s_cryst sm = CrMelts phi ts te None /\
    jfloat2 d "lava_state" "crystal_fraction" = Ok phi.
Proof.
  intros T N flag fs jf d eri name sm st depth Hd Hs H. unfold prepare in H. rewrite Hd in H. cbn [rbind] in H.
  apply rbind_ok in H as (e & _ & H). apply rbind_ok in H as (nm & _ & H). apply rbind_ok in H as (sf & _ & H).
  apply rbind_ok in H as (stp & _ & H). apply rbind_ok in H as (dx & _ & H). apply rbind_ok in H as (raw & _ & H).
  apply rbind_ok in H as ([[ter0 dp] smooth] & _ & H). apply rbind_ok in H as (lines & _ & H).
  apply rbind_ok in H as (ter & _ & H). apply rbind_ok in H as (m & Hm & H). apply rbind_ok in H as (s & _ & H).
  injection H as _ _ <- _ _. cbn [s_cryst].
  unfold build_models in Hm. apply rbind_ok in Hm as (sel & Hsel & Hm).
  assert (Ec : sel_cryst sel = JStr "melts").
  { unfold read_selectors in Hsel. apply rbind_ok in Hsel as (a & Ha & Hsel). unfold says in Hs. rewrite Hs in Ha.
    injection Ha as <-.
    repeat (apply rbind_ok in Hsel; destruct Hsel as (? & _ & Hsel)). injection Hsel as <-. reflexivity. }
  repeat (let Hx := fresh in apply rbind_ok in Hm; destruct Hm as (? & Hx & Hm); try rewrite Ec in Hx).
  injection Hm as <-. cbn [mo_cryst].
  match goal with Hc : build_cryst _ _ = Ok _ |- _ => unfold build_cryst in Hc;
    cbn [jis String.eqb Ascii.eqb Bool.eqb] in Hc; unfold read_cr_melts in Hc;
    apply rbind_ok in Hc as ([] & _ & Hc); [|discriminate];
    apply rbind_ok in Hc as (p & Hp & Hc); apply rbind_ok in Hc as (ts & _ & Hc); apply rbind_ok in Hc as (te & _ & Hc);
    injection Hc as <-; exists p, ts, te; auto end.
Qed.

Open Scope R_scope.
Lemma melts_rate_0 phi ts te (s : state R) : compute_crystallization_rate (CrMelts phi ts te None) s = Ok 0.
Proof.
  cbn [compute_crystallization_rate get_crystal_fraction rbind]. rnum. rewrite R_div_ok by lra. f_equal. lra.
Qed.

(** C56, exact arithmetic with Python's division.  As soon as the lava moves and
    its heat budget can be computed, the step raises ZeroDivisionError ... *)
Theorem C56_first_step_divides_by_zero : forall (sm : sim R) phi ts te w v new rho width slope hb w2,
  s_cryst sm = CrMelts phi ts te None ->
  mean_velocity (s_lava sm) (s_ter sm) (w_depth w) (w_st w) = Ok (v, new) -> 0 < v ->
  get_bulk_density (s_lava sm) (w_st w) = Ok rho ->
  width_of sm v rho w = Ok width ->
  get_channel_slope (s_ter sm) (st_pos (w_st w)) = Ok slope ->
  compute_heat_budget sm width (w_depth w) (set_eff (eff_of sm v w) (after_velocity new w)) = (Ok hb, w2) ->
  exists w', single_step sm w = (Err ZeroDivisionError, w').
Proof.
  intros sm phi ts te w v new rho width slope hb w2 Hc Hv Pv Hr Hw Hsl Hb.
  unfold single_step, compute_mean_velocity, bind at 1. rewrite Hv.
  assert (E : n_leb v zero = false) by (unfold zero; rnum; apply R_leb_false; lra). rewrite E.
  change (set_st (set_strain_rate new (w_st w)) w) with (after_velocity new w).
  assert (G : exists w', step_compute sm v (after_velocity new w) = (Err ZeroDivisionError, w')).
  2:{ destruct G as (w' & G). exists w'. unfold bind at 1. rewrite G. reflexivity. }
  unfold step_compute. unfold bind at 1, get at 1. change (w_depth (after_velocity new w)) with (w_depth w).
  unfold bind at 1.
  assert (Ef : first_effusion_rate sm v (w_depth w) (after_velocity new w) = (Ok tt, set_eff (eff_of sm v w) (after_velocity new w))).
  { unfold first_effusion_rate, eff_of. change (w_iter (after_velocity new w)) with (w_iter w). destruct (w_iter w); reflexivity. }
  rewrite Ef. set (w1 := set_eff (eff_of sm v w) (after_velocity new w)) in *.
  unfold bind at 1, reads at 1. change (w_st w1) with (set_strain_rate new (w_st w)). rewrite density_strain, Hr.
  unfold bind at 1.
  assert (Ew : channel_width sm v (w_depth w) rho w1 = (Ok width, w1)).
  { unfold channel_width. unfold width_of in Hw. destruct (s_mass sm).
    - unfold bind, reads, lift. change (w_flux w1) with (w_flux w). destruct (w_flux w) as [f|]; [|discriminate].
      apply rbind_ok in Hw as (a & Ha & Hw). rewrite Ha, Hw. reflexivity.
    - unfold bind, get, lift. change (w_eff w1) with (eff_of sm v w). rewrite Hw. reflexivity. }
  rewrite Ew. unfold bind at 1, reads at 1. change (st_pos (w_st w1)) with (st_pos (w_st w)). rewrite Hsl.
  unfold bind at 1. rewrite Hb. unfold bind at 1, reads at 1. rewrite Hc, melts_rate_0.
  unfold bind at 1, get at 1. unfold bind at 1, lift at 1.
  rnum. rewrite Rmult_0_r, R_div_0. eauto.
Qed.

(** ... so a run that ends normally has not completed a single step and leaves
    an empty table. *)
Theorem C56_no_result : forall (sm : sim R) phi ts te fuel s depth w',
  s_cryst sm = CrMelts phi ts te None ->
  simulate fuel sm (initial_world s [] depth) = Some (Ok tt, w') ->
  w_iter w' = 0%nat /\ w_log w' = [].
Proof.
  intros sm phi ts te fuel s depth w' Hc H. unfold simulate in H.
  destruct (init_effusion_rate sm (initial_world s [] depth)) as [[[]|e] w0] eqn:Ei; [|discriminate].
  assert (L0 := Ei). apply (init_keeps_log sm) in L0. cbn in L0.
  assert (I0 : w_iter w0 = 0%nat).
  { assert (K : keeps w_iter (init_effusion_rate sm)).
    { unfold init_effusion_rate. destruct (n_eqb _ _); [intros w r w1 X; injection X as _ <-; reflexivity|].
      generalize 0%nat. induction depth_count as [|n IH]; intros i; cbn [search_depth].
      - intros w r w1 X. injection X as _ <-. reflexivity.
      - apply keeps_bind; [|intros []; [intros w r w1 X; injection X as _ <-; reflexivity|apply IH]].
        unfold try_depth.
        repeat (apply keeps_bind; [first [intros w r w1 X; injection X as _ <-; reflexivity
          | apply (keeps_framed _ []); [reflexivity|apply framed_velocity]
          | apply (keeps_framed _ []); [reflexivity|apply framed_pure] ]|intros ?]).
        intros w r w1 X. injection X as _ <-. reflexivity. }
    exact (K _ _ _ Ei). }
  apply run_loop_steps in H as (n & _ & H & _ & _).
  assert (G : forall n w w', steps sm n w = (Ok tt, w') -> w_iter w' = w_iter w /\ w_log w' = w_log w).
  { clear H n w' Ei L0 I0 w0. induction n as [|n IH]; intros w w' H; [injection H as <-; auto|].
    apply steps_snoc in H as (w1 & H1 & H2). destruct (IH _ _ H1) as [<- <-].
    apply step_cases in H2 as [S|(v & rho & wd & sl & hb & ra & dT & dt & C)].
    - rewrite (ss_iter _ _ _ S). split; [reflexivity|].
      destruct (ss_why _ _ _ S) as (v & new & _ & [(_ & B & _)|(_ & _ & rho & wd & hb & rate & dT & w2 & bc & _ & _ & _ & Hr & Hd & _)]);
        [exact B|]. rewrite Hc, melts_rate_0 in Hr. injection Hr as <-. revert Hd. rnum. rewrite Rmult_0_r, R_div_0. discriminate.
    - assert (Hr := cs_rate _ _ _ _ _ _ _ _ _ _ _ C). assert (Hd := cs_dtemp _ _ _ _ _ _ _ _ _ _ _ C).
      rewrite Hc, melts_rate_0 in Hr. injection Hr as <-. revert Hd. rnum. rewrite Rmult_0_r, R_div_0. discriminate. }
  destruct (G _ _ _ H) as [-> ->]. auto.
Qed.
