(** * Props_Resume: a run can be resumed from any row of its table (C77) *)
From Coq Require Import Reals Lra.
From Verif Require Import Base Num Json Logger World Vesicle MeltVisc RelVisc Bubbles Terrain Lava
  Thermal Flux Integrator Factory Run RNum Spec Frame StepLog StepProofs LoggerProofs RowProofs StepProps StepRow ColumnProofs
  EffArray LogIndep Props_Velocity Timeless Props_Time Props_Logger Props_LogIndep Props_Step Props_Run Props_RunOuts TableTrace Props_Prefix Props_Table Resume.
Open Scope R_scope.

Lemma run_loop_more {T} {N : Num T} (sm : sim T) fuel : forall more w r,
  run_loop sm fuel w = Some r -> run_loop sm (fuel + more) w = Some r.
Proof.
  induction fuel as [|fu IH]; intros more w r H; cbn [plus run_loop] in *.
  - destruct more; cbn [run_loop]; destruct (has_finished w); (discriminate || exact H).
  - destruct (has_finished w); [exact H|]. destruct (single_step sm w) as [[u|e] w1]; [|exact H]. now apply IH.
Qed.

(** The worlds a run goes through. *)
Lemma run_at (sm : sim R) x0 w' : s_dx sm <> 0 -> forall i fuel w wi,
  st_pos (w_st w) = x0 + INR (w_iter w) * s_dx sm -> length (w_log w) = w_iter w ->
  evenly_spaced x0 (s_dx sm) (full_columns sm) (w_log w) ->
  run_loop sm fuel w = Some (Ok tt, w') -> steps sm i w = (Ok tt, wi) -> (w_iter w + i < w_iter w')%nat ->
  exists fuel', (S fuel' + i <= fuel)%nat /\ run_loop sm (S fuel') wi = Some (Ok tt, w') /\ w_fin wi = false /\
    w_iter wi = (w_iter w + i)%nat /\ st_pos (w_st wi) = x0 + INR (w_iter wi) * s_dx sm /\
    length (w_log wi) = w_iter wi /\ evenly_spaced x0 (s_dx sm) (full_columns sm) (w_log wi).
Proof.
  intros Hdx. induction i as [|i IH]; intros fuel w wi HP HL HE H Hs Hi.
  - injection Hs as <-. destruct fuel as [|fu]; cbn [run_loop] in H; destruct (has_finished w) eqn:Ef; try discriminate H.
    + injection H as <-. lia.
    + injection H as <-. lia.
    + exists fu. split; [lia|]. cbn [run_loop]. rewrite Ef. split; [exact H|]. split; [exact Ef|]. split; [lia|]. auto.
  - apply steps_S_inv in Hs as [(e & He & _)|(w1 & H1 & H2)]; [discriminate|].
    destruct fuel as [|fu]; cbn [run_loop] in H; destruct (has_finished w) eqn:Ef; try discriminate H; try (injection H as <-; lia).
    rewrite H1 in H. assert (Hno := evenly_not_at x0 _ _ _ Hdx HE). rewrite HL, <- HP in Hno.
    apply step_cases in H1 as [S|(v & rho & wd & sl & hb & ra & dT & dt & C)].
    + assert (w1 = w') as ->.
      { destruct fu; cbn [run_loop] in H; unfold has_finished in H; rewrite (ss_fin _ _ _ S) in H; injection H as <-; auto. }
      rewrite (ss_iter _ _ _ S) in Hi. lia.
    + destruct (cs_log _ _ _ _ _ _ _ _ _ _ _ C) as
        (bc & sx & vf & mu & tc & f & t0 & tb & x & wb & Hn & Hlog & _).
      set (calls := bc ++ _) in Hlog.
      assert (Hcn : map fst calls = budget_names (s_budget sm) ++ step_names).
      { unfold calls. rewrite map_app, Hn, step_calls_names. reflexivity. }
      assert (I1 := cs_iter _ _ _ _ _ _ _ _ _ _ _ C).
      destruct (logged_row (st_pos (w_st w)) calls (w_log w) (full_columns sm)) as (r & Hr1 & Hr).
      * unfold no_position. rewrite Hcn. apply Forall_app. split; [apply budget_names_no_position|apply step_names_no_position].
      * intros E. rewrite E in Hcn. symmetry in Hcn. apply app_eq_nil in Hcn as [_ Hcn]. discriminate.
      * exact Hno.
      * rewrite Hcn. reflexivity.
      * rewrite Hr1 in Hlog. destruct (IH fu w1 wi) as (fu' & A & B & D & E & F); auto.
        -- rewrite (cs_pos _ _ _ _ _ _ _ _ _ _ _ C), I1, S_INR, HP.
           change (x0 + INR (w_iter w) * s_dx sm + s_dx sm = x0 + (INR (w_iter w) + 1) * s_dx sm). ring.
        -- rewrite Hlog, app_length, HL, I1. cbn. lia.
        -- rewrite Hlog. apply evenly_snoc; [exact HE|]. rewrite HL, <- HP. exact Hr.
        -- rewrite I1. lia.
        -- exists fu'. split; [lia|]. split; [exact B|]. split; [exact D|]. split; [lia|exact F].
Qed.

Definition state_of_row (x temp phi time strain : R) : state R :=
  {| st_phi := phi; st_temp := temp; st_pos := x; st_time := time; st_strain := strain |}.

(** C77.  A run of a volume-flux set-up can be cut at any row of its table and
    resumed from the cells of that row: with the row's position, core
    temperature, crystal fraction, channel depth and channel width as the new
    vent (and no requested effusion rate), the resumed run makes exactly the
    remaining rows, and ends in the same state. *)
Theorem C77_resume : forall (sm : sim R) fuel s depth w' i r x temp phi width h,
  s_mass sm = false -> s_dx sm <> 0 ->
  simulate fuel sm (initial_world s [] depth) = Some (Ok tt, w') ->
  (i < w_iter w')%nat -> nth_error (w_log w') i = Some r ->
  holds r "position" x -> holds r "core_temperature" temp -> holds r "crystal_fraction" phi ->
  holds r "channel_width" width -> holds r "channel_depth" h ->
  exists time strain w2,
    simulate (fuel - i) (with_vent width 0 sm) (initial_world (state_of_row x temp phi time strain) [] h) = Some (Ok tt, w2) /\
    w_log w2 = skipn i (w_log w') /\
    w_st w2 = w_st w' /\ w_eff w2 = w_eff w' /\ w_depth w2 = w_depth w' /\ w_iter w2 = (w_iter w' - i)%nat.
Proof.
  intros sm fuel s depth w' i r x temp phi width h Hmass Hdx Hrun Hi Hr Hx Ht Hp Hw Hh.
  destruct (row_step sm fuel s depth w' i r Hdx Hrun Hi Hr) as
    (wi & wj & v & rho & wd & sl & hb & ra & dT & dt & C & Row & Eeff & Edep & Eflux & Lphi & Ltemp & Cells & w0 & E0 & HS & H1).
  unfold simulate in Hrun. rewrite E0 in Hrun.
  assert (P0 := init_keeps_pos sm _ _ _ E0). assert (L0 := init_keeps_log sm _ _ _ E0).
  assert (I0 := init_keeps_iter sm _ _ _ E0). cbn [initial_world w_st w_log w_iter] in P0, L0, I0.
  set (x0 := st_pos s) in *.
  destruct (run_at sm x0 w' Hdx i fuel w0 wi) as (fu & Hfu & Hgo & Hfin & Hiter & HP & HL & HE); auto.
  { rewrite P0, I0. cbn. lra. }
  { rewrite L0, I0. reflexivity. }
  { rewrite L0. intros [|j] q Q; discriminate Q. }
  { rewrite I0. exact Hi. }
  rewrite I0 in Hiter. cbn [plus] in Hiter.
  destruct (run_loop_appends sm x0 _ Hdx wi w' HP HL HE Hgo) as (more & Hmore).
  (* the cells of the row *)
  assert (Erow : r = nth i (w_log w') []) by (symmetry; now apply nth_error_nth).
  assert (Ew : wd = width /\ w_depth wi = h).
  { unfold holds in Hw, Hh. rewrite Cells in Hw, Hh. destruct Row. split; congruence. }
  destruct Ew as [-> <-].
  assert (Ex : st_pos (w_st wi) = x).
  { assert (Lx : (length (w_log wi) <= i)%nat) by lia.
    unfold holds in Hx. rewrite Cells in Hx.
    destruct (C10_row_is_entry_state sm wi wj H1) as (? & _); [|apply R_refl|].
    - rewrite (cs_iter _ _ _ _ _ _ _ _ _ _ _ C). lia.
    - unfold logged in Hx. destruct (find (row_at (st_pos (w_st wi))) (w_log wj)) as [q|] eqn:F; [|discriminate].
      apply find_some in F as [_ F]. unfold row_at in F. rewrite Hx in F. apply R_eqb_true in F. exact F. }
  assert (Et : st_temp (w_st wi) = temp) by (unfold holds in Ht; rewrite Cells in Ht; congruence).
  assert (Ep : st_phi (w_st wi) = phi) by (unfold holds in Hp; rewrite Cells in Hp; congruence).
  exists (st_time (w_st wi)), (st_strain (w_st wi)).
  assert (Eq : state_of_row x temp phi (st_time (w_st wi)) (st_strain (w_st wi)) = w_st wi).
  { rewrite <- Ex, <- Et, <- Ep. destruct (w_st wi); reflexivity. }
  rewrite Eq. set (q := w_st wi) in *. set (L := w_log wi) in *. set (sm' := with_vent width 0 sm) in *.
  (* the first step *)
  set (W0 := initial_world q L (w_depth wi)).
  assert (Ewi : wi = later i (w_flux wi) (set_eff (w_eff wi) W0)).
  { unfold W0, later, set_eff, initial_world, q, L. cbn. rewrite <- Hiter, <- Hfin. destruct wi; reflexivity. }
  destruct (cs_budget _ _ _ _ _ _ _ _ _ _ _ C) as (new & _ & Hv & _).
  assert (Hvpos := cs_vpos _ _ _ _ _ _ _ _ _ _ _ C).
  assert (Hwid := cs_width _ _ _ _ _ _ _ _ _ _ _ C).
  assert (Sfirst : single_step sm wi = (fst (single_step sm' W0), later i (w_flux wi) (snd (single_step sm' W0)))).
  { rewrite Ewi. rewrite Ewi at 1. unfold sm'.
    eapply (first_step sm width 0 Hmass i (w_flux wi) (w_eff wi) W0 v).
    - unfold compute_mean_velocity. cbn [W0 initial_world w_depth w_st]. unfold q. rewrite Hv. reflexivity.
    - exact Hvpos.
    - reflexivity.
    - cbn [W0 initial_world w_depth]. revert Hwid. unfold width_of, eff_of. rewrite Hmass, Hiter.
      apply R_leb_false in Hvpos. intros Hwid. apply R_div_inv in Hwid as [Hnz ->]. rnum. revert Hnz. rnum. intros Hnz.
      assert (v <> 0) by lra. assert (w_depth wi <> 0) by (intros Q; apply Hnz; rewrite Q; ring).
      destruct i; field; auto. }
  rewrite H1 in Sfirst. destruct (single_step sm' W0) as [rr W1] eqn:EW. cbn [fst snd] in Sfirst.
  assert (rr = Ok tt) as -> by congruence. assert (Ewj : wj = later i (w_flux wi) W1) by congruence.
  cbn [run_loop] in Hgo. unfold has_finished in Hgo. rewrite Hfin, H1 in Hgo. rewrite Ewj in Hgo.
  assert (W1i : w_iter W1 <> 0%nat).
  { assert (K := cs_iter _ _ _ _ _ _ _ _ _ _ _ C). rewrite Ewj in K. cbn [later w_iter] in K. lia. }
  rewrite (later_loop sm width 0 Hmass i (w_flux wi) fu W1 W1i) in Hgo. fold sm' in Hgo.
  destruct (run_loop sm' fu W1) as [[rr W2]|] eqn:EW2; [|discriminate Hgo].
  assert (rr = Ok tt) as -> by congruence. assert (Ew' : w' = later i (w_flux wi) W2) by congruence.
  assert (Sim : simulate (fuel - i) sm' W0 = Some (Ok tt, W2)).
  { unfold simulate, init_effusion_rate. change (ter_eff_init (s_ter sm')) with (0 : R).
    replace (n_eqb (0 : R) zero) with true by (symmetry; apply R_eqb_true; rnum; reflexivity). cbn [ret].
    replace (fuel - i)%nat with (S fu + (fuel - i - S fu))%nat by lia. apply run_loop_more.
    cbn [run_loop]. unfold has_finished. cbn [W0 initial_world w_fin]. fold W0. rewrite EW. exact EW2. }
  (* the logger *)
  destruct (C70_logger_is_write_only sm' (fuel - i) q (w_depth wi)) as [Hn|(calls & rr & wc & Hn & HC)].
  { unfold W0 in Sim. rewrite Hn in Sim. discriminate. }
  assert (SimL := HC L). fold W0 in SimL. rewrite Sim in SimL. assert (rr = Ok tt) as -> by congruence.
  assert (EW2' : W2 = set_log (after L calls) wc) by congruence.
  assert (Sim0 := HC []). set (w2 := set_log (after [] calls) wc) in *.
  assert (Hdx' : s_dx sm' <> 0) by exact Hdx.
  destruct (C62_table_of_a_run sm' _ _ _ _ Hdx' Sim0) as (Ppos & done & rest & Hdone & Hlen & Hev & Hrest).
  assert (Hafter : after L calls = L ++ after [] calls).
  { rewrite <- (app_nil_r L) at 1. apply after_untouched. intros c row Hc Hrow.
    destruct (C01_last_write_wins calls Hn (R_equality_on _)) as [_ K]. destruct (K c Hc) as (j & p & Hj & Epos).
    apply R_eqb_true in Epos. unfold get_values in Hj. rewrite nth_error_map in Hj.
    change (after clear calls) with (w_log w2) in Hj.
    assert (Hp2 : exists m, p = x0 + INR (i + m) * s_dx sm).
    { match type of Hj with option_map _ ?t = _ => destruct t as [row2|] eqn:Ej end; [|discriminate Hj]. cbn [option_map] in Hj.
      change (nth_error (w_log w2) j = Some row2) in Ej.
      assert (Hpp : assoc "position" row2 = Some (CNum p)) by congruence.
      assert (Hq : st_pos q = x0 + INR i * s_dx sm) by (rewrite <- Hiter; exact HP).
      rewrite Hdone in Ej. destruct (Nat.lt_ge_cases j (length done)) as [Hl|Hl].
      - rewrite nth_error_app1 in Ej by exact Hl. destruct (Hev _ _ Ej) as [Q _]. exists j.
        rewrite plus_INR. change (s_dx sm') with (s_dx sm) in Q. rewrite Hq in Q. assert (p = x0 + INR i * s_dx sm + INR j * s_dx sm) by congruence. lra.
      - rewrite nth_error_app2 in Ej by exact Hl. revert Ej. generalize (j - length done)%nat. intros z Ej.
        destruct Hrest as [E4|(r3 & E4 & Hr3)]; rewrite E4 in Ej; [destruct z; discriminate Ej|].
        destruct z as [|z]; [|destruct z; discriminate Ej]. injection Ej as <-. destruct Hr3 as [Q _].
        exists (w_iter w2). rewrite plus_INR. rewrite Ppos in Q. change (s_dx sm') with (s_dx sm) in Q. rewrite Hq in Q.
        assert (p = x0 + INR i * s_dx sm + INR (w_iter w2) * s_dx sm) by congruence. lra. }
    destruct Hp2 as (m & ->). apply In_nth_error in Hrow as (k & Hk).
    assert (Hkl : (k < length L)%nat) by (apply nth_error_Some; congruence).
    destruct (HE _ _ Hk) as [Q _]. unfold row_at. rewrite Q.
    destruct (n_eqb (snd (fst c)) (x0 + INR k * s_dx sm)) eqn:Eb; [|reflexivity]. exfalso.
    apply R_eqb_true in Eb. rewrite Epos in Eb.
    assert (INR (i + m) = INR k) as E3. { apply (Rmult_eq_reg_r (s_dx sm)); [lra|exact Hdx]. }
    apply INR_eq in E3. lia. }
  exists w2. split; [exact Sim0|]. split.
  { change (w_log w2) with (after [] calls). rewrite Ew'. cbn [later w_log]. rewrite EW2'. cbn [set_log w_log]. rewrite Hafter.
    assert (LL : length L = i) by congruence. rewrite skipn_app, LL, Nat.sub_diag, skipn_all2 by lia. reflexivity. }
  rewrite Ew', EW2'. cbn. repeat split; try reflexivity. lia.
Qed.

(** The strain rate the state starts with is overwritten by the first velocity. *)
Lemma start_strain (sm : sim R) w x v w1 : strain_free (s_lava sm) ->
  compute_mean_velocity (s_lava sm) (s_ter sm) w = (Ok v, w1) ->
  compute_mean_velocity (s_lava sm) (s_ter sm) (set_st (set_strain_rate x (w_st w)) w) = (Ok v, w1).
Proof.
  intros Hf H. revert H. unfold compute_mean_velocity. cbn [set_st w_depth w_st].
  destruct (mean_velocity _ _ _ (w_st w)) as [[u new]|e] eqn:E; intros H; [injection H as <- <-|discriminate].
  assert (E' : mean_velocity (s_lava sm) (s_ter sm) (w_depth w) (set_strain_rate x (w_st w)) = Ok (u, new)).
  { apply C20_velocity_only_if in E as (mu & t0 & tb & Hmu & H0 & Hb & Hm & Hb0 & Hd & -> & ->).
    apply C20_velocity_is_jeffreys; auto. rewrite Hf. exact Hmu. }
  rewrite E'. reflexivity.
Qed.
Lemma start_strain_simulate (sm : sim R) fuel s depth x w' : strain_free (s_lava sm) -> ter_eff_init (s_ter sm) = 0 ->
  simulate fuel sm (initial_world s [] depth) = Some (Ok tt, w') ->
  simulate fuel sm (initial_world (set_strain_rate x s) [] depth) = Some (Ok tt, w').
Proof.
  intros Hf H0. unfold simulate, init_effusion_rate. rewrite H0.
  replace (n_eqb (0 : R) zero) with true by (symmetry; apply R_eqb_true; rnum; reflexivity). cbn [ret].
  destruct fuel as [|fu]; cbn [run_loop has_finished initial_world w_fin]; [discriminate|].
  intros H. rewrite step_unfold in H |- *.
  fold (initial_world s [] depth) in H. fold (initial_world (set_strain_rate x s) [] depth).
  destruct (compute_mean_velocity (s_lava sm) (s_ter sm) (initial_world s [] depth)) as [[v|e] w1] eqn:E; [|discriminate H].
  assert (E' := start_strain sm _ x v w1 Hf E).
  change (set_st (set_strain_rate x (w_st (initial_world s [] depth))) (initial_world s [] depth))
    with (initial_world (set_strain_rate x s) [] depth) in E'. rewrite E'. exact H.
Qed.

(** C77.  With a rheology that does not depend on the strain rate and a crust
    temperature that does not depend on time, the row is enough: any strain
    rate and any time give the same remaining rows. *)
Theorem C77_resume_from_the_row_alone : forall (sm : sim R) fuel s depth w' i r x temp phi width h,
  s_mass sm = false -> s_dx sm <> 0 ->
  strain_free (s_lava sm) -> (forall tc1 tc2, s_crust sm <> CtBimodal tc1 tc2) -> s_crust sm <> CtHon ->
  simulate fuel sm (initial_world s [] depth) = Some (Ok tt, w') ->
  (i < w_iter w')%nat -> nth_error (w_log w') i = Some r ->
  holds r "position" x -> holds r "core_temperature" temp -> holds r "crystal_fraction" phi ->
  holds r "channel_width" width -> holds r "channel_depth" h ->
  forall time strain, exists w2,
    simulate (fuel - i) (with_vent width 0 sm) (initial_world (state_of_row x temp phi time strain) [] h) = Some (Ok tt, w2) /\
    w_log w2 = skipn i (w_log w') /\
    st_temp (w_st w2) = st_temp (w_st w') /\ st_phi (w_st w2) = st_phi (w_st w') /\ st_pos (w_st w2) = st_pos (w_st w').
Proof.
  intros sm fuel s depth w' i r x temp phi width h Hm Hdx Hf Hc1 Hc2 Hrun Hi Hr Hx Ht Hp Hw Hh time strain.
  destruct (C77_resume sm fuel s depth w' i r x temp phi width h Hm Hdx Hrun Hi Hr Hx Ht Hp Hw Hh) as (t0 & s0 & w2 & E & HL & HS & _).
  assert (E1 := C71_start_time_is_irrelevant (with_vent width 0 sm) (fuel - i) (state_of_row x temp phi t0 s0) [] h time Hc1 Hc2).
  rewrite E in E1.
  destruct (simulate (fuel - i) (with_vent width 0 sm) (initial_world (set_current_time time (state_of_row x temp phi t0 s0)) [] h))
    as [[r3 w3]|] eqn:E3; [|contradiction].
  destruct E1 as (<- & L3 & _ & _ & _ & _ & _ & P3 & T3 & X3 & _).
  change (set_current_time time (state_of_row x temp phi t0 s0)) with (state_of_row x temp phi time s0) in E3.
  apply (start_strain_simulate _ _ _ _ strain) in E3; [|exact Hf|reflexivity].
  change (set_strain_rate strain (state_of_row x temp phi time s0)) with (state_of_row x temp phi time strain) in E3.
  exists w3. split; [exact E3|]. rewrite <- L3, <- P3, <- T3, <- X3, HS. auto.
Qed.
Print Assumptions C77_resume.
Print Assumptions C77_resume_from_the_row_alone.
