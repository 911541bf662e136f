(** * Props_Prefix: the channel length limit only cuts a run short: C67 *)
From Coq Require Import Reals Lra.
From Verif Require Import Base Num Json Logger World Vesicle MeltVisc RelVisc Bubbles Terrain Lava
  Thermal Flux Integrator Factory Run RNum Frame StepLog StepProofs LoggerProofs RowProofs StepProps ColumnProofs
  EffArray Props_Run Props_RunOuts.

Section Prefix.
Context {T : Type} {N : Num T}.
Open Scope num_scope.

(** ** Specification *)
(** The same simulation with another max_channel_length. *)
Definition with_limit (limit : T) (sm : sim T) : sim T :=
  {| s_dx := s_dx sm; s_lava := s_lava sm;
     s_ter := {| ter_eff_init := ter_eff_init (s_ter sm); ter_width := ter_width (s_ter sm);
                 ter_gravity := ter_gravity (s_ter sm); ter_maxlen := limit;
                 ter_default_slope := ter_default_slope (s_ter sm); ter_spline := ter_spline (s_ter sm) |};
     s_air := s_air sm; s_cryst := s_cryst sm; s_crust := s_crust sm; s_cover := s_cover sm;
     s_budget := s_budget sm; s_mass := s_mass sm |}.
(** [limit1] is reached wherever [limit2] is. *)
Definition sooner (limit1 limit2 : T) : Prop := forall p, (limit2 <=? p) = true -> (limit1 <=? p) = true.
(** The same world, except that the flow may be marked as finished. *)
Definition up_to_finished (w1 w2 : world T) : Prop := exists b, w1 = {| w_st := w_st w2; w_log := w_log w2; w_depth := w_depth w2;
  w_eff := w_eff w2; w_flux := w_flux w2; w_iter := w_iter w2; w_fin := b |}.

Lemma limit_id sm : with_limit (ter_maxlen (s_ter sm)) sm = sm.
Proof. destruct sm as [dx l ai [] ]; reflexivity. Qed.

Definition terl (limit : T) (t : terrain T) : terrain T :=
  {| ter_eff_init := ter_eff_init t; ter_width := ter_width t; ter_gravity := ter_gravity t; ter_maxlen := limit;
     ter_default_slope := ter_default_slope t; ter_spline := ter_spline t |}.
Lemma limit_velocity L l t w : compute_mean_velocity l (terl L t) w = compute_mean_velocity l t w.
Proof. reflexivity. Qed.
Lemma bind_pw {A B} (m m2 : M (T:=T) A) (f g : A -> M B) w :
  m w = m2 w -> (forall a w', f a w' = g a w') -> bind m f w = bind m2 g w.
Proof. intros E H. unfold bind. rewrite E. destruct (m2 w) as [[a|e] w']; auto. Qed.
Lemma limit_flux L f sm a b w : compute_flux f (with_limit L sm) a b w = compute_flux f sm a b w.
Proof. destruct f; reflexivity. Qed.
Lemma limit_budget_loop L fl sm a b : forall acc w, budget_loop fl (with_limit L sm) a b acc w = budget_loop fl sm a b acc w.
Proof.
  induction fl as [|f fl IH]; intros acc w; [reflexivity|]. cbn [budget_loop]. apply bind_pw; [apply limit_flux|]. intros q w1.
  apply bind_pw; [apply limit_flux|]. intros q2 w2. apply bind_pw; [reflexivity|]. intros [] w3. apply IH.
Qed.
Lemma limit_budget L sm a b w : compute_heat_budget (with_limit L sm) a b w = compute_heat_budget sm a b w.
Proof. unfold compute_heat_budget. apply bind_pw; [apply limit_budget_loop|reflexivity]. Qed.
Lemma limit_compute L sm v w : step_compute (with_limit L sm) v w = step_compute sm v w.
Proof.
  unfold step_compute. do 5 (apply bind_pw; [reflexivity|intros]). apply bind_pw; [apply limit_budget|]. reflexivity.
Qed.
Lemma limit_log L sm x w : step_log (with_limit L sm) x w = step_log sm x w.
Proof. reflexivity. Qed.

(** The outcomes of the same step under two limits. *)
Definition agree (L1 : T) (o1 o2 : res unit * world T) : Prop :=
  o1 = o2 \/ exists w, o2 = (Ok tt, w) /\ o1 = (Ok tt, set_finished w) /\ (L1 <=? st_pos (w_st w)) = true.
Lemma agree_refl L o : agree L o o.
Proof. now left. Qed.
Lemma agree_bind {A} L (m : M (T:=T) A) (f g : A -> M unit) w :
  (forall a w', m w = (Ok a, w') -> agree L (f a w') (g a w')) -> agree L (bind m f w) (bind m g w).
Proof. intros H. unfold bind. destruct (m w) as [[a|e] w']; [now apply H|apply agree_refl]. Qed.
Lemma agree_bind2 {A} L (m m2 : M (T:=T) A) (f g : A -> M unit) w :
  m w = m2 w -> (forall a w', agree L (f a w') (g a w')) -> agree L (bind m f w) (bind m2 g w).
Proof. intros E H. unfold bind. rewrite E. destruct (m2 w) as [[a|e] w']; [apply H|apply agree_refl]. Qed.

Lemma step_limit L1 L2 sm w : sooner L1 L2 ->
  agree L1 (single_step (with_limit L1 sm) w) (single_step (with_limit L2 sm) w).
Proof.
  intros HL. unfold single_step.
  change (compute_mean_velocity (s_lava (with_limit L1 sm)) (s_ter (with_limit L1 sm)))
    with (compute_mean_velocity (s_lava sm) (s_ter (with_limit L2 sm))).
  apply agree_bind. intros v w1 _. destruct (v <=? zero); [apply agree_refl|].
  apply agree_bind2; [now rewrite !limit_compute|]. intros x w2. apply agree_bind. intros phi w3 _. destruct (_ <=? _); [apply agree_refl|].
  change (step_log (with_limit L1 sm) x) with (step_log (with_limit L2 sm) x). apply agree_bind. intros [] w4 _.
  change (step_update (with_limit L1 sm) x) with (step_update (with_limit L2 sm) x). apply agree_bind. intros [] w5 _.
  unfold step_checks. 
  change (get_solid_temperature (s_cryst (with_limit L1 sm))) with (get_solid_temperature (s_cryst (with_limit L2 sm))).
  destruct (_ <=? _); [apply agree_refl|]. apply agree_bind. intros nc w6 _. destruct nc; [apply agree_refl|].
  change (yield_strength_notcompatible (s_lava (with_limit L1 sm)) (s_ter (with_limit L1 sm)))
    with (yield_strength_notcompatible (s_lava (with_limit L2 sm)) (s_ter (with_limit L2 sm))).
  apply agree_bind. intros yc w7 _. destruct yc; [apply agree_refl|]. apply agree_bind. intros pos w8 Hpos.
  cbn [with_limit s_ter ter_maxlen].
  destruct (L2 <=? pos) eqn:E2; [rewrite (HL _ E2); apply agree_refl|].
  destruct (L1 <=? pos) eqn:E1; [|apply agree_refl].
  injection Hpos as <- ->. right. exists w8. auto.
Qed.

Lemma init_limit L sm w : init_effusion_rate (with_limit L sm) w = init_effusion_rate sm w.
Proof. unfold init_effusion_rate. change (ter_eff_init (s_ter (with_limit L sm))) with (ter_eff_init (s_ter sm)).
  destruct (_ =? _); [reflexivity|]. generalize depth_count, 0%nat. intros n. revert w.
  induction n as [|n IH]; intros w i; [reflexivity|]. cbn [search_depth]. unfold bind.
  change (try_depth (with_limit L sm) (depth_at i) w) with (try_depth sm (depth_at i) w).
  destruct (try_depth sm (depth_at i) w) as [[[]|e] w']; auto. Qed.

(** The first [n] steps of a loop that was still running before each of them. *)
Fixpoint running (sm : sim T) (n : nat) (w : world T) : option (res unit * world T) :=
  match n with
  | O => Some (Ok tt, w)
  | S k => if has_finished w then None
           else match single_step sm w with
                | (Ok _, w') => running sm k w'
                | (Err e, w') => match k with O => Some (Err e, w') | S _ => None end
                end
  end.

(** ** C67, any arithmetic: up to the step where the shorter run ends, the two runs are the same *)
Theorem C67_limit_only_cuts : forall L1 L2 sm fuel w r w1,
  sooner L1 L2 ->
  run_loop (with_limit L1 sm) fuel w = Some (r, w1) ->
  exists n w2, running (with_limit L1 sm) n w = Some (r, w1) /\ running (with_limit L2 sm) n w = Some (r, w2) /\
    up_to_finished w1 w2 /\
    (forall k, (k < n)%nat -> running (with_limit L1 sm) k w = running (with_limit L2 sm) k w) /\
    (forall fuel2 r2 w', run_loop (with_limit L2 sm) fuel2 w = Some (r2, w') ->
       match r with
       | Ok _ => exists fuel3, run_loop (with_limit L2 sm) fuel3 w2 = Some (r2, w')
       | Err _ => r2 = r /\ w' = w1
       end).
Proof.
  intros L1 L2 sm fuel w r w1 HL. revert w. induction fuel as [|fu IH]; intros w H; cbn [run_loop] in H.
  - destruct (has_finished w) eqn:E; [|discriminate]. injection H as <- <-. exists 0%nat, w. cbn.
    split; [reflexivity|]. split; [reflexivity|]. split; [exists (w_fin w); destruct w; reflexivity|]. split; [lia|]. eauto.
  - destruct (has_finished w) eqn:E.
    { injection H as <- <-. exists 0%nat, w. cbn.
      split; [reflexivity|]. split; [reflexivity|]. split; [exists (w_fin w); destruct w; reflexivity|]. split; [lia|]. eauto. }
    destruct (step_limit L1 L2 sm w HL) as [A|(v2 & S2 & S1 & A)].
    + destruct (single_step (with_limit L1 sm) w) as [[[]|e] v1] eqn:S1; symmetry in A.
      * destruct (IH _ H) as (n & w2 & B1 & B2 & B3 & B4 & B5).
        exists (S n), w2. cbn [running]. rewrite E, S1, A. split; [exact B1|]. split; [exact B2|]. split; [exact B3|]. split.
        { intros [|k] Hk; [reflexivity|]. cbn [running]. rewrite E, S1, A. apply B4. lia. }
        intros fuel2 r2 w' H2. destruct fuel2 as [|f2]; cbn [run_loop] in H2; rewrite E in H2; [discriminate|].
        rewrite A in H2. exact (B5 _ _ _ H2).
      * injection H as <- <-. exists 1%nat, v1. cbn [running]. rewrite E, S1, A.
        split; [reflexivity|]. split; [reflexivity|]. split; [exists (w_fin v1); destruct v1; reflexivity|]. split.
        { intros k Hk. assert (k = 0%nat) as -> by lia. reflexivity. }
        intros fuel2 r2 w' H2. destruct fuel2 as [|f2]; cbn [run_loop] in H2; rewrite E in H2; [discriminate|].
        rewrite A in H2. injection H2 as <- <-. auto.
    + rewrite S1 in H.
      assert (Some (Ok tt, set_finished v2) = Some (r, w1)) as Q by (destruct fu; exact H).
      injection Q as <- <-. exists 1%nat, v2. cbn [running]. rewrite E, S1, S2.
      split; [reflexivity|]. split; [reflexivity|]. split; [exists true; reflexivity|]. split.
      { intros k Hk. assert (k = 0%nat) as -> by lia. reflexivity. }
      intros fuel2 r2 w' H2. destruct fuel2 as [|f2]; cbn [run_loop] in H2; rewrite E in H2; [discriminate|].
      rewrite S2 in H2. eauto.
Qed.
End Prefix.

Lemma run_loop_iter {T} {N : Num T} (sm : sim T) fuel : forall w r w',
  run_loop sm fuel w = Some (r, w') -> match r with Ok _ => (w_iter w <= w_iter w')%nat | Err _ => True end.
Proof.
  induction fuel as [|fu IH]; intros w r w' H; cbn [run_loop] in H; destruct (has_finished w); try discriminate H.
  - injection H as <- <-. auto.
  - injection H as <- <-. auto.
  - destruct (single_step sm w) as [[[]|e] w1] eqn:Es; [|injection H as <- <-; exact I].
    apply IH in H. destruct r; [|exact I].
    apply step_cases in Es as [S|(v & rho & wd & sl & hb & ra & dT & dt & C)].
    + rewrite (ss_iter _ _ _ S) in H. exact H.
    + rewrite (cs_iter _ _ _ _ _ _ _ _ _ _ _ C) in H. lia.
Qed.

Open Scope R_scope.
(** A run that goes on only appends to a table that holds one row per
    completed step. *)
Lemma run_loop_appends (sm : sim R) x0 fuel : s_dx sm <> 0 -> forall w w',
  st_pos (w_st w) = x0 + INR (w_iter w) * s_dx sm -> length (w_log w) = w_iter w ->
  evenly_spaced x0 (s_dx sm) (full_columns sm) (w_log w) -> run_loop sm fuel w = Some (Ok tt, w') ->
  exists more, w_log w' = w_log w ++ more.
Proof.
  intros Hdx. induction fuel as [|fu IH]; intros w w' HP HL HE H; cbn [run_loop] in H.
  - destruct (has_finished w); [|discriminate]. injection H as <-. exists []. now rewrite app_nil_r.
  - destruct (has_finished w); [injection H as <-; exists []; now rewrite app_nil_r|].
    destruct (single_step sm w) as [[[]|e] w1] eqn:Es; [|discriminate].
    assert (Hno := evenly_not_at x0 _ _ _ Hdx HE). rewrite HL, <- HP in Hno.
    apply step_cases in Es as [S|(v & rho & wd & sl & hb & ra & dT & dt & C)].
    + assert (w1 = w') as ->.
      { destruct fu; cbn [run_loop] in H; unfold has_finished in H; rewrite (ss_fin _ _ _ S) in H; injection H as <-; auto. }
      destruct (ss_log _ _ _ S) as [->|(bc & Hn & ->)].
      { exists []. now rewrite app_nil_r. }
      destruct (logged_row (st_pos (w_st w)) bc (w_log w) (partial_columns sm)) as (r & -> & Hr); eauto.
      * unfold no_position. rewrite Hn. apply budget_names_no_position.
      * intros ->. unfold budget_names in Hn. symmetry in Hn. apply app_eq_nil in Hn as [_ Hn]. discriminate.
      * rewrite Hn. reflexivity.
    + destruct (cs_log _ _ _ _ _ _ _ _ _ _ _ C) as
        (bc & sx & vf & mu & tc & f & t0 & tb & x & wb & Hn & Hlog & _).
      set (calls := bc ++ _) in Hlog.
      assert (Hcn : map fst calls = budget_names (s_budget sm) ++ step_names).
      { unfold calls. rewrite map_app, Hn, step_calls_names. reflexivity. }
      destruct (logged_row (st_pos (w_st w)) calls (w_log w) (full_columns sm)) as (r & Hr1 & Hr).
      * unfold no_position. rewrite Hcn. apply Forall_app. split; [apply budget_names_no_position|apply step_names_no_position].
      * intros E. rewrite E in Hcn. symmetry in Hcn. apply app_eq_nil in Hcn as [_ Hcn]. discriminate.
      * exact Hno.
      * rewrite Hcn. reflexivity.
      * rewrite Hr1 in Hlog. destruct (IH w1 w') as (more & M).
        -- rewrite (cs_pos _ _ _ _ _ _ _ _ _ _ _ C), (cs_iter _ _ _ _ _ _ _ _ _ _ _ C), S_INR, HP.
           change (x0 + INR (w_iter w) * s_dx sm + s_dx sm = x0 + (INR (w_iter w) + 1) * s_dx sm). ring.
        -- rewrite Hlog, app_length, HL, (cs_iter _ _ _ _ _ _ _ _ _ _ _ C). cbn. lia.
        -- rewrite Hlog. apply evenly_snoc; [exact HE|]. rewrite HL, <- HP. exact Hr.
        -- exact H.
        -- exists (r :: more). rewrite M, Hlog, <- app_assoc. reflexivity.
Qed.

(** ** C67 for runs: the table of the run with the shorter limit is an initial
    segment of the table of the run with the longer limit; if the shorter limit
    was not reached, the two runs are the same run. *)
Theorem C67_shorter_channel_is_a_prefix : forall (sm : sim R) L1 L2 fuel1 fuel2 s depth w1 w2,
  s_dx sm <> 0 -> L1 <= L2 ->
  simulate fuel1 (with_limit L1 sm) (initial_world s [] depth) = Some (Ok tt, w1) ->
  simulate fuel2 (with_limit L2 sm) (initial_world s [] depth) = Some (Ok tt, w2) ->
  (exists more, w_log w2 = w_log w1 ++ more) /\ (w_iter w1 <= w_iter w2)%nat /\
  (st_pos (w_st w1) < L1 -> w2 = w1).
Proof.
  intros sm L1 L2 fuel1 fuel2 s depth w1 w2 Hdx HL H1 H2. unfold simulate in H1, H2. rewrite init_limit in H1, H2.
  destruct (init_effusion_rate sm (initial_world s [] depth)) as [[[]|e] w0] eqn:E0; [|discriminate H1].
  assert (P0 := init_keeps_pos sm _ _ _ E0). assert (L0 := init_keeps_log sm _ _ _ E0).
  assert (I0 := init_keeps_iter sm _ _ _ E0). cbn [initial_world w_st w_log w_iter] in *.
  set (x0 := st_pos s) in *. clear E0.
  assert (HS : sooner L1 L2).
  { intros p. change (R_leb L2 p = true -> R_leb L1 p = true). rewrite !R_leb_true. lra. }
  revert fuel2 w0 P0 L0 I0 H1 H2.
  enough (G : forall fuel1 fuel2 w, st_pos (w_st w) = x0 + INR (w_iter w) * s_dx sm -> length (w_log w) = w_iter w ->
    evenly_spaced x0 (s_dx sm) (full_columns sm) (w_log w) ->
    run_loop (with_limit L1 sm) fuel1 w = Some (Ok tt, w1) -> run_loop (with_limit L2 sm) fuel2 w = Some (Ok tt, w2) ->
    (exists more, w_log w2 = w_log w1 ++ more) /\ (w_iter w1 <= w_iter w2)%nat /\ (st_pos (w_st w1) < L1 -> w2 = w1)).
  { intros fuel2 w0 P0 L0 I0 H1 H2. apply (G fuel1 fuel2 w0); auto.
    - rewrite P0, I0. cbn. lra.
    - rewrite L0, I0. reflexivity.
    - rewrite L0. intros i r Hi. destruct i; discriminate. }
  clear fuel1. induction fuel1 as [|f1 IH]; intros fuel2 w HP HLn HE H1 H2; cbn [run_loop] in H1.
  - destruct (has_finished w) eqn:F; [|discriminate]. injection H1 as <-.
    assert (w2 = w) as -> by (destruct fuel2; cbn [run_loop] in H2; rewrite F in H2; congruence).
    split; [exists []; now rewrite app_nil_r|]. auto.
  - destruct (has_finished w) eqn:F.
    { injection H1 as <-.
      assert (w2 = w) as -> by (destruct fuel2; cbn [run_loop] in H2; rewrite F in H2; congruence).
      split; [exists []; now rewrite app_nil_r|]. auto. }
    destruct fuel2 as [|f2]; cbn [run_loop] in H2; rewrite F in H2; [discriminate|].
    destruct (single_step (with_limit L2 sm) w) as [[[]|e] v2] eqn:S2; [|discriminate].
    (* what is known of the longer run's step *)
    assert (D : w_fin v2 = true \/ (st_pos (w_st v2) = x0 + INR (w_iter v2) * s_dx sm /\ length (w_log v2) = w_iter v2 /\
                  evenly_spaced x0 (s_dx sm) (full_columns sm) (w_log v2))).
    { assert (Hno := evenly_not_at x0 _ _ _ Hdx HE). rewrite HLn, <- HP in Hno. pose proof S2 as Es.
      apply step_cases in Es as [S|(v & rho & wd & sl & hb & ra & dT & dt & C)]; [left; exact (ss_fin _ _ _ S)|]. right.
      destruct (cs_log _ _ _ _ _ _ _ _ _ _ _ C) as
        (bc & sx & vf & mu & tc & f & t0 & tb & x & wb & Hn & Hlog & _).
      set (calls := bc ++ _) in Hlog.
      assert (Hcn : map fst calls = budget_names (s_budget sm) ++ step_names).
      { unfold calls. rewrite map_app, Hn, step_calls_names. reflexivity. }
      destruct (logged_row (st_pos (w_st w)) calls (w_log w) (full_columns sm)) as (r & Hr1 & Hr).
      - unfold no_position. rewrite Hcn. apply Forall_app. split; [apply budget_names_no_position|apply step_names_no_position].
      - intros E. rewrite E in Hcn. symmetry in Hcn. apply app_eq_nil in Hcn as [_ Hcn]. discriminate.
      - exact Hno.
      - rewrite Hcn. reflexivity.
      - rewrite Hr1 in Hlog. split; [|split].
        + rewrite (cs_pos _ _ _ _ _ _ _ _ _ _ _ C), (cs_iter _ _ _ _ _ _ _ _ _ _ _ C), S_INR, HP.
          change (x0 + INR (w_iter w) * s_dx sm + s_dx sm = x0 + (INR (w_iter w) + 1) * s_dx sm). ring.
        + rewrite Hlog, app_length, HLn, (cs_iter _ _ _ _ _ _ _ _ _ _ _ C). cbn. lia.
        + rewrite Hlog. apply evenly_snoc; [exact HE|]. rewrite HLn, <- HP. exact Hr. }
    assert (Stop : forall L f v w', w_fin v = true -> run_loop (with_limit L sm) f v = Some (Ok tt, w') -> w' = v).
    { intros L f v w' Hf Hr. destruct f; cbn [run_loop] in Hr; unfold has_finished in Hr; rewrite Hf in Hr; congruence. }
    destruct (step_limit L1 L2 sm w HS) as [A|(v & A2 & A1 & A)].
    + rewrite A, S2 in H1. destruct D as [D|(D1 & D2 & D3)].
      * apply Stop in H1; [|exact D]. apply Stop in H2; [|exact D]. subst. split; [exists []; now rewrite app_nil_r|]. auto.
      * exact (IH f2 v2 D1 D2 D3 H1 H2).
    + rewrite A1 in H1. rewrite S2 in A2. injection A2 as ->. apply Stop in H1; [|reflexivity]. subst w1.
      cbn [set_finished w_log w_iter w_st]. change (R_leb L1 (st_pos (w_st v)) = true) in A. apply R_leb_true in A.
      destruct D as [D|(D1 & D2 & D3)].
      * apply Stop in H2; [|exact D]. subst. split; [exists []; now rewrite app_nil_r|]. split; [auto|]. lra.
      * destruct (run_loop_appends (with_limit L2 sm) x0 f2 Hdx v w2 D1 D2 D3 H2) as (more & M).
        split; [eauto|]. split; [|lra]. exact (run_loop_iter _ _ _ _ _ H2).
Qed.

(** The CSV of the shorter run is an initial segment of the CSV of the longer one. *)
Lemma rmapM_app {A B} (f : A -> res B) l1 l2 r : rmapM f (l1 ++ l2) = Ok r ->
  exists r1 r2, r = r1 ++ r2 /\ rmapM f l1 = Ok r1 /\ rmapM f l2 = Ok r2.
Proof.
  revert r. induction l1 as [|a l1 IH]; intros r H; cbn [rmapM app] in *; [exists [], r; auto|].
  apply rbind_ok in H as (b & Hb & H). apply rbind_ok in H as (t & Ht & H). injection H as <-.
  destruct (IH _ Ht) as (r1 & r2 & -> & H1 & H2). rewrite Hb, H1. cbn [rbind]. exists (b :: r1), r2. auto.
Qed.
Corollary C67_shorter_csv_is_a_prefix : forall (sm : sim R) L1 L2 fuel1 fuel2 s depth w1 w2 c1 c2,
  s_dx sm <> 0 -> L1 <= L2 ->
  simulate fuel1 (with_limit L1 sm) (initial_world s [] depth) = Some (Ok tt, w1) ->
  simulate fuel2 (with_limit L2 sm) (initial_world s [] depth) = Some (Ok tt, w2) ->
  write_values_to_file (w_log w1) = Ok (Some c1) -> write_values_to_file (w_log w2) = Ok (Some c2) ->
  csv_header c2 = csv_header c1 /\ exists more, csv_rows c2 = csv_rows c1 ++ more.
Proof.
  intros sm L1 L2 fuel1 fuel2 s depth w1 w2 c1 c2 Hdx HL H1 H2 E1 E2.
  destruct (C67_shorter_channel_is_a_prefix _ _ _ _ _ _ _ _ _ Hdx HL H1 H2) as ((more & M) & _). rewrite M in E2.
  unfold write_values_to_file in E1, E2. destruct (w_log w1) as [|first rest] eqn:EL; [discriminate|]. cbn [app] in E2.
  rewrite app_comm_cons in E2.
  apply rbind_ok in E1 as (r1 & R1 & E1). apply rbind_ok in E2 as (r2 & R2 & E2). injection E1 as <-. injection E2 as <-.
  apply rmapM_app in R2 as (q1 & q2 & -> & Q1 & Q2). cbn [csv_header csv_rows]. split; [reflexivity|].
  exists q2. congruence.
Qed.
