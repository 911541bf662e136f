(** * Properties C05-C10, C17, C18: bookkeeping, logging and stopping of steps
    (any arithmetic, hence IEEE binary64 with rounding, infinities and NaN) *)
From Verif Require Import Base Num Json Logger World Vesicle MeltVisc RelVisc Bubbles Terrain Lava
  Thermal Flux Integrator Factory Run Spec Frame StepLog StepProofs LoggerProofs RowProofs StepProps
  ColumnProofs.

Section Props.
Context {T : Type} {N : Num T}.
Open Scope num_scope.

(** C05.  What a fresh runner does depends on its inputs only, whatever the
    process logged before ... *)
Theorem C05_fresh_runner_is_isolated :
  forall str_float str_container fuel fs json_file folder (log1 log2 : table T),
  run str_float str_container fuel fs (new_runner log1) json_file folder =
  run str_float str_container fuel fs (new_runner log2) json_file folder.
Proof. reflexivity. Qed.

(** ... but a second run() on the same runner keeps the rows of the first: no
    row that is in the table when run() starts is ever removed, so it is still
    there (with at least its columns) in the table that is exported. *)
Lemma log_many_extends p calls (t : table T) :
  exists t' extra, log_many p calls t = t' ++ extra /\
    Forall2 (fun r r' => exists ext, map fst r' = map fst r ++ ext) t t'.
Proof.
  revert t; induction calls as [|[k v] calls IH]; intros t.
  - exists t, []. rewrite app_nil_r. split; auto.
    induction t; constructor; auto. exists []. now rewrite app_nil_r.
  - unfold log_many. cbn [fold_left fst snd].
    destruct (add_variable_extends k p v t) as (t1 & e1 & E1 & _ & F1).
    destruct (IH (add_variable k p v t)) as (t2 & e2 & E2 & F2).
    unfold log_many in E2. rewrite E2. rewrite E1 in F2.
    apply Forall2_app_inv_l in F2 as (t2a & t2b & F2a & F2b & ->).
    exists t2a, (t2b ++ e2). rewrite app_assoc. split; auto.
    clear - F1 F2a. revert t2a F2a. induction F1 as [|r r1 t t1 [x Hx] F1 IH]; intros t2 F2.
    + inversion F2. constructor.
    + inversion F2 as [|? r2 ? t2' [y Hy] F2']; subst. constructor; [|auto].
      exists (x ++ y). rewrite Hy. unfold keys in Hx. rewrite Hx. now rewrite app_assoc.
Qed.

Definition extends (t t' : table T) : Prop :=
  exists t1 extra, t' = t1 ++ extra /\
    Forall2 (fun r r' => exists ext, map fst r' = map fst r ++ ext) t t1.

Lemma extends_refl t : extends t t.
Proof.
  exists t, []. rewrite app_nil_r. split; auto.
  induction t; constructor; auto. exists []. now rewrite app_nil_r.
Qed.
Lemma extends_trans t1 t2 t3 : extends t1 t2 -> extends t2 t3 -> extends t1 t3.
Proof.
  intros (a & e1 & -> & F1) (b & e2 & -> & F2).
  apply Forall2_app_inv_l in F2 as (b1 & b2 & F2a & F2b & ->).
  exists b1, (b2 ++ e2). rewrite app_assoc. split; auto.
  clear - F1 F2a. revert b1 F2a. induction F1 as [|r r1 t t1 [x Hx] F1 IH]; intros t2 F2.
  - inversion F2. constructor.
  - inversion F2 as [|? r2 ? t2' [y Hy] F2']; subst. constructor; [|auto].
    exists (x ++ y). rewrite Hy, Hx. now rewrite app_assoc.
Qed.

Lemma step_extends sm w w' : single_step sm w = (Ok tt, w') -> extends (w_log w) (w_log w').
Proof.
  intros H. apply step_cases in H as [S|(v & rho & wd & sl & hb & ra & dT & dt & C)].
  - destruct (ss_log _ _ _ S) as [->|(bc & _ & ->)]; [apply extends_refl|apply log_many_extends].
  - destruct (cs_log _ _ _ _ _ _ _ _ _ _ _ C) as
      (bc & sx & vf & mu & tc & f & t0 & tb & x & wb & Hn & -> & _). apply log_many_extends.
Qed.

Lemma loop_extends sm fuel w w' :
  run_loop sm fuel w = Some (Ok tt, w') -> extends (w_log w) (w_log w').
Proof.
  revert w; induction fuel as [|fu IH]; intros w H; cbn [run_loop] in H;
    destruct (has_finished w); try discriminate; try (injection H as <-; apply extends_refl).
  destruct (single_step sm w) as [[[]|e] w1] eqn:Es; [|discriminate].
  eapply extends_trans; [eapply step_extends; eauto | eauto].
Qed.

Lemma forall2_length {A B} (P : A -> B -> Prop) l l' : Forall2 P l l' -> length l = length l'.
Proof. induction 1; simpl; auto. Qed.

Lemma csv_rows_until_all fields (t : table T) :
  (forall r, In r t -> has_extra fields r = false) -> length (csv_rows_until fields t) = length t.
Proof.
  induction t as [|r t IH]; intros Hno; [reflexivity|].
  cbn [csv_rows_until]. unfold csv_of_row. rewrite Hno by (simpl; auto). simpl.
  rewrite IH; auto. intros; apply Hno; simpl; auto.
Qed.

Lemma write_table_ok_header path (t : table T) fs u fs' first rest :
  t = first :: rest -> write_table path t fs = (Ok u, fs') ->
  exists c, fs' path = Some (FCsv c) /\ csv_header c = map fst first /\
    length (csv_rows c) = length t.
Proof.
  intros -> H. unfold write_table in H.
  assert (Hw : write_values_to_file (first :: rest) =
    let? rows := rmapM (csv_of_row (map fst first)) (first :: rest) in
      Ok (Some {| csv_header := map fst first; csv_rows := rows |})) by reflexivity.
  rewrite Hw in H. clear Hw.
  destruct (rmapM_csv (map fst first) (first :: rest)) as [[_ E]|[Hno E]]; rewrite E in H; cbn [rbind] in H.
  - discriminate.
  - injection H as _ <-. eexists. split.
    { unfold fs_write. rewrite String.eqb_refl. reflexivity. }
    split; [reflexivity|]. cbn [csv_rows].
    exact (csv_rows_until_all (map fst first) (first :: rest) Hno).
Qed.

Theorem C05_reused_runner_refuted :
  forall str_float str_container fuel fs json_file folder (r0 : row T) (log : table T) fs' log',
  run str_float str_container fuel fs (r0 :: log) json_file folder = Some (Ok tt, fs', log') ->
  (S (length log) <= length log')%nat /\
  exists path c ext, fs' path = Some (FCsv c) /\
    csv_header c = map fst r0 ++ ext /\ length (csv_rows c) = length log'.
Proof.
  intros sf sc fuel fs jf folder r0 log fs' log' H. unfold run in H.
  destruct (prepare mass_flag fs jf) as [[[[[eri name] sm] st] depth]|e]; [|discriminate].
  destruct (simulate fuel sm (initial_world st (r0 :: log) depth)) as [[[[]|e] w]|] eqn:Es;
    [| discriminate | discriminate].
  destruct (write_table _ _ _) as [r1 fs1] eqn:Ew. injection H as -> <- <-.
  assert (Ex : extends (r0 :: log) (w_log w)).
  { unfold simulate in Es.
    destruct (init_effusion_rate sm _) as [[[]|e] w1] eqn:Ei; [|discriminate].
    apply (init_keeps_log sm) in Ei. cbn [initial_world w_log] in Ei. rewrite <- Ei.
    eapply loop_extends; eauto. }
  destruct Ex as (t1 & extra & E & F).
  inversion F as [|? r1 ? t1' [ext Hext] F']; subst.
  assert (Hlen : (S (length log) <= length (w_log w))%nat).
  { rewrite E. simpl. rewrite app_length. apply le_n_S. eapply Nat.le_trans; [apply Nat.eq_le_incl, (forall2_length _ _ _ F')|apply Nat.le_add_r]. }
  split; [exact Hlen|].
  destruct (write_table_ok_header _ _ _ _ _ r1 (t1' ++ extra) E Ew) as (c & Hc & Hh & Hl).
  exists (result_path sf sc folder name eri), c, ext. rewrite Hh, Hext. auto.
Qed.

(** C06.  The table a run builds from an empty logger can be exported: every
    row except possibly the last has the same columns as the first, the last
    one has no column of its own, and the export does not raise. *)
Theorem C06_run_is_exportable : forall (pos_ok : T -> Prop) sm fuel s depth w',
  (forall p, pos_ok p -> n_eqb p p = true) ->
  (forall p, pos_ok p -> pos_ok (p + s_dx sm)) ->
  pos_ok (st_pos s) ->
  simulate fuel sm (initial_world s [] depth) = Some (Ok tt, w') ->
  (exists f, write_values_to_file (w_log w') = Ok f) /\
  (forall first rest, w_log w' = first :: rest ->
     (forall r, In r (removelast (first :: rest)) -> map fst r = map fst first) /\
     (forall r, In r (first :: rest) -> incl (map fst r) (map fst first))).
Proof.
  intros pos_ok sm fuel s depth w' H1 H2 Hp H.
  assert (He := simulate_columns pos_ok sm fuel s depth w' (conj H1 H2) Hp H).
  split; [eapply exportable_writes; eauto|].
  intros first rest E. split.
  - intros r Hr. destruct He as [Hf|(t0 & r0 & E0 & Hf & Hr0)]; unfold all_full in Hf;
      rewrite Forall_forall in Hf.
    + assert (In r (first :: rest)).
      { rewrite (app_removelast_last (l := first :: rest) r) by discriminate.
        apply in_or_app; auto. }
      rewrite E in Hf. change (keys r = keys first). rewrite (Hf r), (Hf first); simpl; auto.
    + rewrite E in E0. rewrite E0, removelast_last in Hr.
      destruct t0 as [|f0 t0]; [destruct Hr|]. injection E0 as <- _.
      change (keys r = keys first). rewrite (Hf r Hr), (Hf first); simpl; auto.
  - intros r Hr k Hk. apply in_map_iff in Hk as ([k' v] & <- & Hkv).
    eapply (exportable_columns sm (w_log w') He first rest E); eauto. now rewrite E.
Qed.

(** The same for a whole run() on a fresh runner: if the simulation ends, the
    export succeeds. *)
Theorem C06_fresh_run_never_fails_to_export :
  forall str_float str_container fuel fs jf folder (log : table T) e fs' log',
  (forall p : T, n_eqb p p = true) ->
  run str_float str_container fuel fs (new_runner log) jf folder = Some (Err e, fs', log') ->
  fs' = fs.
Proof.
  intros sf sc fuel fs jf folder log e fs' log' Hrefl H. unfold run in H.
  destruct (prepare mass_flag fs jf) as [[[[[eri name] sm] st] depth]|e0]; [|congruence].
  unfold new_runner in H.
  destruct (simulate fuel sm (initial_world st clear depth)) as [[[[]|e1] w]|] eqn:Es;
    [| congruence | discriminate].
  destruct (C06_run_is_exportable (fun _ => True) sm fuel st depth w) as [[f Hf] _]; auto.
  unfold write_table in H. destruct (w_log w) as [|first rest]; [congruence|].
  rewrite Hf in H. discriminate.
Qed.

(** C07.  Bookkeeping of a completed step (the step counter moved). *)
Theorem C07_step_bookkeeping : forall sm w w',
  single_step sm w = (Ok tt, w') -> w_iter w' <> w_iter w ->
  exists v dt dtemp dphi,
    (exists new, mean_velocity (s_lava sm) (s_ter sm) (w_depth w) (w_st w) = Ok (v, new)) /\
    s_dx sm / v = Ok dt /\
    st_pos (w_st w') = st_pos (w_st w) + s_dx sm /\
    st_time (w_st w') = st_time (w_st w) + dt /\
    n_lit 3 1 * v / w_depth w = Ok (st_strain (w_st w')) /\
    st_phi (w_st w') = st_phi (w_st w) + dphi * s_dx sm /\
    st_temp (w_st w') = st_temp (w_st w) + dtemp * s_dx sm /\
    w_iter w' = S (w_iter w) /\
    (n_eqb (st_pos (w_st w)) (st_pos (w_st w)) = true ->
       logged (w_log w') (st_pos (w_st w)) "mean_velocity" = Some (CNum v) /\
       logged (w_log w') (st_pos (w_st w)) "dphi_dx" = Some (CNum dphi) /\
       logged (w_log w') (st_pos (w_st w)) "dtemp_dx" = Some (CNum dtemp)).
Proof.
  intros sm w w' H Hi. apply step_cases in H as [S|(v & rho & wd & sl & hb & ra & dT & dt & C)].
  { rewrite (ss_iter _ _ _ S) in Hi. contradiction. }
  exists v, dt, dT, (dT * (- ra)). destruct C as [cs_budget0 ? ? ? ? ? ? ? ? ? ? ? ? ? ? ? ? ? ? cs_log0]. repeat split; auto.
  - destruct cs_budget0 as (new & w2 & Hv & _). eauto.
  - destruct cs_log0 as (bc & sx & vf & mu & tc & f & t0 & tb & x & wb & Hn & -> & _ & _ & _ & _ & _ & _ & _ & _ & ->).
    apply logged_after; auto.
    { unfold no_position. rewrite map_app, Hn. apply Forall_app. split.
      apply budget_names_no_position. apply step_names_no_position. }
    rewrite rev_app_distr. reflexivity.
  - destruct cs_log0 as (bc & sx & vf & mu & tc & f & t0 & tb & x & wb & Hn & -> & _ & _ & _ & _ & _ & _ & _ & _ & ->).
    apply logged_after; auto.
    { unfold no_position. rewrite map_app, Hn. apply Forall_app. split.
      apply budget_names_no_position. apply step_names_no_position. }
    rewrite rev_app_distr. reflexivity.
  - destruct cs_log0 as (bc & sx & vf & mu & tc & f & t0 & tb & x & wb & Hn & -> & _ & _ & _ & _ & _ & _ & _ & _ & ->).
    apply logged_after; auto.
    { unfold no_position. rewrite map_app, Hn. apply Forall_app. split.
      apply budget_names_no_position. apply step_names_no_position. }
    rewrite rev_app_distr. reflexivity.
Qed.

(** C08.  A step that does not complete finishes the run and moves nothing. *)
Theorem C08_early_stop_changes_nothing : forall sm w w',
  single_step sm w = (Ok tt, w') -> w_iter w' = w_iter w ->
  has_finished w' = true /\
  st_pos (w_st w') = st_pos (w_st w) /\ st_time (w_st w') = st_time (w_st w) /\
  st_phi (w_st w') = st_phi (w_st w) /\ st_temp (w_st w') = st_temp (w_st w) /\
  w_depth w' = w_depth w.
Proof.
  intros sm w w' H Hi. apply step_cases in H as [S|(v & rho & wd & sl & hb & ra & dT & dt & C)].
  - destruct (ss_st _ _ _ S) as [x Hx]. rewrite Hx. repeat split.
    + apply (ss_fin _ _ _ S).
    + apply (ss_depth _ _ _ S).
  - rewrite (cs_iter _ _ _ _ _ _ _ _ _ _ _ C) in Hi. exfalso.
    clear - Hi. induction (w_iter w); [discriminate|]. injection Hi; auto.
Qed.

(** C08.  Why a step stops early: the velocity is not positive, and then
    nothing is logged; or the velocity is positive but the crystal fraction the
    heat budget implies would not exceed the present one, and then the heat
    budget's entries, and only those, have been logged at this position. *)
Theorem C08_why_a_step_stops : forall sm w w',
  single_step sm w = (Ok tt, w') -> w_iter w' = w_iter w ->
  exists v new, mean_velocity (s_lava sm) (s_ter sm) (w_depth w) (w_st w) = Ok (v, new) /\
    (((v <=? zero) = true /\ w_log w' = w_log w) \/
     ((v <=? zero) = false /\
      exists rho width hb rate dtemp w2 bcalls,
        get_bulk_density (s_lava sm) (w_st w) = Ok rho /\
        compute_heat_budget sm width (w_depth w)
          (set_eff (w_eff w') (set_st (set_strain_rate new (w_st w)) w)) = (Ok hb, w2) /\
        compute_crystallization_rate (s_cryst sm) (w_st w) = Ok rate /\
        (- hb) / (w_eff w' * rho * lv_latent (s_lava sm) * rate) = Ok dtemp /\
        (st_phi (w_st w) + (dtemp * (- rate)) * s_dx sm <=? st_phi (w_st w)) = true /\
        map fst bcalls = budget_names (s_budget sm) /\
        w_log w' = log_many (st_pos (w_st w)) bcalls (w_log w))).
Proof.
  intros sm w w' H Hi. apply step_cases in H as [S|(v & rho & wd & sl & hb & ra & dT & dt & C)].
  - destruct (ss_why _ _ _ S) as (v & new & Hv & [(H1 & H2 & _)|(H1 & He & rho & width & hb & rate & dtemp & w2 & bc & H2 & H3 & H4 & H5)]).
    + exists v, new. split; [exact Hv|]. left. auto.
    + exists v, new. split; [exact Hv|]. right. split; [exact H1|].
      exists rho, width, hb, rate, dtemp, w2, bc. rewrite He. split; [exact H2|]. split; [exact H4|]. exact H5.
  - rewrite (cs_iter _ _ _ _ _ _ _ _ _ _ _ C) in Hi. lia.
Qed.

(** C08.  Conversely a velocity that is not positive always stops the step. *)
Theorem C08_no_velocity_no_step : forall sm w v new,
  mean_velocity (s_lava sm) (s_ter sm) (w_depth w) (w_st w) = Ok (v, new) -> (v <=? zero) = true ->
  exists w', single_step sm w = (Ok tt, w') /\ has_finished w' = true /\
    w_iter w' = w_iter w /\ w_log w' = w_log w /\ st_pos (w_st w') = st_pos (w_st w).
Proof.
  intros sm w v new Hv Hle. unfold single_step, bind, compute_mean_velocity. rewrite Hv, Hle.
  eexists. split; [reflexivity|]. repeat split.
Qed.

(** C08.  Finished stays finished, also through steps that raise. *)
Theorem C08_finished_stays_finished : forall sm n w r w',
  has_finished w = true -> steps sm n w = (r, w') -> has_finished w' = true.
Proof.
  intros sm n. induction n as [|n IH]; intros w r w' Hf H.
  - injection H as _ <-. exact Hf.
  - cbn [steps] in H.
    destruct (single_step sm w) as [[[]|e] w1] eqn:Es.
    + apply (IH w1 r w'); auto. clear - Es Hf. unfold has_finished in *.
      apply step_cases in Es as [S|(v & rho & wd & sl & hb & ra & dT & dt & C)].
      * apply (ss_fin _ _ _ S).
      * destruct (cs_fin _ _ _ _ _ _ _ _ _ _ _ C) as [[? _]|[-> _]]; auto.
    + injection H as <- <-. clear - Es Hf. unfold has_finished in *.
      destruct (w_fin w1) eqn:E1; auto. exfalso.
      assert (Hcontra : w_fin w1 = true).
      { clear E1. revert Es.
        assert (Mono : forall A names (m : M (T:=T) A), framed names m ->
           forall w r w', m w = (r, w') -> w_fin w = true -> w_fin w' = true).
        { intros A names m Hm w0 r0 w0' H0 Hf0. destruct (Hm _ _ _ H0) as (s & c & _ & -> & _). exact Hf0. }
        assert (MB : forall A B (m : M (T:=T) A) (f : A -> M B),
           (forall w r w', m w = (r, w') -> w_fin w = true -> w_fin w' = true) ->
           (forall a w r w', f a w = (r, w') -> w_fin w = true -> w_fin w' = true) ->
           forall w r w', bind m f w = (r, w') -> w_fin w = true -> w_fin w' = true).
        { intros A B m f Hm Hf' w0 r0 w0' H0 Hf0. unfold bind in H0.
          destruct (m w0) as [[a|e0] w2] eqn:E.
          - eapply Hf'; [exact H0|]. eapply Hm; eauto.
          - injection H0 as <- <-. eapply Hm; eauto. }
        assert (MM : forall g : world T -> world T, (forall w, w_fin w = true -> w_fin (g w) = true) ->
           forall w r w', modify g w = (r, w') -> w_fin w = true -> w_fin w' = true).
        { intros g Hg w0 r0 w0' H0 Hf0. injection H0 as _ <-. auto. }
        intros Es. revert Hf. revert Es. generalize (Err e : res unit). intros rr Es.
        revert Es. generalize w, rr, w1. clear - Mono MB MM.
        unfold single_step. apply MB; [eapply Mono, framed_velocity|intros v].
        destruct (v <=? zero); [apply MM; auto|].
        apply MB.
        { unfold step_compute.
          repeat (apply MB; [first [eapply Mono, framed_get | eapply Mono, framed_pure
             | eapply Mono, framed_lift | eapply Mono, framed_budget
             | intros w0 r0 w0' H0 Hf0; unfold first_effusion_rate in H0; destruct (w_iter w0);
               injection H0 as _ <-; auto
             | unfold channel_width; destruct (s_mass sm);
               repeat (apply MB; [first [eapply Mono, framed_pure | eapply Mono, framed_lift | eapply Mono, framed_get] | intros ? ]);
               eapply Mono, framed_lift ] | intros ? ]).
          eapply Mono, framed_ret. }
        intros x. apply MB; [eapply Mono, framed_get|intros phi].
        destruct (sv_new_phi x <=? phi); [apply MM; auto|].
        apply MB; [eapply Mono, framed_step_log|intros _].
        apply MB.
        { unfold step_update.
          repeat (apply MB; [first [eapply Mono, framed_lift | apply MM; intros; auto] | intros ? ]).
          apply MM; auto. }
        intros _. unfold step_checks.
        destruct (_ <=? _); [apply MM; auto|].
        apply MB; [eapply Mono, framed_pure|intros nc]. destruct nc; [apply MM; auto|].
        apply MB; [eapply Mono, framed_pure|intros yc]. destruct yc; [apply MM; auto|].
        apply MB; [eapply Mono, framed_get|intros pos].
        destruct (_ <=? _); [apply MM; auto|eapply Mono, framed_ret]. }
      congruence.
Qed.

(** C09.  After at least one step, an unfinished flow is within every stopping
    threshold (stated with the code's own comparisons, so a NaN is covered). *)
Theorem C09_unfinished_within_thresholds : forall sm n w w',
  steps sm (S n) w = (Ok tt, w') -> has_finished w' = false ->
  (st_temp (w_st w') <=? get_solid_temperature (s_cryst sm)) = false /\
  (ter_maxlen (s_ter sm) <=? st_pos (w_st w')) = false /\
  is_notcompatible (s_lava sm) (w_st w') = Ok false /\
  exists t0 tb, get_yield_strength (s_lava sm) (w_st w') = Ok t0 /\
    get_basal_shear_stress (s_lava sm) (s_ter sm) (w_depth w') (w_st w') = Ok tb /\
    (tb <=? t0) = false.
Proof.
  intros sm n w w' H Hf. apply steps_snoc in H as (w1 & _ & H).
  destruct (unfinished_completed sm w1 w' H Hf) as [(P1 & P2 & P3 & P4) _].
  repeat split; auto.
  unfold yield_strength_notcompatible, model_yield_notcompatible in P3.
  apply rbind_ok in P3 as (t0 & Ht0 & P3). apply rbind_ok in P3 as (tb & Htb & P3).
  exists t0, tb. injection P3 as P3. auto.
Qed.

(** C10.  The row of a completed step holds the state on entry to the step. *)
Theorem C10_row_is_entry_state : forall sm w w',
  single_step sm w = (Ok tt, w') -> w_iter w' <> w_iter w ->
  let p := st_pos (w_st w) in
  n_eqb p p = true ->
  exists v new vf rho slope tc t0 tb eff,
    mean_velocity (s_lava sm) (s_ter sm) (w_depth w) (w_st w) = Ok (v, new) /\
    lava_vesicle_fraction (s_lava sm) (w_st w) = Ok vf /\
    get_bulk_density (s_lava sm) (w_st w) = Ok rho /\
    get_channel_slope (s_ter sm) p = Ok slope /\
    compute_crust_temperature (s_crust sm) (w_st w) = Ok tc /\
    get_yield_strength (s_lava sm) (w_st w) = Ok t0 /\
    get_basal_shear_stress (s_lava sm) (s_ter sm) (w_depth w) (w_st w) = Ok tb /\
    (w_iter w <> 0%nat -> eff = w_eff w) /\ eff = w_eff w' /\
    logged (w_log w') p "crystal_fraction" = Some (CNum (st_phi (w_st w))) /\
    logged (w_log w') p "core_temperature" = Some (CNum (st_temp (w_st w))) /\
    logged (w_log w') p "mean_velocity" = Some (CNum v) /\
    logged (w_log w') p "vesicle_fraction" = Some (CNum vf) /\
    logged (w_log w') p "density" = Some (CNum rho) /\
    logged (w_log w') p "slope" = Some (CNum slope) /\
    logged (w_log w') p "crust_temperature" = Some (CNum tc) /\
    logged (w_log w') p "tho_0" = Some (CNum t0) /\
    logged (w_log w') p "tho_b" = Some (CNum tb) /\
    logged (w_log w') p "channel_depth" = Some (CNum (w_depth w)) /\
    logged (w_log w') p "effusion_rate" = Some (CStr eff).
Proof.
  intros sm w w' H Hi p Hp. apply step_cases in H as [S|(v & rho & wd & sl & hb & ra & dT & dt & C)].
  { rewrite (ss_iter _ _ _ S) in Hi. contradiction. }
  destruct C as [cs_budget0 ? ? ? ? ? ? ? ? ? ? ? ? ? ? ? ? ? ? cs_log0]. destruct cs_budget0 as (new & w2 & Hv & _).
  destruct cs_log0 as (bc & sx & vf & mu & tc & f & t0 & tb & x & wb & Hn & Hlog & _ & _ & Hvf & _ & Htc & _ & Ht0 & Htb & ->).
  exists v, new, vf, rho, sl, tc, t0, tb, (eff_of sm v w).
  do 7 (split; [assumption|]). split.
  { unfold eff_of. destruct (w_iter w); [contradiction|auto]. }
  split; [auto|].
  assert (L : forall name c, assoc name (rev (step_calls
      {| sv_v := v; sv_depth := w_depth w; sv_rho := rho; sv_width := wd; sv_slope := sl;
         sv_rate := ra; sv_dtemp_dx := dT; sv_dtemp_dt := - dT * v * n_lit 60 1;
         sv_dphi_dx := dT * - ra; sv_new_phi := st_phi (w_st w) + dT * - ra * s_dx sm;
         sv_new_temp := st_temp (w_st w) + dT * s_dx sm |} (set_strain_rate sx (w_st w))
      vf mu rho tc f (eff_of sm v w) t0 tb)) = Some c -> logged (w_log w') p name = Some c).
  { intros name c Hc. rewrite Hlog. apply logged_after; auto.
    - unfold no_position. rewrite map_app, Hn. apply Forall_app. split.
      apply budget_names_no_position. apply step_names_no_position.
    - rewrite rev_app_distr, assoc_app, Hc. reflexivity. }
  repeat split; apply L; reflexivity.
Qed.

(** C10, second half: a step (completed, stopped, or raising) never modifies
    the row of another position. *)
Theorem C10_other_rows_untouched : forall sm w w',
  single_step sm w = (Ok tt, w') ->
  forall i r, nth_error (w_log w) i = Some r -> row_at (st_pos (w_st w)) r = false ->
  nth_error (w_log w') i = Some r.
Proof.
  intros sm w w' H i r Hi Hr. apply step_cases in H as [S|(v & rho & wd & sl & hb & ra & dT & dt & C)].
  - destruct (ss_log _ _ _ S) as [->|(bc & _ & ->)]; auto. now apply log_many_other.
  - destruct (cs_log _ _ _ _ _ _ _ _ _ _ _ C) as
      (bc & sx & vf & mu & tc & f & t0 & tb & x & wb & Hn & -> & _). now apply log_many_other.
Qed.

(** C17.  The depth and the mass flux never change, not even through a step
    that raises; the effusion rate is fixed by the first step. *)
Theorem C17_depth_and_flux_constant : forall sm n w r w',
  steps sm n w = (r, w') -> w_depth w' = w_depth w /\ w_flux w' = w_flux w.
Proof.
  intros sm n. induction n as [|n IH]; intros w r w' H.
  - injection H as _ <-. auto.
  - cbn [steps] in H. destruct (single_step sm w) as [[[]|e] w1] eqn:Es.
    + apply IH in H as [-> ->].
      rewrite (step_keeps_depth sm _ _ _ Es), (step_keeps_flux sm _ _ _ Es). auto.
    + injection H as _ <-.
      rewrite (step_keeps_depth sm _ _ _ Es), (step_keeps_flux sm _ _ _ Es). auto.
Qed.

Theorem C17_effusion_rate_constant : forall sm n w w',
  w_iter w <> 0%nat -> steps sm n w = (Ok tt, w') -> w_eff w' = w_eff w.
Proof.
  intros sm n. induction n as [|n IH]; intros w w' Hi H.
  - injection H as <-. auto.
  - cbn [steps] in H. destruct (single_step sm w) as [[[]|e] w1] eqn:Es; [|discriminate].
    assert (A : w_eff w1 = w_eff w /\ w_iter w1 <> 0%nat).
    { apply step_cases in Es as [S|(v & rho & wd & sl & hb & ra & dT & dt & C)].
      - rewrite (ss_iter _ _ _ S). split; auto. destruct (ss_eff _ _ _ S); [auto|contradiction].
      - rewrite (cs_eff _ _ _ _ _ _ _ _ _ _ _ C), (cs_iter _ _ _ _ _ _ _ _ _ _ _ C). split; [|lia].
        unfold eff_of. destruct (w_iter w); [contradiction|reflexivity]. }
    destruct A as [<- A]. auto.
Qed.

(** ... and the first step sets it from the configured width. *)
Theorem C17_first_step_sets_effusion_rate : forall sm w w',
  w_iter w = 0%nat -> single_step sm w = (Ok tt, w') -> w_iter w' <> 0%nat ->
  exists v new, mean_velocity (s_lava sm) (s_ter sm) (w_depth w) (w_st w) = Ok (v, new) /\
    w_eff w' = v * ter_width (s_ter sm) * w_depth w.
Proof.
  intros sm w w' Hi H Hi'. apply step_cases in H as [S|(v & rho & wd & sl & hb & ra & dT & dt & C)].
  - rewrite (ss_iter _ _ _ S) in Hi'. contradiction.
  - destruct (cs_budget _ _ _ _ _ _ _ _ _ _ _ C) as (new & w2 & Hv & _).
    exists v, new. split; auto. rewrite (cs_eff _ _ _ _ _ _ _ _ _ _ _ C).
    unfold eff_of. now rewrite Hi.
Qed.

(** C18.  Mass conservation without an imposed effusion rate: the first step
    raises AttributeError as soon as the velocity is positive. *)
Theorem C18_mass_mode_needs_effusion_rate : forall sm s log depth v new,
  s_mass sm = true -> (ter_eff_init (s_ter sm) =? zero) = true ->
  let w0 := initial_world s log depth in
  mean_velocity (s_lava sm) (s_ter sm) depth s = Ok (v, new) -> (v <=? zero) = false ->
  init_effusion_rate sm w0 = (Ok tt, w0) /\
  fst (single_step sm w0) = Err (AttributeError "flux_rate") /\
  forall fuel, (0 < fuel)%nat -> exists w, simulate fuel sm w0 = Some (Err (AttributeError "flux_rate"), w).
Proof.
  intros sm s log depth v new Hm He w0 Hv Hvp.
  assert (Hi : init_effusion_rate sm w0 = (Ok tt, w0)) by (unfold init_effusion_rate; rewrite He; reflexivity).
  assert (Hs : fst (single_step sm w0) = Err (AttributeError "flux_rate")).
  { assert (Hrho : exists rho, get_bulk_density (s_lava sm) s = Ok rho).
    { apply mean_velocity_spec in Hv as (mu & t0 & tb & _ & _ & Hb & _).
      unfold get_basal_shear_stress in Hb.
      assert (B : basal_body (s_ter sm) depth (s_lava sm) s = Ok tb)
        by (destruct (lv_yield (s_lava sm)); exact Hb).
      unfold basal_body in B. apply rbind_ok in B as (rho & Hrho & _). eauto. }
    destruct Hrho as [rho Hrho].
    unfold single_step, bind at 1, compute_mean_velocity.
    cbn [w0 initial_world w_depth w_st]. rewrite Hv, Hvp.
    unfold step_compute, channel_width.
    unfold bind, get, reads, first_effusion_rate, lift.
    cbn [w0 initial_world w_depth w_st w_iter set_st set_eff w_flux].
    rewrite density_strain, Hrho, Hm. reflexivity. }
  split; [exact Hi|]. split; [exact Hs|].
  intros fuel Hfu. unfold simulate. rewrite Hi. destruct fuel as [|fu]; [lia|].
  cbn [run_loop has_finished w0 initial_world w_fin].
  destruct (single_step sm (initial_world s log depth)) as [r w1] eqn:E.
  unfold w0 in Hs. rewrite E in Hs. simpl in Hs. subst r. unfold w0. rewrite E. eauto.
Qed.
End Props.
Print Assumptions C05_fresh_runner_is_isolated.
Print Assumptions C05_reused_runner_refuted.
Print Assumptions C06_run_is_exportable.
Print Assumptions C06_fresh_run_never_fails_to_export.
Print Assumptions C07_step_bookkeeping.
Print Assumptions C08_early_stop_changes_nothing.
Print Assumptions C08_finished_stays_finished.
Print Assumptions C09_unfinished_within_thresholds.
Print Assumptions C10_row_is_entry_state.
Print Assumptions C10_other_rows_untouched.
Print Assumptions C17_depth_and_flux_constant.
Print Assumptions C17_effusion_rate_constant.
Print Assumptions C17_first_step_sets_effusion_rate.
Print Assumptions C18_mass_mode_needs_effusion_rate.
