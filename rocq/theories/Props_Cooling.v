(** * Props_Cooling: a flow that only loses heat stops for a physical reason (C63) *)
From Verif Require Import Base Num Json Logger World Vesicle MeltVisc RelVisc Bubbles Terrain Lava
  Thermal Flux Integrator Factory Run Frame StepLog Spec RNum RPow StepProofs RowProofs StepProps ColumnProofs Props_Run Props_Velocity
  Props_Rheology Props_Material Props_Terrain Props_Thermal Gives Props_Flux Props_RunOuts Safe Valid
  Props_ValidRun Cooling.
Open Scope R_scope.

(** An admissible set-up with at least one heat flux, all of them losses, and a lava
    surface warmer than the air and below 2600 K everywhere in the region the
    run can visit. *)
Record losing (sm : sim R) (s0 : state R) (depth : R) : Prop := {
  co_admissible : admissible sm s0 depth;
  co_air : 1 <= air_temp (s_air sm);
  co_crust : valid_crust (region_of sm s0) (401 / 400 * air_temp (s_air sm)) (s_crust sm);
  co_crust_max : forall s tc, inside (region_of sm s0) s -> compute_crust_temperature (s_crust sm) s = Ok tc -> tc <= 2600;
  co_surface : 401 / 400 * air_temp (s_air sm) <= get_solid_temperature (s_cryst sm) - lv_buffer (s_lava sm);
  co_surface_max : st_temp s0 - lv_buffer (s_lava sm) <= 2600;
  co_fluxes : s_budget sm <> [];
  co_losses : Forall (is_loss sm) (s_budget sm)
}.
(** Moreover the packing limit is out of reach. *)
Record cooling (sm : sim R) (s0 : state R) (depth : R) : Prop := {
  co_losing :> losing sm s0 depth;
  co_room : room_for_crystals (region_of sm s0) (lv_rel (s_lava sm))
}.
Lemma co_valid sm s0 depth : cooling sm s0 depth -> valid sm s0 depth.
Proof. intros K. constructor; [exact (co_admissible _ _ _ K)|exact (co_room _ _ _ K)]. Qed.

(** The four reasons for which a flow that was moving stops. *)
Definition stopped_because (sm : sim R) (w : world R) : Prop :=
  st_temp (w_st w) <= get_solid_temperature (s_cryst sm) \/
  is_notcompatible (s_lava sm) (w_st w) = Ok true \/
  (exists t0 tb, get_yield_strength (s_lava sm) (w_st w) = Ok t0 /\
     get_basal_shear_stress (s_lava sm) (s_ter sm) (w_depth w) (w_st w) = Ok tb /\ tb <= t0) \/
  ter_maxlen (s_ter sm) <= st_pos (w_st w).

Lemma init_keeps_fin (sm : sim R) : keeps w_fin (init_effusion_rate sm).
Proof.
  unfold init_effusion_rate. destruct (n_eqb _ _).
  - intros w r w' H. injection H as _ <-. reflexivity.
  - assert (Hfr : forall A (m : M (T:=R) A), framed [] m -> keeps w_fin m).
    { intros A m Hm. apply (keeps_framed _ [] m); auto. }
    generalize 0%nat. induction depth_count as [|n IH]; intros i; cbn [search_depth].
    + apply Hfr, framed_ret.
    + apply keeps_bind.
      * unfold try_depth.
        repeat (apply keeps_bind; [first [apply Hfr, framed_velocity | apply Hfr, framed_pure
           | intros w r w' H; injection H as _ <-; reflexivity] | intros ]).
        apply Hfr, framed_ret.
      * intros []; [apply Hfr, framed_ret | apply IH].
Qed.

Lemma row_added (sm : sim R) x0 w w' v rho wd sl hb ra dT dt :
  s_dx sm <> 0 -> completed_step sm w w' v rho wd sl hb ra dT dt ->
  st_pos (w_st w) = x0 + INR (w_iter w) * s_dx sm -> length (w_log w) = w_iter w ->
  evenly_spaced x0 (s_dx sm) (full_columns sm) (w_log w) ->
  st_pos (w_st w') = x0 + INR (w_iter w') * s_dx sm /\ length (w_log w') = w_iter w' /\
  evenly_spaced x0 (s_dx sm) (full_columns sm) (w_log w').
Proof.
  intros Hdx C HP HL HE. set (dx := s_dx sm) in *.
  assert (Hno := evenly_not_at x0 dx _ _ Hdx HE). rewrite HL, <- HP in Hno.
  destruct (cs_log _ _ _ _ _ _ _ _ _ _ _ C) as
    (bc & sx & vf & mu & tc & f & t0 & tb & x & wb & Hn & Hlog & _).
  set (calls := bc ++ _) in Hlog.
  assert (Hcn : map fst calls = budget_names (s_budget sm) ++ step_names).
  { unfold calls. rewrite map_app, Hn, step_calls_names. reflexivity. }
  destruct (logged_row (st_pos (w_st w)) calls (w_log w) (full_columns sm)) as (r & Hr1 & Hr).
  - unfold no_position. rewrite Hcn. apply Forall_app. split; [apply budget_names_no_position|apply step_names_no_position].
  - intros E. rewrite E in Hcn. symmetry in Hcn. apply app_eq_nil in Hcn as [_ Hcn]. discriminate.
  - exact Hno.
  - rewrite Hcn. reflexivity.
  - rewrite Hr1 in Hlog. split; [|split].
    + rewrite (cs_pos _ _ _ _ _ _ _ _ _ _ _ C), (cs_iter _ _ _ _ _ _ _ _ _ _ _ C), S_INR, HP.
      change (x0 + INR (w_iter w) * dx + dx = x0 + (INR (w_iter w) + 1) * dx). ring.
    + rewrite Hlog, app_length, HL, (cs_iter _ _ _ _ _ _ _ _ _ _ _ C). cbn. lia.
    + rewrite Hlog. apply evenly_snoc; [exact HE|]. rewrite HL, <- HP. exact Hr.
Qed.

Section Cooling.
Variables (sm : sim R) (s0 : state R) (depth0 : R).
Hypothesis K : losing sm s0 depth0.
Let V := co_admissible _ _ _ K.
Let g := region_of sm s0.

Lemma sound_warm w : sound sm s0 w ->
  (forall t, get_yield_strength (s_lava sm) (w_st w) = Ok t ->
     get_basal_shear_stress (s_lava sm) (s_ter sm) (w_depth w) (w_st w) <> Ok t) ->
  warm sm w.
Proof.
  intros S Hne. assert (I := sound_inside _ _ _ V _ S). destruct (so_temp _ _ _ S) as [T1 T2].
  assert (A := co_surface _ _ _ K). assert (B := co_surface_max _ _ _ K).
  constructor.
  - exact (sound_well_behaved _ _ _ V _ S Hne).
  - exact (co_air _ _ _ K).
  - destruct (crust_inside g _ _ _ (co_crust _ _ _ K) I) as (tc & E & Hc). exists tc. split; [exact E|].
    split; [exact Hc|]. exact (co_crust_max _ _ _ K _ _ I E).
  - lra.
  - exact T1.
  - exact (co_losses _ _ _ K).
Qed.

(** A step either finds driving and yield stress equal or completes. *)
Lemma cooling_step w w' : sound sm s0 w -> single_step sm w = (Ok tt, w') ->
  (exists t, get_yield_strength (s_lava sm) (w_st w) = Ok t /\
     get_basal_shear_stress (s_lava sm) (s_ter sm) (w_depth w) (w_st w) = Ok t) \/
  exists v rho wd sl hb ra dT dt, completed_step sm w w' v rho wd sl hb ra dT dt.
Proof.
  intros S E. destruct (sound_stress_dec _ _ _ V _ S) as [|Hne]; [auto|]. right.
  destruct (step_cases _ _ _ E) as [Q|C]; [|exact C]. exfalso.
  assert (Wm := sound_warm _ S Hne). assert (W := wm_wb _ _ Wm). assert (Hd := wb_depth _ _ W).
  destruct (ss_why _ _ _ Q) as (v & new & Hm & Why).
  destruct (proj1 (sound_viscosity _ _ _ V _ S)) as (mu & Em & Pm).
  destruct (wb_stress _ _ W) as (t0 & tb & A & B & C0 & D0 & Hn).
  assert (Sg := C22_velocity_sign _ _ _ _ _ _ _ _ _ Em A B Hd Pm D0 C0 Hm).
  assert (Pv : 0 < v) by (destruct Sg as [V1 [V2 _]]; destruct (Req_dec v 0); [tauto|lra]).
  destruct Why as [(Hz & _)|(_ & He & rho & wd & hb & ra & dT & w2 & bc & Hr & Hw & Hb & Hra & HdT & Hphi & _)].
  { rnum. rtests. lra. }
  destruct (wb_vf _ _ W) as (vf0 & Ev & Bv).
  destruct (C30_density_range _ _ _ Ev (wb_dre _ _ W) Bv) as (rho' & Er & _ & Pr & _).
  rewrite Hr in Er. injection Er as <-.
  assert (Pvd : 0 < v * w_depth w) by (apply Rmult_lt_0_compat; lra).
  assert (Peff : 0 < eff_of sm v w).
  { unfold eff_of. assert (Hwd := va_width _ _ _ V).
    destruct (so_stage _ _ _ S) as [(_ & _ & _ & ->)|(_ & _ & _ & Hpe)].
    - rnum. apply Rmult_lt_0_compat; [apply Rmult_lt_0_compat|]; lra.
    - destruct (w_iter w); [|exact Hpe]. rnum. apply Rmult_lt_0_compat; [apply Rmult_lt_0_compat|]; lra. }
  assert (Pw : 0 < wd).
  { unfold width_of in Hw. rnum. destruct (s_mass sm) eqn:Ems.
    - destruct (so_flux _ _ _ S Ems) as (fl & Ef & Hfl). rewrite Ef in Hw. rewrite R_div_ok in Hw by lra. cbn [rbind] in Hw.
      rewrite R_div_ok in Hw by lra. injection Hw as <-.
      destruct Hfl as [Hfl|(t & A' & B')]; [|exfalso; exact (Hne t A' B')].
      apply Rdiv_lt_0_compat; [apply Rdiv_lt_0_compat; assumption|lra].
    - rewrite R_div_ok in Hw by lra. injection Hw as <-. apply Rdiv_lt_0_compat; assumption. }
  assert (Pn : 0 < new).
  { assert (E2 := C20_velocity_is_jeffreys _ _ _ _ _ _ _ Em A B ltac:(lra) ltac:(lra) ltac:(lra)). cbv zeta in E2.
    rewrite E2 in Hm. injection Hm as Hm1 <-. rewrite Hm1. apply Rdiv_lt_0_compat; lra. }
  assert (Hwe : warm sm (set_eff (eff_of sm v w) w)).
  { destruct Wm as [[] ? ? ? ? ?]; constructor; auto; constructor; assumption. }
  destruct (warm_budget sm (set_eff (eff_of sm v w) w) Hwe wd Pw (co_fluxes _ _ _ K) new [] Pn) as (hb' & x2 & c2 & E2 & P2 & Phb).
  change (touched new [] (set_eff (eff_of sm v w) w)) with (set_eff (eff_of sm v w) (after_velocity new w)) in E2.
  change (w_depth (set_eff (eff_of sm v w) w)) with (w_depth w) in E2.
  rewrite Hb in E2. injection E2 as <- _.
  destruct (wb_rate _ _ W) as (rate & Erate & Prate). rewrite Hra in Erate. injection Erate as <-.
  assert (Hlat := wb_latent _ _ W). assert (Hdx := va_dx _ _ _ V).
  rnum. set (den := eff_of sm v w * rho * lv_latent (s_lava sm) * ra) in *.
  assert (Pden : 0 < den).
  { unfold den. apply Rmult_lt_0_compat; [apply Rmult_lt_0_compat; [apply Rmult_lt_0_compat|]|]; assumption. }
  rewrite R_div_ok in HdT by lra. injection HdT as <-. rtests.
  assert (0 < hb / den) by (apply Rdiv_lt_0_compat; lra).
  assert (0 < hb / den * ra * s_dx sm) by (apply Rmult_lt_0_compat; [apply Rmult_lt_0_compat|]; assumption).
  replace (- hb / den * - ra * s_dx sm) with (hb / den * ra * s_dx sm) in Hphi by (field; lra). lra.
Qed.

Lemma not_passing w : 0 <= st_phi (w_st w) -> ~ passes sm w -> stopped_because sm w.
Proof.
  intros Hp N. unfold passes in N. unfold stopped_because.
  destruct (va_lava _ _ _ V) as (_ & Hr & _).
  destruct (compat_inside g (lv_rel (s_lava sm)) (w_st w) Hr) as (b & Eb).
  destruct (yield_inside (s_lava sm) (w_st w) Hp) as (t0 & E0 & _).
  destruct (basal_inside (s_lava sm) (s_ter sm) (w_depth w) (w_st w) (va_slope _ _ _ V)) as (rho & sl & _ & _ & Ebs).
  set (tb := w_depth w * rho * ter_gravity (s_ter sm) * sin sl) in *.
  assert (Hst := C32_stop_criterion _ _ _ _ _ _ E0 Ebs).
  rnum. destruct (Rle_dec (st_temp (w_st w)) (get_solid_temperature (s_cryst sm))) as [|n1]; [auto|].
  destruct b; [right; left; exact Eb|].
  destruct (Rle_dec tb t0) as [|n2]; [right; right; left; eauto|].
  destruct (Rle_dec (ter_maxlen (s_ter sm)) (st_pos (w_st w))) as [|n3]; [auto|]. exfalso. apply N.
  split; [apply R_leb_false; lra|]. split; [exact Eb|]. split; [|apply R_leb_false; lra].
  apply Hst. lra.
Qed.

Lemma cooling_loop : forall fuel w w',
  sound sm s0 w -> w_fin w = false ->
  st_pos (w_st w) = st_pos s0 + INR (w_iter w) * s_dx sm -> length (w_log w) = w_iter w ->
  evenly_spaced (st_pos s0) (s_dx sm) (full_columns sm) (w_log w) ->
  run_loop sm fuel w = Some (Ok tt, w') ->
  length (w_log w') = w_iter w' /\ evenly_spaced (st_pos s0) (s_dx sm) (full_columns sm) (w_log w') /\
  ((w_iter w = 0%nat /\ w_iter w' = 0%nat /\
    exists t, get_yield_strength (s_lava sm) (w_st w') = Ok t /\
      get_basal_shear_stress (s_lava sm) (s_ter sm) (w_depth w') (w_st w') = Ok t) \/
   ((0 < w_iter w')%nat /\ stopped_because sm w')).
Proof.
  induction fuel as [|n IH]; intros w w' S Hf HP HL HE H; cbn [run_loop] in H.
  - unfold has_finished in H. rewrite Hf in H. discriminate.
  - unfold has_finished in H at 1. rewrite Hf in H.
    destruct (sound_step _ _ _ V _ S) as (w1 & E). rewrite E in H.
    destruct (cooling_step _ _ S E) as [(t & A & B)|(v & rho & wd & sl & hb & ra & dT & dt & C)].
    + destruct (standstill _ _ _ V _ _ S A B) as (w2 & E2 & Hf2 & Hi2 & Hl2). rewrite E in E2. injection E2 as <-.
      assert (w1 = w') as <-.
      { destruct n; cbn [run_loop] in H; unfold has_finished in H; rewrite Hf2 in H; injection H as <-; auto. }
      rewrite Hl2, Hi2. split; [exact HL|]. split; [exact HE|]. left.
      destruct (so_stage _ _ _ S) as [(_ & _ & _ & Hi)|(_ & _ & Hy & _)].
      * split; [exact Hi|]. split; [exact Hi|]. exists t.
        destruct (step_cases _ _ _ E) as [Q|(v & rho & wd & sl & hb & ra & dT & dt & C)].
        -- destruct (ss_st _ _ _ Q) as [x Hx]. rewrite Hx, (ss_depth _ _ _ Q).
           unfold get_yield_strength, get_basal_shear_stress in *. rewrite yield_strain, basal_strain. auto.
        -- rewrite (cs_iter _ _ _ _ _ _ _ _ _ _ _ C) in Hi2. lia.
      * exfalso. destruct (C32_stop_criterion _ _ _ _ _ _ A B) as [_ [Q _]]. specialize (Q Hy). lra.
    + assert (Hdx := va_dx _ _ _ V).
      destruct (row_added sm (st_pos s0) _ _ _ _ _ _ _ _ _ _ ltac:(lra) C HP HL HE) as (P1 & L1 & E1).
      assert (Hi := cs_iter _ _ _ _ _ _ _ _ _ _ _ C).
      destruct (cs_fin _ _ _ _ _ _ _ _ _ _ _ C) as [[Hf1 Np]|[Hf1 Hpass]].
      * assert (w1 = w') as <-.
        { destruct n; cbn [run_loop] in H; unfold has_finished in H; rewrite Hf1 in H; injection H as <-; auto. }
        split; [exact L1|]. split; [exact E1|]. right. split; [lia|]. apply not_passing; [|exact Np].
        assert (F := so_phi _ _ _ S). assert (F0 := va_phi _ _ _ V).
        assert (Hg := cs_phi_grows _ _ _ _ _ _ _ _ _ _ _ C). rnum. rtests. lra.
      * rewrite Hf in Hf1. assert (N1 := sound_next _ _ _ V _ _ S E Hf1).
        assert (S1 : sound sm s0 w1).
        { constructor; [exact N1|]. intros Hk.
          destruct n; cbn [run_loop] in H; unfold has_finished in H; rewrite Hf1 in H; [discriminate|].
          rewrite (sound_packed _ _ _ V _ N1 Hk) in H. discriminate. }
        destruct (IH w1 w' S1 Hf1 P1 L1 E1 H) as (Q1 & Q2 & [(Q3 & _)|Q3]); [lia|]. auto.
Qed.
End Cooling.

(** How such a run can end: either the lava never moved, because yield strength
    and driving stress are equal at the vent, or it stopped for one of the four
    physical reasons. *)
Definition ended (sm : sim R) (w : world R) : Prop :=
  (w_iter w = 0%nat /\
   exists t, get_yield_strength (s_lava sm) (w_st w) = Ok t /\
     get_basal_shear_stress (s_lava sm) (s_ter sm) (w_depth w) (w_st w) = Ok t) \/
  ((0 < w_iter w)%nat /\ stopped_because sm w).

(** C63 for an admissible set-up that only loses heat: no step is abandoned, so
    the table of a run that ends normally consists of one complete row per
    completed step, and the run ended for a physical reason; the only other
    outcome is the exception of a lava packed exactly to the limit. *)
Theorem C63_stops_for_a_reason_or_packed : forall (sm : sim R) (s0 : state R) (depth0 : R),
  losing sm s0 depth0 ->
  let fuel := step_bound (ter_maxlen (s_ter sm)) (st_pos s0) (s_dx sm) in
  exists r w, simulate fuel sm (initial_world s0 [] depth0) = Some (r, w) /\
    ((r = Ok tt /\ length (w_log w) = w_iter w /\
      evenly_spaced (st_pos s0) (s_dx sm) (full_columns sm) (w_log w) /\ ended sm w) \/
     (r = Err (packed_error (lv_rel (s_lava sm))) /\ packed (lv_rel (s_lava sm)) (w_st w))).
Proof.
  intros sm s0 depth0 K fuel. assert (V := co_admissible _ _ _ K).
  destruct (vent_init _ _ _ V []) as (w0 & E0 & S0 & L0 & I0).
  destruct (C57_fails_only_when_packed _ _ _ V) as (r & w & E & _ & Q). fold fuel in E, Q. exists r, w. split; [exact E|].
  destruct Q as [(-> & _)|(-> & Hk & _)]; [left|right; auto]. split; [reflexivity|].
  unfold simulate in E. rewrite E0 in E.
  assert (P0 : st_pos (w_st w0) = st_pos s0) by (apply (init_keeps_pos sm) in E0; exact E0).
  assert (F0 : w_fin w0 = false) by (apply (init_keeps_fin sm) in E0; exact E0).
  destruct (cooling_loop _ _ _ K fuel w0 w S0 F0) as (Q1 & Q2 & Q3); auto.
  - rewrite P0, I0. cbn. ring.
  - rewrite L0, I0. reflexivity.
  - rewrite L0. intros i r Hi. destruct i; discriminate.
  - split; [exact Q1|]. split; [exact Q2|]. destruct Q3 as [(_ & Q3)|Q3]; [left|right]; auto.
Qed.

(** C63.  A valid set-up that only loses heat: the run ends; no step is
    abandoned, so the table consists of one complete row per completed step; and
    either the lava never moved, because yield strength and driving stress are
    equal at the vent, or it stopped for one of the four physical reasons. *)
Theorem C63_flow_stops_for_a_reason : forall (sm : sim R) (s0 : state R) (depth0 : R),
  cooling sm s0 depth0 ->
  let fuel := step_bound (ter_maxlen (s_ter sm)) (st_pos s0) (s_dx sm) in
  exists w, simulate fuel sm (initial_world s0 [] depth0) = Some (Ok tt, w) /\
    length (w_log w) = w_iter w /\
    evenly_spaced (st_pos s0) (s_dx sm) (full_columns sm) (w_log w) /\
    ((w_iter w = 0%nat /\
      exists t, get_yield_strength (s_lava sm) (w_st w) = Ok t /\
        get_basal_shear_stress (s_lava sm) (s_ter sm) (w_depth w) (w_st w) = Ok t) \/
     ((0 < w_iter w)%nat /\ stopped_because sm w)).
Proof.
  intros sm s0 depth0 K fuel.
  destruct (C57_valid_run _ _ _ (co_valid _ _ _ K)) as (w & E & _). fold fuel in E. exists w. split; [exact E|].
  destruct (C63_stops_for_a_reason_or_packed _ _ _ K) as (r & w' & E' & Q). fold fuel in E'.
  rewrite E in E'. injection E' as <- <-. destruct Q as [(_ & Q)|(H & _)]; [exact Q|discriminate].
Qed.
