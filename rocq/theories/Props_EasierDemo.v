(** * Props_EasierDemo: C88 on the shipped template *)
From Coq Require Import Reals Lra Lia List.
From Verif Require Import Base Num Json Logger World Vesicle MeltVisc RelVisc Bubbles Terrain Lava
  Thermal Flux Integrator Factory Run Frame StepLog Spec RNum RPow StepProps Props_Run Props_Step
  Props_Velocity Props_Rheology Props_Material Props_Thermal Props_Flux Props_Terrain Props_Table Props_RunOuts Props_Recompute
  Safe Valid Props_ValidRun Cooling Props_Cooling Props_Template Recompute Lipschitz ModelLip Refine Losses Props_Refine Props_RefineRun
  Resume Props_Resume Props_ResumeDemo Props_RefineDemo Props_Compare Props_Weaker Faster Props_Faster Props_FasterDemo Props_Easier.
Open Scope R_scope.

(** A profile between 40 and 50 degrees instead of the template's 30. *)
Definition even_profile : list (R * R) := [(0, 30 * (PI / 180)); (100005 / 10, 30 * (PI / 180)); (30000, 30 * (PI / 180))].
Definition steep_profile : list (R * R) := [(0, 40 * (PI / 180)); (100005 / 10, 50 * (PI / 180)); (30000, 40 * (PI / 180))].
Definition steep_sim : sim R :=
  with_ground (ter_gravity (s_ter (template_sim 0))) (ter_default_slope (s_ter (template_sim 0))) (Some steep_profile) (template_sim 0).
Lemma steep_is_steeper : steeper_profile even_profile steep_profile.
Proof. assert (P := PI_RGT_0). unfold steeper_profile. repeat constructor; cbn [fst snd]; lra. Qed.
Lemma even_covers : covers even_profile 0 30000.
Proof.
  assert (P := PI_RGT_0). exists (0, 30 * (PI / 180)), (30000, 30 * (PI / 180)). split; [reflexivity|].
  split; [exists [(0, 30 * (PI / 180)); (100005 / 10, 30 * (PI / 180))]; reflexivity|]. cbn [fst]. split; [lra|]. split; [lra|].
  repeat constructor; cbn [snd]; lra.
Qed.
Lemma steep_covers : covers steep_profile 0 30000.
Proof.
  assert (P := PI_RGT_0). exists (0, 40 * (PI / 180)), (30000, 40 * (PI / 180)). split; [reflexivity|].
  split; [exists [(0, 40 * (PI / 180)); (100005 / 10, 50 * (PI / 180))]; reflexivity|]. cbn [fst]. split; [lra|]. split; [lra|].
  repeat constructor; cbn [snd]; lra.
Qed.
Lemma steep_made : exists xs ys, make_spline xs ys = Ok steep_profile.
Proof.
  assert (E : make_spline [0; 100005 / 10; 30000] [30 * (PI / 180); 30 * (PI / 180); 30 * (PI / 180)] = Ok even_profile).
  { unfold make_spline. cbn [length Nat.ltb Nat.leb negb Nat.eqb strictly_increasing combine]. rnum.
    rewrite (proj2 (R_ltb_true 0 (100005 / 10))) by lra. rewrite (proj2 (R_ltb_true (100005 / 10) 30000)) by lra. reflexivity. }
  destruct (steeper_made _ _ _ _ steep_is_steeper E) as (ys' & E'). eauto.
Qed.
Lemma steep_cooling h : 0 < h -> cooling (with_step h steep_sim) (template_state 0) (14 / 10).
Proof.
  intros Hh. destruct (tdx_cooling h Hh) as [K R]. constructor; [|exact R].
  apply (losing_ground (tdx h) (template_state 0) (14 / 10) _ _ _ K).
  - cbn. rnum. lra.
  - exact steep_made.
  - intros x a a' Hx Ha Ha'. assert (P := PI_RGT_0). cbn [with_ground s_ter ter_gravity]. apply Rmult_le_compat_l; [cbn; rnum; lra|].
    change (get_channel_slope (s_ter (tdx h)) x) with (get_channel_slope (s_ter (template_sim 0)) x) in Ha. rewrite template_slope in Ha. injection Ha as <-.
    destruct steep_covers as (f & l & C1 & C2 & C3 & C4 & _). destruct steep_made as (xs & ys & Em).
    assert (x < 30000) by (destruct Hx as [_ Hx]; cbn in Hx; rnum; lra). assert (0 <= x) by (destruct Hx as [Hx _]; cbn in Hx; rnum; lra).
    destruct (C48_within_bounds steep_profile f l x (PI / 6) (PI / 2) (proj2 (proj2 (proj2 (make_spline_ok _ _ _ Em)))) C1 C2 ltac:(lra)) as (z & Ez & Bz).
    { repeat constructor; cbn [snd]; lra. }
    change (spline_eval steep_profile x = Ok a') in Ha'. rewrite Ez in Ha'. injection Ha' as <-. apply sin_incr_1; lra.
Qed.
(** For every number of rows there is a step below which both runs reach it, and
    row by row the steeper ground shows the hotter, faster lava. *)
Example template_steeper : forall N, exists h0, 0 < h0 /\ forall h, 0 < h <= h0 -> exists fuel' w w',
  simulate (step_bound 30000 0 h) (tdx h) start = Some (Ok tt, w) /\
  simulate fuel' (with_step h steep_sim) start = Some (Ok tt, w') /\
  (N < w_iter w)%nat /\ (N < w_iter w')%nat /\
  forall i, (i <= N)%nat -> exists r r', nth_error (w_log w) i = Some r /\ nth_error (w_log w') i = Some r' /\ at_least_as_mobile r r'.
Proof.
  intros N. destruct template_fast as (v0 & Hv0 & Fast).
  assert (E0 : st_pos (template_state 0) = 0) by (cbn; rnum; lra). assert (E1 : ter_maxlen (s_ter (template_sim 0)) = 30000) by (cbn; rnum; lra).
  destruct (C88_steeper_profile_flows_further (template 0) _ template_models (template_sim 0) (template_state 0) (14 / 10) even_profile steep_profile (12 / 100) v0
    template_models_built eq_refl template_losing template_smooth) as (h1 & Hh1 & G);
    [cbn; rnum; lra|exact Hv0|exact (template_tame 0)|cbn; rnum; lra|apply template_moves; lra|reflexivity|exact steep_is_steeper
    |rewrite E0, E1; exact even_covers|rewrite E0, E1; exact steep_covers|].
  destruct (template_long v0 Hv0 Fast N) as (h2 & Hh2 & G2).
  exists (Rmin h1 h2). split; [apply Rmin_glb_lt; assumption|]. intros h [Hh Hm].
  assert (h <= h1) by (eapply Rle_trans; [exact Hm|apply Rmin_l]). assert (h <= h2) by (eapply Rle_trans; [exact Hm|apply Rmin_r]).
  destruct (G2 h ltac:(lra)) as (w & E & I & Fw).
  destruct (C63_flow_stops_for_a_reason _ _ _ (steep_cooling h Hh)) as (w' & E' & _).
  destruct (G h N _ _ w w' ltac:(lra) E E' I Fw) as [I' M].
  eexists _, w, w'. split; [exact E|]. split; [exact E'|]. auto.
Qed.

(** A melt with the VFT constant -5 instead of -4.52. *)
Definition thin_melt : melt_model R := MeltVFT (n_lit (-5) 1) (n_lit 5558 1) (n_lit 5829 10).
Definition thin_sim : sim R :=
  with_rheology thin_melt (lv_rel (s_lava (template_sim 0))) (lv_bub (s_lava (template_sim 0))) (lv_yield (s_lava (template_sim 0))) (template_sim 0).
Lemma thin_cooling h : 0 < h -> cooling (with_step h thin_sim) (template_state 0) (14 / 10).
Proof.
  intros Hh. destruct (tdx_cooling h Hh) as [K R]. constructor; [|exact R].
  apply (losing_melt (tdx h) (template_state 0) (14 / 10) thin_melt K). cbn. rnum. lra.
Qed.
Example template_thinner : forall N, exists h0, 0 < h0 /\ forall h, 0 < h <= h0 -> exists fuel' w w',
  simulate (step_bound 30000 0 h) (tdx h) start = Some (Ok tt, w) /\
  simulate fuel' (with_step h thin_sim) start = Some (Ok tt, w') /\
  (N < w_iter w)%nat /\ (N < w_iter w')%nat /\
  forall i, (i <= N)%nat -> exists r r', nth_error (w_log w) i = Some r /\ nth_error (w_log w') i = Some r' /\ at_least_as_mobile r r'.
Proof.
  intros N. destruct template_fast as (v0 & Hv0 & Fast).
  destruct (C88_thinner_melt_flows_further (template 0) _ template_models (template_sim 0) (template_state 0) (14 / 10) thin_melt (12 / 100) v0
    template_models_built eq_refl template_losing template_smooth) as (h1 & Hh1 & G);
    [cbn; rnum; lra|exact Hv0|exact (template_tame 0)|cbn; rnum; lra|apply template_moves; lra|cbn; rnum; lra|cbn; rnum; lra| |].
  { intros q a a' Ht Ha Ha'.
    change (compute_melt_viscosity (lv_melt (s_lava (template_sim 0))) q) with (compute_melt_viscosity (MeltVFT (n_lit (-452) 100) (n_lit 5558 1) (n_lit 5829 10)) q) in Ha.
    unfold thin_melt in Ha'. cbn [compute_melt_viscosity] in Ha, Ha'. cbn [template_sim s_cryst get_solid_temperature] in Ht. rnum.
    rewrite R_div_ok in Ha, Ha' by lra. cbn [rbind] in Ha, Ha'. unfold R_pow in *. rewrite R_power_pos in Ha, Ha' by lra. cbn [rbind] in Ha, Ha'. apply Ok_inj in Ha. apply Ok_inj in Ha'. subst a a'.
    apply Rle_Rpower; lra. }
  destruct (template_long v0 Hv0 Fast N) as (h2 & Hh2 & G2).
  exists (Rmin h1 h2). split; [apply Rmin_glb_lt; assumption|]. intros h [Hh Hm].
  assert (h <= h1) by (eapply Rle_trans; [exact Hm|apply Rmin_l]). assert (h <= h2) by (eapply Rle_trans; [exact Hm|apply Rmin_r]).
  destruct (G2 h ltac:(lra)) as (w & E & I & Fw).
  destruct (C63_flow_stops_for_a_reason _ _ _ (thin_cooling h Hh)) as (w' & E' & _).
  destruct (G h N _ _ w w' ltac:(lra) E E' I Fw) as [I' M].
  eexists _, w, w'. split; [exact E|]. split; [exact E'|]. auto.
Qed.
