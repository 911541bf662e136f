(** * Props_FewerDemo: C89 on the shipped template *)
From Coq Require Import Reals Lra Lia List.
From Verif Require Import Base Num Json Logger World Vesicle MeltVisc RelVisc Bubbles Terrain Lava
  Thermal Flux Integrator Factory Run Frame StepLog Spec RNum RPow StepProps Props_Run Props_Step
  Props_Velocity Props_Rheology Props_Material Props_Thermal Props_Flux Props_Terrain Props_Table Props_RunOuts Props_Recompute
  Safe Valid Props_ValidRun Cooling Props_Cooling Props_Template Recompute Lipschitz ModelLip Refine Losses Props_Refine Props_RefineRun
  Resume Props_Resume Props_ResumeDemo Props_RefineDemo Props_Compare Props_Weaker Faster Props_Faster Props_FasterDemo Props_Easier Props_Fewer.
Open Scope R_scope.

(** 5 % of crystals at the vent instead of the template's 10.4 %. *)
Definition fewer_sim : sim R := with_crystals (5 / 100) (template_sim 0).
Definition fewer_state : state R := with_phi (5 / 100) (template_state 0).
Lemma fewer_simulation h : with_step h fewer_sim = with_crystals (5 / 100) (tdx h).
Proof. reflexivity. Qed.
Lemma fewer_cooling h : 0 < h -> cooling (tdx h) fewer_state (14 / 10).
Proof.
  intros Hh. destruct (tdx_cooling h Hh) as [K R]. constructor; [|exact R].
  apply (losing_fewer (tdx h) (template_state 0) (14 / 10) _ K); [cbn; rnum; lra|]. intros vm E. lra.
Qed.
(** For every number of rows there is a step below which both runs reach it, and
    row by row the lava with fewer crystals is the hotter and faster. *)
Example template_fewer : forall N, exists h0, 0 < h0 /\ forall h, 0 < h <= h0 -> exists fuel' w w',
  simulate (step_bound 30000 0 h) (tdx h) start = Some (Ok tt, w) /\
  simulate fuel' (with_step h fewer_sim) (initial_world fewer_state [] (14 / 10)) = Some (Ok tt, w') /\
  (N < w_iter w)%nat /\ (N < w_iter w')%nat /\
  forall i, (i <= N)%nat -> exists r r', nth_error (w_log w) i = Some r /\ nth_error (w_log w') i = Some r' /\ at_least_as_mobile r r'.
Proof.
  intros N. destruct template_fast as (v0 & Hv0 & Fast).
  destruct (C89_fewer_crystals_flow_further (template 0) _ template_models (template_sim 0) (template_state 0) (14 / 10) (5 / 100) (12 / 100) v0
    template_models_built eq_refl template_losing template_smooth) as (h1 & Hh1 & G);
    [cbn; rnum; lra|exact Hv0|exact (template_tame 0)|cbn; rnum; lra|apply template_moves; lra|cbn; rnum; lra|intros vm E; lra|].
  destruct (template_long v0 Hv0 Fast N) as (h2 & Hh2 & G2).
  exists (Rmin h1 h2). split; [apply Rmin_glb_lt; assumption|]. intros h [Hh Hm].
  assert (h <= h1) by (eapply Rle_trans; [exact Hm|apply Rmin_l]). assert (h <= h2) by (eapply Rle_trans; [exact Hm|apply Rmin_r]).
  destruct (G2 h ltac:(lra)) as (w & E & I & Fw).
  destruct (C63_flow_stops_for_a_reason _ _ _ (fewer_cooling h Hh)) as (w' & E' & _). rewrite <- (crystals_simulate (5 / 100)), <- fewer_simulation in E'.
  destruct (G h N _ _ w w' ltac:(lra) E E' I Fw) as [I' M].
  eexists _, w, w'. split; [exact E|]. split; [exact E'|]. auto.
Qed.
