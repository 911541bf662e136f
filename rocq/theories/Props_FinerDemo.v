(** * Props_FinerDemo: C87 on the shipped template *)
From Coq Require Import Reals Lra Lia List.
From Verif Require Import Base Num Json Logger World Vesicle MeltVisc RelVisc Bubbles Terrain Lava
  Thermal Flux Integrator Factory Run Frame StepLog Spec RNum RPow StepProofs LoggerProofs RowProofs StepProps StepRow Gives Steady EffArray Props_Run
  Props_Step Props_EffArray Props_RunOuts Props_Velocity Props_Rheology Props_Material Props_Terrain Props_Thermal Props_Flux TableTrace Props_Table
  Props_Recompute Safe Valid Props_ValidRun Cooling Props_Cooling Props_Template Recompute Lipschitz ModelLip Refine Props_Refine
  Props_RefineRun Resume Props_Resume Props_ResumeDemo Props_RefineDemo Props_Compare Faster Props_Faster Props_FasterDemo Props_Finer.
Open Scope R_scope.

(** The template with every step [h/m]: row [N] of the run with the step [h] and
    row [N * m] of the run with the step [h/m] exist, and the latter converge as
    [m] grows, for every [N] and every small enough [h]; the constant [C] is fixed
    before [N] and [h]. *)
Example template_converges : exists v0 C, 0 < v0 /\ forall N, exists h0, 0 < h0 /\ forall h, 0 < h <= h0 ->
  exists (runs : nat -> world R) temp phi v,
    (forall m, (0 < m)%nat -> simulate (step_bound 30000 0 (h / INR m)) (tdx (h / INR m)) start = Some (Ok tt, runs m)) /\
    flows_freely v0 (12 / 100) (w_log (runs 1%nat)) N /\
    forall m, (0 < m)%nat -> exists r, nth_error (w_log (runs m)) (N * m) = Some r /\ shows_within (C * (h / INR m)) r (0 + INR N * h) temp phi v.
Proof.
  destruct template_fast as (v0 & Hv0 & Fast). exists v0.
  assert (Sm : smooth (template_sim 0) (2 / 10)) by (constructor; cbn; try exact I; try reflexivity; rnum; try lra; repeat eexists).
  assert (Vd : vent_depth (template_sim 0) (template_state 0) (14 / 10) (14 / 10)).
  { exists start. split; [|reflexivity]. rewrite <- (init_step _ 1). exact (start_ready 1). }
  assert (Cap : 12 / 100 < 2 / 10 <= st_phi (template_state 0) + fastest_rate (s_cryst (template_sim 0)) *
    (st_temp (template_state 0) - get_solid_temperature (s_cryst (template_sim 0)))).
  { cbn. rnum. lra. }
  destruct (C87_results_converge (template 0) _ template_models (template_sim 0) (template_state 0) (14 / 10) (14 / 10) (12 / 100) (2 / 10) v0
    template_models_built eq_refl template_losing Sm Hv0 Cap Vd (template_moves 0 (14 / 10) ltac:(lra))) as (h1 & C & Ph1 & HC).
  exists C. split; [exact Hv0|]. intros N. destruct (template_long v0 Hv0 Fast N) as (h2 & Hh2 & G).
  exists (Rmin h1 h2). split; [apply Rmin_glb_lt; assumption|]. intros h [Hh Hm].
  assert (h <= h1) by (eapply Rle_trans; [exact Hm|apply Rmin_l]). assert (h <= h2) by (eapply Rle_trans; [exact Hm|apply Rmin_r]).
  set (runs m := match simulate (step_bound 30000 0 (h / INR m)) (tdx (h / INR m)) start with Some (_, w) => w | None => start end).
  assert (HR : forall m, (0 < m)%nat -> simulate (step_bound 30000 0 (h / INR m)) (tdx (h / INR m)) start = Some (Ok tt, runs m)).
  { intros m Pm. destruct (tdx_flows (h / INR m)) as (w & E & _); [apply Rdiv_lt_0_compat; [exact Hh|apply lt_0_INR; lia]|].
    unfold runs. rewrite E. reflexivity. }
  destruct (G h ltac:(lra)) as (w & E & I1 & Fw).
  assert (E1 : runs 1%nat = w).
  { unfold runs. replace (h / INR 1) with h by (cbn; field). rewrite E. reflexivity. }
  destruct (HC h N (fun m => step_bound 30000 0 (h / INR m)) runs ltac:(lra) HR) as (temp & phi & v & Q); [rewrite E1; exact I1|rewrite E1; exact Fw|].
  exists runs, temp, phi, v. split; [exact HR|]. split; [rewrite E1; exact Fw|]. intros m Pm. destruct (Q m Pm) as (r & N1 & N2). exists r. split; [exact N1|].
  revert N2. replace (st_pos (template_state 0)) with 0; [auto|]. cbn. rnum. lra.
Qed.
