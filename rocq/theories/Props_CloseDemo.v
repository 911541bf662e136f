(** * Props_CloseDemo: C90 on the shipped template *)
From Coq Require Import Reals Lra Lia List.
From Verif Require Import Base Num Json Logger World Vesicle MeltVisc RelVisc Bubbles Terrain Lava
  Thermal Flux Integrator Factory Run Frame StepLog Spec RNum RPow StepProps Props_Run Props_Step
  Props_Velocity Props_Rheology Props_Material Props_Thermal Props_Flux Props_Terrain Props_Table Props_RunOuts Props_Recompute
  Safe Valid Props_ValidRun Cooling Props_Cooling Props_Template Recompute Lipschitz ModelLip Refine Losses Props_Refine Props_RefineRun
  Resume Props_Resume Props_ResumeDemo Props_RefineDemo Props_Compare Props_Weaker Faster Props_Faster Props_FasterDemo Props_Easier Props_Fewer Props_FewerDemo Props_Close.
Open Scope R_scope.

(** One degree hotter than the template and with 10.3 % of crystals. *)
Definition hotter_state : state R := with_temp (138815 / 100) (with_phi (103 / 1000) (template_state 0)).
Lemma hotter_losing : losing (template_sim 0) hotter_state (14 / 10).
Proof.
  destruct template_losing as [V A1 A2 A3 A4 A5 A6 A7]. destruct V.
  constructor; try assumption; [constructor; try assumption| |].
  all: match goal with
       | |- valid_lava _ _ => unfold valid_lava; cbn; rnum; repeat split; lra
       | |- forall s tc, _ => intros s tc _ E; cbn in E; injection E as <-; rnum; lra
       | |- _ => cbn; rnum; lra
       end.
Qed.
Lemma within_hotter eps : 0 <= eps <= 1 / 1000 -> starts_within (template_sim 0) hotter_state (with_phi (104 / 1000 - eps) (template_state 0)).
Proof. intros He. unfold starts_within. cbn. rnum. lra. Qed.
Lemma template_itself : with_phi (104 / 1000 - 0) (template_state 0) = template_state 0.
Proof. unfold with_phi, template_state. cbn [st_temp st_pos st_time st_strain]. f_equal. rnum. lra. Qed.

(** The template, and the template with [eps] less crystals at the vent: the constant
    comes first, then the error, the number of rows and the step. *)
Example template_close : exists v0 C, 0 < v0 /\ forall eps N, 0 <= eps <= 1 / 1000 -> exists h0, 0 < h0 /\ forall h, 0 < h <= h0 ->
  exists fuel' w w' r r' temp phi v temp' phi' v',
  simulate (step_bound 30000 0 h) (tdx h) start = Some (Ok tt, w) /\
  simulate fuel' (tdx h) (initial_world (with_phi (104 / 1000 - eps) (template_state 0)) [] (14 / 10)) = Some (Ok tt, w') /\
  nth_error (w_log w) N = Some r /\ nth_error (w_log w') N = Some r' /\
  holds r "core_temperature" temp /\ holds r "crystal_fraction" phi /\ holds r "mean_velocity" v /\
  holds r' "core_temperature" temp' /\ holds r' "crystal_fraction" phi' /\ holds r' "mean_velocity" v' /\
  Rabs (temp - temp') <= C * eps /\ Rabs (phi - phi') <= C * eps /\ Rabs (v - v') <= C * eps.
Proof.
  destruct template_fast as (v0 & Hv0 & Fast).
  destruct (C90_small_errors_stay_small (template 0) _ template_models (template_sim 0) hotter_state (14 / 10) (12 / 100) v0
    template_models_built eq_refl hotter_losing template_smooth Hv0) as (C & GC); [cbn; rnum; lra|].
  exists v0, C. split; [exact Hv0|]. intros eps N He.
  assert (Few : losing (template_sim 0) (with_phi (104 / 1000 - eps) (template_state 0)) (14 / 10)).
  { apply losing_fewer; [exact template_losing|cbn; rnum; lra|intros vm E; lra]. }
  destruct (C89_fewer_crystals_flow_further (template 0) _ template_models (template_sim 0) (template_state 0) (14 / 10) (104 / 1000 - eps) (12 / 100) v0
    template_models_built eq_refl template_losing template_smooth) as (h1 & Hh1 & G);
    [cbn; rnum; lra|exact Hv0|exact (template_tame 0)|cbn; rnum; lra|apply template_moves; lra|cbn; rnum; lra|intros vm E; lra|].
  destruct (template_long v0 Hv0 Fast N) as (h2 & Hh2 & G2).
  exists (Rmin h1 h2). split; [apply Rmin_glb_lt; assumption|]. intros h [Hh Hm].
  assert (h <= h1) by (eapply Rle_trans; [exact Hm|apply Rmin_l]). assert (h <= h2) by (eapply Rle_trans; [exact Hm|apply Rmin_r]).
  destruct (G2 h ltac:(lra)) as (w & E & I & Fw).
  assert (Kf : cooling (tdx h) (with_phi (104 / 1000 - eps) (template_state 0)) (14 / 10)).
  { destruct (tdx_cooling h Hh) as [K Rm]. constructor; [|exact Rm]. apply (losing_fewer (tdx h) (template_state 0) (14 / 10) _ K); [cbn; rnum; lra|intros vm Q; lra]. }
  destruct (C63_flow_stops_for_a_reason _ _ _ Kf) as (w' & E' & _).
  assert (E'' := E'). rewrite <- (crystals_simulate (104 / 1000 - eps)) in E''.
  destruct (G h N _ _ w w' ltac:(lra) E E'' I Fw) as [I' M].
  assert (Fw' : flows_freely v0 (12 / 100) (w_log w') N).
  { intros i r' v' phi' Hi Hr' Hv' Hp'. destruct (M i Hi) as (r & r'' & Hr & Hr'' & x & t & p & v & t' & p' & v'' & _ & _ & _ & _ & P1 & P2 & P3 & P4 & _ & P5 & P6).
    rewrite Hr' in Hr''. injection Hr'' as <-. destruct (Fw i r v p Hi Hr P3 P1) as [F1 F2].
    rewrite (holds_fun _ _ _ _ Hv' P4), (holds_fun _ _ _ _ Hp' P2). lra. }
  assert (W0 := within_hotter 0 ltac:(lra)). rewrite template_itself in W0.
  destruct (GC (template_state 0) (with_phi (104 / 1000 - eps) (template_state 0)) h N _ _ w w' Hh W0 template_losing (within_hotter eps He) Few E E' I I' Fw Fw')
    as (r & r' & x & temp & phi & v & temp' & phi' & v' & Q1 & Q2 & Q3 & Q4 & Q5 & Q6 & Q7 & Q8 & Q9 & Q10 & Q11).
  assert (Ee : Rabs (st_temp (template_state 0) - st_temp (with_phi (104 / 1000 - eps) (template_state 0))) +
    Rabs (st_phi (template_state 0) - st_phi (with_phi (104 / 1000 - eps) (template_state 0))) = eps).
  { cbn [with_phi st_temp st_phi]. rewrite Rminus_diag_eq, Rabs_R0 by reflexivity.
    replace (st_phi (template_state 0) - (104 / 1000 - eps)) with eps by (cbn; rnum; lra). rewrite Rabs_right by lra. lra. }
  rewrite Ee in Q11. exists (step_bound (ter_maxlen (s_ter (tdx h))) (st_pos (with_phi (104 / 1000 - eps) (template_state 0))) (s_dx (tdx h))).
  exists w, w', r, r', temp, phi, v, temp', phi', v'. split; [exact E|]. split; [exact E'|].
  split; [exact Q1|]. split; [exact Q2|]. repeat (split; [assumption|]). exact Q11.
Qed.
