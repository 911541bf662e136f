(** * Props_PrefixDemo: C67 on the shipped template, cut at 25 m *)
From Coq Require Import Reals Lra.
From Verif Require Import Base Num Json Logger World Vesicle MeltVisc RelVisc Bubbles Terrain Lava
  Thermal Flux Integrator Factory Run RNum StepProps Props_Run Props_RunOuts Valid Props_ValidRun Cooling Props_Cooling
  Props_Prefix Props_Template.
Open Scope R_scope.

Example template_cut : exists w1 w2 more,
  simulate (step_bound 25 0 10) (with_limit 25 (template_sim 0)) (initial_world (template_state 0) [] (14 / 10)) = Some (Ok tt, w1) /\
  simulate (step_bound 30000 0 10) (with_limit 30000 (template_sim 0)) (initial_world (template_state 0) [] (14 / 10)) = Some (Ok tt, w2) /\
  w_log w2 = w_log w1 ++ more /\ (0 < w_iter w1)%nat.
Proof.
  destruct template_flows as (w2 & E2 & I2 & _).
  assert (V := co_valid _ _ _ (template_cooling 0 ltac:(lia))).
  assert (Vc : valid (with_limit 25 (template_sim 0)) (template_state 0) (14 / 10)).
  { constructor; [|exact I]. constructor; try apply V.
    cbn. rnum. lra. }
  destruct (C57_valid_run _ _ _ Vc) as (w1 & E1 & _).
  revert E1. cbn [with_limit s_ter ter_maxlen s_dx].
  replace (st_pos (template_state 0)) with 0 by (cbn; rnum; lra).
  replace (s_dx (template_sim 0)) with 10 by (cbn; rnum; lra). intros E1.
  assert (E2' : simulate (step_bound 30000 0 10) (with_limit 30000 (template_sim 0)) (initial_world (template_state 0) [] (14 / 10)) = Some (Ok tt, w2)).
  { replace 30000 with (ter_maxlen (s_ter (template_sim 0))) at 2 by (cbn; rnum; lra). rewrite limit_id. exact E2. }
  assert (Hdx : s_dx (template_sim 0) <> 0) by (cbn; rnum; lra).
  destruct (C67_shorter_channel_is_a_prefix (template_sim 0) 25 30000 _ _ _ _ w1 w2 Hdx ltac:(lra) E1 E2') as ((more & M) & _ & Q).
  exists w1, w2, more. split; [exact E1|]. split; [exact E2'|]. split; [exact M|].
  destruct (Rlt_le_dec (st_pos (w_st w1)) 25) as [L|L].
  - rewrite <- (Q L). exact I2.
  - destruct (C62_table_of_a_run (with_limit 25 (template_sim 0)) _ _ _ _ Hdx E1) as (P & _).
    destruct (w_iter w1) as [|n]; [|lia]. exfalso. revert P. cbn. rnum. lra.
Qed.
