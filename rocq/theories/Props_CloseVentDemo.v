(** * Props_CloseVentDemo: C90, how far lava flows, on the shipped template *)
From Coq Require Import Reals Lra Lia List.
From Verif Require Import Base Num Json Logger World Vesicle MeltVisc RelVisc Bubbles Terrain Lava
  Thermal Flux Integrator Factory Run Frame StepLog Spec RNum RPow StepProps Props_Run Props_Step
  Props_Velocity Props_Rheology Props_Material Props_Thermal Props_Flux Props_Terrain Props_Table Props_RunOuts Props_Recompute
  Safe Valid Props_ValidRun Cooling Props_Cooling Props_Template Recompute Lipschitz ModelLip Refine Losses Props_Refine Props_RefineRun
  Resume Props_Resume Props_ResumeDemo Props_RefineDemo Props_Compare Props_Weaker Faster Props_Faster Props_FasterDemo Props_Easier Props_Fewer Props_FewerDemo Props_Finer
  Props_Close Props_CloseDemo Props_CloseLosses Props_CloseVent.
Open Scope R_scope.

(** The template's lava, [dt] degrees hotter (or cooler) and with [dp] more (or less)
    crystals. *)
Definition nearby (dt dp : R) : state R := with_temp (138715 / 100 + dt) (with_phi (104 / 1000 + dp) (template_state 0)).
Lemma nearby_cooling dt dp h : Rabs dt + Rabs dp <= 1 / 10000 -> 0 < h -> cooling (tdx h) (nearby dt dp) (14 / 10).
Proof.
  intros Hd Hh. assert (Q1 := Rle_abs dt). assert (Q2 := Rle_abs (- dt)). assert (Q3 := Rle_abs dp). assert (Q4 := Rle_abs (- dp)). rewrite Rabs_Ropp in Q2, Q4.
  assert (P1 := Rabs_pos dt). assert (P2 := Rabs_pos dp).
  destruct (tdx_cooling h Hh) as [[V A1 A2 A3 A4 A5 A6 A7] Rm]. destruct V. constructor; [|exact Rm].
  constructor; try assumption; [constructor; try assumption| |].
  all: match goal with
       | |- valid_lava _ _ => unfold valid_lava; cbn; rnum; repeat split; lra
       | |- forall s tc, _ => intros s tc _ E; cbn in E; injection E as <-; rnum; lra
       | |- _ => cbn; rnum; lra
       end.
Qed.
Lemma nearby_losing dt dp : Rabs dt + Rabs dp <= 1 / 10000 -> losing (template_sim 0) (nearby dt dp) (14 / 10).
Proof.
  intros Hd. assert (K := co_losing _ _ _ (nearby_cooling dt dp 10 Hd ltac:(lra))). revert K.
  unfold tdx. replace 10 with (s_dx (template_sim 0)) by (cbn; rnum; lra). intros K. exact K.
Qed.
Lemma nearby_within dt dp : Rabs dt + Rabs dp <= 1 / 10000 -> starts_within (template_sim 0) hotter_state (nearby dt dp).
Proof.
  intros Hd. assert (Q1 := Rle_abs dt). assert (Q2 := Rle_abs (- dt)). assert (Q3 := Rle_abs dp). assert (Q4 := Rle_abs (- dp)). rewrite Rabs_Ropp in Q2, Q4.
  assert (P1 := Rabs_pos dt). assert (P2 := Rabs_pos dp). unfold starts_within. cbn. rnum. lra.
Qed.
Lemma nearby_itself : nearby 0 0 = template_state 0.
Proof. unfold nearby, with_temp, with_phi, template_state. cbn [st_temp st_pos st_time st_strain st_phi]. f_equal; rnum; lra. Qed.

(** The constants come first, then the error, the number of rows and the step. *)
Example template_vent : exists eps0 C, 0 < eps0 /\ 0 < C /\ forall dt dp N, Rabs dt + Rabs dp <= eps0 -> exists h0, 0 < h0 /\ forall h, 0 < h <= h0 ->
  exists fuel' w w',
  simulate (step_bound 30000 0 h) (tdx h) start = Some (Ok tt, w) /\
  simulate fuel' (tdx h) (initial_world (nearby dt dp) [] (14 / 10)) = Some (Ok tt, w') /\ (N < w_iter w')%nat /\
  forall k, (k <= N)%nat -> exists r r', nth_error (w_log w) k = Some r /\ nth_error (w_log w') k = Some r' /\
    same_place_within (C * (Rabs dt + Rabs dp)) r r'.
Proof.
  destruct template_fast as (v0 & Hv0 & Fast).
  assert (Sm : smooth (template_sim 0) (13 / 100)) by (constructor; cbn; try exact I; try reflexivity; rnum; try lra; repeat eexists).
  destruct (C90_slightly_other_vent_flows_as_far (template 0) _ template_models (template_sim 0) hotter_state (14 / 10) (12 / 100) (13 / 100) v0
    template_models_built eq_refl hotter_losing Sm Hv0) as (eps0 & C & Pe & PC & G); [cbn; rnum; lra|lra|].
  exists (Rmin (1 / 10000) eps0), C. split; [apply Rmin_glb_lt; lra|]. split; [exact PC|]. intros dt dp N Hd.
  assert (M1 := Rmin_l (1 / 10000) eps0). assert (M2 := Rmin_r (1 / 10000) eps0).
  assert (Q1 := Rle_abs dt). assert (Q2 := Rle_abs (- dt)). assert (Q3 := Rle_abs dp). assert (Q4 := Rle_abs (- dp)). rewrite Rabs_Ropp in Q2, Q4.
  assert (P1 := Rabs_pos dt). assert (P2 := Rabs_pos dp).
  destruct (template_long v0 Hv0 Fast N) as (h2 & Hh2 & G2).
  exists h2. split; [exact Hh2|]. intros h Hh. destruct (G2 h Hh) as (w & E & I & Fw).
  destruct (C63_flow_stops_for_a_reason _ _ _ (nearby_cooling dt dp h ltac:(lra) ltac:(lra))) as (w' & E' & _).
  assert (W0 := nearby_within 0 0 ltac:(rewrite Rabs_R0; lra)). rewrite nearby_itself in W0.
  assert (Ee : Rabs (st_temp (template_state 0) - st_temp (nearby dt dp)) + Rabs (st_phi (template_state 0) - st_phi (nearby dt dp)) = Rabs dt + Rabs dp).
  { rewrite <- (Rabs_Ropp dt), <- (Rabs_Ropp dp). f_equal; f_equal; cbn; rnum; lra. }
  destruct (G (template_state 0) (nearby dt dp) h N (step_bound 30000 0 h) (step_bound (ter_maxlen (s_ter (tdx h))) (st_pos (nearby dt dp)) (s_dx (tdx h))) w w' ltac:(lra) W0 template_losing (nearby_within dt dp ltac:(lra)) (nearby_losing dt dp ltac:(lra)))
    as (I' & _ & Cl); [apply template_moves; lra|cbn; rnum; lra|rewrite Ee; lra|exact E|exact E'|exact I|exact Fw|].
  rewrite Ee in Cl. eexists _, w, w'. split; [exact E|]. split; [exact E'|]. split; [exact I'|exact Cl].
Qed.
