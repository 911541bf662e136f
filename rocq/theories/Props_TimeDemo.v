(** * Props_TimeDemo: C71 on the shipped template (constant crust temperature, time 1) *)
From Coq Require Import Reals Lra.
From Verif Require Import Base Num Json Logger World Vesicle MeltVisc RelVisc Bubbles Terrain Lava
  Thermal Flux Integrator Factory Run RNum StepProps Props_Run Props_Thermal Valid Props_ValidRun Cooling Props_Cooling
  Props_EffArray Props_Unused Timeless Props_Time Props_Template.
Open Scope R_scope.

(** The template runs; the same template started at 7200 s gives the same table. *)
Example template_later : forall sf sc eri folder, (0 <= eri)%Z ->
  exists g fuel fs1 table1 fs2,
    assoc "lava_state" (template_fields "basic" eri) = Some (JObj g) /\
    run sf sc fuel (fs_write "resource/template.json" (FJson (JObj (template_fields "basic" eri))) (template_fs eri)) []
      "resource/template.json" folder = Some (Ok tt, fs1, table1) /\
    run sf sc fuel (fs_write "resource/template.json" (FJson (JObj
        (assoc_set "lava_state" (JObj (assoc_set "time" (num 7200 1) g)) (template_fields "basic" eri)))) (template_fs eri)) []
      "resource/template.json" folder = Some (Ok tt, fs2, table1) /\
    forall q, q <> "resource/template.json" -> fs1 q = fs2 q.
Proof.
  intros sf sc eri folder He.
  assert (P : prepare mass_flag (fs_write "resource/template.json" (FJson (JObj (template_fields "basic" eri))) (template_fs eri)) "resource/template.json"
    = Ok (JInt eri, JStr "template", template_sim eri, template_state eri, n_lit 14 10)) by exact (template_prepares eri).
  destruct (C57_valid_configuration_runs sf sc _ [] "resource/template.json" folder _ _ _ _ _
    P (co_valid _ _ _ (template_cooling eri He))) as (fuel & fs1 & log1 & E & _).
  change (new_runner []) with ([] : table R) in E.
  assert (G : exists g, assoc "lava_state" (template_fields "basic" eri) = Some (JObj g)) by (eexists; reflexivity).
  destruct G as (g & G).
  assert (X := C71_editing_the_time_changes_nothing sf sc (template_fields "basic" eri) g (num 7200 1) (n_lit 1 1) (n_lit 7200 1) fuel
    (template_fs eri) [] "resource/template.json" folder G eq_refl eq_refl (or_introl eq_refl)).
  unfold same_outcome in X. rewrite E in X.
  destruct (run sf sc fuel (fs_write _ (FJson (JObj (assoc_set _ _ _))) _) _ _ _) as [[[r2 fs2] log2]|] eqn:E2; [|contradiction].
  destruct X as (<- & <- & X). exists g, fuel, fs1, log1, fs2. split; [exact G|]. split; [exact E|]. split; [exact E2|]. exact X.
Qed.

(** With the hon crust the time does matter: the crust is cooler later. *)
Example hon_time_matters : exists a b, compute_crust_temperature CtHon (set_current_time 3600 (template_state 0)) = Ok a /\
  compute_crust_temperature CtHon (set_current_time 36000 (template_state 0)) = Ok b /\ b < a.
Proof.
  eexists _, _. assert (Ha := proj1 (C35_hon (set_current_time 3600 (template_state 0)))).
  assert (Hb := proj1 (C35_hon (set_current_time 36000 (template_state 0)))). cbn [set_current_time st_time] in Ha, Hb.
  split; [apply Ha; lra|]. split; [apply Hb; lra|].
  eapply (C35_hon_decreasing (set_current_time 3600 (template_state 0)) (set_current_time 36000 (template_state 0)));
    [cbn [set_current_time st_time]; lra|apply Ha; lra|apply Hb; lra].
Qed.
