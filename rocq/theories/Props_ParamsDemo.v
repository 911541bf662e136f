(** * Props_ParamsDemo: the shipped template meets the hypotheses of C64, C65 and C66 *)
From Coq Require Import Reals Lra.
From Verif Require Import Base Num RNum Json Logger World Vesicle MeltVisc RelVisc Bubbles Terrain Lava
  Thermal Flux Integrator Factory Run Props_Params Props_Unused Valid Props_ValidRun Cooling Props_Cooling Props_Template.
Open Scope R_scope.

(** C64 on the template: the strain rate a run starts from. *)
Example template_strain : forall eri, st_strain (template_state eri) = 3 * IZR eri / (14 / 10 * (14 / 10) * (45 / 10)).
Proof.
  intros eri. destruct (C64_initial_state _ _ _ _ _ _ _ _ (template_prepares eri))
    as (d & q & width & Hd & (v & Ev & Eq) & (w & Ew & Eww) & _ & _ & _ & _ & _ & _ & _ & E & _).
  change (load_json (template_fs eri) "resource/template.json") with (Ok (template eri)) in Hd. injection Hd as <-.
  change (jget (template eri) "effusion_rate_init") with (Ok (@JInt R eri)) in Ev. injection Ev as <-.
  change (jget2 (template eri) "terrain_conditions" "width") with (Ok (num 45 10)) in Ew. injection Ew as <-.
  cbn in Eq, Eww. rnum. injection Eq as <-. injection Eww as <-. rewrite E. f_equal; lra.
Qed.

(** C65 on the template: its 26 model parameters. *)
Example template_settings : forall eri, exists mo,
  build_models (template eri) (crust_profile (template_fs eri)) = Ok mo /\
  length (settings mo) = 26%nat /\
  In ("conduction_parameters", "core_base_distance", @n_lit R RNum 19 1) (settings mo) /\
  In ("melt_viscosity_parameters", "a_vft", @n_lit R RNum (-452) 100) (settings mo).
Proof.
  intros eri. eexists. split; [reflexivity|]. split; [reflexivity|]. split; cbn; repeat (try (left; reflexivity); right).
Qed.

(** C66 on the template: a comment added to it changes nothing, and the run is
    one that completes. *)
Definition commented (eri : Z) : json R :=
  JObj (assoc_set "comment" (JStr "Etna 2001") (template_fields "basic" eri)).
Example template_commented : forall sf sc eri folder, (0 <= eri)%Z ->
  exists fuel fs' log',
    run sf sc fuel (fs_write "resource/template.json" (FJson (commented eri)) (template_fs eri)) [] "resource/template.json" folder
      = Some (Ok tt, fs', log') /\
    exists fs'', run sf sc fuel (fs_write "resource/template.json" (FJson (template eri)) (template_fs eri)) [] "resource/template.json" folder
      = Some (Ok tt, fs'', log') /\ forall q, q <> "resource/template.json" -> fs' q = fs'' q.
Proof.
  intros sf sc eri folder He.
  assert (P : prepare mass_flag (fs_write "resource/template.json" (FJson (template eri)) (template_fs eri)) "resource/template.json"
    = Ok (JInt eri, JStr "template", template_sim eri, template_state eri, n_lit 14 10)) by exact (template_prepares eri).
  destruct (C57_valid_configuration_runs sf sc _ [] "resource/template.json" folder _ _ _ _ _
    P (co_valid _ _ _ (template_cooling eri He))) as (fuel & fs1 & log1 & E & _).
  assert (X := C66_extra_top_level_entries sf sc (template_fields "basic" eri) "comment" (JStr "Etna 2001") fuel
    (template_fs eri) [] "resource/template.json" folder ltac:(apply listed1_not; reflexivity)).
  change (new_runner []) with ([] : table R) in E.
  unfold same_outcome in X. unfold template in E. rewrite E in X. unfold commented.
  destruct (run sf sc fuel (fs_write _ (FJson (JObj (assoc_set _ _ _))) _) _ _ _) as [[[r2 fs2] log2]|] eqn:E2; [|contradiction].
  destruct X as (<- & <- & X). exists fuel, fs2, log1. split; [exact E2|]. exists fs1. unfold template. split; [exact E|].
  intros q Hq. symmetry. auto.
Qed.
