(** * Props_LogIndepDemo: C70 on the shipped template *)
From Coq Require Import Reals Lra.
From Verif Require Import Base Num Json Logger World Vesicle MeltVisc RelVisc Bubbles Terrain Lava
  Thermal Flux Integrator Factory Run RNum StepProps Props_Run Props_RunOuts Valid Props_ValidRun Cooling Props_Cooling
  Props_RunFile EffArray Props_EffArray LogIndep Props_LogIndep Plot Props_Plot Props_Template.
Open Scope R_scope.

(** The shipped template runs, and running it again on the same runner
    reproduces the table and the files. *)
Example template_rerun : forall sf sc eri, (0 <= eri)%Z ->
  exists fuel fs1 table1 fs2,
    run sf sc fuel (template_fs eri) [] "resource/template.json" "out" = Some (Ok tt, fs1, table1) /\
    run sf sc fuel fs1 table1 "resource/template.json" "out" = Some (Ok tt, fs2, table1) /\
    (forall q, fs2 q = fs1 q).
Proof.
  intros sf sc eri He.
  destruct (C57_valid_configuration_runs sf sc _ [] "resource/template.json" "out" _ _ _ _ _
    (template_prepares eri) (co_valid _ _ _ (template_cooling eri He))) as (fuel & fs1 & log1 & E & _).
  change (new_runner []) with ([] : table R) in E.
  destruct (C53_written_where_announced _ _ _ _ _ _ _ _ _ E) as (path & Hpath & Hq & _).
  assert (Ep : exists rest, path = ("out/" ++ rest)%string).
  { revert Hpath. unfold get_file_name_results.
    change (load_json (template_fs eri) "resource/template.json") with (@Ok (json R) (template eri)). cbn [rbind].
    change (jget (template eri) "effusion_rate_init") with (@Ok (json R) (JInt eri)). cbn [rbind].
    change (require1 (template eri) "lava_name") with (@Ok (json R) (JStr "template")). cbn [rbind].
    intros H. apply Ok_inj in H. subst path. unfold result_path. eexists. reflexivity. }
  destruct Ep as (rest & ->).
  assert (A : forall q, (forall r, q <> ("out/" ++ r)%string) -> fs1 q = template_fs eri q) by (intros q Hn; apply Hq; intros X; exact (Hn _ X)).
  destruct (C70_second_run_is_idempotent sf sc fuel (template_fs eri) (template_fields "basic" eri) "resource/template.json" "out" fs1 log1) as (fs2 & E2 & Q).
  - reflexivity.
  - exact E.
  - apply A. intros r X. discriminate X.
  - intros p Hp. apply A. unfold slope_path in Hp. cbn in Hp. injection Hp as <-. intros r X. discriminate X.
  - apply A. intros r X. discriminate X.
  - exists fuel, fs1, log1, fs2. auto.
Qed.
