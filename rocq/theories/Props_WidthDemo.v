(** * Props_WidthDemo: C74 on the shipped template: 9 m instead of 4.5 m *)
From Coq Require Import Reals Lra.
From Verif Require Import Base Num Json Logger World Vesicle MeltVisc RelVisc Bubbles Terrain Lava
  Thermal Flux Integrator Factory Run RNum StepProps Props_Run Valid Props_ValidRun Cooling Props_Cooling
  Props_EffArray Props_Unused WidthScale Props_Width Props_Template.
Open Scope R_scope.

Example template_wider : forall sf sc eri folder, (0 <= eri)%Z ->
  exists g fuel fs1 table1 fs2,
    assoc "terrain_conditions" (template_fields "basic" eri) = Some (JObj g) /\
    run sf sc fuel (fs_write "resource/template.json" (FJson (JObj (template_fields "basic" eri))) (template_fs eri)) []
      "resource/template.json" folder = Some (Ok tt, fs1, table1) /\
    run sf sc fuel (fs_write "resource/template.json" (FJson (JObj
        (assoc_set "effusion_rate_init" (JInt (2 * eri))
          (assoc_set "terrain_conditions" (JObj (assoc_set "width" (num 9 1) g)) (template_fields "basic" eri))))) (template_fs eri)) []
      "resource/template.json" folder = Some (Ok tt, fs2, scale_table 2 table1).
Proof.
  intros sf sc eri folder He.
  assert (P : prepare mass_flag (fs_write "resource/template.json" (FJson (JObj (template_fields "basic" eri))) (template_fs eri)) "resource/template.json"
    = Ok (JInt eri, JStr "template", template_sim eri, template_state eri, n_lit 14 10)) by exact (template_prepares eri).
  destruct (C57_valid_configuration_runs sf sc _ [] "resource/template.json" folder _ _ _ _ _
    P (co_valid _ _ _ (template_cooling eri He))) as (fuel & fs1 & log1 & E & _).
  change (new_runner []) with ([] : table R) in E.
  assert (G : exists g, assoc "terrain_conditions" (template_fields "basic" eri) = Some (JObj g)) by (eexists; reflexivity).
  destruct G as (g & G).
  assert (X := C74_wider_configuration sf sc 2 ltac:(lra) (template_fields "basic" eri) g (JInt (2 * eri)) (num 9 1) (n_lit eri 1) (n_lit 45 10)
    G eq_refl eq_refl). 
  assert (A1 : py_float (JInt (2 * eri)) = Ok (2 * n_lit eri 1)) by (change (Ok (IZR (2 * eri) / 1) = Ok (2 * (IZR eri / 1))); rewrite mult_IZR; f_equal; lra).
  assert (A2 : py_float (num 9 1) = Ok (2 * n_lit 45 10)) by (cbn; rnum; f_equal; lra).
  specialize (X A1 A2 fuel (template_fs eri) "resource/template.json" folder). rewrite E in X.
  destruct (run sf sc fuel (fs_write _ (FJson (JObj (assoc_set _ _ _))) _) _ _ _) as [[[r2 fs2] log2]|] eqn:E2; [|contradiction].
  destruct X as (-> & ->). exists g, fuel, fs1, log1, fs2. split; [exact G|]. split; [exact E|]. exact E2.
Qed.

(** The background radiance is a positive number: the column spectral_radiance
    is not proportional to the width. *)
Lemma planck_positive t : 0 < t -> exists p, planck t = Ok p /\ 0 < p.
Proof.
  intros Ht. unfold planck.
  assert (Hl : 0 < sr_lamda) by (unfold sr_lamda; rnum; lra).
  assert (Hkp : 0 < sr_kapa) by (unfold sr_kapa; rnum; lra).
  assert (Hh : 0 < sr_h) by (unfold sr_h; rnum; lra). assert (Hc : 0 < sr_c) by (unfold sr_c; rnum; lra).
  unfold sr_C1, sr_C2. rnum. unfold R_pow. rewrite R_power_2, R_power_pos, R_div_ok by lra. cbn [rbind].
  rewrite R_div_ok by (apply Rmult_integral_contrapositive; split; lra). cbn [rbind].
  assert (Hx : 0 < sr_h * sr_c / sr_kapa / (sr_lamda * t)).
  { apply Rdiv_lt_0_compat; [apply Rdiv_lt_0_compat; [apply Rmult_lt_0_compat; assumption|assumption]|apply Rmult_lt_0_compat; assumption]. }
  assert (He : 0 < exp (sr_h * sr_c / sr_kapa / (sr_lamda * t)) - 1).
  { assert (Q := exp_ineq1 _ (Rgt_not_eq _ _ Hx)). lra. }
  rewrite R_div_ok by lra. eexists. split; [reflexivity|].
  apply Rdiv_lt_0_compat; [|exact He]. apply Rmult_lt_0_compat; [|apply exp_pos].
  assert (P := PI_RGT_0). assert (0 < sr_c ^ 2) by (apply pow_lt; exact Hc).
  repeat first [assumption | lra | apply Rmult_lt_0_compat].
Qed.
Example background_positive : 0 < background.
Proof.
  unfold background. destruct (planck_positive (n_lit 258 1)) as (p & -> & Hp); [rnum; lra|]. lra.
Qed.
