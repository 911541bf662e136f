(** * Props_CausalDemo: C83 on the shipped template with two slope files that differ from 30 km on *)
From Coq Require Import Reals Lra.
From Verif Require Import Base Num Json Logger World Vesicle MeltVisc RelVisc Bubbles Terrain Lava
  Thermal Flux Integrator Factory Run RNum StepProps Props_Run Props_Terrain Props_RunOuts Valid Props_ValidRun Cooling Props_Cooling
  Props_Prefix Props_Template Causal Props_Causal Props_CausalFile.
Open Scope R_scope.

(** Five slope lines: 30 degrees at 0, 500, 600 and 700 m, and [deg] at 30 km. *)
Definition bend_header : string := "X	Y	Z	Distance (m)	Slope (deg)".
Definition bend_common : list string :=
  [tabbed "0" "0" "0" "0" "30"; tabbed "0" "0" "0" "500" "30"; tabbed "0" "0" "0" "600" "30"; tabbed "0" "0" "0" "700" "30"].
Definition bend_tail (deg : string) : list string := [tabbed "0" "0" "0" "3e4" deg].
Definition bend_fs (deg : string) : fsys R := fun p =>
  if String.eqb p "resource/template.json" then Some (FJson (template 0))
  else if String.eqb p "resource/example_slope_profile.txt" then Some (FText (bend_header :: bend_common ++ bend_tail deg))
  else None.
Definition bend_ter0 : terrain R := {| ter_eff_init := n_lit 0 1; ter_width := n_lit 45 10;
     ter_gravity := n_lit 981 100; ter_maxlen := n_lit 30000 1; ter_default_slope := 2657414 / 1000000 * (PI / 180);
     ter_spline := None |}.
Definition with_terrain (t : terrain R) (sm : sim R) : sim R :=
  {| s_dx := s_dx sm; s_lava := s_lava sm; s_ter := t; s_air := s_air sm; s_cryst := s_cryst sm; s_crust := s_crust sm;
     s_cover := s_cover sm; s_budget := s_budget sm; s_mass := s_mass sm |}.

Lemma template_terrain : read_terrain (template 0) = Ok (bend_ter0, n_lit 14 10, Some (n_lit 5 1)).
Proof.
  unfold read_terrain, jfloat1, jfloat2, jget2, radians.
  cbn [template template_fields jget assoc String.eqb Ascii.eqb Bool.eqb rbind num py_float].
  cbn [n_div n_pi RNum n_lit]. rewrite R_div_ok by lra. cbn [rbind].
  replace (PI / (180 / 1)) with (PI / 180) by (field; lra). reflexivity.
Qed.
Lemma bend_prepares deg t : read_slope_from_file (bend_header :: bend_common ++ bend_tail deg) (Some (n_lit 5 1)) bend_ter0 = Ok t ->
  prepare mass_flag (bend_fs deg) "resource/template.json" =
  Ok (JInt 0, JStr "template", with_terrain t (template_sim 0), template_state 0, n_lit 14 10).
Proof.
  intros Ht. unfold prepare.
  change (load_json (bend_fs deg) "resource/template.json") with (Ok (template 0)). cbn [rbind].
  change (jget (template 0) "effusion_rate_init") with (Ok (@JInt R 0)). cbn [rbind].
  change (require1 (template 0) "lava_name") with (Ok (@JStr R "template")). cbn [rbind].
  change (require1 (template 0) "slope_file") with (Ok (@JStr R "resource/example_slope_profile.txt")). cbn [rbind].
  change (require1 (template 0) "step_size") with (Ok (num 10 1)). cbn [rbind].
  change (py_float (num 10 1)) with (Ok (@n_lit R RNum 10 1)). cbn [rbind].
  change (mass_raw (template 0)) with (Ok (@JBool R false)). cbn [rbind].
  rewrite template_terrain. cbn [rbind].
  change (read_slope_lines (bend_fs deg) (JStr "resource/example_slope_profile.txt"))
    with (Ok (bend_header :: bend_common ++ bend_tail deg)). cbn [rbind].
  rewrite Ht. cbn [rbind].
  set (m := {| mo_cryst := s_cryst (template_sim 0); mo_air := s_air (template_sim 0);
     mo_lava := s_lava (template_sim 0); mo_cover := s_cover (template_sim 0); mo_crust := s_crust (template_sim 0);
     mo_budget := s_budget (template_sim 0) |}).
  assert (Em : build_models (template 0) (crust_profile (bend_fs deg)) = Ok m) by reflexivity.
  rewrite Em. cbn [rbind].
  assert (Es : initialize_state (mo_lava m) (mo_cryst m) (template 0) = Ok (template_state 0)).
  { unfold initialize_state, jfloat1, jfloat2.
    cbn [template template_fields jget assoc String.eqb Ascii.eqb Bool.eqb rbind num py_float].
    change (get_crystal_fraction (mo_cryst m) (lv_terupt (mo_lava m))) with (Ok (@n_lit R RNum 104 1000)). cbn [rbind].
    rnum. unfold R_mpow. rewrite R_power_2. cbn [rbind]. rewrite R_div_ok by (simpl; lra). cbn [rbind].
    rewrite R_div_ok by lra. cbn [rbind]. unfold template_state. rnum. reflexivity. }
  rewrite Es. reflexivity.
Qed.

Lemma bend_rows deg (x : R) : @parse_float R RNum deg = Ok x -> split_on tab_char (tabbed "0" "0" "0" "3e4" deg) = ["0"; "0"; "0"; "3e4"; deg] ->
  Forall2 (fun line r => well_formed line (fst r) (snd r)) (bend_common ++ bend_tail deg)
    [(0, 30); (500, 30); (600, 30); (700, 30); (30000, x)] /\
  Forall2 (fun line r => well_formed line (fst r) (snd r)) bend_common [(0, 30); (500, 30); (600, 30); (700, 30)].
Proof.
  intros Hx Hs.
  assert (P0 : @parse_float R RNum "0" = Ok (n_lit 0 1)) by reflexivity.
  assert (P1 : @parse_float R RNum "30" = Ok (n_lit 30 1)) by reflexivity.
  assert (P2 : @parse_float R RNum "500" = Ok (n_lit 500 1)) by reflexivity.
  assert (P3 : @parse_float R RNum "600" = Ok (n_lit 600 1)) by reflexivity.
  assert (P4 : @parse_float R RNum "700" = Ok (n_lit 700 1)) by reflexivity.
  assert (P5 : @parse_float R RNum "3e4" = Ok (n_lit 30000 1)) by reflexivity.
  assert (C : Forall2 (fun line r => well_formed line (fst r) (snd r)) bend_common [(0, 30); (500, 30); (600, 30); (700, 30)]).
  { repeat apply Forall2_cons; [..|apply Forall2_nil]; unfold well_formed, tabbed; vm_compute split_on;
      eexists _, _, _, _, _, _, (n_lit 0 1), (n_lit 0 1), (n_lit 0 1); (split; [reflexivity|]);
      rewrite ?P0, ?P1, ?P2, ?P3, ?P4; repeat split; apply f_equal; cbn [fst snd]; rnum; lra. }
  split; [|exact C].
  change [(0, 30); (500, 30); (600, 30); (700, 30); (30000, x)] with ([(0, 30); (500, 30); (600, 30); (700, 30)] ++ [(30000, x)]).
  apply Forall2_app; [exact C|]. apply Forall2_cons; [|apply Forall2_nil]. unfold well_formed. rewrite Hs.
  exists "0", "0", "0", "3e4", deg, [], (n_lit 0 1), (n_lit 0 1), (n_lit 0 1). split; [reflexivity|].
  rewrite P0, P5, Hx. repeat split; apply f_equal; cbn [fst snd]; rnum; lra.
Qed.
Lemma bend_points : read_slope_profile (bend_header :: bend_common) =
  Ok [(0, 30 * (PI / 180)); (500, 30 * (PI / 180)); (600, 30 * (PI / 180)); (700, 30 * (PI / 180))].
Proof.
  rewrite (C46_profile_exact _ _ [(0, 30); (500, 30); (600, 30); (700, 30)]).
  - cbn [filter map fst snd]. assert (E : R_ltb (1 / 10) 30 = true) by (apply R_ltb_true; lra). rewrite !E. reflexivity.
  - exact (proj2 (bend_rows "30" (n_lit 30 1) eq_refl eq_refl)).
Qed.

(** A run on either file. *)
Lemma bend_runs sf sc folder deg (x : R) : @parse_float R RNum deg = Ok x ->
  split_on tab_char (tabbed "0" "0" "0" "3e4" deg) = ["0"; "0"; "0"; "3e4"; deg] -> 1 / 10 < x -> x < 90 ->
  exists t, read_slope_from_file (bend_header :: bend_common ++ bend_tail deg) (Some (n_lit 5 1)) bend_ter0 = Ok t /\
  exists fuel fs' log', run sf sc fuel (bend_fs deg) (new_runner []) "resource/template.json" folder = Some (Ok tt, fs', log').
Proof.
  intros Hx Hs Hlo Hhi. set (rows := [(0, 30); (500, 30); (600, 30); (700, 30); (30000, x)]).
  assert (W := proj1 (bend_rows deg x Hx Hs)). fold rows in W.
  assert (K : filter (fun r => R_ltb (1 / 10) (snd r)) rows = rows).
  { unfold rows. cbn [filter snd]. rewrite !(proj2 (R_ltb_true (1 / 10) 30)) by lra. rewrite (proj2 (R_ltb_true _ x)) by lra. reflexivity. }
  assert (E : exists t, read_slope_from_file (bend_header :: bend_common ++ bend_tail deg) (Some (n_lit 5 1)) bend_ter0 = Ok t).
  { unfold read_slope_from_file. rewrite (C46_profile_exact _ _ rows W). cbn [rbind]. rewrite K.
    rewrite C47_running_mean by (rnum; lra). cbn [rbind]. unfold make_spline. rewrite !map_length, seq_length. cbn [rows length map fst snd Nat.ltb Nat.leb Nat.eqb negb].
    cbn [strictly_increasing]. rnum. rewrite !(proj2 (R_ltb_true _ _)) by lra. cbn [andb]. eexists. reflexivity. }
  destruct E as (t & Ht). exists t. split; [exact Ht|].
  assert (T : ter_eff_init t = ter_eff_init bend_ter0 /\ ter_width t = ter_width bend_ter0 /\ ter_gravity t = ter_gravity bend_ter0 /\
     ter_maxlen t = ter_maxlen bend_ter0 /\ slope_defined t).
  { assert (Q := Ht). unfold read_slope_from_file in Q. apply rbind_ok in Q as (? & _ & Q). apply rbind_ok in Q as (? & _ & Q).
    apply rbind_ok in Q as (sp & S & Q). apply Ok_inj in Q. subst t. cbn. do 4 (split; [reflexivity|]). eexists _, _. exact S. }
  destruct T as (T1 & T2 & T3 & T4 & T5).
  assert (Down : forall sl, get_channel_slope t 0 = Ok sl -> 0 < sin sl).
  { intros sl Hsl. assert (H5 : 0 <= @n_lit R RNum 5 1) by (rnum; lra).
    assert (Q := C47_file_to_smoothed_slope bend_header _ rows (n_lit 5 1) bend_ter0 t 0 (0, 30) W H5 Ht).
    cbv zeta in Q. rewrite K in Q. specialize (Q eq_refl). cbn [fst] in Q. rewrite Q in Hsl. apply Ok_inj in Hsl. subst sl.
    assert (P := PI_RGT_0).
    match goal with |- 0 < sin (mean_R ?l) => assert (B : 1 / 10 * (PI / 180) <= mean_R l <= 90 * (PI / 180)) end.
    { apply mean_bounds.
      - destruct (running_mean_at_R (map (fun r => snd r * (PI / 180)) rows) (n_lit 5 1) 0) as [_ B]; [rnum; lra|cbn; lia|exact B].
      - apply Forall_forall. intros y Hy. apply window_incl in Hy. cbn [rows map snd In] in Hy.
        assert (D : 0 < PI / 180) by lra.
        repeat destruct Hy as [<-|Hy]; try destruct Hy; split; apply Rmult_le_compat_r; lra. }
    apply sin_gt_0; lra. }
  assert (V := co_valid _ _ _ (template_cooling 0 ltac:(lia))).
  assert (Vb : valid (with_terrain t (template_sim 0)) (template_state 0) (14 / 10)).
  { constructor; [|exact I]. constructor; cbn [with_terrain s_ter s_dx s_lava s_cryst s_air s_crust s_cover s_budget s_mass];
      rewrite ?T1, ?T2, ?T3, ?T4; try apply V.
    - exact T5.
    - intros sl. replace (st_pos (template_state 0)) with 0 by (cbn; rnum; lra). apply Down. }
  replace (14 / 10) with (@n_lit R RNum 14 10) in Vb by (rnum; lra).
  destruct (C57_valid_configuration_runs sf sc (bend_fs deg) [] "resource/template.json" folder _ _ _ _ _
    (bend_prepares deg t Ht) Vb) as (fuel & fs' & log' & R & _). eauto.
Qed.

(** A steeper or a flatter end of the channel: the rows of the first 500 m are the same. *)
Example C83_template : forall sf sc folder, exists fuel1 fuel2 fs1 fs2 log1 log2,
  run sf sc fuel1 (bend_fs "30") (new_runner []) "resource/template.json" folder = Some (Ok tt, fs1, log1) /\
  run sf sc fuel2 (bend_fs "5") (new_runner []) "resource/template.json" folder = Some (Ok tt, fs2, log2) /\
  exists same more1 more2, log1 = same ++ more1 /\ log2 = same ++ more2 /\
    forall r, In r more1 \/ In r more2 -> exists p, row_position r p /\ 500 <= p.
Proof.
  intros sf sc folder.
  destruct (bend_runs sf sc folder "30" (n_lit 30 1) eq_refl eq_refl ltac:(rnum; lra) ltac:(rnum; lra)) as (t1 & T1 & fuel1 & fs1 & log1 & R1).
  destruct (bend_runs sf sc folder "5" (n_lit 5 1) eq_refl eq_refl ltac:(rnum; lra) ltac:(rnum; lra)) as (t2 & T2 & fuel2 & fs2 & log2 & R2).
  exists fuel1, fuel2, fs1, fs2, log1, log2. split; [exact R1|]. split; [exact R2|].
  apply (C83_slope_file_downstream sf sc fuel1 fuel2 (bend_fs "30") (bend_fs "5") "resource/example_slope_profile.txt" bend_header
    bend_common (bend_tail "30") (bend_tail "5") (Some (n_lit 5 1))
    [(0, 30 * (PI / 180)); (500, 30 * (PI / 180)); (600, 30 * (PI / 180)); (700, 30 * (PI / 180))] 1 (500, 30 * (PI / 180))
    "resource/template.json" folder fs1 fs2 log1 log2
    (JInt 0) (JStr "template") (with_terrain t1 (template_sim 0)) (template_state 0) (n_lit 14 10)).
  - split; [reflexivity|]. split; [reflexivity|]. split; [|discriminate].
    intros q Hq. unfold bend_fs. destruct (String.eqb q "resource/template.json"); [reflexivity|].
    apply String.eqb_neq in Hq. rewrite Hq. reflexivity.
  - eexists _, _, _. split; [reflexivity|]. exact template_terrain.
  - intros n Hn. injection Hn as <-. rnum. lra.
  - exact bend_points.
  - reflexivity.
  - lia.
  - cbn [reach length]. unfold half_window. replace (@n_lit R RNum 5 1 / 2) with (5 / 2) by (rnum; lra).
    rewrite (Int_part_unique (5 / 2) 2) by lra. cbn. lia.
  - exact (bend_prepares _ _ T1).
  - cbn. rnum. lra.
  - cbn. rnum. lra.
  - exact R1.
  - exact R2.
Qed.
