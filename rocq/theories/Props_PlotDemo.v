(** * Props_PlotDemo: C68 on the shipped template and on a small table *)
From Coq Require Import Reals Lra.
From Flocq Require Import Core.
From Verif Require Import Base Num Json Logger World Vesicle MeltVisc RelVisc Bubbles Terrain Lava
  Thermal Flux Integrator Factory Run RNum StepLog LoggerProofs RowProofs StepProps ColumnProofs Props_Run Props_Step Props_RunFile
  Props_RunOuts EffArray Valid Props_ValidRun Cooling Props_Cooling Plot Props_Plot Props_Template Props_RunOutsFile.
Open Scope R_scope.

Lemma template_plot_profile (fs : fsys R) eri : fs "resource/template.json" = Some (FJson (template eri)) ->
  fs "resource/example_slope_profile.txt" = Some (FText slope_lines) ->
  exists profile, plot_slope_file fs "resource/template.json" = Ok profile /\ length profile = 3%nat.
Proof.
  intros H1 H2. unfold plot_slope_file, load_json. rewrite H1. cbn [rbind].
  change (template eri) with (JObj (template_fields "basic" eri)). cbv iota beta.
  change (assoc "slope_file" (template_fields "basic" eri)) with (Some (@JStr R "resource/example_slope_profile.txt")).
  cbv iota beta. cbn [rbind]. rewrite H2.
  eexists [(n_lit 0 1, n_lit 30 1); (n_lit 100005 10, n_lit 30 1); (n_lit 30000 1, n_lit 30 1)].
  split; [reflexivity|reflexivity].
Qed.

(** The template (with effusion rate 0, so that its depth is the configured
    one): the run writes rows; it can be plotted as soon as it has three. *)
Example template_plots : forall sf sc log, exists fuel fs' log' r,
  run sf sc fuel (template_fs 0) (new_runner log) "resource/template.json" "out" = Some (Ok tt, fs', log') /\
  log' <> [] /\ (forall q, In q log' -> has_number q "slope") /\
  run_and_plot sf sc fuel (template_fs 0) log "resource/template.json" "out" [] = Some (r, fs', log') /\
  ((exists p, r = Ok p) <-> (3 <= length log')%nat).
Proof.
  intros sf sc log. destruct template_flows as (w & E & I & L & _).
  assert (Hne : w_log w <> []) by (intros Q; rewrite Q in L; cbn in L; lia).
  assert (Hs : forall q, In q (w_log w) -> has_number q "slope").
  { assert (Hdx : s_dx (template_sim 0) <> 0) by (cbn; rnum; lra).
    destruct (C62_table_of_a_run _ _ _ _ _ Hdx E) as (_ & done & rest & Ew & Ld & Ev & _).
    assert (rest = []) as ->. { rewrite Ew, app_length in L. destruct rest; [reflexivity|]. cbn in L. lia. }
    rewrite app_nil_r in Ew. rewrite Ew. intros q Hq. apply In_nth_error in Hq as (i & Hi).
    destruct (Ev _ _ Hi) as [_ K]. apply has_number_key. rewrite K. apply (proj2 (full_in (template_sim 0) "slope")). right. right. right. apply in_strings_true. reflexivity. }
  exists (step_bound 30000 0 10).
  assert (R : exists fs', run sf sc (step_bound 30000 0 10) (template_fs 0) (new_runner log) "resource/template.json" "out"
     = Some (Ok tt, fs', w_log w)).
  { unfold run. rewrite template_prepares. change (new_runner log) with (@nil (row R)).
    replace (n_lit 14 10) with (14 / 10) by (rnum; lra). rewrite E.
    destruct (C06_run_is_exportable (fun _ => True) (template_sim 0) _ _ _ w (fun p _ => R_refl p) (fun _ _ => Logic.I) Logic.I E) as [[f Hf] _].
    unfold write_table. destruct (w_log w) as [|first rest]; [contradiction|]. rewrite Hf. eauto. }
  destruct R as (fs' & R). exists fs', (w_log w).
  destruct (C53_written_where_announced _ _ _ _ _ _ _ _ _ R) as (path & Hpath & Hq & _).
  assert (Ep : path = result_path sf sc "out" (JStr "template") (JInt 0)) by (vm_compute in Hpath |- *; congruence).
  destruct (template_plot_profile fs' 0) as (profile & Hprof & _).
  { rewrite Hq; [reflexivity|]. rewrite Ep. intros Q. discriminate Q. }
  { rewrite Hq; [reflexivity|]. rewrite Ep. intros Q. discriminate Q. }
  destruct (C68_run_and_plot sf sc _ _ log _ _ _ _ _ _ _ _ _ profile (template_prepares 0) R Hne) as (r & Er & Rok & Rerr);
    [intros Q; discriminate Q|exact Hprof|].
  exists r. split; [exact R|]. split; [exact Hne|]. split; [exact Hs|]. split; [exact Er|].
  split.
  - intros (p & ->). destruct (le_lt_dec 3 (length (w_log w))) as [|Hl]; [assumption|]. exfalso.
    assert (X : exists e, Ok p = Err e) by (apply Rerr; lia). destruct X; discriminate.
  - intros H3. assert (C : convective (template_sim 0)) by (left; cbn; auto).
    destruct (proj2 Rok (conj C (conj H3 Hs))) as (p & -> & _). eauto.
Qed.


(** A table of three complete rows is drawn, and two points are drawn. *)
Definition small_row (p : R) : row R := ("position", CNum p) :: map (fun n => (n, CNum 1)) (snyder_column :: step_names ++ ["characteristic_surface_temperature"]).
Definition small_table : table R := [small_row 0; small_row 10; small_row 20].
Example small_drawn : exists c d, write_values_to_file small_table = Ok (Some c) /\
  plot_file (fun _ => Some (FCsv c)) "out" false "out/results_flowgo_etna_20m3s.csv" = Ok (d, true) /\
  map pr_position (dr_rows d) = [10; 20] /\ dr_snyder d = [1; 1] /\ dr_label d = "etna_20m3s".
Proof.
  eexists _, _. split; [reflexivity|]. split; [reflexivity|]. repeat split.
Qed.

(** The run-out file of that table: with points every 10 m the flow that was
    logged to 20 m is reported against the limit 30 m, so the line of the fourth
    point (30.4 m) is not read and the third (29.6 m) is printed as 30 m. *)
Definition small_slope : list string :=
  ["x	y	z	distance	slope"; "100	200	1000.26	0	5"; "100	210	999	10	5"; "100.5	220	998.5	29.6	5"; "0	0	0	30.4	5"].
Lemma round_0 n m z : (IZR z - / 2 < IZR n / IZR m < IZR z + / 2) -> py_round 0 (IZR n / IZR m) = IZR z.
Proof.
  intros H. unfold py_round. cbn [pow]. rewrite Rmult_1_r, (Znearest_imp _ _ z); [field|]. apply Rabs_lt. lra.
Qed.
Example small_run_outs : exists c ro fs' rows, write_values_to_file small_table = Ok (Some c) /\
  run_out_of c small_slope = Ok ro /\ ro_distance ro = 296 / 10 /\
  get_run_outs (fun _ => "") (fun _ => "") py_round
    (fun p => if String.eqb p "s.txt" then Some (FText small_slope) else Some (FCsv c)) "out" ["a.csv"; "b.csv"] "s.txt" (JStr "etna")
    = (Ok [(30, 1); (30, 1)], fs') /\
  fs' "out/run_outs_etna.csv" = Some (FOuts rows) /\ length rows = 2%nat.
Proof.
  destruct (write_values_to_file small_table) as [[c|]|] eqn:W; [|vm_compute in W; discriminate W..].
  exists c. assert (Hc : exists ro, run_out_of c small_slope = Ok ro /\ ro_distance ro = 296 / 10 /\ ro_eff ro = 1).
  { injection W as <-. unfold run_out_of.
    match goal with |- context [rmapM ?f ?l] => change (rmapM f l) with
      (Ok [{| o_pos := 0; o_width := 1; o_depth := 1; o_eff := 1 |}; {| o_pos := 10; o_width := 1; o_depth := 1; o_eff := 1 |};
           {| o_pos := 20; o_width := 1; o_depth := 1; o_eff := 1 |}]) end.
    cbn [rbind nth_err nth_error map o_pos py_max_list fold_left].
    assert (M : py_max (py_max 0 10) 20 = 20).
    { unfold py_max. rnum. rewrite (proj2 (R_ltb_true 0 10)) by lra. now rewrite (proj2 (R_ltb_true 10 20)) by lra. }
    rewrite M. change (n_add 20 10) with (20 + 10).
    assert (K : rmapM (read_xyz (20 + 10)) (tl small_slope) =
      Ok [Some (IZR 100 / IZR 1, IZR 200 / IZR 1, IZR 100026 / IZR 100, IZR 0 / IZR 1); Some (IZR 100 / IZR 1, IZR 210 / IZR 1, IZR 999 / IZR 1, IZR 10 / IZR 1);
          Some (IZR 1005 / IZR 10, IZR 220 / IZR 1, IZR 9985 / IZR 10, IZR 296 / IZR 10); None]).
    { assert (Q : forall t d x y z, column (split_on tab_char t) 3 = Ok d -> column (split_on tab_char t) 0 = Ok x ->
        column (split_on tab_char t) 1 = Ok y -> column (split_on tab_char t) 2 = Ok z -> d <= 20 + 10 -> read_xyz (20 + 10) t = Ok (Some (x, y, z, d))).
      { intros t d x y z A B C D E. unfold read_xyz. rewrite A. cbn [rbind]. rnum. rewrite (proj2 (R_leb_true d (20 + 10)) E). now rewrite B, C, D. }
      unfold small_slope. cbn [tl rmapM].
      rewrite (Q "100	200	1000.26	0	5" (IZR 0 / IZR 1) (IZR 100 / IZR 1) (IZR 200 / IZR 1) (IZR 100026 / IZR 100)) by (try reflexivity; lra).
      rewrite (Q "100	210	999	10	5" (IZR 10 / IZR 1) (IZR 100 / IZR 1) (IZR 210 / IZR 1) (IZR 999 / IZR 1)) by (try reflexivity; lra).
      rewrite (Q "100.5	220	998.5	29.6	5" (IZR 296 / IZR 10) (IZR 1005 / IZR 10) (IZR 220 / IZR 1) (IZR 9985 / IZR 10)) by (try reflexivity; lra).
      unfold read_xyz at 1. change (column (split_on tab_char "0	0	0	30.4	5") 3) with (Ok (IZR 304 / IZR 10)).
      cbn [rbind]. rnum. rewrite (proj2 (R_leb_false (304 / 10) (20 + 10))) by lra. reflexivity. }
    rewrite K. cbn. eexists. split; [reflexivity|]. cbn. split; reflexivity. }
  destruct Hc as (ro & Hro & Hd & He). exists ro.
  unfold get_run_outs. cbn [outs_rows]. unfold run_out_file.
  change (run_outs_path _ _ "out" (JStr "etna")) with "out/run_outs_etna.csv".
  cbn [fs_write String.eqb Ascii.eqb Bool.eqb]. unfold fs_write. cbn [String.eqb Ascii.eqb Bool.eqb]. rewrite Hro.
  eexists. exists [(JStr "etna", outs_numbers py_round ro); (JStr "etna", outs_numbers py_round ro)]. split; [reflexivity|]. split; [reflexivity|]. split; [exact Hd|]. refine (conj _ (conj _ eq_refl)).
  - apply (f_equal2 pair); [apply f_equal|reflexivity]. unfold outs_series, outs_numbers. destruct (ro_start ro) as [[x0 y0] z0], (ro_end ro) as [[x1 y1] z1].
    cbn [map snd nth]. rewrite Hd, He.
    assert (A : py_round 0 (296 / 10) = 30) by (apply (round_0 296 10 30); lra).
    assert (B : py_round 0 1 = 1) by (replace 1 with (1 / 1) at 1 by field; apply (round_0 1 1 1); lra).
    now rewrite A, B.
  - cbv beta. reflexivity.
Qed.
