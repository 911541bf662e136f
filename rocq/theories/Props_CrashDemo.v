(** * Props_CrashDemo: C81 and C82 on the shipped template *)
From Coq Require Import FunctionalExtensionality List Lia Reals.
From Verif Require Import Base Num Json Logger World Vesicle MeltVisc RelVisc Bubbles Terrain Lava
  Thermal Flux Integrator Factory Run EffArray EditJson RNum Props_EffArray Props_Step Props_RunOuts StepProps Props_Run Valid Props_ValidRun Cooling Props_Cooling
  Props_Template Crash CrashProofs Props_Crash.

Section Demo.
Variables (str_float : R -> string) (str_container : json R -> string).
Variable garbled : file R -> nat -> file R.
Local Notation seen := (seen garbled).
Local Notation result_file := (get_file_name_results str_float str_container).
Local Notation rates_proc := (effusion_rates_proc str_float str_container).
Local Notation run := (run str_float str_container).
Local Notation run_proc := (run_proc str_float str_container).

Definition on_disk (fs : fsys R) : disk R := fun p => option_map Whole (fs p).
Lemma seen_on_disk fs : seen (on_disk fs) = fs.
Proof. apply functional_extensionality. intros p. unfold Crash.seen, on_disk. now destruct (fs p). Qed.

Lemma template_result eri folder : result_file (template_fs eri) folder "resource/template.json" =
  Ok (result_path str_float str_container folder (JStr "template") (JInt eri)).
Proof. reflexivity. Qed.
Lemma template_input eri q : input (template_fs eri) "resource/template.json" q ->
  q = "resource/template.json"%string \/ q = "resources/crust_temperature_profile.txt"%string \/ q = "resource/example_slope_profile.txt"%string.
Proof.
  intros [->|[->|(d & sf & Hd & Hs & H)]]; auto. right. right.
  change (load_json (template_fs eri) "resource/template.json") with (Ok (template eri)) in Hd. injection Hd as <-.
  change (jget (template eri) "slope_file") with (Ok (JStr (T := R) "resource/example_slope_profile.txt")) in Hs. injection Hs as <-.
  destruct H as [H|[H _]]; [injection H as <-; reflexivity|discriminate].
Qed.
(** The template run into the folder "out" may be killed and started again. *)
Example template_run_again : forall path,
  result_file (seen (on_disk (template_fs 3))) "out" "resource/template.json" = Ok path ->
  ~ input (seen (on_disk (template_fs 3))) "resource/template.json" path.
Proof.
  rewrite seen_on_disk. intros path H Hi. rewrite template_result in H. apply Ok_inj in H. subst path.
  apply template_input in Hi as [Hi|[Hi|Hi]]; discriminate Hi.
Qed.
(** Two runs of the template, into two folders, do not disturb each other (a job
    whose configuration does not exist does nothing). *)
Definition job_file (i : nat) : string := match i with 0 | 1 => "resource/template.json" | _ => "missing.json" end.
Definition job_folder (i : nat) : string := match i with 0 => "a" | _ => "b" end.
Example template_two_runs : forall i j path, i <> j ->
  result_file (seen (on_disk (template_fs 3))) (job_folder i) (job_file i) = Ok path ->
  ~ input (seen (on_disk (template_fs 3))) (job_file j) path /\
  result_file (seen (on_disk (template_fs 3))) (job_folder j) (job_file j) <> Ok path.
Proof.
  rewrite seen_on_disk. intros i j path Ne H.
  assert (M : forall folder, result_file (template_fs 3) folder "missing.json" = Err (FileNotFoundError "missing.json")) by reflexivity.
  assert (Mi : forall q, input (template_fs 3) "missing.json" q -> q = "missing.json"%string \/ q = "resources/crust_temperature_profile.txt"%string).
  { intros q [->|[->|(d & sf & Hd & _)]]; auto. discriminate Hd. }
  assert (Hj : forall folder, result_path str_float str_container folder (JStr "template") (JInt 3) = path -> folder = "a"%string \/ folder = "b"%string -> ~ input (template_fs 3) (job_file j) path).
  { intros folder <- F Hi. destruct F as [->| ->]; destruct j as [|[|j]]; cbn [job_file] in Hi;
      ((apply template_input in Hi as [Hi|[Hi|Hi]]; discriminate Hi) || (apply Mi in Hi as [Hi|Hi]; discriminate Hi)). }
  destruct i as [|[|i]]; cbn [job_file job_folder] in H; [| |rewrite M in H; discriminate H]; rewrite template_result in H; apply Ok_inj in H.
  - split; [apply (Hj _ H); auto|]. subst path. destruct j as [|[|j]]; cbn [job_file job_folder]; [contradiction| |rewrite M; discriminate].
    rewrite template_result. intros E. apply Ok_inj in E. discriminate E.
  - split; [apply (Hj _ H); auto|]. subst path. destruct j as [|[|j]]; cbn [job_file job_folder]; [|contradiction|rewrite M; discriminate].
    rewrite template_result. intros E. apply Ok_inj in E. discriminate E.
Qed.

(** ** Two sweeps of the same template into the same folder disturb each other *)
Definition shared : disk R := on_disk (fun p =>
  if String.eqb p "input/template.json" then Some (FJson (template 3))
  else if String.eqb p "resource/example_slope_profile.txt" then Some (FText slope_lines) else None).
Definition result_of (rate : Z) : string := result_path str_float str_container "resource" (JStr "template") (JInt rate).
Definition enough : nat := step_bound (ter_maxlen (s_ter (template_sim 0))) (st_pos (template_state 0)) (s_dx (template_sim 0)).

Lemma template_run_ok eri (d : disk R) : (0 <= eri)%Z ->
  seen d "resource/template.json" = Some (FJson (template eri)) ->
  seen d "resource/example_slope_profile.txt" = Some (FText slope_lines) ->
  seen d profile_path = None ->
  exists fs' log', run enough (seen d) (new_runner []) "resource/template.json" "resource" = Some (Ok tt, fs', log') /\
    (eri = 0%Z -> fs' (result_of 0) <> None).
Proof.
  intros He H1 H2 H3.
  assert (P : prepare mass_flag (seen d) "resource/template.json" = prepare mass_flag (template_fs eri) "resource/template.json").
  { symmetry. apply (prepare_agree mass_flag (template_fs eri) (seen d) "resource/template.json" (template_fields "basic" eri)).
    - reflexivity.
    - unfold agree. rewrite H1. reflexivity.
    - intros p Hp. assert (p = "resource/example_slope_profile.txt"%string) as -> by (cbn in Hp; injection Hp as <-; reflexivity). unfold agree. rewrite H2. reflexivity.
    - unfold agree. rewrite H3. reflexivity. }
  destruct (C57_valid_run _ _ _ (co_valid _ _ _ (template_cooling eri He))) as (w & E & _).
  assert (X := C06_run_is_exportable (fun _ => True) (template_sim eri) enough (template_state eri) (14 / 10)%R w).
  destruct X as [[tb Hf] _]; auto using R_refl.
  assert (E' : prepare mass_flag (template_fs eri) "resource/template.json" = Ok (JInt eri, JStr "template", template_sim eri, template_state eri, (14 / 10)%R)) by apply template_prepares.
  unfold Run.run, new_runner. rewrite P, E'. change clear with (@nil (row R)).
  replace (simulate enough (template_sim eri) (initial_world (template_state eri) [] (14 / 10)%R)) with (Some (Ok (A := unit) tt, w)) by (symmetry; exact E).
  unfold write_table. destruct (w_log w) as [|first rest] eqn:El.
  - eexists _, _. split; [reflexivity|]. intros ->. exfalso.
    destruct template_flows as (w0 & F & F1 & F2 & _).
    assert (F0 : enough = step_bound 30000 0 10).
    { unfold enough. f_equal; cbn; rnum; lra. }
    rewrite <- F0 in F. change (simulate enough (template_sim 0) (initial_world (template_state 0) [] (14 / 10)%R) = Some (Ok tt, w)) in E.
    rewrite E in F. injection F as <-. rewrite El in F2. cbn in F2. lia.
  - rewrite Hf. eexists _, _. split; [reflexivity|]. intros ->. unfold fs_write, result_of. rewrite String.eqb_refl. discriminate.
Qed.

Definition sweeps (fuel : nat) (i : nat) : proc R (option (res (list string))) :=
  match i with
  | 0 => rates_proc fuel "input/template.json" "resource" 0 0 1
  | _ => rates_proc fuel "input/template.json" "resource" 5 5 1
  end.

(** The first sweep, alone, computes rate 0 and its result file is there; with
    the second one started at the wrong moment it reports the same success,
    and the file it names does not exist: it has run the other sweep's
    configuration. *)
Theorem C82_shared_folder_refuted :
  (exists fs' log', run_effusion_rates str_float str_container enough (seen shared) [] "input/template.json" "resource" 0 0 1 =
     Some (Ok [result_of 0], fs', log') /\ fs' (result_of 0) <> None) /\
  exists sch d' ps', together garbled sch shared (sweeps enough) = (d', ps') /\
    ps' 0%nat = Done (Some (Ok [result_of 0])) /\ d' (result_of 0) = None.
Proof.
  assert (Es : forall p, seen shared p = if String.eqb p "input/template.json" then Some (FJson (template 3))
     else if String.eqb p "resource/example_slope_profile.txt" then Some (FText slope_lines) else None).
  { intros p. unfold shared. rewrite seen_on_disk. reflexivity. }
  assert (Rg : forall z, py_range z (z + 1) 1 = Ok [z]).
  { intros z. unfold py_range. cbn [Z.eqb]. unfold range_len. cbn [Z.ltb Z.compare]. rewrite (proj2 (Z.ltb_lt z (z + 1))) by lia.
    replace (z + 1 - z - 1)%Z with 0%Z by lia. reflexivity. }
  assert (Wk : working_path "resource" "input/template.json" = "resource/template.json"%string) by reflexivity.
  split.
  - unfold run_effusion_rates. unfold load_json. rewrite Es. cbn [String.eqb Ascii.eqb Bool.eqb]. change (0 + 1)%Z with (0 + 1)%Z. rewrite (Rg 0%Z), Wk.
    unfold template. cbn [EffArray.sweep jset].
    set (data := JObj (assoc_set "effusion_rate_init" (JInt 0) (template_fields "basic" 3))).
    assert (Ed : data = template 0) by reflexivity.
    rewrite <- (seen_put garbled "resource/template.json" (FJson data) shared).
    destruct (template_run_ok 0 (put "resource/template.json" (Whole (FJson data)) shared) ltac:(lia)) as (fs' & log' & Er & Hr).
    + rewrite seen_put, Ed. reflexivity.
    + rewrite seen_put. reflexivity.
    + rewrite seen_put. reflexivity.
    + exists fs', log'. unfold new_runner in Er |- *. rewrite Er. split; [reflexivity|auto].
  - set (c0 := FJson (JObj (assoc_set "effusion_rate_init" (JInt 0) (template_fields "basic" 3)))).
    set (c5 := FJson (JObj (assoc_set "effusion_rate_init" (JInt 5) (template_fields "basic" 3)))).
    set (W := "resource/template.json"%string).
    set (d1 := put W (Whole c0) shared). set (d2 := put W (Whole c5) d1).
    set (rest := fun z (o : option (res unit)) => match o with None => Done None | Some (Err e) => fails e
       | Some (Ok _) => Done (T := R) (Some (Ok [result_of z])) end).
    assert (S0 : goes garbled [None; None; None] shared (sweeps enough 0%nat) = (d1, andthen (run_proc enough W "resource") (rest 0%Z))).
    { cbn [sweeps]. unfold effusion_rates_proc. cbn [goes move]. rewrite Es. cbn [String.eqb Ascii.eqb Bool.eqb json_of rdo].
      change (0 + 1)%Z with (0 + 1)%Z. rewrite (Rg 0%Z), Wk. cbn [rdo]. unfold template. cbn [sweep_proc jset rdo move]. fold c0 W. rewrite put_put. fold d1. reflexivity. }
    assert (S1 : goes garbled [None; None; None] d1 (sweeps enough 1%nat) = (d2, andthen (run_proc enough W "resource") (rest 5%Z))).
    { cbn [sweeps]. unfold effusion_rates_proc. cbn [goes move].
      assert (E1 : seen d1 "input/template.json" = Some (FJson (template 3))) by reflexivity. rewrite E1. cbn [json_of rdo].
      change (5 + 1)%Z with (5 + 1)%Z. rewrite (Rg 5%Z), Wk. cbn [rdo]. unfold template. cbn [sweep_proc jset rdo move]. fold c5 W. rewrite put_put. fold d2. reflexivity. }
    destruct (template_run_ok 5 d2 ltac:(lia)) as (fs' & log' & Er & _); [reflexivity..|].
    destruct (run_proc_spec str_float str_container garbled enough d2 [] W "resource") as [Sp _]. fold W in Er. unfold new_runner in Er, Sp. rewrite Er in Sp.
    destruct Sp as (d3 & Ea & _ & Ed3).
    destruct (finishes garbled (run_proc enough W "resource") d2) as [ms Hm]. rewrite Ea in Hm. cbn [fst snd] in Hm.
    apply (goes_andthen garbled (rest 0%Z)) in Hm as [ms' Hm]. cbn [rest] in Hm.
    exists (map (pair 0%nat) [None; None; None] ++ map (pair 1%nat) [None; None; None] ++ map (pair 0%nat) ms').
    rewrite together_app, only, S0. rewrite together_app, only. unfold upd at 1. cbn [Nat.eqb]. rewrite S1. rewrite only.
    unfold upd at 1. cbn [Nat.eqb]. unfold upd at 1. cbn [Nat.eqb]. rewrite Hm. eexists _, _. split; [reflexivity|]. split.
    + destruct ms' as [|m ms']; [|reflexivity]. unfold upd. cbn [Nat.eqb]. cbn [goes] in Hm. injection Hm as _ Hm. exact Hm.
    + assert (N2 : d2 (result_of 0) = None) by reflexivity.
      destruct Ed3 as [[-> _]|(p & g & Hp & -> & _)]; [exact N2|]. rewrite put_other; [exact N2|].
      intros Hq. subst p. assert (Hr : result_file (seen d2) "resource" W = Ok (result_of 5)) by reflexivity.
      rewrite Hr in Hp. apply Ok_inj in Hp. discriminate Hp.
Qed.

(** The template swept into another folder meets the hypotheses of
    C81_killed_sweep and C81_sweep_again ... *)
Example template_sweep_apart : let working := working_path "out" "resource/template.json" in
  sweep_apart str_float str_container "out" working (template_fields "basic" 3) (JStr "template") /\
  ("resource/template.json" <> working)%string /\
  forall r, ("resource/template.json" <> result_at str_float str_container "out" (JStr "template") r)%string.
Proof.
  cbn zeta. split; [split; [|split]|split].
  - intros p Hp. assert (p = "resource/example_slope_profile.txt"%string) as -> by (cbn in Hp; injection Hp as <-; reflexivity). split; [discriminate|intros r; discriminate].
  - split; [discriminate|intros r; discriminate].
  - intros r; discriminate.
  - discriminate.
  - intros r; discriminate.
Qed.
(** ... and swept into its own folder those of C81_template_can_be_lost. *)
Example template_in_its_folder : working_path "resource" "resource/template.json" = "resource/template.json"%string /\
  py_range 3 (5 + 1) 1 = Ok [3; 4; 5]%Z /\ forall (g : file R) j, (fun (_ : file R) (_ : nat) => FText (T := R) []) g 0%nat <> FJson j.
Proof. split; [reflexivity|]. split; [reflexivity|discriminate]. Qed.
End Demo.
