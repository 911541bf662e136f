(** * Props_Crash: killed runs and concurrent runs (C81, C82) *)
From Coq Require Import FunctionalExtensionality List Lia.
From Verif Require Import Base Num Json Logger World Vesicle MeltVisc RelVisc Bubbles Terrain Lava
  Thermal Flux Integrator Factory Run EffArray EditJson Props_EffArray Crash CrashProofs.

Section Crash.
Context {T : Type} {N : Num T}.
Variables (str_float : T -> string) (str_container : json T -> string).
Variable garbled : file T -> nat -> file T.
Local Notation seen := (seen garbled).
Local Notation goes := (goes garbled).
Local Notation alone := (alone garbled).
Local Notation reads := (reads garbled).
Local Notation writes := (writes garbled).
Local Notation outputs := (outputs garbled).
Local Notation together := (together garbled).
Local Notation run := (run str_float str_container).
Local Notation run_proc := (run_proc str_float str_container).
Local Notation result_file := (get_file_name_results str_float str_container).

(** The files run() reads: the configuration, the slope file it names, and the
    crust temperature profile. *)
Definition input (fs : fsys T) (json_file p : string) : Prop :=
  p = json_file \/ p = "resources/crust_temperature_profile.txt" \/
  exists d sf, load_json fs json_file = Ok d /\ jget d "slope_file" = Ok sf /\ (sf = JStr p \/ sf = JNull /\ p = "../MaunaUlu74/DEM_maunaulu74.txt").

Lemma require1_jget (d : json T) k v : require1 d k = Ok v -> jget d k = Ok v.
Proof.
  unfold require1. destruct (jmem d k) as [b|e]; cbn [rbind]; [|discriminate]. destruct b; [auto|discriminate].
Qed.

Local Ltac stop := eexists; split; [reflexivity|]; split; [reflexivity|left; split; reflexivity].

(** What an undisturbed process does is what [run] says. *)
Lemma run_proc_spec fuel (d : disk T) log json_file folder :
  let x := run_proc fuel json_file folder in
  (match run fuel (seen d) (new_runner log) json_file folder with
   | None => alone d x = (None, d) /\ outputs d x = []
   | Some (r, fs', _) => exists d', alone d x = (Some r, d') /\ seen d' = fs' /\
       ((d' = d /\ outputs d x = []) \/
        exists path f, result_file (seen d) folder json_file = Ok path /\ d' = put path (Whole f) d /\ outputs d x = [(path, f)])
   end) /\
  forall q, In q (reads d x) -> input (seen d) json_file q.
Proof.
  intros x. unfold x, Crash.run_proc, Run.run, prepare, new_runner, get_file_name_results. cbn [Crash.alone CrashProofs.outputs Crash.reads].
  change (json_of json_file (seen d json_file)) with (load_json (seen d) json_file).
  set (fs := seen d). assert (In0 : forall q, In q [json_file] -> input fs json_file q) by (intros q [<-|[]]; left; reflexivity).
  destruct (load_json fs json_file) as [j|e] eqn:Ej; cbn [rbind rdo fails Crash.alone CrashProofs.outputs Crash.reads]; [|split; [stop|exact In0]].
  destruct (jget j "effusion_rate_init") as [eri|e]; cbn [rbind rdo fails Crash.alone CrashProofs.outputs Crash.reads]; [|split; [stop|exact In0]].
  destruct (require1 j "lava_name") as [name|e]; cbn [rbind rdo fails Crash.alone CrashProofs.outputs Crash.reads]; [|split; [stop|exact In0]].
  destruct (require1 j "slope_file") as [sf|e] eqn:Esf; cbn [rbind rdo fails Crash.alone CrashProofs.outputs Crash.reads]; [|split; [stop|exact In0]].
  apply require1_jget in Esf.
  destruct (require1 j "step_size") as [st|e]; cbn [rbind rdo fails Crash.alone CrashProofs.outputs Crash.reads]; [|split; [stop|exact In0]].
  destruct (py_float st) as [dx|e]; cbn [rbind rdo fails Crash.alone CrashProofs.outputs Crash.reads]; [|split; [stop|exact In0]].
  destruct (mass_raw j) as [raw|e]; cbn [rbind rdo fails Crash.alone CrashProofs.outputs Crash.reads]; [|split; [stop|exact In0]].
  fold fs. change (json_of json_file (fs json_file)) with (load_json fs json_file). rewrite Ej. cbn [rbind].
  assert (In1 : forall q, In q [json_file; json_file] -> input fs json_file q) by (intros q [<-|[<-|[]]]; left; reflexivity).
  destruct (read_terrain j) as [[[ter0 depth] smooth]|e]; cbn [rbind rdo fails Crash.alone CrashProofs.outputs Crash.reads]; [|split; [stop|exact In1]].
  assert (Es : read_slope_lines fs sf = let? sp := Crash.slope_path sf in lines_of sp (fs sp)) by (destruct sf; reflexivity).
  rewrite Es. clear Es.
  destruct (Crash.slope_path sf) as [sp|e] eqn:Esp; cbn [rbind rdo fails Crash.alone CrashProofs.outputs Crash.reads]; [|split; [stop|exact In1]].
  fold fs.
  assert (Isp : input fs json_file sp).
  { right. right. exists j, sf. split; [exact Ej|]. split; [exact Esf|]. destruct sf; try discriminate; injection Esp as <-; auto. }
  assert (In2 : forall q, In q [json_file; json_file; sp] -> input fs json_file q) by (intros q [<-|[<-|[<-|[]]]]; [left; reflexivity|left; reflexivity|exact Isp]).
  destruct (lines_of sp (fs sp)) as [lines|e]; cbn [rbind rdo fails Crash.alone CrashProofs.outputs Crash.reads]; [|split; [stop|exact In2]].
  destruct (read_slope_from_file lines smooth ter0) as [ter|e]; cbn [rbind rdo fails Crash.alone CrashProofs.outputs Crash.reads]; [|split; [stop|exact In2]].
  fold fs. change (json_of json_file (fs json_file)) with (load_json fs json_file). rewrite Ej. cbn [rbind].
  fold fs. change (match fs "resources/crust_temperature_profile.txt" with Some (FText lines) => Some lines | _ => None end) with (crust_profile fs).
  assert (In3 : forall q, In q [json_file; json_file; sp; json_file; "resources/crust_temperature_profile.txt"] -> input fs json_file q).
  { intros q [<-|[<-|[<-|[<-|[<-|[]]]]]]; try (left; reflexivity); [exact Isp|right; left; reflexivity]. }
  destruct (build_models j (crust_profile fs)) as [m|e]; cbn [rbind rdo fails Crash.alone CrashProofs.outputs Crash.reads]; [|split; [stop|exact In3]].
  fold fs. change (json_of json_file (fs json_file)) with (load_json fs json_file). rewrite Ej. cbn [rbind].
  assert (In4 : forall q, In q [json_file; json_file; sp; json_file; "resources/crust_temperature_profile.txt"; json_file] -> input fs json_file q).
  { intros q [<-|[<-|[<-|[<-|[<-|[<-|[]]]]]]]; try (left; reflexivity); [exact Isp|right; left; reflexivity]. }
  destruct (initialize_state (mo_lava m) (mo_cryst m) j) as [s|e]; cbn [rbind rdo fails Crash.alone CrashProofs.outputs Crash.reads]; [|split; [stop|exact In4]].
  change clear with (@nil (row T)).
  destruct (simulate fuel _ (initial_world s [] depth)) as [[[[]|e] w]|]; cbn [rbind rdo fails Crash.alone CrashProofs.outputs Crash.reads].
  - unfold write_table. destruct (w_log w) as [|first rest] eqn:El; cbn [Crash.alone CrashProofs.outputs Crash.reads].
    + split; [|exact In4]. exists d. auto.
    + set (f := FCsv _). set (path := result_path _ _ _ _ _). destruct (write_values_to_file (first :: rest)) as [c|e]; cbn [fails Crash.alone CrashProofs.outputs Crash.reads]; (split; [|exact In4]);
        exists (put path (Whole f) d); (split; [reflexivity|]); (split; [apply seen_put|]); right; exists path, f; auto.
  - split; [stop|exact In4].
  - split; [auto|exact In4].
Qed.

(** The file a run that is left alone writes, if it writes one. *)
Definition produces (fuel : nat) (fs : fsys T) (json_file folder path : string) (f : file T) : Prop :=
  exists r fs' log', run fuel fs (new_runner []) json_file folder = Some (r, fs', log') /\
    result_file fs folder json_file = Ok path /\ fs' = fs_write path f fs.

Lemma run_outputs fuel (d : disk T) json_file folder path f :
  In (path, f) (outputs d (run_proc fuel json_file folder)) ->
  result_file (seen d) folder json_file = Ok path /\ produces fuel (seen d) json_file folder path f.
Proof.
  intros H. destruct (run_proc_spec fuel d [] json_file folder) as [S _].
  destruct (run fuel (seen d) (new_runner []) json_file folder) as [[[r fs'] l]|] eqn:Er.
  - destruct S as (d' & _ & Es & [[_ E]|(p & g & Ep & -> & E)]); rewrite E in H; [destruct H|].
    destruct H as [H|[]]. injection H as -> ->. split; [exact Ep|]. exists r, fs', l. split; [exact Er|]. split; [exact Ep|].
    rewrite <- Es. apply seen_put.
  - destruct S as [_ E]. rewrite E in H. destruct H.
Qed.
Lemma run_writes_path fuel (d : disk T) json_file folder q : In q (writes d (run_proc fuel json_file folder)) ->
  result_file (seen d) folder json_file = Ok q.
Proof.
  rewrite writes_outputs. intros H. apply in_map_iff in H as ([p f] & <- & H). apply run_outputs in H as [H _]. exact H.
Qed.
Lemma run_reads fuel (d : disk T) json_file folder q : In q (reads d (run_proc fuel json_file folder)) -> input (seen d) json_file q.
Proof. destruct (run_proc_spec fuel d [] json_file folder) as [_ S]. apply S. Qed.

(** The process left alone does what [run] says: it ends with the same outcome
    and leaves the same files. *)
Theorem C81_left_alone : forall fuel d log json_file folder,
  match run fuel (seen d) (new_runner log) json_file folder with
  | None => alone d (run_proc fuel json_file folder) = (None, d)
  | Some (r, fs', _) => exists d', alone d (run_proc fuel json_file folder) = (Some r, d') /\ seen d' = fs'
  end.
Proof.
  intros fuel d log jf folder. destruct (run_proc_spec fuel d log jf folder) as [S _].
  destruct (run fuel (seen d) (new_runner log) jf folder) as [[[r fs'] l]|].
  - destruct S as (d' & E1 & E2 & _). eauto.
  - apply S.
Qed.

(** A run killed at any moment: every file is as it was, except possibly the
    result file, which is then the complete table or a beginning of it, of the
    table the run would have written. *)
Theorem C81_killed_run : forall fuel d json_file folder moves d' x',
  goes moves d (run_proc fuel json_file folder) = (d', x') ->
  forall q, d' q = d q \/
    exists f, produces fuel (seen d) json_file folder q f /\ (d' q = Some (Whole f) \/ exists k, d' q = Some (Part f k)).
Proof.
  intros fuel d jf folder ms d' x' H q. destruct (goes_leaves _ _ _ _ _ _ H q) as [[Q|(f & Hf & Q)] _]; [auto|].
  right. exists f. split; [apply (run_outputs _ _ _ _ _ _ Hf)|]. destruct Q as [Q|(k & Q & _)]; eauto.
Qed.

(** Nothing is written before the simulation is over: a run that still has a
    file to read or a step to compute has left the disk as it was. *)
Fixpoint writes_last {A} (x : proc T A) : Prop :=
  match x with
  | Done _ => True
  | Read _ k => forall o, writes_last (k o)
  | Write _ _ next | Writing _ _ next => exists a, next = Done a
  end.
Lemma writes_last_rdo {A B} (r : res A) (k : A -> proc T (option (res B))) : (forall a, writes_last (k a)) -> writes_last (rdo r k).
Proof. intros H. destruct r; cbn; auto. Qed.
Lemma run_writes_last fuel json_file folder : writes_last (run_proc fuel json_file folder).
Proof.
  unfold Crash.run_proc. cbn [writes_last]. intros o1. apply writes_last_rdo. intros [[[[eri name] slope_file] dx] raw].
  cbn [writes_last]. intros o2. apply writes_last_rdo. intros [[ter0 depth] smooth]. apply writes_last_rdo. intros sp.
  cbn [writes_last]. intros o3. apply writes_last_rdo. intros ter. cbn [writes_last]. intros o4 o5. apply writes_last_rdo. intros m.
  cbn [writes_last]. intros o6. apply writes_last_rdo. intros st.
  destruct (simulate fuel _ _) as [[[[]|e] w]|]; try exact I.
  destruct (w_log w) as [|first rest]; [exact I|]. cbn [writes_last]. destruct (write_values_to_file _); unfold fails; eauto.
Qed.
Theorem C81_nothing_before_the_end : forall fuel d json_file folder moves d' x',
  goes moves d (run_proc fuel json_file folder) = (d', x') ->
  d' = d \/ (exists r, x' = Done r) \/ exists path f r, x' = Writing path f (Done r).
Proof.
  intros fuel d jf folder ms d' x' H.
  assert (I : (d' = d /\ writes_last x') \/ (exists r, x' = Done r) \/ exists path f r, x' = Writing path f (Done r)); [|tauto].
  revert d' x' H. induction ms as [|m ms IH] using rev_ind; intros d' x' H.
  - injection H as <- <-. left. split; [reflexivity|]. apply run_writes_last.
  - rewrite goes_app in H. destruct (goes ms d (run_proc fuel jf folder)) as [d1 x1]. cbn [Crash.goes] in H.
    destruct (move garbled m d1 x1) as [d2 x2] eqn:E2. injection H as <- <-.
    destruct (IH _ _ eq_refl) as [[-> L]|[[r ->]|(path & f & r & ->)]].
    + destruct x1 as [a|p c|p f next|p f next], m as [k|]; cbn [Crash.move] in E2; injection E2 as <- <-; cbn [writes_last] in L; auto;
        destruct L as [a ->]; eauto 6.
    + right. left. exists r. destruct m; injection E2 as _ <-; reflexivity.
    + destruct m as [k|]; cbn [Crash.move] in E2; injection E2 as <- <-; eauto 6.
Qed.

(** A run whose result file is none of its inputs can be killed at any moment
    and started again: the second run ends as the first would have, and leaves
    the same files. *)
Theorem C81_run_again : forall fuel d json_file folder moves d' x' log,
  (forall path, result_file (seen d) folder json_file = Ok path -> ~ input (seen d) json_file path) ->
  goes moves d (run_proc fuel json_file folder) = (d', x') ->
  match run fuel (seen d) (new_runner log) json_file folder with
  | None => run fuel (seen d') (new_runner log) json_file folder = None
  | Some (r, fs', _) => exists log', run fuel (seen d') (new_runner log) json_file folder = Some (r, fs', log')
  end.
Proof.
  intros fuel d jf folder ms d' x' log Hi H.
  assert (E : alone d' (run_proc fuel jf folder) = alone d (run_proc fuel jf folder)).
  { apply (restart _ _ _ _ _ _ H). intros q Hq Hw. apply (Hi q); [apply (run_writes_path _ _ _ _ _ Hw)|].
    apply (run_reads _ _ _ _ _ (needs_reads _ _ _ _ _ Hq)). }
  assert (A := C81_left_alone fuel d log jf folder). assert (A' := C81_left_alone fuel d' log jf folder). rewrite E in A'.
  destruct (run fuel (seen d) (new_runner log) jf folder) as [[[r fs'] l]|], (run fuel (seen d') (new_runner log) jf folder) as [[[r2 fs2] l2]|].
  - destruct A as (e & A & <-), A' as (e' & A' & <-). rewrite A in A'. injection A' as <- <-. eauto.
  - destruct A as (e & A & _). congruence.
  - destruct A' as (e & A' & _). congruence.
  - reflexivity.
Qed.

(** ** Sweeps over effusion rates *)
Local Notation sweep := (sweep str_float str_container).
Local Notation sweep_proc := (sweep_proc str_float str_container).
Local Notation run_effusion_rates := (run_effusion_rates str_float str_container).
Local Notation rates_proc := (effusion_rates_proc str_float str_container).

Lemma sweep_proc_spec fuel working folder base : forall rates names d log,
  match sweep fuel (seen d) log working folder base rates names with
  | None => exists d', alone d (sweep_proc fuel working folder base rates names) = (None, d')
  | Some (r, fs', _) => exists d', alone d (sweep_proc fuel working folder base rates names) = (Some r, d') /\ seen d' = fs'
  end.
Proof.
  induction rates as [|z rest IH]; intros names d log; cbn [EffArray.sweep Crash.sweep_proc Crash.alone]; [eauto|].
  destruct (jset base "effusion_rate_init" (JInt z)) as [data|e]; cbn [rdo fails Crash.alone]; [|eauto].
  rewrite <- (seen_put garbled working (FJson data) d). rewrite alone_andthen.
  assert (A := C81_left_alone fuel (put working (Whole (FJson data)) d) log working folder).
  destruct (run fuel (seen (put working (Whole (FJson data)) d)) (new_runner log) working folder) as [[[[[]|e] fs2] log2]|].
  - destruct A as (d2 & A & <-). rewrite A. destruct (jget data "lava_name") as [name|e]; cbn [rdo fails Crash.alone]; [apply IH|eauto].
  - destruct A as (d2 & A & <-). rewrite A. cbn. eauto.
  - rewrite A. cbn. eauto.
Qed.
Theorem C81_sweep_left_alone : forall fuel d log json_file folder first last step,
  match run_effusion_rates fuel (seen d) log json_file folder first last step with
  | None => exists d', alone d (rates_proc fuel json_file folder first last step) = (None, d')
  | Some (r, fs', _) => exists d', alone d (rates_proc fuel json_file folder first last step) = (Some r, d') /\ seen d' = fs'
  end.
Proof.
  intros fuel d log jf folder first last step. unfold EffArray.run_effusion_rates, effusion_rates_proc. cbn [Crash.alone].
  change (json_of jf (seen d jf)) with (load_json (seen d) jf).
  destruct (load_json (seen d) jf) as [base|e]; cbn [rdo fails Crash.alone]; [|eauto].
  destruct (py_range first (last + step) step) as [rates|e]; cbn [rdo fails Crash.alone]; [|eauto]. apply sweep_proc_spec.
Qed.

Local Notation result_at := (result_at str_float str_container).

Lemma result_of_config (fs : fsys T) working folder f name r : fs working = Some (config_at f r) -> assoc "lava_name" f = Some name ->
  forall path, result_file fs folder working = Ok path -> path = result_at folder name r.
Proof.
  intros Hw Hn path. unfold get_file_name_results, load_json. rewrite Hw. unfold config_at. cbn [rbind jget].
  rewrite assoc_set_same. cbn [rbind]. unfold require1, jmem, jget. rewrite config_name, Hn. cbn [rbind]. intros H. injection H as <-. reflexivity.
Qed.
Lemma input_of_config (fs : fsys T) working f r q : fs working = Some (config_at f r) -> input fs working q ->
  q = working \/ q = profile_path \/ Props_EffArray.slope_path f = Some q.
Proof.
  intros Hw [->|[->|(d & sf & Hd & Hs & H)]]; auto. right. right.
  unfold load_json in Hd. rewrite Hw in Hd. injection Hd as <-. cbn [jget] in Hs. rewrite assoc_set_other in Hs by discriminate.
  unfold Props_EffArray.slope_path. destruct (assoc "slope_file" f) as [v|]; [|discriminate]. injection Hs as ->.
  destruct H as [->|[-> ->]]; reflexivity.
Qed.

Section Sweep.
Variables (fuel : nat) (d0 : disk T) (working folder : string) (f : list (string * json T)) (name : json T).
Hypothesis Hn : assoc "lava_name" f = Some name.
Hypothesis Hsl : forall p, Props_EffArray.slope_path f = Some p -> p <> working /\ forall r, p <> result_at folder name r.
Hypothesis Hpr : profile_path <> working /\ forall r, profile_path <> result_at folder name r.
Hypothesis Hwr : forall r, working <> result_at folder name r.

Lemma sweep_outputs : forall rates names d, NoDup rates ->
  (forall q, q <> working -> (forall r, q <> result_at folder name r) -> d q = d0 q) ->
  (forall r, In r rates -> d (result_at folder name r) = d0 (result_at folder name r)) ->
  forall q g, In (q, g) (outputs d (sweep_proc fuel working folder (JObj f) rates names)) ->
    (q = working /\ exists r, In r rates /\ g = config_at f r) \/
    exists r, In r rates /\ q = result_at folder name r /\
      produces fuel (fs_write working (config_at f r) (seen d0)) working folder q g.
Proof.
  induction rates as [|z rest IH]; intros names d Nd Inv Invr q g H; cbn [Crash.sweep_proc jset rdo CrashProofs.outputs] in H; [destruct H|].
  change (FJson (JObj (assoc_set "effusion_rate_init" (JInt z) f))) with (config_at f z) in H.
  destruct H as [H|H]; [injection H as <- <-; left; split; [reflexivity|]; exists z; split; [left|]; reflexivity|].
  set (dz := put working (Whole (config_at f z)) d) in *.
  assert (Ew : seen dz working = Some (config_at f z)) by (unfold Crash.seen, dz; now rewrite put_same).
  assert (Eo : forall p, p <> working -> dz p = d p) by (intros p Hp; unfold dz; now apply put_other).
  rewrite outputs_andthen in H. apply in_app_or in H as [H|H].
  - right. exists z. split; [left; reflexivity|]. apply run_outputs in H as [Hp (r & fs' & l & Er & _ & Efs)].
    assert (q = result_at folder name z) by (eapply result_of_config; eauto). subst q. split; [reflexivity|].
    assert (RA := run_agree str_float str_container fuel (seen dz) (fs_write working (config_at f z) (seen d0)) (new_runner []) working folder _ Ew).
    rewrite Er in RA. unfold agree in RA.
    assert (A0 : forall p, p <> working -> d p = d0 p -> seen dz p = fs_write working (config_at f z) (seen d0) p).
    { intros p Hq E. unfold fs_write. pose proof Hq as Hq'. apply String.eqb_neq in Hq' as ->. unfold Crash.seen. now rewrite (Eo p Hq), E. }
    assert (Aw : seen dz working = fs_write working (config_at f z) (seen d0) working).
    { rewrite Ew. unfold fs_write. now rewrite String.eqb_refl. }
    specialize (RA Aw).
    assert (As : forall p, Props_EffArray.slope_path (assoc_set "effusion_rate_init" (JInt z) f) = Some p ->
        seen dz p = fs_write working (config_at f z) (seen d0) p).
    { intros p Hq. rewrite config_slope in Hq. destruct (Hsl p Hq) as [H1 H2]. apply A0; auto. }
    specialize (RA As). destruct Hpr as [Hp1 Hp2]. specialize (RA (A0 _ Hp1 (Inv _ Hp1 Hp2))).
    set (b := fs_write working (config_at f z) (seen d0)) in *.
    destruct (run fuel b (new_runner []) working folder) as [[[rz fsb] logb]|] eqn:Eb; [|contradiction].
    destruct RA as (<- & <- & RA). exists r, fsb, l. split; [exact Eb|].
    assert (Ew' : b working = Some (config_at f z)) by (rewrite <- Aw; exact Ew).
    split.
    + revert Hp. unfold get_file_name_results, load_json. rewrite Ew, Ew'. auto.
    + apply functional_extensionality. intros p. unfold fs_write at 1. destruct (String.eqb_spec p (result_at folder name z)) as [->|Ne].
      * rewrite <- RA. { rewrite Efs. unfold fs_write. now rewrite String.eqb_refl. }
        apply A0; [intros E; symmetry in E; now apply Hwr in E|]. apply Invr. left. reflexivity.
      * apply (run_writes _ _ _ _ _ _ _ _ _ _ _ Ew' Eb). intros name' eri Hn' He. rewrite config_name, Hn in Hn'. injection Hn' as <-.
        rewrite assoc_set_same in He. injection He as <-. exact Ne.
  - destruct (run_proc_spec fuel dz [] working folder) as [S _].
    destruct (run fuel (seen dz) (new_runner []) working folder) as [[[r fs'] l]|].
    2:{ destruct S as [S _]. rewrite S in H. destruct H. }
    destruct S as (d2 & S & _ & S2). rewrite S in H. destruct r as [[]|e]; [|destruct H].
    cbn [jget] in H. rewrite config_name, Hn in H. cbn [rdo] in H. inversion Nd as [|? ? Nz Nd']. subst.
    assert (W2 : forall p, p <> result_at folder name z -> d2 p = dz p).
    { intros p Hq. destruct S2 as [[-> _]|(p' & g' & Hp' & -> & _)]; [reflexivity|]. apply put_other. intros ->. apply Hq. eapply result_of_config; eauto. }
    apply IH in H; [|exact Nd'| |].
    + destruct H as [[-> (r & Hr & ->)]|(r & Hr & H)]; [left; split; [reflexivity|]; exists r|right; exists r]; split; auto; right; exact Hr.
    + intros p H1 H2. rewrite W2 by apply H2. rewrite Eo by exact H1. apply Inv; auto.
    + intros r Hr. rewrite W2. 2:{ intros E. apply result_at_inj in E. subst. contradiction. }
      rewrite Eo by (intros E; symmetry in E; now apply Hwr in E). apply Invr. now right.
Qed.

Lemma sweep_needs : forall rates names d own q,
  In q (needs garbled d own (sweep_proc fuel working folder (JObj f) rates names)) -> q = profile_path \/ Props_EffArray.slope_path f = Some q.
Proof.
  induction rates as [|z rest IH]; intros names d own q H; cbn [Crash.sweep_proc jset rdo needs] in H; [destruct H|].
  change (FJson (JObj (assoc_set "effusion_rate_init" (JInt z) f))) with (config_at f z) in H.
  set (dz := put working (Whole (config_at f z)) d) in *.
  assert (Ew : seen dz working = Some (config_at f z)) by (unfold Crash.seen, dz; now rewrite put_same).
  assert (Hq := needs_own _ _ _ _ _ H).
  apply needs_andthen in H as [H|(own' & _ & H)].
  - apply needs_reads in H. apply run_reads in H. apply (input_of_config _ _ _ _ _ Ew) in H as [->|H]; [|exact H].
    exfalso. apply Hq. left. reflexivity.
  - destruct (fst (alone dz (run_proc fuel working folder))) as [[[]|]|]; try destruct H.
    cbn [jget] in H. rewrite config_name, Hn in H. cbn [rdo] in H. eapply IH, H.
Qed.
End Sweep.

(** The inputs of a sweep are not among its outputs, apart perhaps from the
    template. *)
Definition sweep_apart (folder working : string) (f : list (string * json T)) (name : json T) : Prop :=
  (forall p, Props_EffArray.slope_path f = Some p -> p <> working /\ forall r, p <> result_at folder name r) /\
  (profile_path <> working /\ forall r, profile_path <> result_at folder name r) /\
  forall r, working <> result_at folder name r.

Lemma range_nodup first last step rates : py_range first (last + step) step = Ok rates -> NoDup rates.
Proof.
  intros E. apply C54_rates_run in E as [Hs Hr]. apply NoDup_nth_error. intros i j Hi E.
  destruct (nth_error rates i) as [a|] eqn:Ei; [|apply nth_error_None in Ei; lia].
  symmetry in E. apply Hr in Ei as [Ei _]. apply Hr in E as [Ej _]. nia.
Qed.
Lemma rates_outputs fuel d json_file folder first last step f name rates :
  seen d json_file = Some (FJson (JObj f)) -> assoc "lava_name" f = Some name ->
  py_range first (last + step) step = Ok rates -> sweep_apart folder (working_path folder json_file) f name ->
  forall q g, In (q, g) (outputs d (rates_proc fuel json_file folder first last step)) ->
    (q = working_path folder json_file /\ exists r, In r rates /\ g = config_at f r) \/
    exists r, In r rates /\ q = result_at folder name r /\
      produces fuel (fs_write (working_path folder json_file) (config_at f r) (seen d)) (working_path folder json_file) folder q g.
Proof.
  intros Hf Hn Hr (H1 & H2 & H3) q g H. unfold effusion_rates_proc in H. cbn [CrashProofs.outputs] in H. rewrite Hf in H. cbn [json_of rdo] in H.
  rewrite Hr in H. cbn [rdo] in H. eapply sweep_outputs; eauto using range_nodup.
Qed.

(** A sweep killed at any moment: every file is as it was, or the working file
    (the configuration of one of the rates, complete or not), or the result file
    of one of the rates, complete or a beginning of the table that rate's own
    run writes; and at most one file is incomplete. *)
Theorem C81_killed_sweep : forall fuel d json_file folder first last step f name rates moves d' x',
  seen d json_file = Some (FJson (JObj f)) -> assoc "lava_name" f = Some name ->
  py_range first (last + step) step = Ok rates ->
  let working := working_path folder json_file in
  sweep_apart folder working f name ->
  goes moves d (rates_proc fuel json_file folder first last step) = (d', x') ->
  (forall q, d' q = d q \/
    exists g, (d' q = Some (Whole g) \/ exists k, d' q = Some (Part g k)) /\
      ((q = working /\ exists r, In r rates /\ g = config_at f r) \/
       exists r, In r rates /\ q = result_at folder name r /\ produces fuel (fs_write working (config_at f r) (seen d)) working folder q g)) /\
  exists p, forall q, q <> p -> d' q = d q \/ exists g, d' q = Some (Whole g).
Proof.
  intros fuel d jf folder first last step f name rates ms d' x' Hf Hn Hr working Ha H. split.
  - intros q. destruct (goes_leaves _ _ _ _ _ _ H q) as [[Q|(g & Hg & Q)] _]; [auto|]. right. exists g.
    split; [destruct Q as [Q|(k & Q & _)]; eauto|]. eapply rates_outputs; eauto.
  - exists (match x' with Writing p _ _ => p | _ => ""%string end). intros q Hq.
    destruct (goes_leaves _ _ _ _ _ _ H q) as [[Q|(g & Hg & [Q|(k & Q & next & ->)])] _]; [auto|eauto|congruence].
Qed.

(** A sweep whose template is not in the output folder can be killed at any
    moment and started again. *)
Theorem C81_sweep_again : forall fuel d json_file folder first last step f name moves d' x' log,
  seen d json_file = Some (FJson (JObj f)) -> assoc "lava_name" f = Some name ->
  let working := working_path folder json_file in
  sweep_apart folder working f name ->
  json_file <> working -> (forall r, json_file <> result_at folder name r) ->
  goes moves d (rates_proc fuel json_file folder first last step) = (d', x') ->
  match run_effusion_rates fuel (seen d) log json_file folder first last step with
  | None => run_effusion_rates fuel (seen d') log json_file folder first last step = None
  | Some (r, fs', _) => exists log', run_effusion_rates fuel (seen d') log json_file folder first last step = Some (r, fs', log')
  end.
Proof.
  intros fuel d jf folder first last step f name ms d' x' log Hf Hn working Ha Hj1 Hj2 H.
  assert (E : alone d' (rates_proc fuel jf folder first last step) = alone d (rates_proc fuel jf folder first last step)).
  { apply (restart _ _ _ _ _ _ H). intros q Hq Hw. rewrite writes_outputs in Hw. apply in_map_iff in Hw as ([p g] & E & Hw). cbn in E. subst p.
    destruct (py_range first (last + step) step) as [rates|e] eqn:Er.
    2:{ unfold effusion_rates_proc in Hw. cbn [CrashProofs.outputs] in Hw. rewrite Hf in Hw. cbn [json_of rdo] in Hw. rewrite Er in Hw. destruct Hw. }
    assert (O := rates_outputs _ _ _ _ _ _ _ _ _ _ Hf Hn Er Ha _ _ Hw). fold working in O.
    unfold effusion_rates_proc in Hq. cbn [needs] in Hq. rewrite Hf in Hq. cbn [json_of rdo] in Hq. rewrite Er in Hq. cbn [rdo] in Hq.
    destruct Ha as (H1 & [H2 H2'] & H3).
    assert (Q : q = jf \/ q = profile_path \/ Props_EffArray.slope_path f = Some q).
    { apply in_app_or in Hq as [Hq|Hq]; [cbn in Hq; destruct Hq as [<-|[]]; auto|]. right. eapply sweep_needs; eauto. }
    destruct O as [[-> _]|(r & _ & -> & _)], Q as [Q|[Q|Q]]; try congruence.
    - apply H1 in Q as [Q _]. now apply Q.
    - apply H1 in Q as [_ Q]. now apply (Q r). }
  assert (A := C81_sweep_left_alone fuel d log jf folder first last step). assert (A' := C81_sweep_left_alone fuel d' log jf folder first last step). rewrite E in A'.
  destruct (run_effusion_rates fuel (seen d) log jf folder first last step) as [[[r fs'] l]|], (run_effusion_rates fuel (seen d') log jf folder first last step) as [[[r2 fs2] l2]|].
  - destruct A as (e & A & <-), A' as (e' & A' & <-). rewrite A in A'. injection A' as <- <-. eauto.
  - destruct A as (e & A & _), A' as (e' & A'). congruence.
  - destruct A as (e & A), A' as (e' & A' & _). congruence.
  - reflexivity.
Qed.

(** ... but if the template is in the output folder, a sweep killed just after
    it opened the working file leaves the template empty, and the sweep cannot
    be started again. *)
Theorem C81_template_can_be_lost : forall fuel d json_file folder first last step f r rates,
  seen d json_file = Some (FJson (JObj f)) -> py_range first (last + step) step = Ok (r :: rates) ->
  working_path folder json_file = json_file ->
  (* an empty file is no JSON document *)
  (forall g j, garbled g 0 <> FJson j) ->
  exists moves d' x', goes moves d (rates_proc fuel json_file folder first last step) = (d', x') /\
    d' json_file = Some (Part (config_at f r) 0) /\
    forall fuel' log, run_effusion_rates fuel' (seen d') log json_file folder first last step = Some (Err (ValueError "JSONDecodeError"), seen d', log).
Proof.
  intros fuel d jf folder first last step f r rates Hf Hr Hw Hg. exists [None; None]. eexists _, _. unfold effusion_rates_proc.
  cbn [Crash.goes Crash.move]. rewrite Hf. cbn [json_of rdo]. rewrite Hr, Hw. cbn [rdo Crash.sweep_proc jset Crash.move].
  split; [reflexivity|]. split; [apply put_same|]. intros fuel' log. unfold EffArray.run_effusion_rates.
  match goal with |- context [load_json ?fs jf] => assert (E : load_json fs jf = Err (ValueError "JSONDecodeError")) end.
  { unfold load_json, Crash.seen. rewrite put_same. cbn [view]. destruct (garbled _ 0) eqn:Ev; try reflexivity. now apply Hg in Ev. }
  rewrite E. reflexivity.
Qed.

(** ** The JSON editor saves in place *)
Variables (constant : string -> T) (repr_float : T -> string).
Local Notation session := (session constant repr_float).
Local Notation session_proc := (session_proc constant repr_float).

Lemma session_spec (d : disk T) path l :
  match session path l (seen d) with
  | Err e => alone d (session_proc path l) = (Some (Err e), d) /\ outputs d (session_proc path l) = []
  | Ok (fs', false) => alone d (session_proc path l) = (Some (Ok false), d) /\ fs' = seen d /\ outputs d (session_proc path l) = []
  | Ok (fs', true) => exists g, alone d (session_proc path l) = (Some (Ok true), put path (Whole g) d) /\ fs' = fs_write path g (seen d) /\
      outputs d (session_proc path l) = [(path, g)] /\ goes [None; None] d (session_proc path l) = (put path (Part g 0) d, Writing path g (Done (Some (Ok true))))
  end.
Proof.
  unfold EditJson.session, Crash.session_proc. cbn [Crash.alone CrashProofs.outputs Crash.goes Crash.move].
  change (json_of path (seen d path)) with (load_json (seen d) path).
  destruct (load_json (seen d) path) as [j|e]; cbn [rbind rdo fails Crash.alone CrashProofs.outputs Crash.goes Crash.move]; [|auto].
  destruct (open_editor repr_float j) as [e0|e]; cbn [rbind rdo fails Crash.alone CrashProofs.outputs Crash.goes Crash.move]; [|auto].
  destruct (acts l e0) as [e1|e]; cbn [rbind rdo fails Crash.alone CrashProofs.outputs Crash.goes Crash.move]; [|auto].
  unfold save. destruct (rebuild constant (ed_labels e1) j "") as [g|e]; cbn [Crash.alone CrashProofs.outputs Crash.goes Crash.move]; [|auto].
  exists (FJson g). auto.
Qed.
(** Killed at any moment, an editor session leaves the other files alone, and
    the edited file as it was, or as saved, or a beginning of that. *)
Theorem C81_killed_editor : forall d path l moves d' x',
  goes moves d (session_proc path l) = (d', x') ->
  (forall q, q <> path -> d' q = d q) /\
  (d' path = d path \/ exists g, session path l (seen d) = Ok (fs_write path g (seen d), true) /\
     (d' path = Some (Whole g) \/ exists k, d' path = Some (Part g k))).
Proof.
  intros d path l ms d' x' H. assert (S := session_spec d path l).
  assert (O : outputs d (session_proc path l) = [] \/ exists g, outputs d (session_proc path l) = [(path, g)] /\ session path l (seen d) = Ok (fs_write path g (seen d), true)).
  { destruct (session path l (seen d)) as [[fs' []]|e]; [|tauto..]. destruct S as (g & _ & -> & S & _). right. exists g. auto. }
  split.
  - intros q Hq. destruct (goes_leaves _ _ _ _ _ _ H q) as [[Q|(g & Hg & _)] _]; [exact Q|].
    destruct O as [O|(g' & O & _)]; rewrite O in Hg; [destruct Hg|]. destruct Hg as [Hg|[]]. congruence.
  - destruct (goes_leaves _ _ _ _ _ _ H path) as [[Q|(g & Hg & Q)] _]; [auto|]. right. exists g.
    destruct O as [O|(g' & O & Es)]; rewrite O in Hg; [destruct Hg|]. destruct Hg as [Hg|[]]. injection Hg as <-.
    split; [exact Es|]. destruct Q as [Q|(k & Q & _)]; eauto.
Qed.
(** The save is not atomic: whenever a session saves, there is a moment at
    which a kill leaves the edited file empty, the old text gone and the new
    one not yet there. *)
Theorem C81_editor_save_atomic_refuted : forall d path l fs',
  session path l (seen d) = Ok (fs', true) ->
  exists moves d' x' g, goes moves d (session_proc path l) = (d', x') /\ fs' path = Some g /\ d' path = Some (Part g 0).
Proof.
  intros d path l fs' H. assert (S := session_spec d path l). rewrite H in S. destruct S as (g & _ & -> & _ & S).
  exists [None; None]. eexists _, _, g. split; [exact S|]. split; [unfold fs_write; now rewrite String.eqb_refl|apply put_same].
Qed.

(** ** Several runs at the same time, on the same disk *)
(** The jobs: number [i] runs [json_file i] into [folder i]. *)
Theorem C82_concurrent_runs : forall (fuel : nat -> nat) (json_file folder : nat -> string) d sch d' ps',
  (* no job writes where another writes or reads *)
  (forall i j path, i <> j -> result_file (seen d) (folder i) (json_file i) = Ok path ->
     ~ input (seen d) (json_file j) path /\ result_file (seen d) (folder j) (json_file j) <> Ok path) ->
  together sch d (fun i => run_proc (fuel i) (json_file i) (folder i)) = (d', ps') ->
  (* every finished job has the outcome it has alone, and its result file holds
     what it would hold *)
  (forall i r, ps' i = Done r ->
     match run (fuel i) (seen d) (new_runner []) (json_file i) (folder i) with
     | None => r = None
     | Some (ri, fs', _) => r = Some ri /\
         forall path, result_file (seen d) (folder i) (json_file i) = Ok path -> seen d' path = fs' path
     end) /\
  (* and nothing else has changed *)
  forall q, (forall i, result_file (seen d) (folder i) (json_file i) <> Ok q) -> d' q = d q.
Proof.
  intros fuel jf folder d sch d' ps' Hi H. set (ps := fun i => run_proc (fuel i) (jf i) (folder i)) in *.
  assert (I : independent garbled d ps).
  { intros i j q Ne Hw. apply run_writes_path in Hw. destruct (Hi i j q Ne Hw) as [H1 H2]. split; intros Hq.
    - apply H1. eapply run_reads, Hq.
    - apply H2. eapply run_writes_path, Hq. }
  destruct (as_if_alone _ _ _ I _ _ _ H) as [J1 J2]. split.
  - intros i r Hr. destruct (J1 i) as [K1 K2]. rewrite Hr in K1.
    destruct (goes (moves_of i sch) d (ps i)) as [e x] eqn:Eg. cbn [fst snd] in K1, K2. subst x.
    apply goes_done in Eg. destruct (run_proc_spec (fuel i) d [] (jf i) (folder i)) as [S _]. fold (ps i) in S.
    destruct (run (fuel i) (seen d) (new_runner []) (jf i) (folder i)) as [[[ri fs'] l]|].
    + destruct S as (d2 & S & <- & S2). rewrite S in Eg. injection Eg as <- <-. split; [reflexivity|]. intros path Hp.
      unfold Crash.seen. f_equal. destruct (in_dec string_dec path (writes d (ps i))) as [Hw|Hw]; [rewrite K2 by auto; reflexivity|].
      assert (E : d' path = d path).
      { apply J2. intros j Hj. destruct (Nat.eq_dec j i) as [->|Ne]; [contradiction|]. apply run_writes_path in Hj.
        destruct (Hi j i path Ne Hj) as [_ Hx]. contradiction. }
      rewrite E. destruct S2 as [[-> _]|(p & g & _ & -> & O)]; [reflexivity|].
      rewrite put_other; [reflexivity|]. intros ->. apply Hw. rewrite writes_outputs, O. left. reflexivity.
    + destruct S as [S _]. rewrite S in Eg. injection Eg as <- _. reflexivity.
  - intros q Hq. apply J2. intros i Hw. apply run_writes_path in Hw. now apply (Hq i).
Qed.

(** The same for sweeps over effusion rates. *)
Lemma sweep_footprint fuel working folder f name : assoc "lava_name" f = Some name -> forall rates names d q,
  (In q (writes d (sweep_proc fuel working folder (JObj f) rates names)) ->
     q = working \/ exists r, In r rates /\ q = result_at folder name r) /\
  (In q (reads d (sweep_proc fuel working folder (JObj f) rates names)) ->
     q = working \/ q = profile_path \/ Props_EffArray.slope_path f = Some q).
Proof.
  intros Hn. induction rates as [|z rest IH]; intros names d q; cbn [Crash.sweep_proc jset rdo Crash.writes Crash.reads]; [split; intros []|].
  change (FJson (JObj (assoc_set "effusion_rate_init" (JInt z) f))) with (config_at f z).
  set (dz := put working (Whole (config_at f z)) d).
  assert (Ew : seen dz working = Some (config_at f z)) by (unfold Crash.seen, dz; now rewrite put_same).
  split; intros H.
  - destruct H as [<-|H]; [auto|]. rewrite writes_outputs, outputs_andthen, map_app in H. apply in_app_or in H as [H|H].
    + right. exists z. split; [left; reflexivity|]. rewrite <- writes_outputs in H. apply run_writes_path in H. eapply result_of_config; eauto.
    + destruct (alone dz (run_proc fuel working folder)) as [o d2]. destruct o as [[[]|]|]; try destruct H.
      cbn [jget] in H. rewrite config_name, Hn in H. cbn [rdo] in H. rewrite <- writes_outputs in H. apply IH in H as [->|(r & Hr & ->)]; [auto|].
      right. exists r. split; [right; exact Hr|reflexivity].
  - rewrite reads_andthen in H. apply in_app_or in H as [H|H].
    + apply run_reads in H. apply (input_of_config _ _ _ _ _ Ew) in H. exact H.
    + destruct (alone dz (run_proc fuel working folder)) as [o d2]. destruct o as [[[]|]|]; try destruct H.
      cbn [jget] in H. rewrite config_name, Hn in H. cbn [rdo] in H. apply IH in H. exact H.
Qed.

(** What a sweep writes and what it reads. *)
Definition sweep_output (json_file folder : string) (name : json T) (q : string) : Prop :=
  q = working_path folder json_file \/ exists r, q = result_at folder name r.
Definition sweep_input (json_file folder : string) (f : list (string * json T)) (q : string) : Prop :=
  q = json_file \/ q = working_path folder json_file \/ q = profile_path \/ Props_EffArray.slope_path f = Some q.

Theorem C82_concurrent_sweeps : forall (fuel : nat -> nat) (json_file folder : nat -> string) (first last step : nat -> Z) f name d sch d' ps',
  (forall i, seen d (json_file i) = Some (FJson (JObj (f i))) /\ assoc "lava_name" (f i) = Some (name i)) ->
  (forall i j q, i <> j -> sweep_output (json_file i) (folder i) (name i) q ->
     ~ sweep_input (json_file j) (folder j) (f j) q /\ ~ sweep_output (json_file j) (folder j) (name j) q) ->
  together sch d (fun i => rates_proc (fuel i) (json_file i) (folder i) (first i) (last i) (step i)) = (d', ps') ->
  (forall i r, ps' i = Done r ->
     match run_effusion_rates (fuel i) (seen d) [] (json_file i) (folder i) (first i) (last i) (step i) with
     | None => r = None
     | Some (ri, fs', _) => r = Some ri /\ forall q, sweep_output (json_file i) (folder i) (name i) q -> seen d' q = fs' q
     end) /\
  forall q, (forall i, ~ sweep_output (json_file i) (folder i) (name i) q) -> d' q = d q.
Proof.
  intros fuel jf folder first last step f name d sch d' ps' Hf Hi H.
  set (ps := fun i => rates_proc (fuel i) (jf i) (folder i) (first i) (last i) (step i)) in *.
  assert (W : forall i q, In q (writes d (ps i)) -> sweep_output (jf i) (folder i) (name i) q).
  { intros i q Hw. unfold ps, effusion_rates_proc in Hw. cbn [Crash.writes] in Hw. destruct (Hf i) as [Hf1 Hf2]. rewrite Hf1 in Hw. cbn [json_of rdo] in Hw.
    destruct (py_range (first i) (last i + step i) (step i)) as [rates|e]; [|destruct Hw]. cbn [rdo] in Hw.
    apply (sweep_footprint _ _ _ _ _ Hf2) in Hw as [->|(r & _ & ->)]; [left; reflexivity|right; eauto]. }
  assert (Rd : forall i q, In q (reads d (ps i)) -> sweep_input (jf i) (folder i) (f i) q).
  { intros i q Hw. unfold ps, effusion_rates_proc in Hw. cbn [Crash.reads] in Hw. destruct (Hf i) as [Hf1 Hf2]. rewrite Hf1 in Hw. cbn [json_of rdo] in Hw.
    destruct Hw as [<-|Hw]; [left; reflexivity|]. right.
    destruct (py_range (first i) (last i + step i) (step i)) as [rates|e]; [|destruct Hw]. cbn [rdo] in Hw.
    apply (sweep_footprint _ _ _ _ _ Hf2) in Hw. exact Hw. }
  assert (I : independent garbled d ps).
  { intros i j q Ne Hw. destruct (Hi i j q Ne (W _ _ Hw)) as [H1 H2]. split; intros Hq; [apply H1, Rd, Hq|apply H2, W, Hq]. }
  destruct (as_if_alone _ _ _ I _ _ _ H) as [J1 J2]. split.
  - intros i r Hr. destruct (J1 i) as [K1 K2]. rewrite Hr in K1.
    destruct (goes (moves_of i sch) d (ps i)) as [e x] eqn:Eg. cbn [fst snd] in K1, K2. subst x.
    assert (Ea := goes_done _ _ _ _ _ _ Eg). assert (S := C81_sweep_left_alone (fuel i) d [] (jf i) (folder i) (first i) (last i) (step i)). fold (ps i) in S.
    destruct (run_effusion_rates (fuel i) (seen d) [] (jf i) (folder i) (first i) (last i) (step i)) as [[[ri fs'] l]|].
    + destruct S as (d2 & S & <-). rewrite S in Ea. injection Ea as <- <-. split; [reflexivity|]. intros q Hq.
      unfold Crash.seen. f_equal. destruct (in_dec string_dec q (writes d (ps i))) as [Hw|Hw]; [rewrite K2 by auto; reflexivity|].
      assert (E : d' q = d q).
      { apply J2. intros j Hj. destruct (Nat.eq_dec j i) as [->|Ne]; [contradiction|]. apply W in Hj.
        destruct (Hi j i q Ne Hj) as [_ Hx]. contradiction. }
      rewrite E. destruct (goes_leaves _ _ _ _ _ _ Eg q) as [[Q|(g & Hg & _)] _]; [now rewrite Q|].
      exfalso. apply Hw. rewrite writes_outputs. change q with (fst (q, g)). now apply in_map.
    + destruct S as [d2 S]. rewrite S in Ea. injection Ea as <- _. reflexivity.
  - intros q Hq. apply J2. intros i Hw. apply W in Hw. now apply (Hq i).
Qed.
End Crash.
