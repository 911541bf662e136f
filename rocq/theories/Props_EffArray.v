(** * Props_EffArray: the effusion-rate sweep and the run-out table: C54, C60, C61 *)
From Coq Require Import Reals Lra.
From Verif Require Import Base Num Json Logger World Vesicle MeltVisc RelVisc Bubbles Terrain Lava
  Thermal Flux Integrator Factory Run RNum EffArray Props_Budget Props_Factory Props_RunFile.

(** ** C54: which rates are run *)
Section Range.
Open Scope Z_scope.
Lemma range_from_nth n : forall a s i r,
  nth_error (range_from n a s) i = Some r <-> (i < n)%nat /\ r = a + Z.of_nat i * s.
Proof.
  induction n as [|n IH]; intros a s i r; cbn [range_from].
  - destruct i; cbn; split; [discriminate|lia|discriminate|lia].
  - destruct i as [|i]; cbn [nth_error].
    + split; [intros H; injection H as <-; lia|]. intros [_ ->]. f_equal. lia.
    + rewrite IH. split; intros [H ->]; (split; [lia|]); lia.
Qed.
Lemma range_len_spec a b s i : 0 < s -> Z.of_nat i < range_len a b s <-> a + Z.of_nat i * s < b.
Proof.
  intros Hs. unfold range_len. destruct (Z.ltb_spec 0 s) as [_|]; [|lia]. destruct (Z.ltb_spec a b) as [Hab|Hab].
  - pose proof (Z.div_mod (b - a - 1) s ltac:(lia)) as D. pose proof (Z.mod_pos_bound (b - a - 1) s Hs) as M.
    set (q := (b - a - 1) / s) in *. split; intros H.
    + assert (Z.of_nat i <= q) by lia. nia.
    + assert (Z.of_nat i <= q); [|lia]. nia.
  - split; intros H; nia.
Qed.
Lemma range_len_spec_neg a b s i : s < 0 -> Z.of_nat i < range_len a b s <-> b < a + Z.of_nat i * s.
Proof.
  intros Hs. unfold range_len. destruct (Z.ltb_spec 0 s) as [|_]; [lia|]. destruct (Z.ltb_spec b a) as [Hab|Hab].
  - pose proof (Z.div_mod (a - b - 1) (- s) ltac:(lia)) as D. pose proof (Z.mod_pos_bound (a - b - 1) (- s) ltac:(lia)) as M.
    set (q := (a - b - 1) / (- s)) in *. split; intros H.
    + assert (Z.of_nat i <= q) by lia. nia.
    + assert (Z.of_nat i <= q); [|lia]. nia.
  - split; intros H; nia.
Qed.

(** The i-th rate run is first + i*step; a rate of that form is run exactly
    when it is below last + step (ascending), or above it (descending). *)
Theorem C54_rates_run : forall first last step rates,
  py_range first (last + step) step = Ok rates ->
  step <> 0 /\
  forall i r, nth_error rates i = Some r <->
    r = first + Z.of_nat i * step /\ (0 < step -> r < last + step) /\ (step < 0 -> last + step < r).
Proof.
  intros first last step rates H. unfold py_range in H. destruct (Z.eqb_spec step 0) as [|Hs]; [discriminate|].
  injection H as <-. split; [exact Hs|]. intros i r. rewrite range_from_nth.
  assert (E : (i < Z.to_nat (range_len first (last + step) step))%nat <->
              Z.of_nat i < range_len first (last + step) step) by lia.
  rewrite E. destruct (Z_lt_ge_dec 0 step) as [Hp|Hp].
  - rewrite range_len_spec by exact Hp. split; [intros [H1 ->]; lia|intros (-> & H1 & _); auto].
  - rewrite range_len_spec_neg by lia. split; [intros [H1 ->]; lia|intros (-> & _ & H1); split; [apply H1; lia|auto]].
Qed.
Theorem C54_rates_exist : forall first last step, step <> 0 -> exists rates, py_range first (last + step) step = Ok rates.
Proof. intros first last step H. unfold py_range. destruct (Z.eqb_spec step 0); [contradiction|eauto]. Qed.

(** [last] is run exactly when the step divides the span ... *)
Theorem C54_last_included : forall first last step rates,
  0 < step -> first <= last -> py_range first (last + step) step = Ok rates ->
  (In last rates <-> (step | last - first)).
Proof.
  intros first last step rates Hs Hfl H. apply C54_rates_run in H as [_ H]. split.
  - intros Hin. apply In_nth_error in Hin as (i & Hi). apply H in Hi as (Hi & _). exists (Z.of_nat i). lia.
  - intros (k & Hk). assert (Hk0 : 0 <= k) by nia. apply (nth_error_In _ (Z.to_nat k)). apply H.
    rewrite Z2Nat.id by lia. lia.
Qed.
(** ... and otherwise exactly one rate above it is run, less than one step
    beyond: the sweep should stop at last and does not. *)
Theorem C54_stops_at_last_refuted : forall first last step rates,
  0 < step -> first <= last -> py_range first (last + step) step = Ok rates ->
  ((exists r, In r rates /\ last < r) <-> ~ (step | last - first)) /\
  (forall r, In r rates -> first <= r < last + step) /\
  (forall r1 r2, In r1 rates -> In r2 rates -> last < r1 -> last < r2 -> r1 = r2).
Proof.
  intros first last step rates Hs Hfl H. apply C54_rates_run in H as [_ H].
  assert (I : forall r, In r rates <-> exists i : nat, r = first + Z.of_nat i * step /\ r < last + step).
  { intros r. split.
    - intros Hin. apply In_nth_error in Hin as (i & Hi). apply H in Hi as (Hi & H2 & _). exists i. lia.
    - intros (i & Hi & Hl). apply (nth_error_In _ i). apply H. lia. }
  split; [|split].
  - split.
    + intros (r & Hr & Hl) (k & Hk). apply I in Hr as (i & Hi & Hu).
      assert (step * (Z.of_nat i - k) < step * 1) by nia. assert (step * 0 < step * (Z.of_nat i - k)) by nia.
      apply Z.mul_lt_mono_pos_l in H0, H1; lia.
    + intros Hd. pose proof (Z.div_mod (last - first) step ltac:(lia)) as D.
      pose proof (Z.mod_pos_bound (last - first) step Hs) as M. set (q := (last - first) / step) in *.
      assert (Hq : 0 <= q) by (apply Z.div_pos; lia).
      assert (M0 : (last - first) mod step <> 0).
      { intros E. apply Hd. exists q. lia. }
      exists (first + Z.of_nat (Z.to_nat (q + 1)) * step). rewrite Z2Nat.id by lia. split; [|nia].
      apply I. exists (Z.to_nat (q + 1)). rewrite Z2Nat.id by lia. split; [reflexivity|nia].
  - intros r Hr. apply I in Hr as (i & Hi & Hu). nia.
  - intros r1 r2 H1 H2 L1 L2. apply I in H1 as (i & Hi & Hu). apply I in H2 as (j & Hj & Hu2).
    assert (step * (Z.of_nat i - Z.of_nat j) < step * 1) by nia.
    assert (step * (Z.of_nat j - Z.of_nat i) < step * 1) by nia.
    apply Z.mul_lt_mono_pos_l in H0, H1; [|lia..]. assert (i = j) by lia. subst. lia.
Qed.
Example C54_overshoot_example : py_range 5 (12 + 5) 5 = Ok [5; 10; 15].
Proof. reflexivity. Qed.
Example C54_exact_example : py_range 5 (35 + 5) 5 = Ok [5; 10; 15; 20; 25; 30; 35].
Proof. reflexivity. Qed.
End Range.

Section Sweep.
Context {T : Type} {N : Num T}.
Context (sf : T -> string) (sc : json T -> string).

Definition agree (a b : fsys T) (q : string) : Prop := a q = b q.

(** The slope file a configuration names. *)
Definition slope_path (f : list (string * json T)) : option string :=
  match assoc "slope_file" f with
  | Some (JStr s) => Some s
  | Some JNull => Some "../MaunaUlu74/DEM_maunaulu74.txt"
  | _ => None
  end.
Definition profile_path : string := "resources/crust_temperature_profile.txt".

(** [run] reads only the configuration, the slope file and the crust profile. *)
Lemma rbind_ext {A B} (m m' : res A) (f g : A -> res B) :
  m = m' -> (forall a, m = Ok a -> f a = g a) -> rbind m f = rbind m' g.
Proof. intros <- H. destruct m; cbn; auto. Qed.
Lemma prepare_agree flag (a b : fsys T) jf f : a jf = Some (FJson (JObj f)) -> agree a b jf ->
  (forall p, slope_path f = Some p -> agree a b p) -> agree a b profile_path ->
  prepare flag a jf = prepare flag b jf.
Proof.
  unfold agree. intros Hf Hj Hs Hp. unfold prepare, load_json. rewrite <- Hj, Hf.
  apply rbind_ext; [reflexivity|]. intros d Hd. injection Hd as <-.
  apply rbind_ext; [reflexivity|]. intros eri _.
  apply rbind_ext; [reflexivity|]. intros nm _.
  apply rbind_ext; [reflexivity|]. intros sl Esl.
  apply rbind_ext; [reflexivity|]. intros stp _.
  apply rbind_ext; [reflexivity|]. intros dx _.
  apply rbind_ext; [reflexivity|]. intros raw _.
  apply rbind_ext; [reflexivity|]. intros [[ter0 dep] smooth] _.
  apply rbind_ext.
  { unfold require1, jmem, jget in Esl. cbn [rbind] in Esl. unfold slope_path in Hs.
    destruct (assoc "slope_file" f) as [v|]; [|discriminate]. injection Esl as ->.
    unfold read_slope_lines. destruct sl; try reflexivity; cbn [rbind]; now rewrite Hs by reflexivity. }
  intros lines _. apply rbind_ext; [reflexivity|]. intros ter _.
  assert (Ep : crust_profile a = crust_profile b) by (unfold crust_profile; fold profile_path; now rewrite Hp).
  rewrite Ep. reflexivity.
Qed.

Lemma run_agree fuel (a b : fsys T) log jf folder f : a jf = Some (FJson (JObj f)) -> agree a b jf ->
  (forall p, slope_path f = Some p -> agree a b p) -> agree a b profile_path ->
  match run sf sc fuel a log jf folder, run sf sc fuel b log jf folder with
  | None, None => True
  | Some (r1, a', l1), Some (r2, b', l2) => r1 = r2 /\ l1 = l2 /\ forall q, agree a b q -> agree a' b' q
  | _, _ => False
  end.
Proof.
  intros Hf Hj Hs Hp. unfold run. rewrite (prepare_agree _ _ _ _ _ Hf Hj Hs Hp).
  destruct (prepare mass_flag b jf) as [[[[[eri name] sm] st] depth]|e]; [|auto].
  destruct (simulate fuel sm (initial_world st log depth)) as [[[[]|e] w]|]; [|auto|auto].
  unfold write_table. destruct (w_log w) as [|first rest]; [auto|].
  assert (W : forall c q, agree a b q -> agree (fs_write (result_path sf sc folder name eri) c a)
                                          (fs_write (result_path sf sc folder name eri) c b) q).
  { intros c q Hq. unfold agree, fs_write. destruct (String.eqb q _); auto. }
  destruct (write_values_to_file (first :: rest)); auto.
Qed.

(** [run] changes no file but its result file. *)
Lemma run_writes fuel fs log jf folder f r fs' log' : fs jf = Some (FJson (JObj f)) ->
  run sf sc fuel fs log jf folder = Some (r, fs', log') ->
  forall q, (forall name eri, assoc "lava_name" f = Some name -> assoc "effusion_rate_init" f = Some eri ->
               q <> result_path sf sc folder name eri) -> fs' q = fs q.
Proof.
  intros Hf H q Hq. unfold run in H.
  destruct (prepare mass_flag fs jf) as [[[[[eri name] sm] st] depth]|e] eqn:E; [|injection H as _ <- _; reflexivity].
  assert (A : assoc "lava_name" f = Some name /\ assoc "effusion_rate_init" f = Some eri).
  { unfold prepare, load_json in E. rewrite Hf in E. cbn [rbind] in E.
    apply rbind_ok in E as (a & H1 & E). apply rbind_ok in E as (b & H2 & E).
    do 4 apply rbind_ok in E as (? & _ & E). apply rbind_ok in E as ([[? ?] ?] & _ & E).
    do 4 apply rbind_ok in E as (? & _ & E). injection E as <- <- _ _ _.
    unfold jget in H1. unfold require1, jmem, jget in H2. cbn [rbind] in H2.
    destruct (assoc "effusion_rate_init" f); [|discriminate]. destruct (assoc "lava_name" f); [|discriminate].
    split; congruence. }
  destruct A as [A1 A2]. specialize (Hq _ _ A1 A2).
  destruct (simulate fuel sm (initial_world st log depth)) as [[[[]|e] w]|]; [|injection H as _ <- _; reflexivity|discriminate].
  unfold write_table in H. destruct (w_log w) as [|first rest]; [injection H as _ <- _; reflexivity|].
  assert (W : forall c, fs_write (result_path sf sc folder name eri) c fs q = fs q).
  { intros c. unfold fs_write. apply String.eqb_neq in Hq. now rewrite Hq. }
  destruct (write_values_to_file (first :: rest)); injection H as _ <- _; apply W.
Qed.

(** The configuration of one rate and its result file. *)
Definition config_at (f : list (string * json T)) (r : Z) : file T :=
  FJson (JObj (assoc_set "effusion_rate_init" (JInt r) f)).
Definition result_at (folder : string) (name : json T) (r : Z) : string := result_path sf sc folder name (JInt r).

Lemma config_name (f : list (string * json T)) r : assoc "lava_name" (assoc_set "effusion_rate_init" (JInt r) f) = assoc "lava_name" f.
Proof. apply assoc_set_other. discriminate. Qed.
Lemma config_slope (f : list (string * json T)) r : slope_path (assoc_set "effusion_rate_init" (JInt r) f) = slope_path f.
Proof. unfold slope_path. rewrite assoc_set_other by discriminate. reflexivity. Qed.

Lemma result_at_inj folder name r1 r2 : result_at folder name r1 = result_at folder name r2 -> r1 = r2.
Proof.
  intros H. apply C53_paths_identify_runs in H as [_ H]; [|apply Z_to_string_no_underscore..].
  now apply Z_to_string_inj.
Qed.

(** Whatever the outcome, a sweep touches only the working file and result
    files: in particular the template and the slope file are intact unless one
    of these is at the same path. *)
Theorem C54_other_files_untouched : forall fuel fs log json_file folder first last step r fs' log' f,
  fs json_file = Some (FJson (JObj f)) ->
  run_effusion_rates sf sc fuel fs log json_file folder first last step = Some (r, fs', log') ->
  forall q, q <> working_path folder json_file ->
    (forall name rate, assoc "lava_name" f = Some name -> q <> result_path sf sc folder name (JInt rate)) ->
    fs' q = fs q.
Proof.
  intros fuel fs log jf folder first last step r fs' log' f Hf H q Hw Hr. unfold run_effusion_rates, load_json in H.
  rewrite Hf in H. destruct (py_range first (last + step) step) as [rates|]; [|injection H as _ <- _; reflexivity].
  set (working := working_path folder jf) in *. clearbody working. clear Hf.
  assert (G : forall rates fs log names,
    sweep sf sc fuel fs log working folder (JObj f) rates names = Some (r, fs', log') -> fs' q = fs q).
  { clear H fs log. intros rates0. induction rates0 as [|z rest IH]; intros fs log names H; cbn [sweep] in H.
    - injection H as _ <- _. reflexivity.
    - cbn [jset] in H. set (fs1 := fs_write working _ fs) in *.
      assert (E1 : fs1 q = fs q) by (unfold fs1, fs_write; apply String.eqb_neq in Hw; now rewrite Hw).
      assert (Ew : fs1 working = Some (FJson (JObj (assoc_set "effusion_rate_init" (JInt z) f)))).
      { unfold fs1, fs_write. now rewrite String.eqb_refl. }
      destruct (run sf sc fuel fs1 (new_runner log) working folder) as [[[[[]|e] fs2] log2]|] eqn:Er; [| |discriminate H].
      + assert (E2 : fs2 q = fs1 q).
        { apply (run_writes _ _ _ _ _ _ _ _ _ Ew Er). intros name eri Hn He. rewrite config_name in Hn.
          rewrite assoc_set_same in He. injection He as <-. auto. }
        destruct (jget _ "lava_name").
        * apply IH in H. congruence.
        * injection H as _ <- _. congruence.
      + injection H as _ <- _. rewrite <- E1.
        apply (run_writes _ _ _ _ _ _ _ _ _ Ew Er). intros name eri Hn He. rewrite config_name in Hn.
        rewrite assoc_set_same in He. injection He as <-. auto. }
  eapply G; eauto.
Qed.

(** A sweep that succeeds is equivalent to independent runs: the result file of
    each rate is the one a fresh single run with that rate produces from the
    initial files; the files are listed in order; and the working file ends up
    as the configuration of the last rate. *)
Theorem C54_sweep_is_independent_runs :
  forall fuel fs log json_file folder first last step names fs' log' f name,
  fs json_file = Some (FJson (JObj f)) -> assoc "lava_name" f = Some name ->
  run_effusion_rates sf sc fuel fs log json_file folder first last step = Some (Ok names, fs', log') ->
  let working := working_path folder json_file in
  (* no output overwrites an input of a later run *)
  (forall p, slope_path f = Some p -> p <> working /\ forall r, p <> result_at folder name r) ->
  (profile_path <> working /\ forall r, profile_path <> result_at folder name r) ->
  (forall r, working <> result_at folder name r) ->
  exists rates, py_range first (last + step) step = Ok rates /\
    names = map (result_at folder name) rates /\
    (forall r, In r rates -> exists fs_r log_r,
       run sf sc fuel (fs_write working (config_at f r) fs) [] working folder = Some (Ok tt, fs_r, log_r) /\
       fs' (result_at folder name r) = fs_r (result_at folder name r)) /\
    (forall r, fs' working = match rates with [] => fs working | _ => Some (config_at f (List.last rates r)) end).
Proof.
  intros fuel fs log jf folder first last step names fs' log' f name Hf Hn H working Hsl Hpr Hwr.
  unfold run_effusion_rates, load_json in H. rewrite Hf in H. fold working in H.
  destruct (py_range first (last + step) step) as [rates|] eqn:Erange; [|discriminate H].
  exists rates. split; [reflexivity|].
  assert (Nd : NoDup rates).
  { apply C54_rates_run in Erange as [Hs Hr]. apply NoDup_nth_error. intros i j Hi E.
    destruct (nth_error rates i) as [a|] eqn:Ei; [|apply nth_error_None in Ei; lia].
    symmetry in E. apply Hr in Ei as [Ei _]. apply Hr in E as [Ej _]. nia. }
  clear Erange Hf. clearbody working.
  assert (G : forall rates fsi log names0, NoDup rates ->
    sweep sf sc fuel fsi log working folder (JObj f) rates names0 = Some (Ok names, fs', log') ->
    (forall q, q <> working -> (forall r, q <> result_at folder name r) -> fsi q = fs q) ->
    (forall r, In r rates -> fsi (result_at folder name r) = fs (result_at folder name r)) ->
    names = names0 ++ map (result_at folder name) rates /\
    (forall r, In r rates -> exists fs_r log_r,
       run sf sc fuel (fs_write working (config_at f r) fs) [] working folder = Some (Ok tt, fs_r, log_r) /\
       fs' (result_at folder name r) = fs_r (result_at folder name r)) /\
    (forall q, (forall r, In r rates -> q <> result_at folder name r) -> q <> working -> fs' q = fsi q) /\
    (forall r, fs' working = match rates with [] => fsi working | _ => Some (config_at f (List.last rates r)) end)).
  { clear H Nd rates log. intros rates0. induction rates0 as [|z rest IH]; intros fsi log names0 Nd H Inv Invr; cbn [sweep] in H.
    - injection H as <- <- _. rewrite app_nil_r. repeat split; auto. intros r [].
    - cbn [jset] in H. change (FJson (JObj (assoc_set "effusion_rate_init" (JInt z) f))) with (config_at f z) in H.
      set (fsz := fs_write working (config_at f z) fsi) in *.
      assert (Ew : fsz working = Some (config_at f z)) by (unfold fsz, fs_write; now rewrite String.eqb_refl).
      assert (Eo : forall q, q <> working -> fsz q = fsi q).
      { intros q Hq. unfold fsz, fs_write. apply String.eqb_neq in Hq. now rewrite Hq. }
      destruct (run sf sc fuel fsz (new_runner log) working folder) as [[[[[]|e] fs2] log2]|] eqn:Er; [|discriminate H|discriminate H].
      assert (W := run_writes _ _ _ _ _ _ _ _ _ Ew Er).
      assert (W2 : forall q, q <> result_at folder name z -> fs2 q = fsz q).
      { intros q Hq. apply W. intros name' eri Hn' He. rewrite config_name in Hn'. rewrite Hn in Hn'. injection Hn' as <-.
        rewrite assoc_set_same in He. injection He as <-. exact Hq. }
      assert (RA := run_agree fuel fsz (fs_write working (config_at f z) fs) (new_runner log) working folder _ Ew).
      rewrite Er in RA. unfold agree in RA.
      assert (A0 : forall q, q <> working -> fsi q = fs q -> fsz q = fs_write working (config_at f z) fs q).
      { intros q Hq E. rewrite (Eo q Hq), E. unfold fs_write. apply String.eqb_neq in Hq. now rewrite Hq. }
      assert (Aw : fsz working = fs_write working (config_at f z) fs working).
      { rewrite Ew. unfold fs_write. now rewrite String.eqb_refl. }
      specialize (RA Aw).
      assert (As : forall p, slope_path (assoc_set "effusion_rate_init" (JInt z) f) = Some p ->
          fsz p = fs_write working (config_at f z) fs p).
      { intros p Hp. rewrite config_slope in Hp. destruct (Hsl p Hp) as [H1 H2]. apply A0; auto. }
      specialize (RA As). destruct Hpr as [Hp1 Hp2]. specialize (RA (A0 _ Hp1 (Inv _ Hp1 Hp2))).
      destruct (run sf sc fuel (fs_write working (config_at f z) fs) (new_runner log) working folder) as [[[rz fsb] logb]|] eqn:Eb; [|contradiction].
      destruct RA as (<- & <- & RA).
      unfold jget in H. rewrite config_name, Hn in H.
      inversion Nd as [|? ? Nz Nd']. subst.
      apply IH in H; [|exact Nd'| |].
      + destruct H as (Hnames & Hruns & Hrest & Hwork). split; [|split; [|split]].
        * rewrite Hnames, <- app_assoc. reflexivity.
        * intros r [<-|Hr]; [|auto]. exists fsb, log2. split; [exact Eb|].
          rewrite Hrest; [| |intros E; symmetry in E; now apply Hwr in E].
          -- apply RA. apply A0; [intros E; symmetry in E; now apply Hwr in E|]. apply Invr. now left.
          -- intros r Hr E. apply result_at_inj in E. subst. contradiction.
        * intros q Hq1 Hq2. rewrite Hrest by (intros; try (apply Hq1; now right); exact Hq2).
          rewrite W2 by (apply Hq1; now left). apply Eo, Hq2.
        * intros r. rewrite (Hwork r). destruct rest as [|z2 rest]; [|reflexivity].
          rewrite W2 by apply Hwr. exact Ew.
      + intros q H1 H2. rewrite W2 by apply H2. rewrite Eo by exact H1. apply Inv; auto.
      + intros r Hr. rewrite W2. 2:{ intros E. apply result_at_inj in E. subst. contradiction. }
        rewrite Eo by (intros E; symmetry in E; now apply Hwr in E). apply Invr. now right. }
  destruct (G rates fs log [] Nd H) as (H1 & H2 & _ & H4); auto.
Qed.

(** The working file is the template itself when the template lies in the
    output folder; then a successful sweep of at least one rate leaves the
    template with the last rate in it. *)
Fixpoint has_slash (s : string) : bool :=
  match s with EmptyString => false | String c r => Ascii.eqb c "/" || has_slash r end.
Lemma split_no_slash s : has_slash s = false -> split_on "/" s = [s].
Proof.
  induction s as [|c r IH]; cbn; [reflexivity|]. intros H. apply orb_false_elim in H as [H1 H2].
  rewrite H1, IH by exact H2. reflexivity.
Qed.
Lemma split_nonempty s : split_on "/" s <> [].
Proof. destruct s as [|c r]; cbn; [discriminate|]. destruct (Ascii.eqb c "/"); [discriminate|]. destruct (split_on "/" r); discriminate. Qed.
Lemma last_split_app a s : has_slash s = false -> last (split_on "/" (a ++ String "/" s)) "" = s.
Proof.
  intros Hs. induction a as [|c r IH].
  - cbn [append split_on]. cbn [Ascii.eqb Bool.eqb]. rewrite (split_no_slash s Hs). reflexivity.
  - cbn [append split_on]. destruct (Ascii.eqb c "/").
    + destruct (split_on "/" (r ++ String "/" s)) eqn:E; [now apply split_nonempty in E|]. exact IH.
    + destruct (split_on "/" (r ++ String "/" s)) as [|h t] eqn:E; [now apply split_nonempty in E|].
      destruct t; [|exact IH]. exfalso. clear -E.
      assert (L : (2 <= length (split_on "/" (r ++ String "/" s)))%nat).
      { clear. induction r as [|c r IH]; cbn [append split_on].
        - cbn [Ascii.eqb Bool.eqb]. destruct (split_on "/" s) eqn:E; [now apply split_nonempty in E|]. cbn. lia.
        - destruct (Ascii.eqb c "/"); [cbn; lia|]. destruct (split_on "/" (r ++ String "/" s)); cbn in *; lia. }
      rewrite E in L. cbn in L. lia.
Qed.
Lemma last_char_app a : forall c, last_char (a ++ String c "") = Some c.
Proof.
  induction a as [|d a IH]; intros c; [reflexivity|]. cbn. rewrite IH. destruct (a ++ String c "")%string eqn:E; [|reflexivity].
  destruct a; discriminate.
Qed.
Lemma not_slash {A} (d : ascii) (x y : A) : d <> "/"%char ->
  match d with "/"%char => x | _ => y end = y.
Proof. intros Hd. destruct d as [[] [] [] [] [] [] [] []]; try reflexivity; now elim Hd. Qed.
Theorem C54_template_in_output_folder : forall folder base,
  has_slash base = false -> base <> "" -> folder <> "" ->
  working_path folder (folder ++ "/" ++ base) = path_join folder base /\
  (last_char folder <> Some "/"%char -> working_path folder (folder ++ "/" ++ base) = (folder ++ "/" ++ base)%string).
Proof.
  intros folder base Hb Hne Hf. assert (B : basename (folder ++ "/" ++ base) = base).
  { unfold basename. apply last_split_app, Hb. }
  split; [unfold working_path; now rewrite B|]. intros Hl. unfold working_path. rewrite B. unfold path_join.
  destruct base as [|c r]; [congruence|]. cbn [has_slash] in Hb. apply orb_false_elim in Hb as [Hc _].
  apply Ascii.eqb_neq in Hc.
  destruct (last_char folder) as [d|] eqn:El.
  2:{ exfalso. destruct folder as [|x fo]; [congruence|]. clear -El. revert x El. induction fo as [|y fo IH]; intros x El; cbn in *; [discriminate|eauto]. }
  assert (Hd : d <> "/"%char) by congruence. clear -Hc Hd.
  rewrite (not_slash d _ _ Hd). revert Hc. generalize (folder ++ "/" ++ String c r)%string. intros x Hc.
  destruct c as [[] [] [] [] [] [] [] []]; try reflexivity; now elim Hc.
Qed.
Theorem C54_template_preserved_refuted :
  forall fuel fs log json_file folder first last step names fs' log' f name,
  fs json_file = Some (FJson (JObj f)) -> assoc "lava_name" f = Some name ->
  run_effusion_rates sf sc fuel fs log json_file folder first last step = Some (Ok names, fs', log') ->
  working_path folder json_file = json_file -> names <> [] ->
  (forall p, slope_path f = Some p -> p <> json_file /\ forall r, p <> result_at folder name r) ->
  (profile_path <> json_file /\ forall r, profile_path <> result_at folder name r) ->
  (forall r, json_file <> result_at folder name r) ->
  exists rates r, py_range first (last + step) step = Ok rates /\ nth_error rates (length rates - 1) = Some r /\
    fs' json_file = Some (FJson (JObj (assoc_set "effusion_rate_init" (JInt r) f))).
Proof.
  intros fuel fs log jf folder first last step names fs' log' f name Hf Hn H Hw Hne H1 H2 H3.
  assert (Q := C54_sweep_is_independent_runs _ _ _ _ _ _ _ _ _ _ _ _ _ Hf Hn H). cbv zeta in Q.
  rewrite Hw in Q. destruct (Q H1 H2 H3) as (rates & Hr & Hnm & _ & Hwk).
  exists rates, (List.last rates 0%Z). split; [exact Hr|]. specialize (Hwk 0%Z).
  destruct rates as [|z rest] eqn:E; [subst names; now elim Hne|]. rewrite <- E in *. split; [|exact Hwk].
  clear Hwk. assert (Hr0 : rates <> []) by (rewrite E; discriminate).
  destruct (exists_last Hr0) as (l & a & ->). rewrite app_length. cbn [length].
  rewrite last_last. rewrite nth_error_app2 by lia. replace (length l + 1 - 1 - length l)%nat with O by lia. reflexivity.
Qed.

(** ** C61: make_new_json *)
Theorem C61_new_json_changes_two_keys : forall (fs : fsys T) template eruption_name slope_file output fs',
  make_new_json fs template eruption_name slope_file output = Ok fs' ->
  exists f g, fs template = Some (FJson (JObj f)) /\ fs' output = Some (FJson (JObj g)) /\
    assoc "lava_name" g = Some (JStr eruption_name) /\ assoc "slope_file" g = Some (JStr slope_file) /\
    (forall k, k <> "lava_name" -> k <> "slope_file" -> assoc k g = assoc k f) /\
    (forall q, q <> output -> fs' q = fs q).
Proof.
  intros fs tpl en sl out fs' H. unfold make_new_json, load_json in H.
  destruct (fs tpl) as [[j| | |]|]; try discriminate H. cbn [rbind] in H. destruct j as [| | | | | |f]; try discriminate H.
  cbn [jset rbind] in H. injection H as <-. exists f. eexists. split; [reflexivity|]. unfold fs_write. rewrite String.eqb_refl.
  split; [reflexivity|]. split; [|split; [|split]].
  - rewrite assoc_set_other by discriminate. apply assoc_set_same.
  - apply assoc_set_same.
  - intros k H1 H2. rewrite !assoc_set_other by assumption. reflexivity.
  - intros q Hq. apply String.eqb_neq in Hq. now rewrite Hq.
Qed.
Theorem C61_refused_only_for_bad_templates : forall (fs : fsys T) template eruption_name slope_file output f,
  fs template = Some (FJson (JObj f)) -> exists fs', make_new_json fs template eruption_name slope_file output = Ok fs'.
Proof. intros fs tpl en sl out f H. unfold make_new_json, load_json. rewrite H. cbn. eauto. Qed.
End Sweep.
