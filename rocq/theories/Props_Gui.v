(** * Props_Gui: what the buttons of the graphical interface do (C69) *)
From Coq Require Import Reals Lra.
From Verif Require Import Base Num Json Logger World Vesicle MeltVisc RelVisc Bubbles Terrain Lava
  Thermal Flux Integrator Factory Run RNum EffArray Props_Run Props_EffArray Plot Props_Plot Gui.

Section Any.
Context {T : Type} {N : Num T} (sf : T -> string) (sc : json T -> string) (rt : nat -> T -> T).

Lemma entry_rates_inv t1 t2 t3 a b c : entry_rates t1 t2 t3 = Ok (a, b, c) ->
  entry_rate t1 = Ok a /\ entry_rate t2 = Ok b /\ entry_rate t3 = Ok c.
Proof.
  intros H. unfold entry_rates in H. apply rbind_ok in H as (x & Hx & H). apply rbind_ok in H as (y & Hy & H).
  apply rbind_ok in H as (z & Hz & H). injection H as <- <- <-. auto.
Qed.

(** C69(a).  An error box means that nothing was run and no file was touched. *)
Theorem C69_error_box_means_nothing_done : forall fuel fs log json_file folder t1 t2 t3 msg fs' log',
  sweep_button sf sc rt fuel fs log json_file folder t1 t2 t3 = Some (ErrorBox msg, fs', log') \/
  single_button sf sc fuel fs log json_file folder = Some (ErrorBox msg, fs', log') ->
  fs' = fs /\ log' = log.
Proof.
  intros fuel fs log jf folder t1 t2 t3 msg fs' log' [H|H].
  - unfold sweep_button in H. destruct (_ || _); [injection H as _ <- <-; auto|].
    destruct (entry_rates t1 t2 t3) as [[[a b] c]|e]; [|destruct e; try discriminate H; injection H as _ <- <-; auto].
    destruct (entry_slope_file fs jf); [|discriminate H].
    destruct (effusion_rate_array _ _ _ _ _ _ _ _ _ _ _ _) as [[[[?|?] ?] ?]|]; discriminate H.
  - unfold single_button in H. destruct (_ || _); [injection H as _ <- <-; auto|].
    destruct (run_and_plot _ _ _ _ _ _ _ _) as [[[[?|?] ?] ?]|]; discriminate H.
Qed.

(** C69(b).  The success box of the sweep means that the whole sweep was done:
    every rate was run, drawn, and has its run-out line; the rates are those of
    the three numbers, each cut down to an integer. *)
Theorem C69_sweep_success : forall fuel fs log json_file folder t1 t2 t3 msg fs' log',
  sweep_button sf sc rt fuel fs log json_file folder t1 t2 t3 = Some (SuccessBox msg, fs', log') ->
  json_file <> "" /\ folder <> "" /\
  exists first last step slope_file p outs,
    entry_rate t1 = Ok first /\ entry_rate t2 = Ok last /\ entry_rate t3 = Ok step /\ step <> 0%Z /\
    (exists d, fs json_file = Some (FJson (JObj d)) /\ forall path, assoc "slope_file" d = Some (JStr path) -> slope_file = path) /\
    effusion_rate_array sf sc rt fuel fs log json_file folder slope_file first last step = Some (Ok (p, outs), fs', log').
Proof.
  intros fuel fs log jf folder t1 t2 t3 msg fs' log' H. unfold sweep_button in H.
  destruct (String.eqb_spec jf "") as [->|Hj]; [discriminate H|]. destruct (String.eqb_spec folder "") as [->|Hf]; [discriminate H|].
  cbn [orb] in H. split; [exact Hj|]. split; [exact Hf|].
  destruct (entry_rates t1 t2 t3) as [[[a b] c]|e] eqn:E; [|destruct e; discriminate H].
  destruct (entry_slope_file fs jf) as [sl|] eqn:Es; [|discriminate H].
  assert (Hsl : exists d, fs jf = Some (FJson (JObj d)) /\ forall path, assoc "slope_file" d = Some (JStr path) -> sl = path).
  { unfold entry_slope_file, load_json in Es. destruct (fs jf) as [[[| | | | | |d]|?|?|?]|]; try discriminate Es.
    exists d. split; [reflexivity|]. intros path Hp. cbn [rbind] in Es. rewrite Hp in Es. injection Es as <-. reflexivity. }
  destruct (effusion_rate_array sf sc rt fuel fs log jf folder sl a b c) as [[[[[p outs]|?] fs1] log1]|] eqn:A; try discriminate H.
  injection H as _ <- <-. apply entry_rates_inv in E as (E1 & E2 & E3). exists a, b, c, sl, p, outs.
  do 3 (split; [assumption|]). split; [|split; [exact Hsl|exact A]].
  intros ->. unfold effusion_rate_array, run_effusion_rates in A. destruct (load_json fs jf) as [base|]; [|discriminate A].
  unfold py_range in A. cbn in A. discriminate A.
Qed.
(** A sweep whose range is empty (the last rate is on the wrong side of the
    first) is never reported as a success, nor refused with a message: the
    table of the run-outs is emptied, then the sweep dies on an uncaught
    exception. *)
Theorem C69_empty_range_is_not_reported_refuted : forall fuel fs log json_file folder t1 t2 t3 first last step d slope lines profile name,
  json_file <> "" -> folder <> "" -> fs json_file = Some (FJson (JObj d)) ->
  assoc "slope_file" d = Some (JStr slope) -> assoc "lava_name" d = Some name ->
  fs slope = Some (FText lines) -> rmapM plot_slope_line (tl lines) = Ok profile ->
  entry_rate t1 = Ok first -> entry_rate t2 = Ok last -> entry_rate t3 = Ok step -> step <> 0%Z ->
  (0 < step -> last + step <= first)%Z -> (step < 0 -> first <= last + step)%Z ->
  exists e, sweep_button sf sc rt fuel fs log json_file folder t1 t2 t3 =
    Some (NoBox e, fs_write (path_join folder ("run_outs_" ++ py_str sf sc name ++ ".csv")) (FOuts []) fs, log).
Proof.
  intros fuel fs log jf folder t1 t2 t3 a b c d slope lines profile name Hj Hf Hd Hs Hn Hl Hp H1 H2 H3 Hc Hpos Hneg. unfold sweep_button.
  apply String.eqb_neq in Hj, Hf. rewrite Hj, Hf. cbn [orb]. unfold entry_rates. rewrite H1, H2, H3. cbn [rbind].
  unfold entry_slope_file, load_json. rewrite Hd. cbn [rbind]. rewrite Hs.
  unfold effusion_rate_array, run_effusion_rates, load_json. rewrite Hd.
  assert (Hr : py_range a (b + c) c = Ok []).
  { destruct (C54_rates_exist a b c Hc) as [rates Hr]. destruct rates as [|r rates]; [exact Hr|]. exfalso.
    apply C54_rates_run in Hr as [_ Hr]. destruct (proj1 (Hr 0%nat r) eq_refl) as [E F]. lia. }
  rewrite Hr. cbn [sweep]. unfold plot_all_results, plot_slope_file, load_json. rewrite Hd. cbn [rbind]. rewrite Hs, Hl, Hp.
  cbn [plot_files rbind]. unfold jget. rewrite Hn. cbn [rbind get_run_outs outs_rows rmap]. eauto.
Qed.
(** So a success box means that at least one rate was run. *)
Theorem C69_success_means_a_rate : forall fuel fs log json_file folder t1 t2 t3 msg fs' log',
  sweep_button sf sc rt fuel fs log json_file folder t1 t2 t3 = Some (SuccessBox msg, fs', log') ->
  exists first last step rates, entry_rate t1 = Ok first /\ entry_rate t2 = Ok last /\ entry_rate t3 = Ok step /\
    py_range first (last + step) step = Ok rates /\ rates <> [].
Proof.
  intros fuel fs log jf folder t1 t2 t3 msg fs' log' H.
  apply C69_sweep_success in H as (_ & _ & a & b & c & sl & p & outs & Ea & Eb & Ec & _ & _ & A).
  exists a, b, c. unfold effusion_rate_array, run_effusion_rates in A. destruct (load_json fs jf) as [base|]; [|discriminate A].
  destruct (py_range a (b + c) c) as [rates|]; [|discriminate A]. exists rates. do 4 (split; [solve [auto]|]). intros ->.
  cbn [sweep] in A. destruct (let? p := _ in _) as [[p' nm]|] in A; [|discriminate A]. cbn in A. discriminate A.
Qed.
(** The success box of a single run means that the run was written and all
    pictures were made. *)
Theorem C69_single_success : forall fuel fs log json_file folder msg fs' log',
  single_button sf sc fuel fs log json_file folder = Some (SuccessBox msg, fs', log') ->
  run sf sc fuel fs (new_runner log) json_file folder = Some (Ok tt, fs', log') /\
  exists path p, get_file_name_results sf sc fs' folder json_file = Ok path /\
    plot_all_results fs' folder [path] json_file = Ok p.
Proof.
  intros fuel fs log jf folder msg fs' log' H. unfold single_button in H. destruct (_ || _); [discriminate H|].
  unfold run_and_plot in H. destruct (run sf sc fuel fs (new_runner log) jf folder) as [[[[[]|e] fs1] log1]|]; try discriminate H.
  destruct (get_file_name_results sf sc fs1 folder jf) as [path|] eqn:Ep; [|discriminate H]. cbn [rbind] in H.
  destruct (plot_all_results fs1 folder [path] jf) as [p|] eqn:Epl; [|discriminate H]. injection H as _ <- <-.
  split; [reflexivity|]. exists path, p. auto.
Qed.

(** C69(c).  A step that is cut down to 0 is not refused with a message: the
    sweep dies on an uncaught exception, having done nothing. *)
Theorem C69_zero_step_is_not_reported_refuted : forall fuel fs log json_file folder t1 t2 t3 first last d slope,
  json_file <> "" -> folder <> "" -> fs json_file = Some (FJson (JObj d)) -> assoc "slope_file" d = Some (JStr slope) ->
  entry_rate t1 = Ok first -> entry_rate t2 = Ok last -> entry_rate t3 = Ok 0%Z ->
  exists e, sweep_button sf sc rt fuel fs log json_file folder t1 t2 t3 = Some (NoBox e, fs, log).
Proof.
  intros fuel fs log jf folder t1 t2 t3 a b d slope Hj Hf Hd Hs H1 H2 H3. unfold sweep_button.
  apply String.eqb_neq in Hj, Hf. rewrite Hj, Hf. cbn [orb]. unfold entry_rates. rewrite H1, H2, H3. cbn [rbind].
  unfold entry_slope_file, load_json. rewrite Hd. cbn [rbind]. rewrite Hs.
  unfold effusion_rate_array, run_effusion_rates, load_json. rewrite Hd. cbn [py_range Z.eqb]. eauto.
Qed.

(** Text that is not a number is refused with the message. *)
Theorem C69_not_a_number : forall fuel fs log json_file folder t1 t2 t3 m,
  json_file <> "" -> folder <> "" -> @parse_float T N t1 = Err (ValueError m) ->
  sweep_button sf sc rt fuel fs log json_file folder t1 t2 t3 = Some (ErrorBox "Effusion rates must be numeric values.", fs, log).
Proof.
  intros fuel fs log jf folder t1 t2 t3 m Hj Hf H. unfold sweep_button. apply String.eqb_neq in Hj, Hf. rewrite Hj, Hf.
  cbn [orb]. unfold entry_rates, entry_rate. rewrite H. reflexivity.
Qed.
End Any.

Open Scope R_scope.
(** C69(d).  The integer kept is the part before the decimal point: fractions
    of a cubic metre per second are dropped without a word. *)
Lemma R_trunc_spec x : (0 <= x -> IZR (R_trunc x) <= x < IZR (R_trunc x) + 1) /\
  (x <= 0 -> IZR (R_trunc x) - 1 < x <= IZR (R_trunc x)).
Proof.
  unfold R_trunc. destruct (Rle_dec 0 x) as [H|H].
  - destruct (base_Int_part x) as [A B]. split; [lra|]. intros H0. assert (x = 0) by lra. subst x.
    assert (Z : (Int_part 0 < 1)%Z) by (apply lt_IZR; lra). assert (Z' : (-1 < Int_part 0)%Z) by (apply lt_IZR; lra).
    assert (Int_part 0 = 0%Z) as -> by lia. lra.
  - destruct (base_Int_part (- x)) as [A B]. rewrite opp_IZR. split; lra.
Qed.
Theorem C69_fractions_dropped : forall text z, @entry_rate R RNum text = Ok z ->
  exists x, parse_float text = Ok x /\
    (0 <= x -> IZR z <= x < IZR z + 1) /\ (x <= 0 -> IZR z - 1 < x <= IZR z).
Proof.
  intros text z H. unfold entry_rate in H. apply rbind_ok in H as (x & Hx & H). exists x. split; [exact Hx|].
  cbn in H. injection H as <-. apply R_trunc_spec.
Qed.
(** So a step below one cubic metre per second can never be used. *)
Theorem C69_small_steps_refuted : forall sf sc rt fuel fs log json_file folder t1 t2 t3 x msg fs' log',
  @parse_float R RNum t3 = Ok x -> -1 < x < 1 ->
  sweep_button sf sc rt fuel fs log json_file folder t1 t2 t3 <> Some (SuccessBox msg, fs', log').
Proof.
  intros sf sc rt fuel fs log jf folder t1 t2 t3 x msg fs' log' Hx Hb H.
  apply C69_sweep_success in H as (_ & _ & a & b & c & sl & p & outs & _ & _ & E & Hc & _ & _).
  unfold entry_rate in E. rewrite Hx in E. cbn in E. injection E as <-. apply Hc.
  destruct (R_trunc_spec x) as [A B]. destruct (Rle_dec 0 x) as [H0|H0].
  - specialize (A H0). assert (-1 < R_trunc x < 1)%Z by (split; apply lt_IZR; lra). lia.
  - specialize (B ltac:(lra)). assert (-1 < R_trunc x < 1)%Z by (split; apply lt_IZR; lra). lia.
Qed.

(** Concrete entries. *)
Example entry_35 : @entry_rate R RNum "35" = Ok 35%Z.
Proof.
  unfold entry_rate. change (parse_float "35") with (Ok (IZR 35 / IZR 1)). cbn [rbind n_trunc RNum]. f_equal.
  destruct (R_trunc_spec (35 / 1)) as [A _]. specialize (A ltac:(lra)).
  assert (34 < R_trunc (35 / 1) < 36)%Z by (split; apply lt_IZR; lra). lia.
Qed.
Example entry_half : @entry_rate R RNum "0.5" = Ok 0%Z.
Proof.
  unfold entry_rate. change (parse_float "0.5") with (Ok (IZR 5 / IZR 10)). cbn [rbind n_trunc RNum]. f_equal.
  destruct (R_trunc_spec (5 / 10)) as [A _]. specialize (A ltac:(lra)).
  assert (-1 < R_trunc (5 / 10) < 1)%Z by (split; apply lt_IZR; lra). lia.
Qed.
Example entry_word : @parse_float R RNum "ten" = Err (ValueError "could not convert string to float").
Proof. reflexivity. Qed.
Example half_step_dies : forall sf sc rt fuel log, let fs := fun _ => Some (FJson (JObj [("slope_file", JStr "s.txt")])) in
  exists e, sweep_button sf sc rt fuel fs log "a.json" "out" "5" "35" "0.5" = Some (NoBox e, fs, log).
Proof.
  intros sf sc rt fuel log fs.
  assert (E5 : @entry_rate R RNum "5" = Ok 5%Z).
  { unfold entry_rate. change (parse_float "5") with (Ok (IZR 5 / IZR 1)). cbn [rbind n_trunc RNum]. f_equal.
    destruct (R_trunc_spec (5 / 1)) as [A _]. specialize (A ltac:(lra)).
    assert (4 < R_trunc (5 / 1) < 6)%Z by (split; apply lt_IZR; lra). lia. }
  eapply C69_zero_step_is_not_reported_refuted; [discriminate|discriminate|reflexivity|reflexivity|exact E5|exact entry_35|exact entry_half].
Qed.
Lemma entry_int n text : parse_float text = Ok (IZR (Zpos n) / IZR 1) -> @entry_rate R RNum text = Ok (Zpos n).
Proof.
  intros H. unfold entry_rate. rewrite H. cbn [rbind n_trunc RNum]. f_equal.
  destruct (R_trunc_spec (IZR (Zpos n) / 1)) as [A _].
  assert (P : 0 <= IZR (Zpos n)) by (apply IZR_le; lia). specialize (A ltac:(lra)).
  replace (IZR (Z.pos n) / 1) with (IZR (Z.pos n)) in A |- * by field.
  assert (Zpos n - 1 < R_trunc (IZR (Zpos n)) < Zpos n + 1)%Z; [|lia].
  split; apply lt_IZR; [rewrite minus_IZR|rewrite plus_IZR]; lra.
Qed.
(** From 35 down to 5 with the step 10 (instead of -10): no box, and an empty
    table of run-outs. *)
Example down_with_positive_step : forall sf sc rt fuel log,
  let fs := fun p => if String.eqb p "a.json" then Some (FJson (JObj [("lava_name", JStr "lava"); ("slope_file", JStr "s.txt")]))
                     else Some (FText ["x	y	z	distance	slope"]) in
  exists e fs', sweep_button sf sc rt fuel fs log "a.json" "out" "35" "5" "10" = Some (NoBox e, fs', log) /\
    fs' "out/run_outs_lava.csv" = Some (FOuts []).
Proof.
  intros sf sc rt fuel log fs.
  destruct (C69_empty_range_is_not_reported_refuted sf sc rt fuel fs log "a.json" "out" "35" "5" "10" 35 5 10
    [("lava_name", JStr "lava"); ("slope_file", JStr "s.txt")] "s.txt" ["x	y	z	distance	slope"] [] (JStr "lava")) as [e He];
    try discriminate; try reflexivity; try lia.
  - exact entry_35.
  - now apply entry_int.
  - now apply entry_int.
  - exists e. eexists. split; [exact He|]. reflexivity.
Qed.
