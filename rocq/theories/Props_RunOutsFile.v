(** * Props_RunOutsFile: the file of the run-out table (C60) *)
From Coq Require Import Reals Lra.
From Flocq Require Import Core.
From Verif Require Import Base Num Json Logger World Vesicle MeltVisc RelVisc Bubbles Terrain Lava
  Thermal Flux Integrator Factory Run RNum EffArray Valid Props_EffArray Props_RunFile.

Section File.
Context {T : Type} {N : Num T} (sf : T -> string) (sc : json T -> string) (rt : nat -> T -> T).

(** The line of run_outs_<name>.csv for the run-out [ro]: the flow id, then the
    effusion rate to the unit, depth and width as they are, coordinates to two
    decimals, elevations to one, the distance to the unit. *)
Definition line_of (name : json T) (ro : run_out T) (line : json T * list T) : Prop :=
  exists x0 y0 z0 x1 y1 z1, ro_start ro = (x0, y0, z0) /\ ro_end ro = (x1, y1, z1) /\
  line = (name, [rt 0 (ro_eff ro); ro_depth ro; ro_width ro; rt 2 x0; rt 2 y0; rt 1 z0;
                 rt 2 x1; rt 2 y1; rt 1 z1; rt 0 (ro_distance ro)]).
(** The result file at [p] and the slope file give the run-out [ro]. *)
Definition reported (fs : fsys T) (slope_file p : string) (ro : run_out T) : Prop :=
  exists c sl, fs p = Some (FCsv c) /\ fs slope_file = Some (FText sl) /\ run_out_of c sl = Ok ro.

Lemma run_out_file_ok (fs : fsys T) slope_file p ro : run_out_file fs slope_file p = Ok ro -> reported fs slope_file p ro.
Proof.
  unfold run_out_file. intros H. destruct (fs p) as [[| |c|]|] eqn:Ep; try discriminate H.
  destruct (fs slope_file) as [[|sl| |]|] eqn:Es; try discriminate H. exists c, sl. auto.
Qed.
Lemma outs_numbers_line name ro : line_of name ro (name, outs_numbers rt ro).
Proof.
  unfold outs_numbers. destruct (ro_start ro) as [[x0 y0] z0] eqn:A, (ro_end ro) as [[x1 y1] z1] eqn:B.
  exists x0, y0, z0, x1, y1, z1. auto.
Qed.
Lemma outs_rows_spec (fs : fsys T) slope_file name files : forall rows r, outs_rows rt fs slope_file name files = (rows, r) ->
  exists done, Forall2 (fun p line => exists ro, reported fs slope_file p ro /\ line_of name ro line) done rows /\
    ((files = done /\ r = Ok tt) \/
     exists p rest e, files = done ++ p :: rest /\ r = Err e /\ forall ro, ~ reported fs slope_file p ro).
Proof.
  induction files as [|p files IH]; intros rows r H; cbn [outs_rows] in H.
  - injection H as <- <-. exists []. split; [constructor|]. left. auto.
  - destruct (run_out_file fs slope_file p) as [ro|e] eqn:E.
    + destruct (outs_rows rt fs slope_file name files) as [rows1 r1] eqn:E1. injection H as <- <-.
      destruct (IH _ _ eq_refl) as (done & F & D). exists (p :: done). split.
      * constructor; [|exact F]. exists ro. split; [now apply run_out_file_ok|apply outs_numbers_line].
      * destruct D as [(-> & ->)|(q & rest & e & -> & -> & D)]; [left; auto|right]. exists q, rest, e. auto.
    + injection H as <- <-. exists []. split; [constructor|]. right. exists p, files, e. split; [reflexivity|]. split; [reflexivity|].
      intros ro (c & sl & A & B & C). unfold run_out_file in E. rewrite A, B, C in E. discriminate.
Qed.
Lemma reported_elsewhere (fs : fsys T) f path slope_file p ro : p <> path -> slope_file <> path ->
  reported (fs_write path f fs) slope_file p ro <-> reported fs slope_file p ro.
Proof.
  intros A B. unfold reported, fs_write. apply String.eqb_neq in A, B. rewrite A, B. reflexivity.
Qed.

(** C60.  run_outs_<name>.csv: the only file that changes; it has one line per
    result file up to the first one that cannot be reported, in order.  The
    figure is drawn when all the files have been reported and there is at least
    one; it shows, for each line, the distance and the effusion rate of that
    line.  Otherwise an exception is raised. *)
Theorem C60_run_outs_file : forall fs folder files slope_file name r fs',
  get_run_outs sf sc rt fs folder files slope_file name = (r, fs') ->
  let path := path_join folder ("run_outs_" ++ py_str sf sc name ++ ".csv") in
  (forall q, q <> path -> fs' q = fs q) /\
  exists done rows, fs' path = Some (FOuts rows) /\ length rows = length done /\ Forall (fun line => fst line = name) rows /\
    ((files = done /\ done <> [] /\ r = Ok (map (fun line => (nth 9 (snd line) zero, nth 0 (snd line) zero)) rows)) \/
     (files = [] /\ done = [] /\ exists e, r = Err e) \/
     (exists p rest e, files = done ++ p :: rest /\ r = Err e)).
Proof.
  intros fs folder files sl name r fs' H path. unfold get_run_outs in H.
  change (run_outs_path sf sc folder name) with path in H.
  destruct (outs_rows rt (fs_write path (FOuts []) fs) sl name files) as [rows r0] eqn:E.
  destruct (outs_rows_spec _ _ _ _ _ _ E) as (done & F & D).
  assert (Hfs : fs' = fs_write path (FOuts rows) fs) by (destruct r0; [destruct rows|]; congruence).
  split. { intros q Hq. rewrite Hfs. unfold fs_write. apply String.eqb_neq in Hq. now rewrite Hq. }
  exists done, rows. split. { rewrite Hfs. unfold fs_write. now rewrite String.eqb_refl. }
  assert (L : length rows = length done) by (clear -F; induction F; cbn; congruence).
  split; [exact L|]. split.
  { clear -F. induction F as [|p line done rows (ro & _ & x0 & y0 & z0 & x1 & y1 & z1 & _ & _ & ->) F IH]; constructor; [reflexivity|exact IH]. }
  destruct D as [(-> & ->)|(p & rest & e & -> & -> & _)].
  - destruct rows as [|line rows].
    + right. left. destruct done; [|discriminate L]. split; [reflexivity|]. split; [reflexivity|]. exists (NameError "flow_id"). congruence.
    + left. split; [reflexivity|]. split; [intros ->; discriminate L|]. injection H as <- _. reflexivity.
  - right. right. exists p, rest, e. split; [reflexivity|]. congruence.
Qed.

(** What the lines say, and which file stopped the loop, when the run-out file
    is not itself one of the files read. *)
Theorem C60_run_outs_lines : forall fs folder files slope_file name r fs',
  get_run_outs sf sc rt fs folder files slope_file name = (r, fs') ->
  let path := path_join folder ("run_outs_" ++ py_str sf sc name ++ ".csv") in
  ~ In path files -> path <> slope_file ->
  exists done rows, fs' path = Some (FOuts rows) /\
    Forall2 (fun p line => exists ro, reported fs slope_file p ro /\ line_of name ro line) done rows /\
    (files = done \/ exists p rest, files = done ++ p :: rest /\ forall ro, ~ reported fs slope_file p ro).
Proof.
  intros fs folder files sl name r fs' H path Hin Hsl. unfold get_run_outs in H.
  change (run_outs_path sf sc folder name) with path in H.
  destruct (outs_rows rt (fs_write path (FOuts []) fs) sl name files) as [rows r0] eqn:E.
  destruct (outs_rows_spec _ _ _ _ _ _ E) as (done & F & D).
  assert (Hfs : fs' = fs_write path (FOuts rows) fs) by (destruct r0; [destruct rows|]; congruence).
  exists done, rows. split. { rewrite Hfs. unfold fs_write. now rewrite String.eqb_refl. }
  assert (Sl : sl <> path) by congruence.
  assert (Hd : incl done files).
  { destruct D as [(-> & _)|(p & rest & e & -> & _)]; [apply incl_refl|]. apply incl_appl, incl_refl. }
  split.
  - assert (G : forall p, In p done -> p <> path) by (intros p Hp ->; apply Hin, Hd, Hp).
    clear -F G Sl. induction F as [|p line done rows (ro & A & B) F IH]; constructor.
    + exists ro. split; [|exact B]. apply (reported_elsewhere fs (FOuts []) path sl p ro); auto. apply G. now left.
    + apply IH. intros q Hq. apply G. now right.
  - destruct D as [(-> & _)|(p & rest & e & -> & _ & D)]; [now left|right]. exists p, rest. split; [reflexivity|].
    intros ro Hro. apply (D ro). apply reported_elsewhere; auto. intros ->. apply Hin. apply in_elt.
Qed.

(** When the first result file or the slope file is missing, the error names the file
    that is missing, and the run-out file is left with its header only. *)
Theorem C60_missing_file_named : forall fs folder p files slope_file name r fs',
  get_run_outs sf sc rt fs folder (p :: files) slope_file name = (r, fs') ->
  let path := path_join folder ("run_outs_" ++ py_str sf sc name ++ ".csv") in
  p <> path -> path <> slope_file ->
  (fs p = None -> r = Err (FileNotFoundError p) /\ fs' path = Some (FOuts [])) /\
  (forall c, fs p = Some (FCsv c) -> fs slope_file = None -> r = Err (FileNotFoundError slope_file) /\ fs' path = Some (FOuts [])).
Proof.
  intros fs folder p files sl name r fs' H path Hp Hs. unfold get_run_outs in H. change (run_outs_path sf sc folder name) with path in H.
  assert (A : fs_write path (FOuts []) fs p = fs p) by (unfold fs_write; apply String.eqb_neq in Hp; now rewrite Hp).
  assert (B : fs_write path (FOuts []) fs sl = fs sl) by (unfold fs_write; destruct (String.eqb_spec sl path); [congruence|reflexivity]).
  cbn [outs_rows] in H. unfold run_out_file in H. rewrite A, B in H. split.
  - intros E. rewrite E in H. injection H as <- <-. split; [reflexivity|]. unfold fs_write. now rewrite String.eqb_refl.
  - intros c E E'. rewrite E, E' in H. injection H as <- <-. split; [reflexivity|]. unfold fs_write. now rewrite String.eqb_refl.
Qed.

(** The result files of a sweep are never the run-out file. *)
Lemma result_not_outs folder n1 n2 (e : json T) : result_path sf sc folder n1 e <> path_join folder ("run_outs_" ++ py_str sf sc n2 ++ ".csv").
Proof.
  unfold result_path. intros H. apply path_join_inj in H.
  - cbn in H. injection H as H. destruct (py_str sf sc n1); cbn in H; discriminate H.
  - intros c r E. injection E as <- _. discriminate.
  - intros c r E. injection E as <- _. discriminate.
Qed.
End File.

(** With a rounding that is accurate to half a unit of the last place, the
    printed line is the run-out to that accuracy. *)
Section Rounded.
Open Scope R_scope.
Definition rounds (rt : nat -> R -> R) : Prop := forall n x, Rabs (rt n x - x) <= / (2 * 10 ^ n).
Theorem C60_rounding_error : forall rt name (ro : run_out R) line, rounds rt -> line_of rt name ro line ->
  exists e d w x0 y0 z0 x1 y1 z1 l X0 Y0 Z0 X1 Y1 Z1,
    line = (name, [e; d; w; x0; y0; z0; x1; y1; z1; l]) /\
    ro_start ro = (X0, Y0, Z0) /\ ro_end ro = (X1, Y1, Z1) /\
    d = ro_depth ro /\ w = ro_width ro /\
    Rabs (e - ro_eff ro) <= 1 / 2 /\ Rabs (l - ro_distance ro) <= 1 / 2 /\
    Rabs (x0 - X0) <= 5 / 1000 /\ Rabs (y0 - Y0) <= 5 / 1000 /\ Rabs (z0 - Z0) <= 5 / 100 /\
    Rabs (x1 - X1) <= 5 / 1000 /\ Rabs (y1 - Y1) <= 5 / 1000 /\ Rabs (z1 - Z1) <= 5 / 100.
Proof.
  intros rt name ro line Hr (X0 & Y0 & Z0 & X1 & Y1 & Z1 & A & B & ->).
  assert (R0 : forall x, Rabs (rt 0%nat x - x) <= 1 / 2) by (intros x; pose proof (Hr 0%nat x) as K; cbn in K; lra).
  assert (R1 : forall x, Rabs (rt 1%nat x - x) <= 5 / 100).
  { intros x; pose proof (Hr 1%nat x) as K. cbn in K. replace (/ (2 * (10 * 1))) with (5 / 100) in K by lra. exact K. }
  assert (R2 : forall x, Rabs (rt 2%nat x - x) <= 5 / 1000).
  { intros x; pose proof (Hr 2%nat x) as K. cbn in K. replace (/ (2 * (10 * (10 * 1)))) with (5 / 1000) in K by lra. exact K. }
  do 16 eexists. split; [reflexivity|]. split; [exact A|]. split; [exact B|].
  repeat split; auto.
Qed.
(** Such a rounding exists: to the nearest multiple of 10^-n, ties to even. *)
Definition py_round (n : nat) (x : R) : R := IZR (ZnearestE (x * 10 ^ n)) / 10 ^ n.
Lemma py_round_rounds : rounds py_round.
Proof.
  intros n x. unfold py_round. pose proof (Znearest_half (fun z => negb (Z.even z)) (x * 10 ^ n)) as H.
  assert (P : 0 < 10 ^ n) by (apply pow_lt; lra).
  replace (IZR (ZnearestE (x * 10 ^ n)) / 10 ^ n - x) with ((IZR (ZnearestE (x * 10 ^ n)) - x * 10 ^ n) / 10 ^ n) by (field; lra).
  unfold Rdiv. rewrite Rabs_mult, (Rabs_pos_eq (/ 10 ^ n)) by (left; now apply Rinv_0_lt_compat).
  rewrite Rabs_minus_sym. rewrite Rinv_mult.
  apply Rmult_le_compat_r; [left; now apply Rinv_0_lt_compat|]. exact H.
Qed.
End Rounded.
