(** * Props_PlotProfile: the profile that is drawn, and the one that is simulated (C68) *)
From Coq Require Import Reals Lra.
From Verif Require Import Base Num Json Logger World Vesicle MeltVisc RelVisc Bubbles Terrain Lava
  Thermal Flux Integrator Factory Run RNum EffArray Props_Run Props_Terrain Plot.

Section Any.
Context {T : Type} {N : Num T}.

(** Tab-separated column [c] of the line is the text of the number [x]. *)
Definition column_is (line : string) (c : nat) (x : T) : Prop :=
  exists text, nth_error (split_on tab_char line) c = Some text /\ parse_float text = Ok x.
Lemma column_ok line c x : column (split_on tab_char line) c = Ok x <-> column_is line c x.
Proof.
  unfold column, column_is. destruct (nth_error _ _) as [s|]; split.
  - eauto.
  - intros (t & E & H). injection E as ->. exact H.
  - discriminate.
  - intros (t & E & _). discriminate.
Qed.

(** C68(e).  The profile that is drawn: one point per line of the slope file of
    the configuration but the first, at the distance (fourth column) and slope
    in degrees (fifth column) written there; nothing is dropped or smoothed. *)
Theorem C68_drawn_profile : forall (fs : fsys T) json_file profile,
  plot_slope_file fs json_file = Ok profile <->
  exists d path lines, fs json_file = Some (FJson (JObj d)) /\ assoc "slope_file" d = Some (JStr path) /\
    fs path = Some (FText lines) /\
    Forall2 (fun line p => column_is line 3 (fst p) /\ column_is line 4 (snd p) /\ exists alt, column_is line 2 alt)
            (tl lines) profile.
Proof.
  intros fs jf profile.
  assert (Hl : forall lines profile, rmapM plot_slope_line lines = Ok profile <->
    Forall2 (fun line p => column_is line 3 (fst p) /\ column_is line 4 (snd p) /\ exists alt, column_is line 2 alt) lines profile).
  { clear. induction lines as [|l lines IH]; intros prof; cbn [rmapM]; split; intros H.
    - injection H as <-. constructor.
    - inversion H. reflexivity.
    - apply rbind_ok in H as (p & Hp & H). apply rbind_ok in H as (ps & Hps & H). injection H as <-.
      constructor; [|apply IH; exact Hps]. unfold plot_slope_line in Hp.
      apply rbind_ok in Hp as (a & Ha & Hp). apply rbind_ok in Hp as (b & Hb & Hp). apply rbind_ok in Hp as (c & Hc & Hp).
      injection Hp as <-. cbn [fst snd]. apply column_ok in Ha, Hb, Hc. eauto.
    - inversion H as [|? p ? ps (A & B & c & C) F]; subst. apply IH in F. apply column_ok in A, B, C.
      rewrite F. unfold plot_slope_line. rewrite A, B, C. destruct p; reflexivity. }
  unfold plot_slope_file, load_json. split.
  - intros H. destruct (fs jf) as [[j|ls|c|o]|]; try discriminate H. cbn [rbind] in H.
    destruct j as [| | | | | |d]; try discriminate H. cbn [rbind] in H.
    destruct (assoc "slope_file" d) as [[| | | |path| |]|] eqn:Ed; try discriminate H.
    destruct (fs path) as [[?|lines|?|?]|] eqn:Ep; try discriminate H.
    exists d, path, lines. repeat (split; [assumption || reflexivity|]). apply Hl, H.
  - intros (d & path & lines & E1 & E2 & E3 & F). rewrite E1. cbn [rbind]. rewrite E2. cbn [rbind]. rewrite E3. apply Hl, F.
Qed.
End Any.

Open Scope R_scope.
(** C68(f).  The knots that an unsmoothed simulation uses are those points of
    the drawn profile that are steeper than 0.1 degree, in radians; the others
    are drawn but not simulated. *)
Theorem C68_drawn_and_simulated_profile : forall (fs : fsys R) json_file d path lines profile t t',
  fs json_file = Some (FJson (JObj d)) -> assoc "slope_file" d = Some (JStr path) -> fs path = Some (FText lines) ->
  plot_slope_file fs json_file = Ok profile ->
  read_slope_from_file lines None t = Ok t' ->
  ter_spline t' = Some (map (fun p => (fst p, snd p * (PI / 180))) (filter (fun p => R_ltb (1 / 10) (snd p)) profile)).
Proof.
  intros fs jf d path lines profile t t' E1 E2 E3 Hp Hr.
  apply C68_drawn_profile in Hp as (d' & path' & lines' & F1 & F2 & F3 & F).
  rewrite E1 in F1. injection F1 as <-. rewrite E2 in F2. injection F2 as <-. rewrite E3 in F3. injection F3 as <-.
  unfold read_slope_from_file in Hr. apply rbind_ok in Hr as (prof & Hprof & Hr). cbn [rbind] in Hr.
  apply rbind_ok in Hr as (sp & Hsp & Hr). injection Hr as <-. cbn [ter_spline]. f_equal.
  assert (sp = prof) as ->.
  { unfold make_spline in Hsp. destruct (_ <? _)%nat; [discriminate|]. destruct (negb _); [discriminate|].
    destruct (strictly_increasing _); [|discriminate]. injection Hsp as <-. clear.
    induction prof as [|[a b] l IH]; cbn; [reflexivity|]. now rewrite IH. }
  clear Hsp. unfold read_slope_profile in Hprof. apply rbind_ok in Hprof as (rows & Hrows & Hprof). injection Hprof as <-.
  revert rows Hrows. induction F as [|line p ls ps (A & B & _) F IH]; intros rows Hrows.
  - injection Hrows as <-. reflexivity.
  - cbn [rmapM] in Hrows. apply rbind_ok in Hrows as (o & Ho & Hrows). apply rbind_ok in Hrows as (os & Hos & Hrows).
    injection Hrows as <-. apply column_ok in A, B. unfold read_slope_line in Ho. rewrite B in Ho. cbn [rbind] in Ho. cbn [filter].
    match type of Ho with (if ?b then _ else _) = _ => destruct b eqn:Hb end.
    + injection Ho as <-. cbn [keep_some].
      assert (R_ltb (1 / 10) (snd p) = false) as ->.
      { destruct (R_ltb (1 / 10) (snd p)) eqn:E; [|reflexivity]. revert Hb. rnum. intros Hb. rtests. lra. }
      apply IH, Hos.
    + rewrite radians_R in Ho. cbn [rbind] in Ho. rewrite A in Ho. cbn [rbind] in Ho.
      repeat (apply rbind_ok in Ho as (? & _ & Ho)). injection Ho as <-. cbn [keep_some].
      assert (R_ltb (1 / 10) (snd p) = true) as ->.
      { destruct (R_ltb (1 / 10) (snd p)) eqn:E; [reflexivity|]. revert Hb. rnum. intros Hb. rtests. lra. }
      cbn [map]. f_equal. apply IH, Hos.
Qed.

(** The template's slope file has such a profile: [template_plot_profile] in
    Props_PlotDemo; a two-point one here. *)
Definition demo_line (d s : string) : string :=
  ("0" ++ String tab_char ("0" ++ String tab_char ("5" ++ String tab_char (d ++ String tab_char s))))%string.
Definition demo_fs : fsys R := fun p =>
  if String.eqb p "a.json" then Some (FJson (JObj [("slope_file", JStr "s.txt")]))
  else if String.eqb p "s.txt" then Some (FText ["header"; demo_line "0" "7"; demo_line "10" "0"; demo_line "20" "8"])
  else None.
Example demo_profile : plot_slope_file demo_fs "a.json" = Ok [(0 / 1, 7 / 1); (10 / 1, 0 / 1); (20 / 1, 8 / 1)].
Proof. reflexivity. Qed.
