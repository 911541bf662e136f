(** * Props_Plot: what the plots show and when they can be produced (C68) *)
From Coq Require Import Reals Lra.
From Verif Require Import Base Num Json Logger World Vesicle MeltVisc RelVisc Bubbles Terrain Lava
  Thermal Flux Integrator Factory Run RNum Frame StepLog StepProofs LoggerProofs RowProofs StepProps ColumnProofs
  EffArray Props_Run Props_Step Props_RunFile Props_Factory Props_RunOuts Props_EffArray Plot Valid Props_RunOutsFile.

(** ** Specification *)
(** The row shows the number [x] in column [name]. *)
Definition displays {T} (r : row T) (name : string) (x : T) : Prop :=
  exists c, assoc name r = Some c /\ cell_value c = x.
Definition has_number {T} (r : row T) (name : string) : Prop := exists x, displays r name x.

(** The columns the figures draw (plot_flowgo_results.py:125-144), those that
    are drawn as 0 when the run did not log them (146-163), and the one that is
    drawn only if it is there (165-168). *)
Definition drawn_columns : list string :=
  ["position"; "slope"; "core_temperature"; "mean_velocity"; "viscosity"; "tho_0"; "tho_b"; "crystal_fraction";
   "vesicle_fraction"; "channel_width"; "channel_depth"; "effusion_rate"; "crust_temperature";
   "effective_cover_fraction"; "dphi_dtemp"; "dphi_dx"; "characteristic_surface_temperature"].
Definition drawn_or_zero : list string :=
  ["effective_radiation_temperature"; "flowgofluxradiationheat"; "flowgofluxconductionheat"; "flowgofluxforcedconvectionheat"].

(** What one drawn point says about one row of the table. *)
Record point_shows {T} {N : Num T} (r : row T) (p : plot_row T) : Prop := {
  ps_cols : forall i name, nth_error drawn_columns i = Some name ->
              exists x, displays r name x /\ nth_error (pr_cols p) i = Some x;
  ps_opts : forall i name, nth_error drawn_or_zero i = Some name ->
              exists x, nth_error (pr_opts p) i = Some x /\ (displays r name x \/ (~ has_number r name /\ x = zero)) }.

Section One.
Context {T : Type} {N : Num T}.

Lemma opt_field_csv_line name (fields : list string) (r : row T) :
  opt_field name fields (csv_line fields r) =
  if in_strings name fields then option_map cell_value (assoc name r) else None.
Proof.
  induction fields as [|h fs IH]; [reflexivity|]. cbn [csv_line map opt_field in_strings existsb].
  destruct (String.eqb_spec name h) as [->|Hn]; cbn [orb].
  - destruct (assoc h r) as [[]|]; reflexivity.
  - exact IH.
Qed.

Lemma no_extra_in fields (r : row T) name c : has_extra fields r = false -> assoc name r = Some c -> in_strings name fields = true.
Proof.
  unfold has_extra. intros H A. induction r as [|[k v] r IH]; [discriminate A|]. cbn [existsb fst] in H.
  apply orb_false_elim in H as [H1 H2]. cbn [assoc] in A. destruct (String.eqb_spec name k) as [->|].
  - now destruct (in_strings k fields).
  - auto.
Qed.
Lemma opt_field_row name fields (r : row T) : has_extra fields r = false ->
  opt_field name fields (csv_line fields r) = option_map cell_value (assoc name r).
Proof.
  intros H. rewrite opt_field_csv_line. destruct (in_strings name fields) eqn:E; [reflexivity|].
  destruct (assoc name r) as [c|] eqn:A; [|reflexivity]. rewrite (no_extra_in _ _ _ _ H A) in E. discriminate.
Qed.
Lemma field_row name fields (r : row T) x : has_extra fields r = false ->
  (field name fields (csv_line fields r) = Ok x <-> displays r name x).
Proof.
  intros H. rewrite field_csv_line. unfold displays. destruct (in_strings name fields) eqn:E.
  - destruct (assoc name r) as [c|]; split.
    + intros Q. injection Q as <-. eauto.
    + intros (c' & Q & <-). injection Q as ->. reflexivity.
    + discriminate.
    + intros (c' & Q & _). discriminate.
  - split; [discriminate|]. intros (c & A & _). rewrite (no_extra_in _ _ _ _ H A) in E. discriminate.
Qed.

Lemma rmapM_total {A B} (f : A -> res B) l : (forall x, In x l -> exists y, f x = Ok y) -> exists ys, rmapM f l = Ok ys.
Proof.
  induction l as [|x r IH]; intros H; cbn [rmapM]; [eauto|].
  destruct (H x) as [y ->]; [now left|]. cbn. destruct IH as [ys ->]; [intros; apply H; now right|]. cbn. eauto.
Qed.

Lemma Forall2_len {A B} (P : A -> B -> Prop) l l' : Forall2 P l l' -> length l = length l'.
Proof. intros F. induction F; cbn; congruence. Qed.
Lemma Forall2_nth {A B} (P : A -> B -> Prop) l l' i a : Forall2 P l l' -> nth_error l i = Some a ->
  exists b, nth_error l' i = Some b /\ P a b.
Proof.
  intros F. revert i. induction F as [|x y l l' Hxy F IH]; intros i Hi; [destruct i; discriminate|].
  destruct i; [injection Hi as <-; exists y; auto|]. exact (IH _ Hi).
Qed.

Lemma Ok_inj {A} (a b : A) : Ok a = Ok b -> a = b.
Proof. congruence. Qed.
Lemma read_plot_row_ok fields (r : row T) p : has_extra fields r = false ->
  read_plot_row fields (csv_line fields r) = Ok p ->
  point_shows r p /\ pr_snyder p = option_map cell_value (assoc snyder_column r).
Proof.
  intros Hx H. unfold read_plot_row in H. apply rbind_ok in H as (cols & Hc & H). apply Ok_inj in H. subst p.
  apply rmapM_Forall2 in Hc. split; [|cbn [pr_snyder]; now apply opt_field_row].
  split; cbn [pr_cols pr_opts].
  - intros i name Hi. destruct (Forall2_nth _ _ _ _ _ Hc Hi) as (x & Hn & Hf). exists x. split; [|exact Hn].
    now apply field_row in Hf.
  - intros i name Hi. eexists. split; [exact (map_nth_error _ _ _ Hi)|]. rewrite opt_field_row by exact Hx.
    destruct (assoc name r) as [c|] eqn:A; cbn [option_map].
    + left. exists c. auto.
    + right. split; [|reflexivity]. intros (x & c & Q & _). congruence.
Qed.
Lemma read_plot_row_total fields (r : row T) : has_extra fields r = false ->
  (forall n, In n plot_columns -> has_number r n) -> exists p, read_plot_row fields (csv_line fields r) = Ok p.
Proof.
  intros Hx H. unfold read_plot_row. destruct (rmapM_total (fun n => field n fields (csv_line fields r)) plot_columns) as [ys ->].
  - intros n Hn. destruct (H n Hn) as [x D]. exists x. now apply field_row.
  - cbn. eauto.
Qed.

Lemma keep_some_le {A} (l : list (option A)) : (length (keep_some l) <= length l)%nat.
Proof. induction l as [|[a|] l IH]; cbn; lia. Qed.
Lemma keep_some_all {A} (l : list (option A)) : length (keep_some l) = length l -> l = map Some (keep_some l).
Proof.
  induction l as [|[a|] l IH]; cbn; [reflexivity| |]; intros H.
  - f_equal. apply IH. lia.
  - pose proof (keep_some_le l). lia.
Qed.
Lemma keep_some_Some {A} (l : list A) : keep_some (map Some l) = l.
Proof. induction l; cbn; congruence. Qed.

Lemma written_csv (t : table T) c : write_values_to_file t = Ok (Some c) ->
  exists first rest, t = first :: rest /\ csv_header c = map fst first /\
    csv_rows c = map (csv_line (map fst first)) t /\ forall r, In r t -> has_extra (map fst first) r = false.
Proof.
  intros Hw. destruct t as [|first rest]; [discriminate Hw|]. exists first, rest. split; [reflexivity|].
  unfold write_values_to_file in Hw. destruct (rmapM_csv (map fst first) (first :: rest)) as [[_ E]|[K E]]; rewrite E in Hw; [discriminate|].
  cbn [rbind] in Hw. injection Hw as <-. cbn [csv_header csv_rows]. auto.
Qed.

(** C68(a).  A result file is drawn exactly when it has at least three rows
    and every row but the first has all the columns of the figures and a Snyder
    flux (the first needs only an effusion rate that is a finite number, one
    that int() and round() accept); whatever was drawn before. *)
Theorem C68_drawable : forall (fs : fsys T) folder bound path (t : table T) c,
  write_values_to_file t = Ok (Some c) -> fs path = Some (FCsv c) ->
  ((exists d b, plot_file fs folder bound path = Ok (d, b)) <->
   (3 <= length t)%nat /\
   (forall r, nth_error t 0 = Some r -> exists e, displays r "effusion_rate" e /\ is_ok (n_trunc e)) /\
   (forall i r name, nth_error t (S i) = Some r -> In name ("flowgofluxsnyderheat" :: drawn_columns) -> has_number r name)).
Proof.
  intros fs folder bound path t c Hw Hf. apply written_csv in Hw as (first & rest & -> & Eh & Er & Hx).
  unfold plot_file. rewrite Hf, Er, Eh. cbn [map]. set (fields := map fst first) in *. clearbody fields.
  split.
  - intros (d & b & H). apply rbind_ok in H as (e & He & H). apply rbind_ok in H as (z & Hz & H). apply rbind_ok in H as (rows & Hrows & H).
    apply rbind_ok in H as (m & Hm & H). apply rbind_ok in H as (r1 & H1 & H).
    apply rmapM_Forall2 in Hrows. apply Forall2_map_left in Hrows.
    pose proof (Forall2_len _ _ _ Hrows) as Hlen.
    set (sn := keep_some (map pr_snyder rows)) in *.
    assert (L : (2 <= length rows)%nat).
    { unfold nth_err in H1. destruct (nth_error rows 1) eqn:E1; [|discriminate].
      assert (1 < length rows)%nat by (apply nth_error_Some; congruence). lia. }
    assert (S : length sn = length rows).
    { destruct (bound || negb (Nat.eqb (length sn) 0)); [|discriminate].
      destruct (Nat.eqb_spec (length sn) (length rows)); [assumption|discriminate]. }
    split; [cbn [length]; lia|]. split.
    + intros r Hr. injection Hr as <-. exists e. split; [|now exists z]. apply field_row in He; [exact He|]. apply Hx. now left.
    + intros i r name Hr Hn. cbn [nth_error] in Hr. destruct (Forall2_nth _ _ _ _ _ Hrows Hr) as (p & Hp & Hread).
      assert (Hxr : has_extra fields r = false) by (apply Hx; right; eapply nth_error_In; eauto).
      destruct (read_plot_row_ok _ _ _ Hxr Hread) as [P Q]. destruct Hn as [<-|Hn].
      * assert (A : pr_snyder p <> None).
        { unfold sn in S. rewrite <- (map_length pr_snyder rows) in S. apply keep_some_all in S.
          assert (Hs : nth_error (map pr_snyder rows) i = Some (pr_snyder p)) by now apply map_nth_error.
          rewrite S in Hs. apply nth_error_In in Hs. apply in_map_iff in Hs as (x & <- & _). discriminate. }
        rewrite Q in A. destruct (assoc snyder_column r) as [cc|] eqn:Ac; [|now elim A].
        exists (cell_value cc), cc. auto.
      * apply In_nth_error in Hn as (j & Hj). destruct (ps_cols _ _ P _ _ Hj) as (x & D & _). exists x. exact D.
  - intros (L & H0 & Hr). destruct (H0 first eq_refl) as (e & He & z & Hz). apply (field_row _ fields) in He; [|apply Hx; now left].
    rewrite He. cbn [rbind]. rewrite Hz. cbn [rbind].
    assert (Rows : exists rows, rmapM (read_plot_row fields) (map (csv_line fields) rest) = Ok rows).
    { apply rmapM_total. intros l Hl. apply in_map_iff in Hl as (r & <- & Hin).
      apply read_plot_row_total; [apply Hx; now right|]. intros n Hn. apply In_nth_error in Hin as (i & Hi).
      apply (Hr i r n Hi). now right. }
    destruct Rows as [rows Hrows]. rewrite Hrows. cbn [rbind]. apply rmapM_Forall2 in Hrows. apply Forall2_map_left in Hrows.
    pose proof (Forall2_len _ _ _ Hrows) as Hlen. cbn [length] in L.
    destruct rows as [|p0 [|p1 rows]]; [cbn in Hlen; lia..|].
    cbn [map py_max_list nth_err nth_error rbind].
    change (pr_snyder p0 :: pr_snyder p1 :: map pr_snyder rows) with (map pr_snyder (p0 :: p1 :: rows)).
    remember (p0 :: p1 :: rows) as all eqn:Ea.
    assert (S : length (keep_some (map pr_snyder all)) = length all).
    { clear Hlen Ea L He H0 Er. assert (G : forall r, In r rest -> has_number r snyder_column).
      { intros r Hin. apply In_nth_error in Hin as (i & Hi). apply (Hr i r _ Hi). now left. }
      clear Hr. induction Hrows as [|r p rest all Hp F IH]; [reflexivity|]. cbn [map].
      destruct (G r (or_introl eq_refl)) as (x & cc & Ac & _).
      destruct (read_plot_row_ok fields r p) as [_ Q]; [apply Hx; right; now left|exact Hp|].
      rewrite Q, Ac. cbn [option_map keep_some length]. f_equal. apply IH.
      - intros q Hq. apply Hx. cbn in Hq |- *. tauto.
      - intros q Hq. apply G. now right. }
    rewrite S. replace (Nat.eqb (length all) 0) with false by (rewrite Ea; reflexivity). rewrite Nat.eqb_refl.
    rewrite orb_true_r. eauto.
Qed.

(** C68(b).  What is drawn: one point per row except the first row (the vent),
    in order, with the numbers of the table, and 0 where an optional column is
    absent. *)
Theorem C68_drawn_content : forall (fs : fsys T) folder bound path (t : table T) c d b,
  write_values_to_file t = Ok (Some c) -> fs path = Some (FCsv c) ->
  plot_file fs folder bound path = Ok (d, b) ->
  Forall2 point_shows (tl t) (dr_rows d) /\
  Forall2 (fun r q => displays r "flowgofluxsnyderheat" q) (tl t) (dr_snyder d) /\
  dr_label d = plot_label folder path.
Proof.
  intros fs folder bound path t c d b Hw Hf H. apply written_csv in Hw as (first & rest & -> & Eh & Er & Hx).
  unfold plot_file in H. rewrite Hf, Er, Eh in H. cbn [map] in H. set (fields := map fst first) in *. clearbody fields.
  apply rbind_ok in H as (e & He & H). apply rbind_ok in H as (z & Hz & H). apply rbind_ok in H as (rows & Hrows & H).
  apply rbind_ok in H as (m & Hm & H). apply rbind_ok in H as (r1 & H1 & H).
  apply rmapM_Forall2 in Hrows. apply Forall2_map_left in Hrows.
  destruct (bound || _); [|discriminate].
  destruct (Nat.eqb_spec (length (keep_some (map pr_snyder rows))) (length rows)) as [S|]; [|discriminate].
  injection H as <- _. cbn [dr_rows dr_snyder dr_label tl].
  rewrite <- (map_length pr_snyder rows) in S. apply keep_some_all in S.
  set (sn := keep_some (map pr_snyder rows)) in *. clearbody sn. clear H1 Hm He Er Hf.
  assert (Hx' : forall r, In r rest -> has_extra fields r = false) by (intros; apply Hx; now right). clear Hx.
  split; [|split; [|reflexivity]].
  - clear S. induction Hrows as [|r p rest rows Hp F IH]; constructor.
    + refine (proj1 (read_plot_row_ok _ _ _ _ Hp)). apply Hx'. now left.
    + apply IH. intros; apply Hx'; now right.
  - revert sn S. induction Hrows as [|r p rest rows Hp F IH]; intros sn S.
    + destruct sn; [constructor|discriminate].
    + destruct sn as [|x sn]; [discriminate|]. cbn [map] in S. injection S as S1 S2. constructor.
      * destruct (read_plot_row_ok _ _ _ (Hx' r (or_introl eq_refl)) Hp) as [_ Q]. rewrite S1 in Q.
        destruct (assoc snyder_column r) as [cc|] eqn:Ac; [|discriminate]. injection Q as ->. exists cc. auto.
      * apply IH; [|exact S2]. intros; apply Hx'; now right.
Qed.

(** Every file must be drawable: one that is not leaves no picture at all. *)
Lemma plot_files_ok (fs : fsys T) folder files : forall bound ds, plot_files fs folder bound files = Ok ds ->
  Forall2 (fun p d => exists b b', plot_file fs folder b p = Ok (d, b')) files ds.
Proof.
  induction files as [|p files IH]; intros bound ds H; cbn [plot_files] in H.
  - injection H as <-. constructor.
  - apply rbind_ok in H as ([d b'] & Hd & H). apply rbind_ok in H as (ds' & Hds & H). injection H as <-.
    constructor; [|eapply IH; exact Hds]. cbn [fst]. eauto.
Qed.
Lemma plot_files_total (fs : fsys T) folder files : forall bound,
  (forall p, In p files -> forall b, exists d b', plot_file fs folder b p = Ok (d, b')) ->
  exists ds, plot_files fs folder bound files = Ok ds.
Proof.
  induction files as [|p files IH]; intros bound H; cbn [plot_files]; [eauto|].
  destruct (H p (or_introl eq_refl) bound) as (d & b' & ->). cbn [rbind snd fst].
  destruct (IH b') as [ds ->]; [intros; apply H; now right|]. cbn. eauto.
Qed.
Theorem C68_one_bad_file_blocks_all : forall (fs : fsys T) folder files json_file path,
  In path files -> (forall b d b', plot_file fs folder b path <> Ok (d, b')) ->
  exists e, plot_all_results fs folder files json_file = Err e.
Proof.
  intros fs folder files jf path Hin Hbad. unfold plot_all_results.
  destruct (plot_slope_file fs jf) as [prof|e]; cbn [rbind]; [|eauto].
  destruct (plot_files fs folder false files) as [ds|e] eqn:E; cbn [rbind]; [exfalso|eauto].
  apply plot_files_ok in E. apply In_nth_error in Hin as (i & Hi).
  destruct (Forall2_nth _ _ _ _ _ E Hi) as (d & _ & b & b' & Q). now apply Hbad in Q.
Qed.
End One.

(** ** The plots of a run *)

Lemma has_number_key {T} (r : row T) name : has_number r name <-> In name (map fst r).
Proof.
  split.
  - intros (x & c & A & _). destruct (in_dec string_dec name (map fst r)) as [|Hn]; [assumption|].
    apply assoc_None_notin in Hn. congruence.
  - intros H. destruct (assoc name r) as [c|] eqn:A.
    + exists (cell_value c), c. auto.
    + apply assoc_None_notin in A. contradiction.
Qed.

Lemma loop_names_in fl name : In name (@loop_names R fl) <-> exists f, In f fl /\ (In name (flux_logs f) \/ name = flux_name f).
Proof.
  induction fl as [|f fl IH]; cbn [loop_names].
  - split; [intros []|intros (f & [] & _)].
  - rewrite !in_app_iff, IH. cbn [In]. split.
    + intros [H|[H|[[H|[]]|(g & Hg & H)]]]; [exists f; auto..|exists g; auto].
    + intros (g & [<-|Hg] & [H|H]); auto 8; right; right; right; exists g; auto.
Qed.
Lemma full_in (sm : sim R) name : In name (full_columns sm) <->
  name = "position" \/ In name (loop_names (s_budget sm)) \/ name = "heat_budget" \/ In name step_names.
Proof.
  unfold full_columns, budget_names. split.
  - intros H. apply add_keys_sub in H as [[H|[]]|H]; [left; auto|]. rewrite !in_app_iff in H. cbn [In] in H. intuition.
  - intros H. destruct (add_keys_incl ((loop_names (s_budget sm) ++ ["heat_budget"]) ++ step_names) ["position"]) as [A B].
    destruct H as [->|H]; [apply A; now left|]. apply B. rewrite !in_app_iff. cbn [In]. intuition.
Qed.
Lemma partial_no_slope (sm : sim R) : ~ In "slope" (partial_columns sm).
Proof.
  unfold partial_columns, budget_names. intros H. apply add_keys_sub in H as [[H|[]]|H]; [discriminate|].
  apply in_app_iff in H as [H|[H|[]]]; [|discriminate]. apply loop_names_in in H as (f & _ & [H|H]).
  - destruct f as [[]| | | | |]; cbn in H; intuition discriminate.
  - destruct f as [[]| | | | |]; discriminate.
Qed.

(** The fluxes that fill the columns the figures need. *)
Definition convective (sm : sim R) : Prop := In FConvection (s_budget sm) \/ In FSnyder (s_budget sm).

Lemma full_has_plot_columns (sm : sim R) :
  (forall name, In name (snyder_column :: plot_columns) -> In name (full_columns sm)) <-> convective sm.
Proof.
  split.
  - intros H. specialize (H snyder_column (or_introl eq_refl)). apply full_in in H as [H|[H|[H|H]]]; [discriminate| |discriminate|].
    + apply loop_names_in in H as (f & Hf & H). unfold convective.
      destruct f as [[]| | | | |]; cbn in H; try (exfalso; intuition discriminate); auto.
    + exfalso. cbn in H. intuition discriminate.
  - intros C name Hn. apply full_in.
    assert (S : In name (step_names ++ ["position"]) \/ name = snyder_column \/ name = "characteristic_surface_temperature").
    { destruct (in_dec string_dec name (step_names ++ ["position"])) as [|Hx]; [now left|right].
      assert (E : forallb (fun n => in_strings n (step_names ++ ["position"]) || String.eqb n snyder_column
                    || String.eqb n "characteristic_surface_temperature") (snyder_column :: plot_columns) = true) by reflexivity.
      rewrite forallb_forall in E. specialize (E name Hn).
      apply orb_true_iff in E as [E|E]; [apply orb_true_iff in E as [E|E]|].
      - apply in_strings_true in E. contradiction.
      - apply String.eqb_eq in E. auto.
      - apply String.eqb_eq in E. auto. }
    destruct S as [S|S].
    + apply in_app_iff in S as [S|[S|[]]]; auto.
    + right. left. apply loop_names_in. destruct C as [C|C].
      * exists FConvection. split; [exact C|]. destruct S as [->| ->]; left; cbn; auto.
      * exists FSnyder. split; [exact C|]. destruct S as [->| ->]; [right; reflexivity|left; cbn; auto].
Qed.

Section RunPlot.
Context (sf : R -> string) (sc : json R -> string).

(** C68(c).  The result file of a run that wrote one is drawable exactly when
    the heat budget has a convection or a Snyder flux, the table has at least
    three rows, and no row is incomplete (the last step was not abandoned half
    way through). *)
Theorem C68_drawable_run : forall fuel fs log json_file folder fs' log' eri name sm st depth bound,
  prepare mass_flag fs json_file = Ok (eri, name, sm, st, depth) ->
  run sf sc fuel fs (new_runner log) json_file folder = Some (Ok tt, fs', log') -> log' <> [] ->
  ((exists d b, plot_file fs' folder bound (result_path sf sc folder name eri) = Ok (d, b)) <->
   convective sm /\ (3 <= length log')%nat /\ (forall r, In r log' -> has_number r "slope")).
Proof.
  intros fuel fs log jf folder fs' log' eri name sm st depth bound Hp Hr Hne.
  destruct (C53_written_where_announced _ _ _ _ _ _ _ _ _ Hr) as (path & Hpath & _ & _ & Hw).
  assert (Epath : path = result_path sf sc folder name eri).
  { unfold prepare in Hp. unfold get_file_name_results in Hpath.
    apply rbind_ok in Hp as (d & Hd & Hp). rewrite Hd in Hpath. cbn [rbind] in Hpath.
    apply rbind_ok in Hp as (a & H1 & Hp). rewrite H1 in Hpath. cbn [rbind] in Hpath.
    apply rbind_ok in Hp as (b & H2 & Hp). rewrite H2 in Hpath. cbn [rbind] in Hpath. injection Hpath as <-.
    do 4 apply rbind_ok in Hp as (? & _ & Hp). apply rbind_ok in Hp as ([[? ?] ?] & _ & Hp).
    do 4 apply rbind_ok in Hp as (? & _ & Hp). injection Hp as <- <- _ _ _. reflexivity. }
  rewrite <- Epath. destruct (Hw Hne) as (c & Hc & Hwc).
  rewrite (C68_drawable fs' folder bound path log' c Hwc Hc).
  unfold run in Hr. rewrite Hp in Hr. unfold new_runner in Hr. change (@clear R) with (@nil (row R)) in Hr.
  destruct (simulate fuel sm (initial_world st [] depth)) as [[[[]|e1] w]|] eqn:Es; [|discriminate Hr|discriminate Hr].
  assert (El : log' = w_log w).
  { destruct (write_table (result_path sf sc folder name eri) (w_log w) fs) as [r f']. injection Hr as _ _ <-. reflexivity. }
  assert (Hex : exportable sm log').
  { rewrite El. apply (simulate_columns (fun _ => True) sm fuel st depth); [|exact I|exact Es]. split; [intros; apply R_refl|auto]. }
  clear -Hex Hne. assert (Sl : In "slope" (full_columns sm)) by (apply full_in; right; right; right; cbn; auto 20).
  split.
  - intros (L & _ & Hr).
    assert (Full : all_full sm log').
    { destruct Hex as [F|(t0 & r & -> & F & K)]; [exact F|]. exfalso. rewrite app_length in L. cbn [length] in L.
      assert (Hn : nth_error (t0 ++ [r]) (S (length t0 - 1)) = Some r).
      { replace (S (length t0 - 1)) with (length t0) by lia. rewrite nth_error_app2 by lia. now rewrite Nat.sub_diag. }
      specialize (Hr _ _ "slope" Hn). apply (partial_no_slope sm). rewrite <- K. apply has_number_key. apply Hr. right. cbn. auto. }
    unfold all_full in Full. rewrite Forall_forall in Full. split; [|split; [exact L|]].
    + apply full_has_plot_columns. intros n Hn. destruct log' as [|r0 [|r1 rest]]; [cbn in L; lia..|].
      rewrite <- (Full r1) by (cbn; auto). apply has_number_key. apply (Hr 0%nat r1); [reflexivity|exact Hn].
    + intros r Hin. apply has_number_key. change (In "slope" (keys r)). rewrite (Full r Hin). exact Sl.
  - intros (C & L & Hs).
    assert (Full : all_full sm log').
    { destruct Hex as [F|(t0 & r & -> & F & K)]; [exact F|]. exfalso. apply (partial_no_slope sm). rewrite <- K.
      apply has_number_key. apply Hs. apply in_app_iff. right. now left. }
    unfold all_full in Full. rewrite Forall_forall in Full. split; [exact L|]. split.
    + intros r Hr. assert (Q : has_number r "effusion_rate").
      { apply has_number_key. change (In "effusion_rate" (keys r)). rewrite (Full r) by (eapply nth_error_In; eauto).
        apply full_in. right. right. right. cbn. auto 20. }
      destruct Q as (x & Q). exists x. split; [exact Q|]. eexists. reflexivity.
    + intros i r n Hr Hn. apply has_number_key. change (In n (keys r)). rewrite (Full r) by (eapply nth_error_In; eauto).
      apply full_has_plot_columns; assumption.
Qed.

(** Lifted to the entry point that runs and plots one configuration (the
    "Run" button, main_run_and_plot_flowgo.py): it succeeds, with all four
    pictures, exactly in these cases, provided the profile has an elevation
    column; otherwise it raises after having written the result file. *)
Theorem C68_run_and_plot : forall fuel fs log json_file folder fs' log' eri name sm st depth profile,
  prepare mass_flag fs json_file = Ok (eri, name, sm, st, depth) ->
  run sf sc fuel fs (new_runner log) json_file folder = Some (Ok tt, fs', log') -> log' <> [] ->
  json_file <> result_path sf sc folder name eri ->
  plot_slope_file fs' json_file = Ok profile ->
  exists r, run_and_plot sf sc fuel fs log json_file folder [] = Some (r, fs', log') /\
    ((exists p, r = Ok p /\ pl_profile p = profile /\ length (pl_drawn p) = 1%nat /\
        pl_saved p = [folder ++ "/lava_properties.png"; folder ++ "/heat_fluxes.png";
                      folder ++ "/crustal_conditions.png"; folder ++ "/slope.png"]%string) <->
     convective sm /\ (3 <= length log')%nat /\ (forall r, In r log' -> has_number r "slope")) /\
    ((exists e, r = Err e) <->
     ~ (convective sm /\ (3 <= length log')%nat /\ (forall r, In r log' -> has_number r "slope"))).
Proof.
  intros fuel fs log jf folder fs' log' eri name sm st depth prof Hp Hr Hne Hj Hs.
  pose proof (C68_drawable_run _ _ _ _ _ _ _ _ _ _ _ _ false Hp Hr Hne) as D.
  unfold run_and_plot. rewrite Hr. eexists. split; [reflexivity|].
  destruct (C53_written_where_announced _ _ _ _ _ _ _ _ _ Hr) as (path & Hpath & Hq & _ & _).
  assert (Epath : path = result_path sf sc folder name eri).
  { unfold prepare in Hp. unfold get_file_name_results in Hpath.
    apply rbind_ok in Hp as (d & Hd & Hp). rewrite Hd in Hpath. cbn [rbind] in Hpath.
    apply rbind_ok in Hp as (a & H1 & Hp). rewrite H1 in Hpath. cbn [rbind] in Hpath.
    apply rbind_ok in Hp as (b & H2 & Hp). rewrite H2 in Hpath. cbn [rbind] in Hpath. injection Hpath as <-.
    do 4 apply rbind_ok in Hp as (? & _ & Hp). apply rbind_ok in Hp as ([[? ?] ?] & _ & Hp).
    do 4 apply rbind_ok in Hp as (? & _ & Hp). injection Hp as <- <- _ _ _. reflexivity. }
  assert (Hpath' : get_file_name_results sf sc fs' folder jf = Ok path).
  { rewrite <- Hpath. unfold get_file_name_results, load_json. rewrite Hq by (rewrite Epath; exact Hj). reflexivity. }
  rewrite Hpath'. cbn [rbind]. rewrite <- Epath in D. unfold plot_all_results. rewrite Hs. cbn [rbind plot_files].
  destruct (plot_file fs' folder false path) as [[d b]|e] eqn:E; cbn [rbind fst snd].
  - assert (C : convective sm /\ (3 <= length log')%nat /\ (forall r, In r log' -> has_number r "slope")) by (apply D; eauto).
    split; split; [intros _; exact C| |intros (e & Q); discriminate|intros Q; now elim Q].
    intros _. eexists. split; [reflexivity|]. cbn. auto.
  - assert (C : ~ (convective sm /\ (3 <= length log')%nat /\ (forall r, In r log' -> has_number r "slope"))).
    { intros C. apply D in C as (d & b & Q). discriminate. }
    split; split; [intros (p & Q & _); discriminate|intros Q; now elim C|intros _; exact C|eauto].
Qed.

(** In terms of the configuration: with "convection" and "snyder" both "no",
    no plot can be made of any run that wrote rows. *)
Theorem C68_no_plot_without_convection : forall fuel fs log json_file folder fs' log' d profile,
  fs json_file = Some (FJson d) ->
  says d "heat_budget_models" "convection" "no" -> says d "heat_budget_models" "snyder" "no" ->
  run sf sc fuel fs (new_runner log) json_file folder = Some (Ok tt, fs', log') -> log' <> [] ->
  (forall path, get_file_name_results sf sc fs folder json_file = Ok path -> json_file <> path) ->
  plot_slope_file fs' json_file = Ok profile ->
  exists e, run_and_plot sf sc fuel fs log json_file folder [] = Some (Err e, fs', log').
Proof.
  intros fuel fs log jf folder fs' log' d prof Hf Hc Hy Hr Hne Hj Hs.
  destruct (prepare mass_flag fs jf) as [[[[[eri name] sm] st] depth]|e] eqn:Hp;
    [|unfold run in Hr; rewrite Hp in Hr; discriminate].
  assert (B : get_file_name_results sf sc fs folder jf = Ok (result_path sf sc folder name eri) /\
              exists profile mo, build_models d profile = Ok mo /\ mo_budget mo = s_budget sm).
  { unfold prepare in Hp. unfold get_file_name_results. unfold load_json in *. rewrite Hf in *. cbn [rbind] in Hp |- *.
    apply rbind_ok in Hp as (a & H1 & Hp). rewrite H1. cbn [rbind].
    apply rbind_ok in Hp as (b & H2 & Hp). rewrite H2. cbn [rbind].
    do 4 apply rbind_ok in Hp as (? & _ & Hp). apply rbind_ok in Hp as ([[? ?] ?] & _ & Hp).
    do 2 apply rbind_ok in Hp as (? & _ & Hp). apply rbind_ok in Hp as (mo & Hmo & Hp).
    apply rbind_ok in Hp as (? & _ & Hp). injection Hp as <- <- <- _ _. split; [reflexivity|]. eauto. }
  destruct B as (Hpath & cp & mo & Hmo & Eb).
  destruct (C68_run_and_plot _ _ _ _ _ _ _ _ _ _ _ _ _ Hp Hr Hne (Hj _ Hpath) Hs) as (r & E & _ & R2).
  assert (exists e, r = Err e) as [e ->]; [|eauto]. apply R2. intros (C & _).
  destruct (C49_accepted_names_select_their_fluxes _ _ _ Hmo) as (_ & _ & Y1 & _ & _ & Y2). rewrite Eb in *.
  unfold says_yes_no, says in *. destruct C as [C|C].
  - destruct Y1 as [[Y _]|[_ Y]]; [congruence|auto].
  - destruct Y2 as [[Y _]|[_ Y]]; [congruence|auto].
Qed.

(** A sweep draws all its result files together and computes the run-out table
    afterwards, so one rate whose flow stops within two steps costs the plots
    and the run-out table of all the others; the result files remain. *)
Theorem C68_short_run_blocks_sweep : forall rt fuel fs log json_file folder slope_file first last step names fs' log' path (t : table R) c,
  run_effusion_rates sf sc fuel fs log json_file folder first last step = Some (Ok names, fs', log') ->
  In path names -> fs' path = Some (FCsv c) -> write_values_to_file t = Ok (Some c) -> (length t < 3)%nat ->
  exists e, effusion_rate_array sf sc rt fuel fs log json_file folder slope_file first last step = Some (Err e, fs', log').
Proof.
  intros rt fuel fs log jf folder sl first last step names fs' log' path t c Hr Hin Hc Hw L.
  unfold effusion_rate_array. rewrite Hr.
  destruct (C68_one_bad_file_blocks_all fs' folder names jf path Hin) as [e ->]; [|cbn; eauto].
  intros b d b' Q. assert (H : exists d b', plot_file fs' folder b path = Ok (d, b')) by eauto.
  apply (C68_drawable fs' folder b path t c Hw Hc) in H as (H & _). lia.
Qed.
(** Conversely, when the sweep returns, at least one rate was run, every file
    was drawn and has its line in the run-out file, in the order of the rates;
    the run-out file is the only one written after the runs. *)
Theorem C68_sweep_complete : forall rt fuel fs log json_file folder slope_file first last step p series fs' log',
  effusion_rate_array sf sc rt fuel fs log json_file folder slope_file first last step = Some (Ok (p, series), fs', log') ->
  exists names fs1 d name rows,
    run_effusion_rates sf sc fuel fs log json_file folder first last step = Some (Ok names, fs1, log') /\ names <> [] /\
    map (@dr_label R) (pl_drawn p) = map (plot_label folder) names /\ pl_saved p = pictures folder /\
    load_json fs1 json_file = Ok d /\ jget d "lava_name" = Ok name /\
    (let path := path_join folder ("run_outs_" ++ py_str sf sc name ++ ".csv") in
     fs' path = Some (FOuts rows) /\ forall q, q <> path -> fs' q = fs1 q) /\
    length rows = length names /\ Forall (fun r => fst r = name) rows /\ length series = length names.
Proof.
  intros rt fuel fs log jf folder sl first last step p series fs' log' H. unfold effusion_rate_array in H.
  destruct (run_effusion_rates sf sc fuel fs log jf folder first last step) as [[[[names|e] fs1] log1]|]; [|discriminate|discriminate].
  destruct (let? p := _ in _) as [[p' name]|e] eqn:B; [|discriminate H].
  apply rbind_ok in B as (p2 & Hp & B). apply rbind_ok in B as (d & Hd & B). apply rbind_ok in B as (nm & Hn & B).
  apply Ok_inj in B. injection B as <- <-.
  destruct (get_run_outs sf sc rt fs1 folder names sl nm) as [r fs2] eqn:G.
  destruct r as [ser|e]; [|discriminate H]. cbn [rmap] in H.
  injection H as Hx Hy Hz Hw. subst p2 ser fs2 log1.
  exists names, fs1, d, nm.
  destruct (C60_run_outs_file sf sc rt _ _ _ _ _ _ _ G) as (Hq & done & rows & Hrows & L & Lr & D).
  exists rows. split; [reflexivity|].
  destruct D as [(-> & Hne & Hs)|[(-> & -> & e & Hs)|(q & rest & e & -> & Hs)]]; [|discriminate Hs|discriminate Hs].
  split; [exact Hne|].
  unfold plot_all_results in Hp. apply rbind_ok in Hp as (prof & _ & Hp). apply rbind_ok in Hp as (ds & Hds & Hp).
  injection Hp as <-. cbn [pl_drawn pl_saved]. split.
  - apply plot_files_ok in Hds. clear -Hds.
    induction Hds as [|q dd names ds (b & b' & Q) F IH]; [reflexivity|]. cbn [map]. f_equal; [|exact IH].
    unfold plot_file in Q. destruct (fs1 q) as [[| |c|]|]; try discriminate Q. destruct (csv_rows c); [discriminate Q|].
    do 5 apply rbind_ok in Q as (? & _ & Q). destruct (b || _); [|discriminate Q]. destruct (Nat.eqb _ _); [|discriminate Q].
    injection Q as <- _. reflexivity.
  - split; [reflexivity|]. split; [exact Hd|]. split; [exact Hn|]. split; [split; assumption|]. split; [exact L|]. split; [exact Lr|].
    apply Ok_inj in Hs. rewrite Hs. rewrite map_length. exact L.
Qed.

(** What the lines of the run-out file of a sweep say: each is the rounded
    run-out of its result file against the slope file. *)
Lemma sweep_names fuel working folder base rates : forall fs log names all fs' log',
  sweep sf sc fuel fs log working folder base rates names = Some (Ok all, fs', log') ->
  exists more, all = names ++ more /\ Forall (fun p => exists name (r : Z), p = result_path sf sc folder name (JInt r)) more.
Proof.
  induction rates as [|r rates IH]; intros fs log names all fs' log' H; cbn [sweep] in H.
  - injection H as <- _ _. exists []. rewrite app_nil_r. split; [reflexivity|constructor].
  - destruct (jset base _ _) as [data|]; [|discriminate H].
    destruct (run _ _ _ _ _ _ _) as [[[[?|?] fs2] log2]|]; try discriminate H.
    destruct (jget data "lava_name") as [name|]; [|discriminate H].
    apply IH in H as (more & -> & F). exists (result_path sf sc folder name (JInt r) :: more). rewrite <- app_assoc. split; [reflexivity|].
    constructor; [eauto|exact F].
Qed.
Theorem C60_lines_of_a_sweep : forall rt fuel fs log json_file folder slope_file first last step p series fs' log',
  effusion_rate_array sf sc rt fuel fs log json_file folder slope_file first last step = Some (Ok (p, series), fs', log') ->
  exists names fs1 d name,
    run_effusion_rates sf sc fuel fs log json_file folder first last step = Some (Ok names, fs1, log') /\
    load_json fs1 json_file = Ok d /\ jget d "lava_name" = Ok name /\
    let path := path_join folder ("run_outs_" ++ py_str sf sc name ++ ".csv") in
    (path <> slope_file -> exists rows, fs' path = Some (FOuts rows) /\
       Forall2 (fun file line => exists ro, reported fs1 slope_file file ro /\ line_of rt name ro line) names rows /\
       series = map (fun line => (nth 9 (snd line) zero, nth 0 (snd line) zero)) rows).
Proof.
  intros rt fuel fs log jf folder sl first last step p series fs' log' H. unfold effusion_rate_array in H.
  destruct (run_effusion_rates sf sc fuel fs log jf folder first last step) as [[[[names|e] fs1] log1]|] eqn:R; [|discriminate|discriminate].
  destruct (let? p := _ in _) as [[p' name]|e] eqn:B; [|discriminate H].
  apply rbind_ok in B as (p2 & Hp & B). apply rbind_ok in B as (d & Hd & B). apply rbind_ok in B as (nm & Hn & B).
  apply Ok_inj in B. injection B as <- <-.
  destruct (get_run_outs sf sc rt fs1 folder names sl nm) as [r fs2] eqn:G.
  destruct r as [ser|e]; [|discriminate H]. cbn [rmap] in H.
  injection H as Hx Hy Hz Hw. subst p2 ser fs2 log1.
  exists names, fs1, d, nm. split; [reflexivity|]. split; [exact Hd|]. split; [exact Hn|]. intros path Hsl.
  assert (Hin : ~ In path names).
  { unfold run_effusion_rates in R. destruct (load_json fs jf); [|discriminate R]. destruct (py_range _ _ _); [|discriminate R].
    apply sweep_names in R as (more & -> & F). cbn [app]. intros I. rewrite Forall_forall in F. destruct (F _ I) as (n & z & E).
    symmetry in E. now apply result_not_outs in E. }
  destruct (C60_run_outs_file sf sc rt _ _ _ _ _ _ _ G) as (_ & done0 & rows0 & Hr0 & L & _ & D0).
  destruct (C60_run_outs_lines sf sc rt _ _ _ _ _ _ _ G Hin Hsl) as (done & rows & Hr & F & D).
  pose proof (eq_trans (eq_sym Hr) Hr0) as E. injection E as <-. clear Hr0.
  exists rows. split; [exact Hr|].
  destruct D0 as [(-> & _ & Hs)|[(-> & -> & e & Hs)|(q & rest & e & -> & Hs)]]; [|discriminate Hs|discriminate Hs].
  apply Ok_inj in Hs. split; [|exact Hs].
  destruct D as [->|(q & rest & -> & _)]; [exact F|]. exfalso. apply Forall2_len in F. rewrite app_length in L. cbn in L. lia.
Qed.
End RunPlot.

(** ** Labels *)
Lemma prefix_has_slash a b : has_slash a = true -> String.prefix a b = true -> has_slash b = true.
Proof.
  revert b. induction a as [|c a IH]; intros b H P; [discriminate|]. destruct b as [|d b]; cbn in P; [discriminate|].
  destruct (ascii_dec c d) as [->|]; [|discriminate]. cbn in H |- *. destruct (Ascii.eqb d "/"); [reflexivity|]. cbn in H |- *. eauto.
Qed.
Lemma replace_absent fuel old s : has_slash old = true -> has_slash s = false -> replace_all fuel old s = s.
Proof.
  intros Ho. revert s. induction fuel as [|f IH]; intros s Hs; [reflexivity|]. cbn [replace_all].
  destruct (String.eqb old ""); [reflexivity|]. destruct (String.prefix old s) eqn:P.
  - rewrite (prefix_has_slash _ _ Ho P) in Hs. discriminate.
  - destruct s as [|c r]; [reflexivity|]. cbn in Hs. apply orb_false_elim in Hs as [_ Hs]. now rewrite IH.
Qed.
Lemma prefix_self a b : String.prefix a (a ++ b) = true.
Proof. induction a as [|c a IH]; [now destruct b|]. cbn. destruct (ascii_dec c c); [exact IH|contradiction]. Qed.
Lemma length_sapp a b : String.length (a ++ b) = (String.length a + String.length b)%nat.
Proof. induction a as [|c a IH]; cbn; auto. Qed.
Lemma substring_all s : forall n, (String.length s <= n)%nat -> substring 0 n s = s.
Proof. induction s as [|c s IH]; intros [|n] H; cbn in H |- *; try reflexivity; [lia|]. f_equal. apply IH. lia. Qed.
Lemma substring_drop a b : substring (String.length a) (String.length (a ++ b)) (a ++ b) = b.
Proof.
  rewrite length_sapp. generalize (Nat.le_add_l (String.length b) (String.length a)).
  generalize (String.length a + String.length b)%nat. intros n Hn. induction a as [|c a IH]; cbn [append String.length substring].
  - now apply substring_all.
  - exact IH.
Qed.
Lemma substring_front a b : substring 0 (String.length a) (a ++ b) = a.
Proof. induction a as [|c a IH]; cbn; [now destruct b|]. now rewrite IH. Qed.
Lemma drop_csv_app s : drop_csv (s ++ ".csv") = s.
Proof.
  unfold drop_csv. rewrite length_sapp. cbn [String.length].
  replace (4 <=? String.length s + 4)%nat with true by (symmetry; apply Nat.leb_le; lia).
  replace (String.length s + 4 - 4)%nat with (String.length s) by lia. cbn [andb].
  assert (E : substring (String.length s) 4 (s ++ ".csv") = ".csv").
  { clear. induction s as [|c s IH]; [reflexivity|]. exact IH. }
  rewrite E. cbn. apply substring_front.
Qed.
Lemma has_slash_app a b : has_slash (a ++ b) = has_slash a || has_slash b.
Proof. induction a as [|c a IH]; [reflexivity|]. cbn. rewrite IH. apply orb_assoc. Qed.

Lemma sapp_assoc (a b c : string) : ((a ++ b) ++ c)%string = (a ++ (b ++ c))%string.
Proof. induction a as [|x a IH]; cbn; [reflexivity|]. now rewrite IH. Qed.
Lemma last_char_none s : last_char s = None -> s = "".
Proof. induction s as [|c s IH]; [reflexivity|]. cbn. destruct s; [discriminate|]. intros H. apply IH in H. discriminate. Qed.
Lemma last_slash s : last_char s = Some "/"%char -> has_slash s = true.
Proof.
  induction s as [|c s IH]; [discriminate|]. cbn. destruct s as [|d s]; [intros H; injection H as ->; reflexivity|].
  intros H. rewrite IH by exact H. apply orb_true_r.
Qed.

(** C68(d).  In any non-empty folder the curve of a run is labelled with its
    lava name and effusion rate (name_rate m3s), so curves of different runs
    have different labels. *)
Theorem C68_label : forall {T} sf sc folder (name eri : json T),
  folder <> "" -> let text := (py_str sf sc name ++ "_" ++ py_str sf sc eri ++ "m3s")%string in
  has_slash text = false ->
  plot_label folder (result_path sf sc folder name eri) = text.
Proof.
  intros T sf sc folder name eri Hf text Ht. unfold plot_label, result_path.
  set (pre := path_join folder "results_flowgo_").
  assert (E : path_join folder ("results_flowgo_" ++ py_str sf sc name ++ "_" ++ py_str sf sc eri ++ "m3s.csv")
              = (pre ++ (text ++ ".csv"))%string /\ has_slash pre = true).
  { unfold pre, text. replace (py_str sf sc name ++ "_" ++ py_str sf sc eri ++ "m3s.csv")%string
      with ((py_str sf sc name ++ "_" ++ py_str sf sc eri ++ "m3s") ++ ".csv")%string by (rewrite !sapp_assoc; reflexivity).
    fold text. unfold path_join. cbn [append].
    destruct (last_char folder) as [c|] eqn:L; [|apply last_char_none in L; contradiction].
    destruct (ascii_dec c "/") as [->|Hc].
    - split; [now rewrite sapp_assoc|]. rewrite has_slash_app, (last_slash _ L). reflexivity.
    - rewrite !not_slash by exact Hc. split; [now rewrite sapp_assoc|]. rewrite has_slash_app. apply orb_true_r. }
  destruct E as [E Hp]. rewrite E. clearbody pre. unfold py_remove.
  cbn [replace_all]. destruct (String.eqb_spec pre "") as [->|Hn]; [discriminate|]. rewrite prefix_self, substring_drop.
  rewrite replace_absent; [apply drop_csv_app|exact Hp|]. rewrite has_slash_app, Ht. reflexivity.
Qed.
