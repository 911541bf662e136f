(** * ColumnProofs: the columns of the table a run produces (any arithmetic) *)
From Verif Require Import Base Num Json Logger World Vesicle MeltVisc RelVisc Bubbles Terrain Lava
  Thermal Flux Integrator Frame StepLog StepProofs LoggerProofs RowProofs StepProps Factory Run.

Section Columns.
Context {T : Type} {N : Num T}.
Open Scope num_scope.

(** Columns of the row of a completed step, and of a step abandoned after the
    heat budget. *)
Definition full_columns (sm : sim T) : list string :=
  add_keys (budget_names (s_budget sm) ++ step_names) ["position"].
Definition partial_columns (sm : sim T) : list string :=
  add_keys (budget_names (s_budget sm)) ["position"].

Lemma partial_incl sm : incl (partial_columns sm) (full_columns sm).
Proof. unfold full_columns, partial_columns. rewrite add_keys_app. apply add_keys_incl. Qed.

Lemma bnames_incl sm : incl (budget_names (s_budget sm)) (full_columns sm).
Proof.
  unfold full_columns. intros x Hx. apply (proj2 (add_keys_incl _ _)). apply in_or_app; auto.
Qed.
Lemma allnames_incl sm : incl (budget_names (s_budget sm) ++ step_names) (full_columns sm).
Proof. apply (proj2 (add_keys_incl _ _)). Qed.

Definition all_full (sm : sim T) (t : table T) : Prop := Forall (fun r => keys r = full_columns sm) t.

Lemma all_full_log sm p calls (t : table T) :
  n_eqb p p = true -> map fst calls = budget_names (s_budget sm) ++ step_names ->
  all_full sm t -> all_full sm (log_many p calls t).
Proof.
  intros Hp Hn Ht.
  assert (Hnp : no_position calls).
  { unfold no_position. rewrite Hn. apply Forall_app. split.
    apply budget_names_no_position. apply step_names_no_position. }
  assert (Hne : calls <> []).
  { intros ->. simpl in Hn. symmetry in Hn. apply app_eq_nil in Hn as [_ Hn]. discriminate. }
  unfold all_full in *.
  destruct (log_many_shape p calls t Hp Hnp Hne) as [(t1 & r & t2 & -> & H1 & H2 & ->)|[H ->]].
  - apply Forall_app in Ht as [Ht1 Ht2]. inversion Ht2 as [|? ? Hr Ht2']; subst.
    apply Forall_app. split; auto. constructor; auto.
    rewrite keys_sets, Hr, Hn. apply add_keys_absorb. apply allnames_incl.
  - apply Forall_app. split; auto. constructor; auto.
    rewrite keys_sets, Hn. reflexivity.
Qed.

(** All rows but possibly the last are full; the last one may be partial. *)
Definition exportable (sm : sim T) (t : table T) : Prop :=
  all_full sm t \/ exists t0 r, t = t0 ++ [r] /\ all_full sm t0 /\ keys r = partial_columns sm.

Lemma exportable_stop sm p calls (t : table T) :
  n_eqb p p = true -> map fst calls = budget_names (s_budget sm) ->
  all_full sm t -> exportable sm (log_many p calls t).
Proof.
  intros Hp Hn Ht.
  assert (Hnp : no_position calls).
  { unfold no_position. rewrite Hn. apply budget_names_no_position. }
  assert (Hne : calls <> []).
  { intros ->. simpl in Hn. unfold budget_names in Hn. symmetry in Hn.
    apply app_eq_nil in Hn as [_ Hn]. discriminate. }
  unfold exportable, all_full in *.
  destruct (log_many_shape p calls t Hp Hnp Hne) as [(t1 & r & t2 & -> & H1 & H2 & ->)|[H ->]].
  - left. apply Forall_app in Ht as [Ht1 Ht2]. inversion Ht2 as [|? ? Hr Ht2']; subst.
    apply Forall_app. split; auto. constructor; auto.
    rewrite keys_sets, Hr, Hn. apply add_keys_absorb. apply bnames_incl.
  - right. exists t. eexists. split; [reflexivity|]. split; auto.
    rewrite keys_sets, Hn. reflexivity.
Qed.

Lemma step_columns sm w w' :
  n_eqb (st_pos (w_st w)) (st_pos (w_st w)) = true ->
  all_full sm (w_log w) -> single_step sm w = (Ok tt, w') ->
  exportable sm (w_log w') /\ (w_fin w' = false -> all_full sm (w_log w')).
Proof.
  intros Hp Ht H. apply step_cases in H as [S|(v & rho & wd & sl & hb & ra & dT & dt & C)].
  - split.
    + destruct (ss_log _ _ _ S) as [->|(bc & Hn & ->)]; [left; auto|].
      now apply exportable_stop.
    + rewrite (ss_fin _ _ _ S). discriminate.
  - destruct (cs_log _ _ _ _ _ _ _ _ _ _ _ C) as
      (bc & sx & vf & mu & tc & f & t0 & tb & x & wb & Hn & -> & _).
    assert (A : all_full sm (log_many (st_pos (w_st w))
      (bc ++ step_calls x (set_strain_rate sx (w_st w)) vf mu rho tc f (eff_of sm v w) t0 tb) (w_log w))).
    { apply all_full_log; auto. rewrite map_app, Hn, step_calls_names. reflexivity. }
    split; [left; exact A | intros _; exact A].
Qed.

(** Positions that stay comparable with themselves along a run. *)
Definition positions_ok (pos_ok : T -> Prop) (sm : sim T) : Prop :=
  (forall p, pos_ok p -> n_eqb p p = true) /\ (forall p, pos_ok p -> pos_ok (p + s_dx sm)).

Lemma loop_columns pos_ok sm fuel w w' :
  positions_ok pos_ok sm -> pos_ok (st_pos (w_st w)) ->
  all_full sm (w_log w) -> run_loop sm fuel w = Some (Ok tt, w') ->
  exportable sm (w_log w').
Proof.
  intros [Hok1 Hok2]. revert w. induction fuel as [|fu IH]; intros w Hp Ht H; cbn [run_loop] in H.
  - destruct (has_finished w); [|discriminate]. injection H as <-. left; auto.
  - destruct (has_finished w); [injection H as <-; left; auto|].
    destruct (single_step sm w) as [[[]|e] w1] eqn:Es; [|discriminate].
    destruct (step_columns sm w w1 (Hok1 _ Hp) Ht Es) as [He Hf].
    destruct (w_fin w1) eqn:Ef.
    + destruct fu; cbn [run_loop] in H; unfold has_finished in H; rewrite Ef in H;
        injection H as <-; auto.
    + destruct (unfinished_completed sm w w1 Es Ef) as (_ & v & rho & wd & sl & hb & ra & dT & dt & C).
      apply (IH w1); auto. rewrite (cs_pos _ _ _ _ _ _ _ _ _ _ _ C). auto.
Qed.

Lemma exportable_columns sm (t : table T) :
  exportable sm t ->
  forall first rest, t = first :: rest -> forall r k v, In r t -> In (k, v) r -> In k (map fst first).
Proof.
  intros He first rest Ht r k v Hr Hkv.
  assert (Hk : In k (keys r)) by (unfold keys; apply (in_map fst) in Hkv; exact Hkv).
  change (In k (keys first)).
  destruct He as [Hf|(t0 & r0 & E & Hf & Hr0)].
  - unfold all_full in Hf. rewrite Forall_forall in Hf.
    rewrite (Hf first) by (rewrite Ht; simpl; auto). rewrite <- (Hf r Hr). exact Hk.
  - unfold all_full in Hf. rewrite Forall_forall in Hf.
    destruct t0 as [|f0 t0].
    + rewrite E in Hr. rewrite Ht in E. simpl in E. injection E as -> ->.
      destruct Hr as [<-|[]]. exact Hk.
    + rewrite E in Ht. simpl in Ht. injection Ht as -> _.
      rewrite (Hf first) by (simpl; auto).
      rewrite E in Hr. simpl in Hr. destruct Hr as [<-|Hr].
      * rewrite <- (Hf first) by (simpl; auto). exact Hk.
      * apply in_app_or in Hr as [Hr|[<-|[]]].
        -- rewrite <- (Hf r) by (simpl; auto). exact Hk.
        -- apply partial_incl. rewrite <- Hr0. exact Hk.
Qed.

Lemma exportable_writes sm (t : table T) :
  exportable sm t -> exists f, write_values_to_file t = Ok f.
Proof.
  intros He. destruct t as [|first rest]; [exists None; reflexivity|].
  unfold write_values_to_file.
  destruct (rmapM_csv (map fst first) (first :: rest)) as [[(r & Hr & E) _]|[_ ->]]; [|simpl; eauto].
  exfalso. apply has_extra_true in E as (k & v & Hkv & Hk). apply Hk.
  eapply exportable_columns; eauto.
Qed.

(** The depth search logs nothing. *)
Lemma search_keeps_log sm i n : keeps w_log (search_depth sm i n).
Proof.
  assert (Hfr : forall A (m : M (T:=T) A), framed [] m -> keeps w_log m).
  { intros A m Hm w r w' H. destruct (Hm _ _ _ H) as (s & c & rest & -> & Hn & _).
    symmetry in Hn. apply app_eq_nil in Hn as [Hn _]. destruct c; [reflexivity|discriminate]. }
  revert i; induction n as [|n IH]; intros i; cbn [search_depth].
  - apply Hfr, framed_ret.
  - apply keeps_bind.
    + unfold try_depth.
      repeat (apply keeps_bind; [first [apply Hfr, framed_velocity | apply Hfr, framed_pure
         | intros w r w' H; injection H as _ <-; reflexivity] | intros ]).
      apply Hfr, framed_ret.
    + intros []; [apply Hfr, framed_ret | apply IH].
Qed.
Lemma search_keeps_pos sm i n : keeps (fun w => st_pos (w_st w)) (search_depth sm i n).
Proof.
  assert (Hfr : forall A (m : M (T:=T) A), framed [] m -> keeps (fun w => st_pos (w_st w)) m).
  { intros A m Hm. apply (keeps_framed _ [] m); auto. }
  revert i; induction n as [|n IH]; intros i; cbn [search_depth].
  - apply Hfr, framed_ret.
  - apply keeps_bind.
    + unfold try_depth.
      repeat (apply keeps_bind; [first [apply Hfr, framed_velocity | apply Hfr, framed_pure
         | intros w r w' H; injection H as _ <-; reflexivity] | intros ]).
      apply Hfr, framed_ret.
    + intros []; [apply Hfr, framed_ret | apply IH].
Qed.
Lemma init_keeps_log sm : keeps w_log (init_effusion_rate sm).
Proof.
  unfold init_effusion_rate. destruct (_ =? _).
  - intros w r w' H. injection H as _ <-. reflexivity.
  - apply search_keeps_log.
Qed.
Lemma init_keeps_pos sm : keeps (fun w => st_pos (w_st w)) (init_effusion_rate sm).
Proof.
  unfold init_effusion_rate. destruct (_ =? _).
  - intros w r w' H. injection H as _ <-. reflexivity.
  - apply search_keeps_pos.
Qed.

Lemma simulate_columns pos_ok sm fuel s depth w' :
  positions_ok pos_ok sm -> pos_ok (st_pos s) ->
  simulate fuel sm (initial_world s [] depth) = Some (Ok tt, w') ->
  exportable sm (w_log w').
Proof.
  intros Hok Hp H. unfold simulate in H.
  destruct (init_effusion_rate sm (initial_world s [] depth)) as [[[]|e] w1] eqn:E; [|discriminate].
  eapply loop_columns; eauto.
  - apply (init_keeps_pos sm) in E. simpl in E. rewrite E. exact Hp.
  - apply (init_keeps_log sm) in E. rewrite E. constructor.
Qed.
End Columns.
