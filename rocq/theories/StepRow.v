(** * StepRow: the row of a completed step, as a reader finds it (any arithmetic) *)
From Verif Require Import Base Num Json Logger World Vesicle MeltVisc RelVisc Bubbles Terrain Lava
  Thermal Flux Integrator Frame StepLog StepProofs LoggerProofs RowProofs StepProps.

Section Row.
Context {T : Type} {N : Num T}.
Open Scope num_scope.

(** The heat budget is logged last, under "heat_budget". *)
Lemma budget_last sm width depth (w : world T) hb w' :
  compute_heat_budget sm width depth w = (Ok hb, w') ->
  exists strain calls, map fst calls = loop_names (s_budget sm) /\
    w' = touched strain (calls ++ [("heat_budget", CNum hb)]) w.
Proof.
  unfold compute_heat_budget. intros H.
  apply bind_ok in H as (q & w1 & H1 & H). apply bind_ok in H as (u & w2 & H2 & H).
  injection H as <- <-. apply log_ok in H2.
  apply (framed_ok _ _ _ _ _ (framed_loop _ sm width depth zero)) in H1 as (s & c & -> & Hn).
  exists s, c. split; auto. rewrite H2. rewrite touched_touched. simpl. reflexivity.
Qed.

Record step_row (t : table T) (p v width rho depth eff hb rate dtemp slope : T) : Prop := {
  sr_v : logged t p "mean_velocity" = Some (CNum v);
  sr_width : logged t p "channel_width" = Some (CNum width);
  sr_rho : logged t p "density" = Some (CNum rho);
  sr_depth : logged t p "channel_depth" = Some (CNum depth);
  sr_eff : logged t p "effusion_rate" = Some (CStr eff);
  sr_hb : logged t p "heat_budget" = Some (CNum hb);
  sr_rate : logged t p "dphi_dtemp" = Some (CNum rate);
  sr_dtemp : logged t p "dtemp_dx" = Some (CNum dtemp);
  sr_dphi : logged t p "dphi_dx" = Some (CNum (dtemp * (- rate)));
  sr_slope : logged t p "slope" = Some (CNum slope);
  sr_dtemp_dt : logged t p "dtemp_dt" = Some (CNum (- dtemp * v * n_lit 60 1))
}.

Lemma completed_row sm w w' v rho width slope hb rate dtemp dt :
  completed_step sm w w' v rho width slope hb rate dtemp dt ->
  n_eqb (st_pos (w_st w)) (st_pos (w_st w)) = true ->
  step_row (w_log w') (st_pos (w_st w)) v width rho (w_depth w) (w_eff w') hb rate dtemp slope.
Proof.
  intros C Hp. rewrite (cs_eff _ _ _ _ _ _ _ _ _ _ _ C).
  destruct (cs_log _ _ _ _ _ _ _ _ _ _ _ C) as
    (bc & sx & vf & mu & tc & f & t0 & tb & x & wb & Hn & Hlog & Hwb & (new & _ & Hhb) & _ & _ & _ & _ & _ & _ & Hx).
  apply budget_last in Hhb as (s & calls & Hc & E).
  assert (Hl : log_many (st_pos (w_st w)) bc (w_log w) =
    log_many (st_pos (w_st w)) (calls ++ [("heat_budget", CNum hb)]) (w_log w)).
  { rewrite Hwb in E. apply (f_equal w_log) in E. exact E. }
  rewrite log_many_app, Hl, <- log_many_app in Hlog.
  set (sc := step_calls x (set_strain_rate sx (w_st w)) vf mu rho tc f (eff_of sm v w) t0 tb) in *.
  assert (L : forall name c, assoc name (rev ((calls ++ [("heat_budget", CNum hb)]) ++ sc)) = Some c ->
     logged (w_log w') (st_pos (w_st w)) name = Some c).
  { intros name c Hcc. rewrite Hlog. apply logged_after; auto.
    unfold no_position. rewrite !map_app, Hc. apply Forall_app. split.
    - apply (budget_names_no_position (s_budget sm)).
    - unfold sc. rewrite step_calls_names. apply step_names_no_position. }
  assert (L1 : forall name c, assoc name (rev sc) = Some c ->
     logged (w_log w') (st_pos (w_st w)) name = Some c).
  { intros name c Hcc. apply L. rewrite rev_app_distr, assoc_app, Hcc. reflexivity. }
  subst x. constructor; try (apply L1; reflexivity).
  apply L. rewrite !rev_app_distr, assoc_app. reflexivity.
Qed.
End Row.
