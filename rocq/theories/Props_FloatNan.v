(** * C58, C56: what a NaN crystal fraction does in binary64 *)
From Coq Require Import ZArith Reals Lra Psatz.
From Flocq Require Import Core BinarySingleNaN.
From Verif Require Import Base Num Json Logger World Vesicle MeltVisc RelVisc Bubbles Terrain Lava
  Thermal Flux Integrator Factory Run Spec Frame StepLog StepProofs LoggerProofs RowProofs StepProps
  ColumnProofs Props_Step FNum FFacts Props_Float.

(** The C library's pow: a NaN to a power that is not zero is a NaN. *)
Record pow_propagates_nan (L : libm) : Prop := {
  pp_mpow : forall x y z, is_nan x = true -> Beqb y (B754_zero false) = false -> m_mpow L x y = Ok z -> is_nan z = true;
  pp_pow : forall x y z, is_nan x = true -> Beqb y (B754_zero false) = false -> m_pow L x y = Ok z -> is_nan z = true;
  pp_nppow : forall x y, is_nan x = true -> Beqb y (B754_zero false) = false -> is_nan (m_nppow L x y) = true
}.

Section Nan.
Context (L : libm) (HL : pow_propagates_nan L).
Local Instance NF : Num f64 := FNum L.

(** Configurations in which the crystal fraction really enters the viscosity:
    the exponents of kd and bll are not zero, and bll's lava is not all gas. *)
Definition crystals_matter (m : rel_model f64) : Prop :=
  match m with
  | RelKD phimax b => Beqb (val (n_mul (n_neg b) phimax)) (B754_zero false) = false
  | RelBLL vm _ _ bsolid _ _ _ _ => Beqb (val (n_neg bsolid)) (B754_zero false) = false /\
      forall s vf, computes_vesicle_fraction vm s = Ok vf -> n_leb one vf = false
  | _ => True
  end.

Definition nan (x : f64) : Prop := is_nan (val x) = true.
Lemma nan_add x y : nan x -> nan (n_add x y).
Proof. unfold nan. cbn. intros H. apply plus_nan. exact H. Qed.
Lemma nan_add_r x y : nan y -> nan (n_add x y).
Proof. unfold nan. cbn. intros H. apply plus_nan_r. exact H. Qed.
Lemma nan_sub x y : nan x -> nan (n_sub x y).
Proof. unfold nan. cbn. destruct (val x); try discriminate. auto. Qed.
Lemma nan_sub_r x y : nan y -> nan (n_sub x y).
Proof. unfold nan. cbn. destruct (val y); try discriminate. destruct (val x); auto. Qed.
Lemma nan_mul x y : nan x -> nan (n_mul x y).
Proof. unfold nan. cbn. intros H. apply mult_nan. exact H. Qed.
Lemma nan_mul_r x y : nan y -> nan (n_mul x y).
Proof. unfold nan. cbn. destruct (val y); try discriminate. destruct (val x); auto. Qed.
Lemma nan_abs x : nan x -> nan (n_abs x).
Proof. unfold nan. cbn. destruct (val x); try discriminate. auto. Qed.
Lemma nan_div x y z : nan x -> n_div x y = Ok z -> nan z.
Proof.
  unfold nan. intros H E. change (f_div x y = Ok z) in E. unfold f_div in E. destruct (_ && _) in E; [discriminate|].
  injection E as <-. cbn. destruct (val x); try discriminate. auto.
Qed.
Lemma nan_div_r x y z : nan y -> n_div x y = Ok z -> nan z.
Proof.
  unfold nan. intros H E. change (f_div x y = Ok z) in E. unfold f_div in E. destruct (_ && _) in E; [discriminate|].
  injection E as <-. cbn. destruct (val y); try discriminate. destruct (val x); auto.
Qed.
Lemma nan_mpow x y z : nan x -> Beqb (val y) (B754_zero false) = false -> n_mpow x y = Ok z -> nan z.
Proof.
  intros H Hy E. change (pyres (m_mpow L (val x) (val y)) = Ok z) in E. unfold pyres, rmap in E.
  destruct (m_mpow L (val x) (val y)) as [r|e] eqn:M; [|discriminate]. injection E as <-.
  exact (pp_mpow _ HL _ _ _ H Hy M).
Qed.
Lemma nan_pow x y z : nan x -> Beqb (val y) (B754_zero false) = false -> n_pow x y = Ok z -> nan z.
Proof.
  intros H Hy E. change ((if np x || np y then Ok (mkf true (m_nppow L (val x) (val y)))
                      else pyres (m_pow L (val x) (val y))) = Ok z) in E.
  destruct (np x || np y).
  - injection E as <-. exact (pp_nppow _ HL _ _ H Hy).
  - unfold pyres, rmap in E. destruct (m_pow L (val x) (val y)) as [r|e] eqn:M; [|discriminate]. injection E as <-.
    exact (pp_pow _ HL _ _ _ H Hy M).
Qed.
Lemma leb_nan x y : nan x -> n_leb x y = false.
Proof. unfold nan. cbn. destruct (val x); try discriminate. reflexivity. Qed.
Lemma leb_nan_r x y : nan y -> n_leb x y = false.
Proof. unfold nan. cbn. destruct (val y); try discriminate. destruct (val x) as [|[]| |[]]; reflexivity. Qed.

Ltac nz := vm_compute; reflexivity.
Tactic Notation "step_in" hyp(H) := apply rbind_ok in H; destruct H as (? & ? & H).

Lemma costa_nan d g ps ep phi r : nan phi -> Beqb (val d) (B754_zero false) = false ->
  costa_formula d g ps ep phi = Ok r -> nan r.
Proof.
  intros Hp Hd H. unfold costa_formula in H.
  apply rbind_ok in H as (sp & _ & H). apply rbind_ok in H as (k & _ & H). apply rbind_ok in H as (q & Hq & H).
  apply rbind_ok in H as (rg & _ & H). apply rbind_ok in H as (er & _ & H). apply rbind_ok in H as (rd & Hrd & H).
  apply rbind_ok in H as (den & _ & H). eapply nan_div; [|exact H]. apply nan_add_r.
  refine (nan_mpow _ _ _ _ Hd Hrd). eapply nan_div; eauto.
Qed.

Lemma rel_nan m (s : state f64) r : crystals_matter m -> nan (st_phi s) ->
  compute_relative_viscosity m s = Ok r -> nan r.
Proof.
  intros Hm Hp H. destruct m; cbn [compute_relative_viscosity crystals_matter] in *.
  - apply rbind_ok in H as (x & _ & H). refine (nan_mpow _ _ _ _ _ H); [|nz]. apply nan_sub_r, nan_mul_r, Hp.
  - apply rbind_ok in H as (q & Hq & H). refine (nan_mpow _ _ _ _ Hm H). apply nan_sub_r. eapply nan_div; eauto.
  - apply rbind_ok in H as (q & Hq & H). refine (nan_mpow _ _ _ _ _ H); [|nz]. apply nan_sub_r. eapply nan_div; eauto.
  - apply rbind_ok in H as (pm & _ & H). apply rbind_ok in H as (q & Hq & H). refine (nan_mpow _ _ _ _ _ H); [|nz].
    apply nan_sub_r. eapply nan_div; eauto.
  - apply rbind_ok in H as (pm & _ & H). apply rbind_ok in H as (q & Hq & H). apply rbind_ok in H as (q4 & _ & H).
    assert (Nq : nan q) by (eapply nan_div; eauto). rewrite leb_nan_r in H by exact Nq.
    refine (nan_mpow _ _ _ _ _ H); [|nz]. apply nan_sub_r, Nq.
  - destruct Hm as [Hb Hv]. apply rbind_ok in H as (vf & Evf & H). apply rbind_ok in H as (mv & _ & H).
    apply rbind_ok in H as (rx & _ & H). rewrite (Hv _ _ Evf) in H. apply rbind_ok in H as (q & Hq & H).
    assert (Nq : nan q) by (eapply nan_div; eauto).
    destruct (n_ltb _ _) in H.
    + apply rbind_ok in H as (a & Ha & H). apply rbind_ok in H as (b & _ & H). apply rbind_ok in H as (c & _ & H).
      destruct (n_leb _ _) in H; [discriminate|]. injection H as <-. apply nan_mul, nan_mul.
      refine (nan_pow _ _ _ _ Hb Ha). apply nan_sub_r, Nq.
    + apply rbind_ok in H as (a & Ha & H). apply rbind_ok in H as (b & _ & H).
      destruct (n_leb _ _) in H; [discriminate|]. injection H as <-. apply nan_mul.
      refine (nan_pow _ _ _ _ Hb Ha). apply nan_sub_r, Nq.
  - apply rbind_ok in H as (vf & _ & H). apply rbind_ok in H as (q & Hq & H). apply rbind_ok in H as (a & Ha & H).
    apply rbind_ok in H as (b & _ & H). injection H as <-. apply nan_mul. refine (nan_pow _ _ _ _ _ Ha); [|nz].
    apply nan_sub_r. eapply nan_div; eauto.
  - apply rbind_ok in H as (vf & _ & H). apply rbind_ok in H as (e & He & H).
    assert (Ne : nan e) by (eapply nan_div; [|exact He]; apply nan_add, nan_mul_r, Hp).
    refine (nan_mpow _ _ _ _ _ H).
    + apply nan_sub, nan_sub_r, Hp.
    + unfold nan in Ne. cbn. destruct (val e); try discriminate. reflexivity.
  - apply rbind_ok in H as (vf & _ & H). apply rbind_ok in H as (q & Hq & H). apply rbind_ok in H as (a & Ha & H).
    apply rbind_ok in H as (b & Hb & H). injection H as <-. apply nan_mul. refine (nan_pow _ _ _ _ _ Ha); [|nz].
    apply nan_sub_r. eapply nan_div_r; [|exact Hq]. apply nan_sub_r, Hp.
  - destruct (n_eqb _ _) in H; [|destruct (n_eqb _ _) in H; [|discriminate]]; (refine (costa_nan _ _ _ _ _ _ Hp _ H); nz).
  - destruct (n_eqb _ _) in H; [|destruct (n_eqb _ _) in H; [|discriminate]]; (refine (costa_nan _ _ _ _ _ _ Hp _ H); nz).
  - destruct (n_eqb _ _) in H; [|destruct (n_eqb _ _) in H; [|discriminate]]; (refine (costa_nan _ _ _ _ _ _ Hp _ H); nz).
Qed.

Lemma bulk_nan l (s : state f64) mu : crystals_matter (lv_rel l) -> nan (st_phi s) ->
  computes_bulk_viscosity l s = Ok mu -> nan mu.
Proof.
  intros Hm Hp H. unfold computes_bulk_viscosity in H.
  apply rbind_ok in H as (mv & _ & H). apply rbind_ok in H as (rv & Hr & H). apply rbind_ok in H as (b & _ & H).
  injection H as <-. apply nan_mul, nan_mul_r. eapply rel_nan; eauto.
Qed.

Lemma velocity_nan fuel l (s : state f64) depth t0 tb strain : crystals_matter (lv_rel l) -> nan (st_phi s) ->
  exists e, velocity_loop fuel l s depth t0 tb strain = Err e.
Proof.
  intros Hm Hp. revert strain. induction fuel as [|f IH]; intros strain; cbn [velocity_loop]; [eauto|].
  destruct (computes_bulk_viscosity l s) as [mu|e] eqn:Emu; cbn [rbind]; [|eauto].
  apply bulk_nan in Emu; [|exact Hm|exact Hp].
  destruct (velocity_formula depth t0 tb mu) as [v|e] eqn:Ev; cbn [rbind]; [|eauto].
  destruct (n_div (n_mul (n_lit 3 1) v) depth) as [new|e] eqn:En; cbn [rbind]; [|eauto].
  assert (Nv : nan v).
  { unfold velocity_formula in Ev. apply rbind_ok in Ev as (a & Ha & Ev). apply rbind_ok in Ev as (r & _ & Ev).
    apply rbind_ok in Ev as (r3 & _ & Ev). injection Ev as <-. apply nan_mul. eapply nan_div_r; [|exact Ha].
    apply nan_mul_r, Emu. }
  assert (Nn : nan new) by (eapply nan_div; [|exact En]; apply nan_mul_r, Nv).
  rewrite leb_nan by (apply nan_abs, nan_sub, Nn). apply IH.
Qed.

(** C58.  With a NaN crystal fraction the next step raises (the velocity
    iteration cannot converge): a NaN never produces another row. *)
Theorem C58_nan_raises : forall (sm : sim f64) w, crystals_matter (lv_rel (s_lava sm)) ->
  is_nan (val (st_phi (w_st w))) = true -> exists e w', single_step sm w = (Err e, w') /\ w_log w' = w_log w.
Proof.
  intros sm w Hm Hp. unfold single_step, compute_mean_velocity, bind, mean_velocity.
  destruct (compute_yield_strength _ _) as [t0|e]; cbn [rbind]; [|eauto].
  destruct (compute_basal_shear_stress _ _ _ _ _) as [tb|e]; cbn [rbind]; [|eauto].
  destruct (velocity_nan 50 (s_lava sm) (w_st w) (w_depth w) t0 tb
    (py_or (st_strain (w_st w)) (n_lit 1 100000000)) Hm Hp) as (e & ->). eauto.
Qed.

(** C58.  So every run ends in binary64, whatever the step size and the
    configuration: the loop is over (normally or by an exception) after at most
    2^2099 + 2 iterations. *)
Theorem C58_every_run_ends : forall (sm : sim f64) w fuel, crystals_matter (lv_rel (s_lava sm)) ->
  (2 ^ 2099 + 1 < Z.of_nat fuel)%Z -> exists r w', run_loop sm fuel w = Some (r, w').
Proof.
  intros sm w fuel Hm Hf. destruct (run_loop sm fuel w) as [[r w']|] eqn:E; [eauto|]. exfalso.
  destruct fuel as [|fuel]; [lia|].
  assert (G : forall n w, run_loop sm (S n) w = None -> run_loop sm n w = None).
  { clear. induction n as [|n IH]; intros w H.
    - cbn [run_loop] in *. destruct (has_finished w); [discriminate|reflexivity].
    - change (run_loop sm (S n) w) with (if has_finished w then Some (Ok tt, w) else
        match single_step sm w with (Ok _, w') => run_loop sm n w' | (Err e, w') => Some (Err e, w') end).
      remember (S n) as m. cbn [run_loop] in H. destruct (has_finished w); [discriminate|].
      destruct (single_step sm w) as [[[]|e] w1]; [|discriminate]. subst m. apply IH. exact H. }
  destruct (C58_loop_ends_or_nan L sm fuel w ltac:(lia) (G _ _ E)) as (w1 & H1 & N1).
  assert (K : forall n w w1, steps sm n w = (Ok tt, w1) -> run_loop sm (S n) w = None -> exists w2, single_step sm w1 = (Ok tt, w2)).
  { clear. induction n as [|n IH]; intros w w1 H1 H.
    - injection H1 as <-. cbn [run_loop] in H. destruct (has_finished w); [discriminate|].
      destruct (single_step sm w) as [[[]|e] w2]; [eauto|discriminate].
    - remember (S n) as m. cbn [run_loop] in H. destruct (has_finished w); [discriminate|].
      destruct (single_step sm w) as [[[]|e] w2] eqn:E; [|discriminate]. subst m.
      cbn [steps] in H1. rewrite E in H1. eapply IH; eauto. }
  destruct (K _ _ _ H1 E) as (w2 & H2).
  destruct (C58_nan_raises sm w1 Hm N1) as (e & w3 & H3 & _). rewrite H3 in H2. discriminate.
Qed.

(** C56.  With "melts" as the factory builds it, no run completes more than one step. *)
Theorem C56_melts_at_most_one_step : forall (sm : sim f64) fuel w w', crystals_matter (lv_rel (s_lava sm)) ->
  no_table (s_cryst sm) -> run_loop sm fuel w = Some (Ok tt, w') -> (w_iter w' <= S (w_iter w))%nat.
Proof.
  intros sm fuel w w' Hm Hc H. apply run_loop_steps in H as (n & _ & H & _ & _).
  assert (G : forall n w w', steps sm n w = (Ok tt, w') ->
    (w_iter w' = w_iter w \/ (w_iter w' = S (w_iter w) /\ is_nan (val (st_phi (w_st w'))) = true))).
  { clear H n w w'. induction n as [|n IH]; intros w w' H; [injection H as <-; auto|].
    apply steps_snoc in H as (w1 & H1 & H2). destruct (IH _ _ H1) as [A|[A B]].
    - destruct (C56_melts_step_is_nan L sm w1 w' Hc H2) as [(E & _)|(E & E2)]; [left; congruence|right; split; [congruence|exact E2]].
    - destruct (C58_nan_raises sm w1 Hm B) as (e & w3 & H3 & _). rewrite H3 in H2. discriminate. }
  destruct (G _ _ _ H) as [A|[A _]]; lia.
Qed.
End Nan.
