(** * TableTrace: which step wrote each row of the table of a run *)
From Coq Require Import Reals Lra.
From Verif Require Import Base Num Json Logger World Vesicle MeltVisc RelVisc Bubbles Terrain Lava
  Thermal Flux Integrator Factory Run RNum Frame StepLog StepProofs LoggerProofs RowProofs StepProps ColumnProofs
  EffArray Props_Run Props_RunOuts.
Open Scope R_scope.

Lemma steps_add {T} {N : Num T} (sm : sim T) n w w1 w2 :
  steps sm n w = (Ok tt, w1) -> single_step sm w1 = (Ok tt, w2) -> steps sm (S n) w = (Ok tt, w2).
Proof.
  revert w. induction n as [|n IH]; intros w H1 H2.
  - injection H1 as ->. cbn [steps]. rewrite H2. reflexivity.
  - apply steps_S_inv in H1 as [(e & He & _)|(w3 & H3 & H4)]; [discriminate|].
    change (steps sm (S (S n)) w) with (match single_step sm w with (Ok _, w'') => steps sm (S n) w'' | (Err e, w'') => (Err e, w'') end).
    rewrite H3. exact (IH w3 H4 H2).
Qed.

(** Row [i] was written by the step from the world reached after [i] steps. *)
Definition written_by (sm : sim R) (w0 : world R) (i : nat) (r : row R) : Prop :=
  exists wi wj, steps sm i w0 = (Ok tt, wi) /\ single_step sm wi = (Ok tt, wj) /\
    w_iter wi = i /\ w_iter wj = S i /\
    forall name, assoc name r = logged (w_log wj) (st_pos (w_st wi)) name.

Lemma logged_last (p : R) (t : table R) r name :
  Forall (fun r => row_at p r = false) t -> row_at p r = true -> logged (t ++ [r]) p name = assoc name r.
Proof. intros Ht Hr. unfold logged. rewrite find_skip by exact Ht. cbn [find]. rewrite Hr. reflexivity. Qed.

Lemma run_trace (sm : sim R) fuel w0 w' : s_dx sm <> 0 -> w_iter w0 = 0%nat -> w_log w0 = [] ->
  run_loop sm fuel w0 = Some (Ok tt, w') ->
  exists done rest wn, w_log w' = done ++ rest /\ length done = w_iter w' /\
    (forall i r, nth_error done i = Some r -> written_by sm w0 i r) /\
    steps sm (w_iter w') w0 = (Ok tt, wn) /\ w_log wn = done /\
    ((w' = wn /\ rest = []) \/ stopped_step sm wn w').
Proof.
  intros Hdx HI HL0 H. set (x0 := st_pos (w_st w0)). set (dx := s_dx sm) in *.
  assert (G : forall fuel w, steps sm (w_iter w) w0 = (Ok tt, w) -> st_pos (w_st w) = x0 + INR (w_iter w) * dx ->
    length (w_log w) = w_iter w -> evenly_spaced x0 dx (full_columns sm) (w_log w) ->
    (forall i r, nth_error (w_log w) i = Some r -> written_by sm w0 i r) ->
    run_loop sm fuel w = Some (Ok tt, w') ->
    exists done rest wn, w_log w' = done ++ rest /\ length done = w_iter w' /\
      (forall i r, nth_error done i = Some r -> written_by sm w0 i r) /\
      steps sm (w_iter w') w0 = (Ok tt, wn) /\ w_log wn = done /\ ((w' = wn /\ rest = []) \/ stopped_step sm wn w')).
  { clear H fuel. induction fuel as [|fu IH]; intros w HS HP HL HE HW H; cbn [run_loop] in H.
    - destruct (has_finished w); [|discriminate]. injection H as <-.
      exists (w_log w), [], w. rewrite app_nil_r. repeat split; auto.
    - destruct (has_finished w); [injection H as <-; exists (w_log w), [], w; rewrite app_nil_r; repeat split; auto|].
      destruct (single_step sm w) as [[[]|e] w1] eqn:Es; [|discriminate].
      assert (Hno := evenly_not_at x0 dx _ _ Hdx HE). rewrite HL, <- HP in Hno.
      assert (Es' := Es). apply step_cases in Es as [S|(v & rho & wd & sl & hb & ra & dT & dt & C)].
      + assert (w1 = w') as ->.
        { destruct fu; cbn [run_loop] in H; unfold has_finished in H; rewrite (ss_fin _ _ _ S) in H; injection H as <-; auto. }
        rewrite (ss_iter _ _ _ S).
        destruct (ss_log _ _ _ S) as [->|(bc & Hn & ->)].
        { exists (w_log w), [], w. rewrite app_nil_r. repeat split; auto. }
        destruct (logged_row (st_pos (w_st w)) bc (w_log w) (partial_columns sm)) as (r & -> & Hr).
        * unfold no_position. rewrite Hn. apply budget_names_no_position.
        * intros ->. unfold budget_names in Hn. symmetry in Hn. apply app_eq_nil in Hn as [_ Hn]. discriminate.
        * exact Hno.
        * rewrite Hn. reflexivity.
        * exists (w_log w), [r], w. repeat split; auto.
      + destruct (cs_log _ _ _ _ _ _ _ _ _ _ _ C) as
          (bc & sx & vf & mu & tc & f & t0 & tb & x & wb & Hn & Hlog & _).
        set (calls := bc ++ _) in Hlog.
        assert (Hcn : map fst calls = budget_names (s_budget sm) ++ step_names).
        { unfold calls. rewrite map_app, Hn, step_calls_names. reflexivity. }
        destruct (logged_row (st_pos (w_st w)) calls (w_log w) (full_columns sm)) as (r & Hr1 & Hr).
        * unfold no_position. rewrite Hcn. apply Forall_app. split; [apply budget_names_no_position|apply step_names_no_position].
        * intros E. rewrite E in Hcn. symmetry in Hcn. apply app_eq_nil in Hcn as [_ Hcn]. discriminate.
        * exact Hno.
        * rewrite Hcn. reflexivity.
        * rewrite Hr1 in Hlog. assert (I1 := cs_iter _ _ _ _ _ _ _ _ _ _ _ C). apply (IH w1); auto.
          -- rewrite I1. exact (steps_add sm _ _ _ _ HS Es').
          -- rewrite (cs_pos _ _ _ _ _ _ _ _ _ _ _ C), I1, S_INR, HP.
             change (x0 + INR (w_iter w) * dx + dx = x0 + (INR (w_iter w) + 1) * dx). ring.
          -- rewrite Hlog, app_length, HL, I1. cbn. lia.
          -- rewrite Hlog. apply evenly_snoc; [exact HE|]. rewrite HL, <- HP. exact Hr.
          -- intros i q Hi. rewrite Hlog in Hi. destruct (Nat.lt_ge_cases i (length (w_log w))) as [Hl|Hl].
             ++ rewrite nth_error_app1 in Hi by exact Hl. now apply HW.
             ++ rewrite nth_error_app2 in Hi by exact Hl. destruct (i - length (w_log w))%nat as [|k] eqn:Ek; [|destruct k; discriminate].
                injection Hi as <-. assert (i = w_iter w) as -> by lia. exists w, w1. repeat split; auto.
                intros name. rewrite Hlog. symmetry. apply logged_last; [exact Hno|]. unfold row_at. rewrite (proj1 Hr). apply R_refl. }
  apply (G fuel w0); auto.
  - rewrite HI. reflexivity.
  - unfold x0. rewrite HI. cbn. lra.
  - rewrite HL0, HI. reflexivity.
  - rewrite HL0. intros i r Hi. destruct i; discriminate.
  - rewrite HL0. intros i r Hi. destruct i; discriminate.
Qed.
