(** * Properties C56 and C58: runs in IEEE binary64 *)
From Coq Require Import ZArith Reals Lra Psatz Sorted.
From Flocq Require Import Core BinarySingleNaN.
From Verif Require Import Base Num Json Logger World Vesicle MeltVisc RelVisc Bubbles Terrain Lava
  Thermal Flux Integrator Factory Run Spec Frame StepLog StepProofs LoggerProofs RowProofs StepProps
  ColumnProofs Props_Step FNum FFacts.
Open Scope R_scope.

Section Binary64.
Context (L : libm).
Local Instance F : Num f64 := FNum L.

(** The step size is a positive finite double. *)
Definition positive_step (dx : f64) : Prop := is_finite (val dx) = true /\ 0 < B2R (val dx).

Lemma step_position (sm : sim f64) w w' : single_step sm w = (Ok tt, w') ->
  (w_iter w' = w_iter w /\ w_fin w' = true /\ st_pos (w_st w') = st_pos (w_st w)) \/
  (w_iter w' = S (w_iter w) /\ val (st_pos (w_st w')) = Bplus mode_NE (val (st_pos (w_st w))) (val (s_dx sm))).
Proof.
  intros H. apply step_cases in H as [S|(v & rho & wd & sl & hb & ra & dT & dt & C)].
  - left. rewrite (ss_iter _ _ _ S), (ss_fin _ _ _ S). destruct (ss_st _ _ _ S) as [x ->]. auto.
  - right. rewrite (cs_iter _ _ _ _ _ _ _ _ _ _ _ C), (cs_pos _ _ _ _ _ _ _ _ _ _ _ C). auto.
Qed.

(** C58.  In binary64 the position never decreases and never becomes a NaN. *)
Theorem C58_positions_never_decrease : forall (sm : sim f64) n w w',
  positive_step (s_dx sm) -> is_nan (val (st_pos (w_st w))) = false ->
  steps sm n w = (Ok tt, w') ->
  is_nan (val (st_pos (w_st w'))) = false /\
  Bleb (val (st_pos (w_st w))) (val (st_pos (w_st w'))) = true.
Proof.
  intros sm n w w' [Hf Hp] Hn. revert w'. induction n as [|n IH]; intros w' H.
  - injection H as <-. split; [exact Hn|apply Bleb_refl; exact Hn].
  - apply steps_snoc in H as (w1 & H1 & H2). destruct (IH _ H1) as [A B].
    destruct (step_position _ _ _ H2) as [(_ & _ & ->)|(_ & ->)]; [auto|].
    destruct (plus_step (val (st_pos (w_st w1))) (val (s_dx sm)) A Hf Hp) as [C D].
    split; [exact C|]. exact (Bleb_trans _ _ _ B D).
Qed.

(** The positions of the rows of a table. *)
Definition rows_at (t : table f64) (qs : list f64) : Prop :=
  get_values "position" t = map (fun q => Some (CNum q)) qs.
Definition increasing (qs : list f64) : Prop :=
  StronglySorted (fun a b => Bltb (val a) (val b) = true) qs.

Lemma rows_at_app t1 t2 q1 q2 : rows_at t1 q1 -> rows_at t2 q2 -> rows_at (t1 ++ t2) (q1 ++ q2).
Proof. unfold rows_at, get_values. intros H1 H2. rewrite !map_app. f_equal; assumption. Qed.
Lemma rows_at_one p r : rows_at [r] [p] <-> assoc "position" r = Some (CNum p).
Proof.
  unfold rows_at, get_values. simpl. split; intros H; [congruence|rewrite H; reflexivity].
Qed.
Lemma rows_at_row t qs r : rows_at t qs -> In r t -> exists q, In q qs /\ assoc "position" r = Some (CNum q).
Proof.
  unfold rows_at, get_values. revert qs. induction t as [|r0 t IH]; intros qs H Hr; [destruct Hr|].
  destruct qs as [|q qs]; [discriminate|]. injection H as H1 H2. destruct Hr as [->|Hr].
  - exists q. simpl; auto.
  - destruct (IH _ H2 Hr) as (q' & A & B). exists q'. simpl; auto.
Qed.
Lemma rows_at_pos t qs q : rows_at t qs -> In q qs -> exists r, In r t /\ assoc "position" r = Some (CNum q).
Proof.
  unfold rows_at, get_values. revert qs. induction t as [|r0 t IH]; intros qs H Hq.
  - destruct qs; [destruct Hq|discriminate].
  - destruct qs as [|q0 qs]; [discriminate|]. injection H as H1 H2. destruct Hq as [->|Hq].
    + exists r0. simpl; auto.
    + destruct (IH _ H2 Hq) as (r & A & B). exists r. simpl; auto.
Qed.

(** Everything logged so far lies at or before the current position. *)
Definition table_ok (t : table f64) (p : f64) : Prop :=
  exists qs, rows_at t qs /\ increasing qs /\ Forall (fun q => Bleb (val q) (val p) = true) qs.

Lemma increasing_snoc qs p : increasing qs ->
  Forall (fun q => Bltb (val q) (val p) = true) qs -> increasing (qs ++ [p]).
Proof.
  unfold increasing. induction qs as [|q qs IH]; intros H G; simpl.
  - constructor; constructor.
  - inversion H; subst. inversion G; subst. constructor; [apply IH; auto|].
    apply Forall_app. split; auto.
Qed.

Lemma table_ok_log t p calls : table_ok t p -> is_nan (val p) = false -> no_position calls ->
  table_ok (log_many p calls t) p.
Proof.
  intros (qs & H1 & H2 & H3) Np Hn. destruct calls as [|c calls]; [exists qs; auto|].
  assert (Hp : n_eqb p p = true).
  { change (Beqb (val p) (val p) = true). rewrite Beqb_refl, Np. reflexivity. }
  destruct (log_many_shape p (c :: calls) t Hp Hn ltac:(discriminate)) as [(t1 & r & t2 & E & A & B & ->)|[A ->]].
  - exists qs. split; [|auto]. subst t. unfold rows_at, get_values in *. rewrite <- H1, !map_app. f_equal. cbn [map].
    f_equal. apply sets_position. exact Hn.
  - exists (qs ++ [p]). split; [|split].
    + apply rows_at_app; [exact H1|]. apply rows_at_one. rewrite sets_position by exact Hn. reflexivity.
    + apply increasing_snoc; [exact H2|]. rewrite Forall_forall in *. intros q Hq.
      apply Bcompare_dichotomy; [apply H3; exact Hq|].
      destruct (rows_at_pos _ _ _ H1 Hq) as (r & Hr & Er). specialize (A _ Hr).
      rewrite (row_at_eqb p q r Er) in A. change (Beqb (val p) (val q) = false) in A.
      destruct (Beqb (val q) (val p)) eqn:E; [|reflexivity].
      apply Beqb_leb in E as [E1 E2]. rewrite (Bleb_antisym _ _ E2 E1) in A. discriminate.
    + apply Forall_app. split; [exact H3|]. constructor; [|constructor]. apply Bleb_refl. exact Np.
Qed.
Lemma table_ok_later t p q : table_ok t p -> Bleb (val p) (val q) = true -> table_ok t q.
Proof.
  intros (qs & H1 & H2 & H3) H. exists qs. split; [exact H1|]. split; [exact H2|].
  rewrite Forall_forall in *. intros a Ha. exact (Bleb_trans _ _ _ (H3 _ Ha) H).
Qed.

Lemma no_position_names (calls : list (string * cell f64)) names :
  map fst calls = names -> Forall (fun n => n <> "position") names -> no_position calls.
Proof.
  intros <- H. exact H.
Qed.

Lemma step_table (sm : sim f64) w w' : positive_step (s_dx sm) -> is_nan (val (st_pos (w_st w))) = false ->
  table_ok (w_log w) (st_pos (w_st w)) -> single_step sm w = (Ok tt, w') ->
  table_ok (w_log w') (st_pos (w_st w')).
Proof.
  intros Hs Hn Ht H.
  assert (Hm := C58_positions_never_decrease sm 1 w w' Hs Hn ltac:(cbn [steps]; rewrite H; reflexivity)).
  apply (table_ok_later _ (st_pos (w_st w))); [|apply Hm].
  apply step_cases in H as [S|(v & rho & wd & sl & hb & ra & dT & dt & C)].
  - destruct (ss_log _ _ _ S) as [->|(bc & E1 & ->)]; [exact Ht|].
    apply table_ok_log; auto. eapply no_position_names; [exact E1|apply budget_names_no_position].
  - destruct (cs_log _ _ _ _ _ _ _ _ _ _ _ C) as (bc & sx & vf & mu & tc & f & t0 & tb & x & wb & E1 & E2 & _).
    rewrite E2. apply table_ok_log; auto. eapply no_position_names; [rewrite map_app, E1, step_calls_names; reflexivity|].
    apply Forall_app. split; [apply budget_names_no_position|apply step_names_no_position].
Qed.

(** C58.  The rows of a run are in strictly increasing order of position. *)
Theorem C58_table_in_order : forall (sm : sim f64) fuel s depth w',
  positive_step (s_dx sm) -> is_nan (val (st_pos s)) = false ->
  simulate fuel sm (initial_world s [] depth) = Some (Ok tt, w') ->
  exists qs, get_values "position" (w_log w') = map (fun q => Some (CNum q)) qs /\
    StronglySorted (fun a b => Bltb (val a) (val b) = true) qs /\
    forall q, In q qs -> Bleb (val (st_pos s)) (val q) = true /\ Bleb (val q) (val (st_pos (w_st w'))) = true.
Proof.
  intros sm fuel s depth w' Hs Hn H. unfold simulate in H.
  destruct (init_effusion_rate sm (initial_world s [] depth)) as [[[]|e] w0] eqn:Ei; [|discriminate].
  assert (P0 := Ei). apply (init_keeps_pos sm) in P0. cbn in P0.
  assert (L0 := Ei). apply (init_keeps_log sm) in L0. cbn in L0.
  apply run_loop_steps in H as (n & _ & H & _ & _).
  assert (G : forall n w', steps sm n w0 = (Ok tt, w') ->
     is_nan (val (st_pos (w_st w'))) = false /\ table_ok (w_log w') (st_pos (w_st w')) /\
     forall qs, rows_at (w_log w') qs -> Forall (fun q => Bleb (val (st_pos s)) (val q) = true) qs).
  { clear H n w'. induction n as [|n IH]; intros w' H.
    - injection H as <-. rewrite P0, L0. split; [exact Hn|]. split.
      + exists []. split; [reflexivity|]. split; constructor.
      + intros qs Hq. destruct qs; [constructor|discriminate].
    - apply steps_snoc in H as (w1 & H1 & H2). destruct (IH _ H1) as (A & B & C).
      destruct (C58_positions_never_decrease sm _ w0 w1 Hs ltac:(rewrite P0; exact Hn) H1) as [_ M1].
      destruct (C58_positions_never_decrease sm 1 w1 w' Hs A ltac:(cbn [steps]; rewrite H2; reflexivity)) as [A' _].
      split; [exact A'|]. split; [exact (step_table _ _ _ Hs A B H2)|].
      intros qs Hq. rewrite Forall_forall. intros q Iq. destruct (rows_at_pos _ _ _ Hq Iq) as (r & Hr & Er).
      assert (K : forall calls, no_position calls -> w_log w' = log_many (st_pos (w_st w1)) calls (w_log w1) ->
        Bleb (val (st_pos s)) (val q) = true).
      { intros calls Hc El. destruct calls as [|c calls].
        - cbn in El. rewrite El in Hq, Hr. specialize (C _ Hq). rewrite Forall_forall in C. auto.
        - assert (Hp : n_eqb (st_pos (w_st w1)) (st_pos (w_st w1)) = true).
          { change (Beqb (val (st_pos (w_st w1))) (val (st_pos (w_st w1))) = true). rewrite Beqb_refl, A. reflexivity. }
          destruct B as (q1 & B1 & _). specialize (C _ B1). rewrite Forall_forall in C.
          destruct (log_many_shape _ (c :: calls) (w_log w1) Hp Hc ltac:(discriminate)) as
            [(t1 & r1 & t2 & E & _ & _ & E2)|[_ E2]]; rewrite E2 in El.
          + assert (X : exists r', In r' (w_log w1) /\ assoc "position" r' = Some (CNum q)).
            { rewrite El in Hr. rewrite E. apply in_app_or in Hr as [Hr|[<-|Hr]].
              - exists r. split; [apply in_or_app; auto|exact Er].
              - exists r1. split; [apply in_or_app; simpl; auto|]. rewrite sets_position in Er by exact Hc. exact Er.
              - exists r. split; [apply in_or_app; simpl; auto|exact Er]. }
            destruct X as (r' & X1 & X2). destruct (rows_at_row _ _ _ B1 X1) as (q' & Y1 & Y2).
            rewrite X2 in Y2. injection Y2 as <-. auto.
          + rewrite El in Hr. apply in_app_or in Hr as [Hr|[<-|[]]].
            * destruct (rows_at_row _ _ _ B1 Hr) as (q' & Y1 & Y2). rewrite Er in Y2. injection Y2 as <-. auto.
            * rewrite sets_position in Er by exact Hc. cbn in Er. injection Er as <-. rewrite P0 in M1. exact M1. }
      apply step_cases in H2 as [S|(v & rho & wd & sl & hb & ra & dT & dt & Cs)].
      + destruct (ss_log _ _ _ S) as [E|(bc & E1 & E)].
        * apply (K []); [constructor|exact E].
        * apply (K bc); [|exact E]. eapply no_position_names; [exact E1|apply budget_names_no_position].
      + destruct (cs_log _ _ _ _ _ _ _ _ _ _ _ Cs) as (bc & sx & vf & mu & tc & f & t0 & tb & x & wb & E1 & E2 & _).
        eapply K; [|exact E2]. eapply no_position_names; [rewrite map_app, E1, step_calls_names; reflexivity|].
        apply Forall_app. split; [apply budget_names_no_position|apply step_names_no_position]. }
  destruct (G _ _ H) as (_ & (qs & A & B & C) & D). exists qs. split; [exact A|]. split; [exact B|].
  intros q Hq. specialize (D _ A). rewrite Forall_forall in C, D. auto.
Qed.

(** C58.  If the step is absorbed by rounding, the position stays where it is for
    ever: a length limit beyond it is never reached and all the following steps
    share one row of the table. *)
Theorem C58_absorbed_step : forall (sm : sim f64) n w w',
  is_nan (val (st_pos (w_st w))) = false ->
  Bplus mode_NE (val (st_pos (w_st w))) (val (s_dx sm)) = val (st_pos (w_st w)) ->
  Bleb (val (ter_maxlen (s_ter sm))) (val (st_pos (w_st w))) = false ->
  steps sm n w = (Ok tt, w') ->
  val (st_pos (w_st w')) = val (st_pos (w_st w)) /\
  Bleb (val (ter_maxlen (s_ter sm))) (val (st_pos (w_st w'))) = false /\
  (length (w_log w') <= S (length (w_log w)))%nat.
Proof.
  intros sm n w w' Hn Ha Hl H.
  assert (G : val (st_pos (w_st w')) = val (st_pos (w_st w)) /\
    (w_log w' = w_log w \/ ((length (w_log w') <= S (length (w_log w)))%nat /\
      exists r, In r (w_log w') /\ row_at (st_pos (w_st w)) r = true))).
  { revert w' H. induction n as [|n IH]; intros w' H.
    - injection H as <-. auto.
    - apply steps_snoc in H as (w1 & H1 & H2). destruct (IH _ H1) as [A B].
      assert (P : val (st_pos (w_st w')) = val (st_pos (w_st w))).
      { destruct (step_position _ _ _ H2) as [(_ & _ & ->)|(_ & ->)]; [exact A|]. rewrite A. exact Ha. }
      split; [exact P|].
      assert (K : forall calls, no_position calls -> w_log w' = log_many (st_pos (w_st w1)) calls (w_log w1) ->
        w_log w' = w_log w \/ ((length (w_log w') <= S (length (w_log w)))%nat /\
           exists r, In r (w_log w') /\ row_at (st_pos (w_st w)) r = true)).
      { intros calls Hc El. destruct calls as [|c calls]; [cbn in El; rewrite El; exact B|]. right.
        assert (Hp : n_eqb (st_pos (w_st w1)) (st_pos (w_st w1)) = true).
        { change (Beqb (val (st_pos (w_st w1))) (val (st_pos (w_st w1))) = true). rewrite A, Beqb_refl, Hn. reflexivity. }
        assert (R1 : forall r, row_at (st_pos (w_st w1)) r = row_at (st_pos (w_st w)) r).
        { intros r. unfold row_at. destruct (assoc "position" r) as [[t|t]|]; auto;
            change (Beqb (val (st_pos (w_st w1))) (val t) = Beqb (val (st_pos (w_st w))) (val t)); rewrite A; auto. }
        destruct (log_many_shape _ (c :: calls) (w_log w1) Hp Hc ltac:(discriminate)) as
            [(t1 & r1 & t2 & E & _ & E3 & E2)|[E3 E2]]; rewrite E2 in El; rewrite El.
        - split.
          + assert (X : length (t1 ++ sets (c :: calls) r1 :: t2) = length (w_log w1))
              by (rewrite E, !app_length; reflexivity).
            rewrite X. destruct B as [->|[B _]]; lia.
          + exists (sets (c :: calls) r1). split; [apply in_or_app; simpl; auto|].
            rewrite row_at_sets by exact Hc. rewrite <- R1. exact E3.
        - split.
          + rewrite app_length. simpl. destruct B as [->|[_ (r & B1 & B2)]]; [lia|].
            exfalso. rewrite Forall_forall in E3. specialize (E3 _ B1). rewrite R1 in E3. congruence.
          + eexists. split; [apply in_or_app; right; left; reflexivity|].
            rewrite row_at_sets by exact Hc. rewrite <- R1. rewrite row_at_fresh. exact Hp. }
      apply step_cases in H2 as [S|(v & rho & wd & sl & hb & ra & dT & dt & Cs)].
      + destruct (ss_log _ _ _ S) as [E|(bc & E1 & E)].
        * apply (K []); [constructor|exact E].
        * apply (K bc); [|exact E]. eapply no_position_names; [exact E1|apply budget_names_no_position].
      + destruct (cs_log _ _ _ _ _ _ _ _ _ _ _ Cs) as (bc & sx & vf & mu & tc & f & t0 & tb & x & wb & E1 & E2 & _).
        eapply K; [|exact E2]. eapply no_position_names; [rewrite map_app, E1, step_calls_names; reflexivity|].
        apply Forall_app. split; [apply budget_names_no_position|apply step_names_no_position]. }
  destruct G as [G1 G2]. rewrite G1. split; [reflexivity|]. split; [exact Hl|]. destruct G2 as [->|[G _]]; lia.
Qed.

(** C58.  A step of at least max_channel_length * 2^-52 is never absorbed: it gains at
    least half a step each time, so the loop ends after at most
    2 (max_channel_length - start) / step_size steps, whatever the models do. *)
Theorem C58_run_terminates : forall (sm : sim f64) (w : world f64) (n : nat),
  let dx := val (s_dx sm) in let lim := val (ter_maxlen (s_ter sm)) in let p := val (st_pos (w_st w)) in
  positive_step (s_dx sm) ->
  is_finite lim = true -> bpow radix2 (-1022) <= B2R lim -> B2R lim * bpow radix2 (-52) <= B2R dx ->
  is_finite p = true -> 0 <= B2R p ->
  (0 < n)%nat -> B2R lim <= B2R p + INR n * (B2R dx / 2) ->
  exists r w', run_loop sm n w = Some (r, w') /\ (r = Ok tt -> has_finished w' = true).
Proof.
  intros sm w n dx lim p [Fd Pd] Fl Nl Hd Fp Pp Hn. fold dx in Fd, Pd. subst p. revert w Fp Pp Hn.
  induction n as [|n IH]; intros w Fp Pp Hn Hlen; [lia|].
  cbn [run_loop]. unfold has_finished. destruct (w_fin w) eqn:Ef; [eauto|].
  destruct (single_step sm w) as [[[]|e] w1] eqn:Es; [|exists (Err e), w1; split; [reflexivity|discriminate]].
  destruct (w_fin w1) eqn:Ef1.
  { exists (Ok tt), w1. split; [|auto]. destruct n; cbn [run_loop]; unfold has_finished; rewrite Ef1; reflexivity. }
  destruct (unfinished_completed sm w w1 Es Ef1) as [(_ & _ & _ & Hp) (v & rho & wd & sl & hb & ra & dT & dt & C)].
  assert (Hpos := cs_pos _ _ _ _ _ _ _ _ _ _ _ C). apply (f_equal val) in Hpos.
  change (val (st_pos (w_st w1)) = Bplus mode_NE (val (st_pos (w_st w))) dx) in Hpos.
  change (Bleb lim (val (st_pos (w_st w1))) = false) in Hp.
  destruct (plus_progress (val (st_pos (w_st w))) dx lim Fp Fd Fl Pp Pd Nl Hd) as [X|[X1 X2]];
    rewrite <- Hpos in *; [congruence|].
  rewrite S_INR in Hlen.
  destruct (Nat.eq_dec n 0) as [->|Hn0].
  { exfalso. rewrite Bleb_correct in Hp by auto. revert Hp. case Rle_bool_spec; [discriminate|]. simpl in Hlen. intros; lra. }
  apply IH; [exact X1|lra|lia|lra].
Qed.


(** C58.  The table of a run in binary64 can always be exported (C06 without its
    assumption on positions). *)
Theorem C58_table_exportable : forall (sm : sim f64) fuel s depth w',
  positive_step (s_dx sm) -> is_nan (val (st_pos s)) = false ->
  simulate fuel sm (initial_world s [] depth) = Some (Ok tt, w') ->
  (exists f, write_values_to_file (w_log w') = Ok f) /\
  (forall first rest, w_log w' = first :: rest ->
     (forall r, In r (removelast (first :: rest)) -> map fst r = map fst first) /\
     (forall r, In r (first :: rest) -> incl (map fst r) (map fst first))).
Proof.
  intros sm fuel s depth w' [Hf Hp] Hn H.
  apply (C06_run_is_exportable (fun p => is_nan (val p) = false) sm fuel s depth w'); auto.
  - intros p Np. change (Beqb (val p) (val p) = true). rewrite Beqb_refl, Np. reflexivity.
  - intros p Np. exact (proj1 (plus_step (val p) (val (s_dx sm)) Np Hf Hp)).
Qed.

(** ** Crystals in binary64 *)
(** The order of the doubles, as integers. *)
Definition key (x : b64) : Z :=
  match x with
  | B754_infinity s => cond_Zopp s (2 ^ 2098)
  | B754_finite s m e _ => cond_Zopp s (Zpos m) * 2 ^ (e + 1074)
  | _ => 0
  end.
Lemma finite_key (x : b64) : is_finite x = true -> IZR (key x) = B2R x * bpow radix2 1074.
Proof.
  destruct x as [s|s| |s m e Hb]; intros H; try discriminate; cbn [key BinarySingleNaN.B2R].
  - ring.
  - assert (E : (0 <= e + 1074)%Z).
    {
      destruct (andb_prop _ _ Hb) as [H1 _]. apply Zeq_bool_eq in H1. revert H1.
      unfold SpecFloat.canonical_mantissa, SpecFloat.fexp, SpecFloat.emin, prec, emax. lia. }
    unfold F2R. cbn [Fnum Fexp]. rewrite mult_IZR, Rmult_assoc, <- bpow_plus. f_equal.
    change 2%Z with (radix_val radix2). apply IZR_Zpower. exact E.
Qed.
Lemma key_bound (x : b64) : (- 2 ^ 2098 <= key x <= 2 ^ 2098)%Z.
Proof.
  destruct (is_finite x) eqn:Fx.
  - assert (K := finite_key x Fx). assert (B := abs_B2R_lt_emax _ _ x).
    assert (A : (Z.abs (key x) <= 2 ^ 2098)%Z); [|lia].
    apply le_IZR. rewrite abs_IZR, K, Rabs_mult, (Rabs_pos_eq (bpow radix2 1074)) by apply bpow_ge_0.
    change 2%Z with (radix_val radix2). rewrite IZR_Zpower by lia.
    change 2098%Z with (emax + 1074)%Z. rewrite bpow_plus.
    apply Rmult_le_compat_r; [apply bpow_ge_0|]. apply Rlt_le. exact B.
  - assert (0 < 2 ^ 2098)%Z by (apply Z.pow_pos_nonneg; lia).
    destruct x as [s|[]| |s m e Hb]; try discriminate; cbn [key cond_Zopp]; lia.
Qed.
Lemma key_lt (x y : b64) : Bltb x y = true -> (key x < key y)%Z.
Proof.
  intros H. assert (0 < 2 ^ 2098)%Z by (apply Z.pow_pos_nonneg; lia).
  destruct (is_finite x) eqn:Fx, (is_finite y) eqn:Fy.
  - rewrite Bltb_correct in H by auto. revert H. case Rlt_bool_spec; [intros H _|discriminate].
    apply lt_IZR. rewrite !finite_key by auto. apply Rmult_lt_compat_r; [apply bpow_gt_0|exact H].
  - assert (B := abs_B2R_lt_emax _ _ x). assert (K := finite_key x Fx).
    assert (Y : y = B754_infinity false).
    { destruct y as [s|[]| |s m e Hb]; try discriminate; try reflexivity;
      destruct x as [s|[]| |[] m e Hb]; discriminate. }
    rewrite Y. cbn [key cond_Zopp]. apply lt_IZR. rewrite K.
    change 2%Z with (radix_val radix2). rewrite IZR_Zpower by lia. change 2098%Z with (emax + 1074)%Z. rewrite bpow_plus.
    apply Rmult_lt_compat_r; [apply bpow_gt_0|]. apply Rabs_lt_inv in B. lra.
  - assert (B := abs_B2R_lt_emax _ _ y). assert (K := finite_key y Fy).
    assert (Y : x = B754_infinity true).
    { destruct x as [s|[]| |s m e Hb]; try discriminate; try reflexivity;
      destruct y as [s|[]| |[] m e Hb]; discriminate. }
    rewrite Y. cbn [key cond_Zopp]. apply lt_IZR. rewrite K, opp_IZR.
    change 2%Z with (radix_val radix2). rewrite IZR_Zpower by lia. change 2098%Z with (emax + 1074)%Z. rewrite bpow_plus.
    rewrite Ropp_mult_distr_l. apply Rmult_lt_compat_r; [apply bpow_gt_0|]. apply Rabs_lt_inv in B. lra.
  - destruct x as [s|[]| |s m e Hb], y as [s'|[]| |s' m' e' Hb']; try discriminate. cbn [key cond_Zopp]. lia.
Qed.
Lemma plus_nan (x y : b64) : is_nan x = true -> is_nan (Bplus mode_NE x y) = true.
Proof. destruct x; try discriminate. reflexivity. Qed.
Lemma plus_nan_r (x y : b64) : is_nan y = true -> is_nan (Bplus mode_NE x y) = true.
Proof. destruct y; try discriminate. destruct x; reflexivity. Qed.

(** C58.  Each completed step raises the crystal fraction by at least one double,
    or makes it a NaN; so, with no assumption at all on the configuration, a
    run that goes on for ever is one whose crystal fraction is a NaN. *)
Theorem C58_endless_run_is_nan : forall (sm : sim f64) n w w',
  steps sm n w = (Ok tt, w') -> w_iter w' = (w_iter w + n)%nat ->
  is_nan (val (st_phi (w_st w'))) = false -> (Z.of_nat n <= 2 ^ 2099)%Z.
Proof.
  intros sm n w w' H Hi Hn.
  assert (G : is_nan (val (st_phi (w_st w))) = false /\
    (key (val (st_phi (w_st w))) + Z.of_nat n <= key (val (st_phi (w_st w'))))%Z).
  { revert w' H Hi Hn. induction n as [|n IH]; intros w' H Hi Hn.
    - injection H as <-. split; [exact Hn|lia].
    - assert (Up : forall n w w', steps sm n w = (Ok tt, w') -> (w_iter w' <= w_iter w + n)%nat).
      { clear. induction n as [|n IH]; intros w w' H; [injection H as <-; lia|].
        apply steps_snoc in H as (w1 & H1 & H2). apply IH in H1.
        destruct (step_position _ _ _ H2) as [(E & _)|(E & _)]; rewrite E; lia. }
      apply steps_snoc in H as (w1 & H1 & H2). assert (U := Up _ _ _ H1).
      apply step_cases in H2 as [S|(v & rho & wd & sl & hb & ra & dT & dt & C)].
      { rewrite (ss_iter _ _ _ S) in Hi. lia. }
      rewrite (cs_iter _ _ _ _ _ _ _ _ _ _ _ C) in Hi.
      assert (Hp := cs_phi _ _ _ _ _ _ _ _ _ _ _ C). apply (f_equal val) in Hp.
      change (val (st_phi (w_st w')) = Bplus mode_NE (val (st_phi (w_st w1))) (val (n_mul (n_mul dT (n_neg ra)) (s_dx sm)))) in Hp.
      assert (N1 : is_nan (val (st_phi (w_st w1))) = false).
      { destruct (is_nan (val (st_phi (w_st w1)))) eqn:E; [|reflexivity].
        rewrite Hp, plus_nan in Hn by exact E. discriminate. }
      destruct (IH _ H1 ltac:(lia) N1) as [A B]. split; [exact A|].
      assert (Hg := cs_phi_grows _ _ _ _ _ _ _ _ _ _ _ C).
      change (Bleb (val (st_phi (w_st w'))) (val (st_phi (w_st w1))) = false) in Hg.
      apply Bleb_total in Hg; [|exact Hn|exact N1]. apply key_lt in Hg. lia. }
  destruct G as [_ G]. assert (B1 := key_bound (val (st_phi (w_st w)))). assert (B2 := key_bound (val (st_phi (w_st w')))).
  change (2 ^ 2099)%Z with (2 * 2 ^ 2098)%Z. lia.
Qed.
Theorem C58_loop_ends_or_nan : forall (sm : sim f64) fuel w,
  (2 ^ 2099 < Z.of_nat fuel)%Z -> run_loop sm fuel w = None ->
  exists w', steps sm fuel w = (Ok tt, w') /\ is_nan (val (st_phi (w_st w'))) = true.
Proof.
  intros sm fuel w Hf H.
  assert (G : forall fuel w, run_loop sm fuel w = None ->
    exists w', steps sm fuel w = (Ok tt, w') /\ w_iter w' = (w_iter w + fuel)%nat).
  { clear. induction fuel as [|f IH]; intros w H; cbn [run_loop] in H.
    - exists w. split; [reflexivity|lia].
    - destruct (has_finished w); [discriminate|].
      destruct (single_step sm w) as [[[]|e] w1] eqn:E; [|discriminate].
      destruct (IH _ H) as (w' & A & B). exists w'. cbn [steps]. rewrite E. split; [exact A|].
      destruct (step_position _ _ _ E) as [(_ & F1 & _)|(E1 & _)]; [|lia].
      exfalso. destruct f; cbn [run_loop] in H; unfold has_finished in H; rewrite F1 in H; discriminate. }
  destruct (G _ _ H) as (w' & A & B). exists w'. split; [exact A|].
  destruct (is_nan (val (st_phi (w_st w')))) eqn:E; [reflexivity|].
  assert (K := C58_endless_run_is_nan sm fuel w w' A B E). lia.
Qed.

(** ** C56: melts *)
Definition null_or_nan (x : b64) : Prop := match x with B754_zero _ => True | B754_nan => True | _ => False end.
Definition endless_or_nan (x : b64) : Prop := match x with B754_infinity _ => True | B754_nan => True | _ => False end.
Lemma minus_self (x : b64) : null_or_nan (Bminus mode_NE x x).
Proof.
  destruct (is_finite x) eqn:Fx.
  - assert (C := Bminus_correct _ _ _ _ mode_NE x x Fx Fx).
    replace (B2R x - B2R x) with 0 in C by ring. rewrite round_0, Rabs_R0, Rlt_bool_true in C;
      [|apply bpow_gt_0|typeclasses eauto].
    destruct C as (C1 & C2 & _). destruct (Bminus mode_NE x x) as [s|s| |s m e Hb]; try discriminate; try exact I.
    exfalso. simpl in C1. assert (X : (cond_Zopp s (Zpos m) = 0)%Z) by (eapply eq_0_F2R; exact C1). destruct s; discriminate.
  - destruct x as [s|[]| |s m e Hb]; try discriminate; exact I.
Qed.
Lemma opp_null x : null_or_nan x -> null_or_nan (Bopp x).
Proof. destruct x; auto. Qed.
Lemma mul_null x y : null_or_nan y -> null_or_nan (Bmult mode_NE x y).
Proof. destruct y; try contradiction; destruct x; intros _; exact I. Qed.
Lemma div_null x y : null_or_nan y -> endless_or_nan (Bdiv mode_NE x y).
Proof. destruct y; try contradiction; destruct x; intros _; exact I. Qed.
Lemma null_div x y : null_or_nan x -> null_or_nan (Bdiv mode_NE x y).
Proof. destruct x; try contradiction; destruct y; intros _; exact I. Qed.
Lemma endless_null x y : endless_or_nan x -> null_or_nan y -> is_nan (Bmult mode_NE x y) = true.
Proof. destruct x, y; try contradiction; reflexivity. Qed.
Lemma mult_nan x y : is_nan x = true -> is_nan (Bmult mode_NE x y) = true.
Proof. destruct x; try discriminate; reflexivity. Qed.

(** What the factory builds for "melts" has no table. *)
Definition no_table (c : cryst_model f64) : Prop := exists phi ts te, c = CrMelts phi ts te None.

Lemma melts_rate c (s : state f64) rate : no_table c -> compute_crystallization_rate c s = Ok rate ->
  null_or_nan (val rate).
Proof.
  intros (phi & ts & te & ->) H. cbn [compute_crystallization_rate get_crystal_fraction rbind] in H.
  change (f_div (op1 Bopp (op2 (Bminus mode_NE) phi phi)) (mkf false (lit 2 1)) = Ok rate) in H.
  unfold f_div in H. destruct (_ && _) in H; [discriminate|]. injection H as <-.
  apply null_div. cbn. apply opp_null, minus_self.
Qed.

(** C56, binary64.  With the model the factory builds for "melts", a step that
    does not raise and does not find the lava at a standstill leaves a crystal
    fraction that is not a number. *)
Theorem C56_melts_step_is_nan : forall (sm : sim f64) w w', no_table (s_cryst sm) ->
  single_step sm w = (Ok tt, w') ->
  (w_iter w' = w_iter w /\ w_log w' = w_log w /\ w_fin w' = true /\
   exists v new, mean_velocity (s_lava sm) (s_ter sm) (w_depth w) (w_st w) = Ok (v, new) /\ n_leb v zero = true) \/
  (w_iter w' = S (w_iter w) /\ is_nan (val (st_phi (w_st w'))) = true).
Proof.
  intros sm w w' Hc H.
  assert (K : forall hb d rate dT, compute_crystallization_rate (s_cryst sm) (w_st w) = Ok rate ->
    n_div (n_neg hb) (n_mul d rate) = Ok dT ->
    is_nan (val (n_add (st_phi (w_st w)) (n_mul (n_mul dT (n_neg rate)) (s_dx sm)))) = true).
  { intros hb d rate dT Hr Hd. apply (melts_rate _ _ _ Hc) in Hr.
    assert (Ed : endless_or_nan (val dT)).
    { change (f_div (op1 Bopp hb) (op2 (Bmult mode_NE) d rate) = Ok dT) in Hd. unfold f_div in Hd.
      destruct (_ && _) in Hd; [discriminate|]. injection Hd as <-. apply div_null. cbn. apply mul_null, Hr. }
    apply plus_nan_r. cbn. apply mult_nan. apply endless_null; [exact Ed|apply opp_null; exact Hr]. }
  apply step_cases in H as [S|(v & rho & wd & sl & hb & ra & dT & dt & C)].
  - left. rewrite (ss_iter _ _ _ S), (ss_fin _ _ _ S).
    destruct (ss_why _ _ _ S) as (v & new & Hv & [(A & B & _)|(_ & _ & rho & wd & hb & rate & dT & w2 & bc & _ & _ & _ & Hr & Hd & Hle & _)]).
    + rewrite B. eauto 10.
    + exfalso. assert (X := K _ _ _ _ Hr Hd). change (Bleb (val (n_add (st_phi (w_st w)) (n_mul (n_mul dT (n_neg rate)) (s_dx sm)))) (val (st_phi (w_st w))) = true) in Hle.
      apply Bleb_not_nan in Hle as [Y _]. rewrite X in Y. discriminate.
  - right. rewrite (cs_iter _ _ _ _ _ _ _ _ _ _ _ C). split; [reflexivity|].
    rewrite (cs_phi _ _ _ _ _ _ _ _ _ _ _ C).
    exact (K _ _ _ _ (cs_rate _ _ _ _ _ _ _ _ _ _ _ C) (cs_dtemp _ _ _ _ _ _ _ _ _ _ _ C)).
Qed.
(** ... so every run that ends normally with at least one step holds a NaN. *)
Theorem C56_melts_run_is_nan : forall (sm : sim f64) fuel w w', no_table (s_cryst sm) ->
  run_loop sm fuel w = Some (Ok tt, w') ->
  w_iter w' = w_iter w \/ is_nan (val (st_phi (w_st w'))) = true.
Proof.
  intros sm fuel w w' Hc H. apply run_loop_steps in H as (n & _ & H & _ & _). revert w' H.
  induction n as [|n IH]; intros w' H; [injection H as <-; auto|].
  apply steps_snoc in H as (w1 & H1 & H2).
  destruct (C56_melts_step_is_nan sm w1 w' Hc H2) as [(E1 & _ & _ & _)|(_ & E2)]; [|auto].
  destruct (IH _ H1) as [A|A]; [left; congruence|right].
  apply step_cases in H2 as [S|(v & rho & wd & sl & hb & ra & dT & dt & C)].
  - destruct (ss_st _ _ _ S) as [x ->]. exact A.
  - rewrite (cs_iter _ _ _ _ _ _ _ _ _ _ _ C) in E1. lia.
Qed.
End Binary64.
