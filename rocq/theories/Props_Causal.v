(** * Props_Causal: the channel downstream has no influence on the rows upstream: C83 *)
From Coq Require Import Reals Lra Classical_Prop.
From Verif Require Import Base Num Json Logger World Vesicle MeltVisc RelVisc Bubbles Terrain Lava
  Thermal Flux Integrator Factory Run RNum Frame StepLog StepProofs LoggerProofs RowProofs StepProps ColumnProofs
  EffArray Props_Run Props_RunOuts Props_Prefix Causal.

(** ** C83, any arithmetic.  As long as the positions at which the steps of the
    first set-up begin lie in the common stretch, the two simulations do the
    same; the step that leaves the stretch can only differ in whether the flow
    is stopped after it. *)
Theorem C83_same_while_inside : forall {T} {N : Num T} (P : T -> Prop) (a b : sim T) n w,
  (forall p, P p \/ ~ P p) -> same_within P a b ->
  (forall k r w1, (k < n)%nat -> running a k w = Some (r, w1) -> P (st_pos (w_st w1))) ->
  (forall k, (k < n)%nat -> running a k w = running b k w) /\
  (running a n w = running b n w \/
   exists r1 w1 r2 w2, running a n w = Some (r1, w1) /\ running b n w = Some (r2, w2) /\
     ~ P (st_pos (w_st w1)) /\ up_to_finished w1 w2).
Proof.
  intros T N P a b n w Dec S. revert w. induction n as [|n IH]; intros w H.
  { split; [lia|]. left. reflexivity. }
  assert (Hw : P (position_of w)) by (apply (H 0%nat (Ok tt) w); [lia|reflexivity]).
  destruct (has_finished w) eqn:F.
  { assert (E : forall s k, running s (Datatypes.S k) w = None) by (intros s k; cbn [running]; now rewrite F).
    split; [|left; now rewrite !E]. intros [|k] _; [reflexivity|]. now rewrite !E. }
  assert (Q := step_parted P a b S w Dec Hw).
  destruct Q as [Q|(v & Hv & O1 & O2)].
  - destruct (single_step a w) as [[[]|e] w1] eqn:E1; symmetry in Q.
    + destruct (IH w1) as [I1 I2].
      { intros k r w2 Hk Hr. apply (H (Datatypes.S k) r w2); [lia|]. cbn [running]. now rewrite F, E1. }
      split.
      * intros [|k] Hk; [reflexivity|]. cbn [running]. rewrite F, E1, Q. apply I1. lia.
      * cbn [running]. rewrite F, E1, Q. exact I2.
    + split; [|left; cbn [running]; now rewrite F, E1, Q]. intros [|k] Hk; [reflexivity|]. cbn [running]. now rewrite F, E1, Q.
  - destruct (single_step a w) as [r1 w1] eqn:E1, (single_step b w) as [r2 w2] eqn:E2. cbn [snd] in *.
    assert (Hp : ~ P (st_pos (w_st w1))) by (destruct O1 as [-> | ->]; exact Hv).
    assert (R : forall s r v0, single_step s w = (r, v0) -> running s 1 w = Some (r, v0)).
    { intros s [[]|e] v0 E; cbn [running]; rewrite F, E; reflexivity. }
    destruct n as [|n]; [|exfalso; apply Hp, (H 1%nat r1 w1); [lia|apply R, E1]].
    split; [intros [|k] Hk; [reflexivity|lia]|]. right. exists r1, w1, r2, w2.
    split; [apply R, E1|]. split; [apply R, E2|]. split; [exact Hp|].
    destruct O1 as [-> | ->], O2 as [-> | ->]; [exists (w_fin v)|exists (w_fin v)|exists true|exists true]; destruct v; reflexivity.
Qed.

Open Scope R_scope.
(** What the loop keeps true before each step: one row per completed step. *)
Record in_order (x0 : R) (sm : sim R) (w : world R) : Prop := {
  io_pos : st_pos (w_st w) = x0 + INR (w_iter w) * s_dx sm;
  io_len : length (w_log w) = w_iter w;
  io_rows : evenly_spaced x0 (s_dx sm) (full_columns sm) (w_log w)
}.
Lemma in_order_step x0 (sm : sim R) w w1 : s_dx sm <> 0 -> in_order x0 sm w -> single_step sm w = (Ok tt, w1) ->
  (w_fin w1 = true /\ st_pos (w_st w1) = st_pos (w_st w)) \/ in_order x0 sm w1.
Proof.
  intros Hdx [HP HL HE] Es.
  assert (Hno := evenly_not_at x0 _ _ _ Hdx HE). rewrite HL, <- HP in Hno.
  apply step_cases in Es as [S|(v & rho & wd & sl & hb & ra & dT & dt & C)]; [left|right].
  { split; [exact (ss_fin _ _ _ S)|]. destruct (ss_st _ _ _ S) as [x ->]. reflexivity. }
  destruct (cs_log _ _ _ _ _ _ _ _ _ _ _ C) as
    (bc & sx & vf & mu & tc & f & t0 & tb & x & wb & Hn & Hlog & _).
  set (calls := bc ++ _) in Hlog.
  assert (Hcn : map fst calls = budget_names (s_budget sm) ++ step_names).
  { unfold calls. rewrite map_app, Hn, step_calls_names. reflexivity. }
  destruct (logged_row (st_pos (w_st w)) calls (w_log w) (full_columns sm)) as (r & Hr1 & Hr).
  - unfold no_position. rewrite Hcn. apply Forall_app. split; [apply budget_names_no_position|apply step_names_no_position].
  - intros E. rewrite E in Hcn. symmetry in Hcn. apply app_eq_nil in Hcn as [_ Hcn]. discriminate.
  - exact Hno.
  - rewrite Hcn. reflexivity.
  - rewrite Hr1 in Hlog. constructor.
    + rewrite (cs_pos _ _ _ _ _ _ _ _ _ _ _ C), (cs_iter _ _ _ _ _ _ _ _ _ _ _ C), S_INR, HP.
      change (x0 + INR (w_iter w) * s_dx sm + s_dx sm = x0 + (INR (w_iter w) + 1) * s_dx sm). ring.
    + rewrite Hlog, app_length, HL, (cs_iter _ _ _ _ _ _ _ _ _ _ _ C). cbn. lia.
    + rewrite Hlog. apply evenly_snoc; [exact HE|]. rewrite HL, <- HP. exact Hr.
Qed.

(** [upstream] contains with a position every position before it. *)
Definition closed_upstream (upstream : R -> Prop) : Prop := forall p q, upstream p -> q <= p -> upstream q.
Definition row_position (r : row R) (p : R) : Prop := assoc "position" r = Some (CNum p).

Lemma rows_in_place (sm : sim R) fuel s depth w' : s_dx sm <> 0 ->
  simulate fuel sm (initial_world s [] depth) = Some (Ok tt, w') ->
  forall i r, nth_error (w_log w') i = Some r -> row_position r (st_pos s + INR i * s_dx sm).
Proof.
  intros Hdx H. destruct (C62_table_of_a_run sm fuel s depth w' Hdx H) as (HP & done & rest & HL & Hlen & HE & Hr).
  intros k r Hk. rewrite HL in Hk. destruct (Nat.lt_ge_cases k (length done)) as [Hl|Hl].
  - rewrite nth_error_app1 in Hk by exact Hl. now apply HE.
  - rewrite nth_error_app2 in Hk by exact Hl. destruct Hr as [->|(q & -> & Hq & _)]; [destruct (k - length done)%nat; discriminate|].
    destruct (k - length done)%nat as [|m] eqn:Em; [|destruct m; discriminate]. injection Hk as <-.
    replace k with (w_iter w') by lia. unfold row_position. now rewrite <- HP.
Qed.

(** ** C83.  Two runs whose channels are the same upstream: their tables begin
    with the same rows, and every further row of either lies outside the common
    stretch.  If the first flow ends within the common stretch, the two runs
    are one and the same. *)
Theorem C83_downstream_does_not_matter : forall (upstream : R -> Prop) (a b : sim R) fuel1 fuel2 s depth w1 w2,
  closed_upstream upstream -> 0 < s_dx a -> same_within upstream a b -> upstream (st_pos s) ->
  simulate fuel1 a (initial_world s [] depth) = Some (Ok tt, w1) ->
  simulate fuel2 b (initial_world s [] depth) = Some (Ok tt, w2) ->
  (exists common more1 more2, w_log w1 = common ++ more1 /\ w_log w2 = common ++ more2 /\
     forall r, In r more1 \/ In r more2 -> exists p, row_position r p /\ ~ upstream p) /\
  (upstream (st_pos (w_st w1)) -> w2 = w1).
Proof.
  intros U a b fuel1 fuel2 s depth w1 w2 HU Hdx S Hs H1 H2.
  assert (Hda : s_dx a <> 0) by lra. assert (Edx := sw_dx _ _ _ S). assert (Hdb : s_dx b <> 0) by (rewrite <- Edx; exact Hda).
  assert (R1 := rows_in_place _ _ _ _ _ Hda H1). assert (R2 := rows_in_place _ _ _ _ _ Hdb H2). rewrite <- Edx in R2.
  assert (P1 := proj1 (C62_table_of_a_run a _ _ _ _ Hda H1)).
  unfold simulate in H1, H2.
  destruct (init_same U a b S (initial_world s [] depth) Hs) as [Ei _]. rewrite <- Ei in H2.
  destruct (init_effusion_rate a (initial_world s [] depth)) as [[[]|e] w0] eqn:E0; [|discriminate H1].
  set (x0 := st_pos s) in *.
  assert (O : in_order x0 a w0).
  { constructor.
    - rewrite (init_keeps_pos a _ _ _ E0), (init_keeps_iter a _ _ _ E0). cbn. unfold x0. lra.
    - rewrite (init_keeps_log a _ _ _ E0), (init_keeps_iter a _ _ _ E0). reflexivity.
    - rewrite (init_keeps_log a _ _ _ E0). intros i r Hi. destruct i; discriminate. }
  assert (Hw : U (st_pos (w_st w0))) by (rewrite (init_keeps_pos a _ _ _ E0); exact Hs).
  clear Ei E0.
  (* a flow that leaves the stretch with the table [w_log v] *)
  assert (Out : forall v, in_order x0 a v -> ~ U (st_pos (w_st v)) ->
     (exists more, w_log w1 = w_log v ++ more) -> (exists more, w_log w2 = w_log v ++ more) -> (w_iter v <= w_iter w1)%nat ->
     (exists common more1 more2, w_log w1 = common ++ more1 /\ w_log w2 = common ++ more2 /\
       forall r, In r more1 \/ In r more2 -> exists p, row_position r p /\ ~ U p) /\
     (U (st_pos (w_st w1)) -> w2 = w1)).
  { intros v Ov Hv (m1 & M1) (m2 & M2) Hi. split.
    - exists (w_log v), m1, m2. split; [exact M1|]. split; [exact M2|]. intros r Hr.
      assert (G : forall m t, t = w_log v ++ m -> (forall i q, nth_error t i = Some q -> row_position q (x0 + INR i * s_dx a)) ->
                  In r m -> exists p, row_position r p /\ ~ U p).
      { intros m t -> Ht Hin. apply In_nth_error in Hin as (j & Hj). exists (x0 + INR (length (w_log v) + j) * s_dx a). split.
        - apply Ht. rewrite nth_error_app2 by lia. replace (length (w_log v) + j - length (w_log v))%nat with j by lia. exact Hj.
        - intros Hup. apply Hv, (HU _ _ Hup). rewrite (io_pos _ _ _ Ov), (io_len _ _ _ Ov), plus_INR.
          assert (0 <= INR j) by apply pos_INR. nra. }
      destruct Hr as [Hr|Hr]; [exact (G m1 _ M1 R1 Hr)|exact (G m2 _ M2 R2 Hr)].
    - intros Hup. exfalso. apply Hv, (HU _ _ Hup). rewrite (io_pos _ _ _ Ov), P1. apply le_INR in Hi. nra. }
  assert (Stop : forall (sm : sim R) f v w', w_fin v = true -> run_loop sm f v = Some (Ok tt, w') -> w' = v).
  { intros sm f v w' Hf Hr. destruct f; cbn [run_loop] in Hr; unfold has_finished in Hr; rewrite Hf in Hr; congruence. }
  assert (Same : w2 = w1 ->
     (exists common more1 more2, w_log w1 = common ++ more1 /\ w_log w2 = common ++ more2 /\
       forall r, In r more1 \/ In r more2 -> exists p, row_position r p /\ ~ U p) /\
     (U (st_pos (w_st w1)) -> w2 = w1)).
  { intros ->. split; [|auto]. exists (w_log w1), [], []. rewrite app_nil_r. split; [auto|]. split; [auto|]. intros r [[]|[]]. }
  assert (Ob : forall v, in_order x0 a v -> in_order x0 b v).
  { intros v [A1 A2 A3]. unfold full_columns in A3. rewrite Edx, (sw_budget _ _ _ S) in *.
    constructor; [exact A1|exact A2|exact A3]. }
  assert (App : forall (sm : sim R) f v w', s_dx sm <> 0 -> in_order x0 sm v -> run_loop sm f v = Some (Ok tt, w') ->
    exists more, w_log w' = w_log v ++ more).
  { intros sm f v w' Hd [A1 A2 A3] Hr. exact (run_loop_appends sm x0 f Hd v w' A1 A2 A3 Hr). }
  clear R1 R2 P1 Hs. revert fuel2 w0 O Hw H1 H2.
  induction fuel1 as [|f1 IH]; intros fuel2 w O Hw H1 H2; cbn [run_loop] in H1.
  - destruct (has_finished w) eqn:F; [|discriminate]. injection H1 as <-. apply Same.
    destruct fuel2; cbn [run_loop] in H2; rewrite F in H2; congruence.
  - destruct (has_finished w) eqn:F.
    { injection H1 as <-. apply Same. destruct fuel2; cbn [run_loop] in H2; rewrite F in H2; congruence. }
    destruct fuel2 as [|f2]; cbn [run_loop] in H2; rewrite F in H2; [discriminate|].
    destruct (single_step a w) as [[[]|e] v1] eqn:S1; [|discriminate].
    destruct (single_step b w) as [[[]|e] v2] eqn:S2; [|discriminate].
    assert (O1 := in_order_step x0 a w v1 Hda O S1). assert (O2 := in_order_step x0 b w v2 Hdb (Ob _ O) S2).
    destruct (step_parted U a b S w (fun p => classic (U p)) Hw) as [Q|(v & Hv & Q1 & Q2)].
    + rewrite S1, S2 in Q. injection Q as <-. destruct O1 as [[Fi _]|O1].
      * apply Same. apply Stop in H1; [|exact Fi]. apply Stop in H2; [|exact Fi]. congruence.
      * destruct (classic (U (st_pos (w_st v1)))) as [Uv|Uv]; [exact (IH f2 v1 O1 Uv H1 H2)|].
        apply (Out v1 O1 Uv); [exact (App a f1 v1 w1 Hda O1 H1)|exact (App b f2 v1 w2 Hdb (Ob _ O1) H2)|].
        exact (run_loop_iter _ _ _ _ _ H1).
    + rewrite S1 in Q1. rewrite S2 in Q2. cbn [snd] in *.
      assert (V1 : st_pos (w_st v1) = st_pos (w_st v) /\ w_log v1 = w_log v) by (destruct Q1 as [-> | ->]; auto).
      assert (V2 : st_pos (w_st v2) = st_pos (w_st v) /\ w_log v2 = w_log v) by (destruct Q2 as [-> | ->]; auto).
      destruct V1 as [V1 L1], V2 as [V2 L2]. change (position_of v) with (st_pos (w_st v)) in Hv.
      destruct O1 as [[_ Z]|O1]; [exfalso; apply Hv; rewrite <- V1, Z; exact Hw|].
      destruct O2 as [[_ Z]|O2]; [exfalso; apply Hv; rewrite <- V2, Z; exact Hw|].
      apply (Out v1 O1).
      * rewrite V1. exact Hv.
      * exact (App a f1 v1 w1 Hda O1 H1).
      * rewrite L1, <- L2. exact (App b f2 v2 w2 Hdb O2 H2).
      * exact (run_loop_iter _ _ _ _ _ H1).
Qed.

(** ** The slope file *)
Lemma spline_common {T} {N : Num T} : forall (pre : list (T * T)) xk yk rest1 rest2 x, pre <> [] -> n_ltb x xk = true ->
  spline_eval (pre ++ (xk, yk) :: rest1) x = spline_eval (pre ++ (xk, yk) :: rest2) x.
Proof.
  intros pre xk yk rest1 rest2 x Hne Hx. unfold spline_eval. f_equal.
  induction pre as [|[x0 y0] pre IH]; [contradiction|]. clear Hne. destruct pre as [|[x1 y1] pre].
  - cbn [app spline_segment]. destruct rest1, rest2; rewrite ?Hx; reflexivity.
  - assert (I := IH ltac:(discriminate)). clear IH.
    change (((x0, y0) :: (x1, y1) :: pre) ++ (xk, yk) :: rest1) with ((x0, y0) :: ((x1, y1) :: pre) ++ (xk, yk) :: rest1).
    change (((x0, y0) :: (x1, y1) :: pre) ++ (xk, yk) :: rest2) with ((x0, y0) :: ((x1, y1) :: pre) ++ (xk, yk) :: rest2).
    cbn [app] in *. cbn [spline_segment].
    assert (E : forall rest, match pre ++ (xk, yk) :: rest with [] => segment x0 y0 x1 y1 x | _ :: _ =>
        if n_ltb x x1 then segment x0 y0 x1 y1 x else spline_segment ((x1, y1) :: pre ++ (xk, yk) :: rest) x end
      = if n_ltb x x1 then segment x0 y0 x1 y1 x else spline_segment ((x1, y1) :: pre ++ (xk, yk) :: rest) x).
    { intros rest. destruct pre; reflexivity. }
    cbn [spline_segment] in E, I. rewrite !E. destruct (n_ltb x x1); [reflexivity|]. exact I.
Qed.
Lemma spline_firstn {T} {N : Num T} (p1 p2 : list (T * T)) k q x : (1 <= k)%nat -> firstn (S k) p1 = firstn (S k) p2 ->
  nth_error p1 k = Some q -> n_ltb x (fst q) = true -> spline_eval p1 x = spline_eval p2 x.
Proof.
  intros Hk E Hq Hx. assert (Hq2 : nth_error p2 k = Some q).
  { rewrite <- Hq. assert (G : forall p : list (T * T), nth_error p k = nth_error (firstn (S k) p) k).
    { clear. induction k as [|k IH]; intros [|x p]; try reflexivity. cbn [nth_error]. rewrite IH. reflexivity. }
    rewrite (G p1), (G p2), E. reflexivity. }
  apply nth_error_split in Hq as (a1 & b1 & -> & L1). apply nth_error_split in Hq2 as (a2 & b2 & -> & L2).
  assert (a1 = a2) as <-.
  { assert (G : forall (a : list (T * T)) b, length a = k -> firstn k (firstn (S k) (a ++ q :: b)) = a).
    { intros a b L. rewrite firstn_firstn. replace (Nat.min k (S k)) with k by lia. rewrite firstn_app, L, Nat.sub_diag.
      cbn. rewrite app_nil_r. rewrite <- L. apply firstn_all. }
    rewrite <- (G a1 b1 L1), <- (G a2 b2 L2), E. reflexivity. }
  destruct q as [xk yk]. apply spline_common; [|exact Hx]. intros ->. cbn in L1. lia.
Qed.
