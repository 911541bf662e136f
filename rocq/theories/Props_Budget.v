(** * Props_Budget: the heat budget: C42-C45, C50 *)
From Verif Require Import Base Num Json Logger World Vesicle MeltVisc RelVisc Bubbles Terrain Lava
  Thermal Flux Integrator Factory Frame StepLog StepProofs LoggerProofs RowProofs StepProps Steady
  Spec RNum Props_Velocity Props_Thermal Gives.

Section Budget.
Context {T : Type} {N : Num T}.
Open Scope num_scope.

(** ** Reading back what was logged *)
Lemma logged_add_other p name n v (t : table T) c :
  logged t p name = Some c -> n <> name -> n <> "position" ->
  logged (add_variable n p v t) p name = Some c.
Proof.
  intros H Hn Hp. unfold logged in *. induction t as [|r t IH]; cbn [find] in H; [discriminate|].
  cbn [add_variable]. destruct (row_at p r) eqn:E.
  - cbn [find]. assert (E' : row_at p (assoc_set n v r) = true).
    { unfold row_at in *. rewrite assoc_set_other by congruence. exact E. }
    rewrite E'. rewrite assoc_set_other by congruence. exact H.
  - cbn [find]. rewrite E. auto.
Qed.
Lemma logged_many_other p name calls : forall (t : table T) c,
  logged t p name = Some c -> ~ In name (map fst calls) -> no_position calls ->
  logged (log_many p calls t) p name = Some c.
Proof.
  induction calls as [|[n v] calls IH]; intros t c H Hn Hp; [exact H|].
  unfold log_many. cbn [fold_left fst snd]. apply IH.
  - apply logged_add_other; auto.
    + intros ->. apply Hn. now left.
    + apply Forall_inv in Hp. exact Hp.
  - intros Hi. apply Hn. now right.
  - apply Forall_inv_tail in Hp. exact Hp.
Qed.
Lemma logged_add_same p name v (t : table T) :
  n_eqb p p = true -> name <> "position" -> logged (add_variable name p v t) p name = Some v.
Proof.
  intros Hp Hn. apply (logged_after p [(name, v)] t name v Hp).
  - constructor; auto.
  - cbn. now rewrite String.eqb_refl.
Qed.

Lemma flux_name_not_position (f : flux T) : flux_name f <> "position".
Proof. destruct f; discriminate. Qed.
Lemma flux_name_not_budget (f : flux T) : flux_name f <> "heat_budget".
Proof. destruct f; discriminate. Qed.
Lemma flux_logs_no_position (f : flux T) : ~ In "position" (flux_logs f).
Proof. destruct f as [[]| | | | |]; cbn; intuition discriminate. Qed.
Lemma loop_names_no_position (fl : list (flux T)) : ~ In "position" (loop_names fl).
Proof.
  induction fl as [|f fl IH]; cbn [loop_names]; [auto|]. rewrite !in_app_iff. cbn.
  intros [H|[H|[[H|[]]|H]]]; [now apply flux_logs_no_position in H|now apply flux_logs_no_position in H
    |now apply flux_name_not_position in H|auto].
Qed.
Lemma no_position_names (calls : list (string * cell T)) : ~ In "position" (map fst calls) -> no_position calls.
Proof.
  intros H. apply Forall_forall. intros x Hx E. apply H. now rewrite <- E.
Qed.

(** Evaluating [g] logs nothing under the name of [f]. *)
Definition leaves_alone (f g : flux T) : Prop := ~ In (flux_name f) (flux_name g :: flux_logs g).

Lemma not_in_loop_names (f : flux T) fl : Forall (leaves_alone f) fl -> ~ In (flux_name f) (loop_names fl).
Proof.
  induction 1 as [|g fl H _ IH]; cbn [loop_names]; [auto|]. rewrite !in_app_iff.
  unfold leaves_alone in H. cbn in *. intuition.
Qed.

(** The loop: for each flux, the value added to the total and the value logged. *)
Lemma loop_trace (sm : sim T) width depth : forall fl acc w total w',
  n_eqb (st_pos (w_st w)) (st_pos (w_st w)) = true ->
  budget_loop fl sm width depth acc w = (Ok total, w') ->
  exists qs, length qs = length fl /\ total = fold_left n_add qs acc /\
    forall i f q, nth_error fl i = Some f -> nth_error qs i = Some q ->
      (exists x c u, compute_flux f sm width depth (touched x c w) = (Ok q, u)) /\
      (exists x c u q2, compute_flux f sm width depth (touched x c w) = (Ok q2, u) /\
         (Forall (leaves_alone f) (skipn (S i) fl) ->
          logged (w_log w') (st_pos (w_st w)) (flux_name f) = Some (CNum q2))).
Proof.
  induction fl as [|f fl IH]; intros acc w total w' Hp H; cbn [budget_loop] in H.
  - injection H as <- <-. exists []. split; [auto|]. split; [auto|]. intros [|i]; discriminate.
  - apply bind_ok in H as (q & w1 & H1 & H). apply bind_ok in H as (q2 & w2 & H2 & H).
    apply bind_ok in H as (u & w3 & H3 & H). apply log_ok in H3.
    destruct (framed_ok _ _ _ _ _ (framed_flux f sm width depth) H1) as (x1 & c1 & -> & N1).
    destruct (framed_ok _ _ _ _ _ (framed_flux f sm width depth) H2) as (x2 & c2 & E2 & N2).
    rewrite touched_touched in E2. subst w2.
    assert (E3 : exists x3 c3, w3 = touched x3 c3 w).
    { rewrite H3. rewrite touched_touched. eauto. }
    assert (L3 : logged (w_log w3) (st_pos (w_st w)) (flux_name f) = Some (CNum q2)).
    { rewrite H3. unfold touched at 1. cbn [w_log set_log]. unfold log_many. cbn [fold_left fst snd].
      apply (logged_add_same _ (flux_name f)); [exact Hp|apply flux_name_not_position]. }
    destruct E3 as (x3 & c3 & E3). clear H3. subst w3.
    assert (F := H). apply (framed_ok _ _ _ _ _ (framed_loop fl sm width depth (acc + q))) in F as (x4 & c4 & -> & N4).
    apply IH in H as (qs & HL & Ht & Hn); [|exact Hp].
    exists (q :: qs). cbn [length fold_left]. split; [now rewrite HL|]. split; [exact Ht|].
    intros [|i] g q' Hg Hq; cbn [nth_error] in Hg, Hq.
    + injection Hg as <-. injection Hq as <-. split.
      * exists (st_strain (w_st w)), []. rewrite touched_nil. eauto.
      * exists x1, c1. eexists _, q2. split; [exact H2|]. intros Hr. cbn [skipn] in Hr.
        unfold touched at 1. cbn [w_log set_log]. change (st_pos (w_st (touched x3 c3 w))) with (st_pos (w_st w)).
        apply logged_many_other; [exact L3| |].
        -- rewrite N4. now apply not_in_loop_names.
        -- apply no_position_names. rewrite N4. apply loop_names_no_position.
    + destruct (Hn i g q' Hg Hq) as [(x & c & u1 & A) (x' & c' & u2 & q3 & B & C)].
      rewrite touched_touched in A, B. split; [eauto|]. exists x', (c3 ++ c'), u2, q3. split; [exact B|].
      exact C.
Qed.

Lemma budget_trace (sm : sim T) width depth w total w' :
  n_eqb (st_pos (w_st w)) (st_pos (w_st w)) = true ->
  compute_heat_budget sm width depth w = (Ok total, w') ->
  logged (w_log w') (st_pos (w_st w)) "heat_budget" = Some (CNum total) /\
  exists qs, length qs = length (s_budget sm) /\ total = py_sum qs /\
    forall i f q, nth_error (s_budget sm) i = Some f -> nth_error qs i = Some q ->
      (exists x c u, compute_flux f sm width depth (touched x c w) = (Ok q, u)) /\
      (exists x c u q2, compute_flux f sm width depth (touched x c w) = (Ok q2, u) /\
         (Forall (leaves_alone f) (skipn (S i) (s_budget sm)) ->
          logged (w_log w') (st_pos (w_st w)) (flux_name f) = Some (CNum q2))).
Proof.
  intros Hp H. unfold compute_heat_budget in H.
  apply bind_ok in H as (q & w1 & H1 & H). apply bind_ok in H as (u & w2 & H2 & H).
  apply log_ok in H2. injection H as -> ->.
  destruct (framed_ok _ _ _ _ _ (framed_loop _ _ _ _ _) H1) as (x1 & c1 & E1 & N1).
  apply loop_trace in H1 as (qs & HL & Ht & Hn); [|exact Hp].
  assert (Hpos : st_pos (w_st w1) = st_pos (w_st w)) by (rewrite E1; reflexivity).
  assert (L : w_log w' = add_variable "heat_budget" (st_pos (w_st w)) (CNum total) (w_log w1)).
  { rewrite H2. unfold touched. cbn [w_log set_log]. rewrite Hpos. reflexivity. }
  split.
  - rewrite L. apply logged_add_same; [exact Hp|discriminate].
  - exists qs. split; [exact HL|]. split; [exact Ht|]. intros i f q' Hf Hq.
    destruct (Hn i f q' Hf Hq) as [A (x & c & u2 & q2 & B & C)]. split; [exact A|].
    exists x, c, u2, q2. split; [exact B|]. intros HF. rewrite L. apply logged_add_other; [auto| |discriminate].
    intros E. symmetry in E. now apply flux_name_not_budget in E.
Qed.

(** ** C42 *)
(** The total is the sum of one value per configured flux, each of them a value
    that flux returned, and is logged under heat_budget. *)
Theorem C42_budget_is_the_sum : forall (sm : sim T) width depth w total w',
  n_eqb (st_pos (w_st w)) (st_pos (w_st w)) = true ->
  compute_heat_budget sm width depth w = (Ok total, w') ->
  logged (w_log w') (st_pos (w_st w)) "heat_budget" = Some (CNum total) /\
  exists qs, total = py_sum qs /\
    Forall2 (fun f q => exists x c u, compute_flux f sm width depth (touched x c w) = (Ok q, u))
            (s_budget sm) qs.
Proof.
  intros sm width depth w total w' Hp H. destruct (budget_trace _ _ _ _ _ _ Hp H) as (A & qs & HL & Ht & Hn).
  split; [exact A|]. exists qs. split; [exact Ht|]. clear -HL Hn. revert qs HL Hn.
  induction (s_budget sm) as [|f fl IH]; intros [|q qs] HL Hn; try discriminate HL; constructor.
  - destruct (Hn O f q eq_refl eq_refl) as [X _]. exact X.
  - apply IH; [now injection HL|]. intros i g r Hg Hr. destruct (Hn (S i) g r Hg Hr) as [X Y]. split; [exact X|].
    exact Y.
Qed.

(** With a rheology that ignores the strain rate and a budget in which no flux
    logs over another one, every addend is the logged value, and is the value
    of the flux in the state before the step. *)
Theorem C42_logged_fluxes_add_up : forall (sm : sim T) width depth w total w',
  n_eqb (st_pos (w_st w)) (st_pos (w_st w)) = true ->
  strain_free (s_lava sm) ->
  ForallOrdPairs leaves_alone (s_budget sm) ->
  compute_heat_budget sm width depth w = (Ok total, w') ->
  exists qs, total = py_sum qs /\
    logged (w_log w') (st_pos (w_st w)) "heat_budget" = Some (CNum (py_sum qs)) /\
    Forall2 (fun f q => logged (w_log w') (st_pos (w_st w)) (flux_name f) = Some (CNum q) /\
                        forall y w1, compute_flux f sm width depth w = (Ok y, w1) -> y = q)
            (s_budget sm) qs.
Proof.
  intros sm width depth w total w' Hp Hf HO H. destruct (budget_trace _ _ _ _ _ _ Hp H) as (A & qs & HL & Ht & Hn).
  exists qs. split; [exact Ht|]. split; [congruence|]. clear -HL Hn HO Hf.
  assert (Hn' : forall i f q, nth_error (s_budget sm) i = Some f -> nth_error qs i = Some q ->
     Forall (leaves_alone f) (skipn (S i) (s_budget sm)) ->
     logged (w_log w') (st_pos (w_st w)) (flux_name f) = Some (CNum q) /\
     forall y w1, compute_flux f sm width depth w = (Ok y, w1) -> y = q).
  { intros i f q Hi Hq HF. destruct (Hn i f q Hi Hq) as [(x & c & u & E1) (x2 & c2 & u2 & q2 & E2 & L)].
    assert (q = q2) by (eapply (steady_flux sm Hf f width depth); eauto). subst q2. split; [auto|].
    intros y w1 Hy. rewrite <- (touched_nil w) in Hy. symmetry. eapply (steady_flux sm Hf f width depth); eauto. }
  clear Hn. revert qs HL HO Hn'.
  induction (s_budget sm) as [|f fl IH]; intros [|q qs] HL HO Hn; try discriminate HL; constructor.
  - apply (Hn O f q eq_refl eq_refl). inversion HO; auto.
  - apply IH; [now injection HL|inversion HO; auto|]. intros i g r Hg Hr. exact (Hn (S i) g r Hg Hr).
Qed.

(** ** C44, C50: the budgets the factory builds *)
Lemma rmapM_app {A B} (f : A -> res B) l1 l2 :
  rmapM f (l1 ++ l2) = (let? a := rmapM f l1 in let? b := rmapM f l2 in Ok (a ++ b)).
Proof.
  induction l1 as [|x l1 IH]; cbn [rmapM app].
  - cbn. destruct (rmapM f l2); reflexivity.
  - rewrite IH. destruct (f x); cbn; [|reflexivity]. destruct (rmapM f l1); cbn; [|reflexivity].
    destruct (rmapM f l2); reflexivity.
Qed.

Definition is_radiation (f : flux T) : Prop := exists k s, f = FRadiation k s.
Definition is_conduction (f : flux T) : Prop := exists a b, f = FConduction a b.
Definition is_rain (f : flux T) : Prop := exists a b c, f = FRain a b c.
Definition at_most_one (P : flux T -> Prop) (l : list (flux T)) : Prop :=
  l = [] \/ exists f, P f /\ l = [f].

Lemma radiation_reader sel l d (q : flux T) :
  choose_radiation sel = Ok l -> l = [] \/ (jis sel "no" = false /\ exists r, l = [r] /\
    (r d = Ok q -> is_radiation q)).
Proof.
  unfold choose_radiation. intros H.
  destruct (jis sel "basic") eqn:E1.
  { injection H as <-. right. split.
    - unfold jis in *. destruct sel; try discriminate. apply String.eqb_eq in E1. subst. reflexivity.
    - eexists; split; [reflexivity|]. unfold read_f_rad_basic. intros H.
      apply rbind_ok in H as (? & _ & H). apply rbind_ok in H as (? & _ & H). injection H as <-. eexists _, _; reflexivity. }
  destruct (jis sel "2_emi") eqn:E2.
  { injection H as <-. right. split.
    - unfold jis in *. destruct sel; try discriminate. apply String.eqb_eq in E2. subst. reflexivity.
    - eexists; split; [reflexivity|]. unfold read_f_rad_2emi. intros H.
      apply rbind_ok in H as (? & _ & H). apply rbind_ok in H as (? & _ & H). apply rbind_ok in H as (? & _ & H).
      injection H as <-. eexists _, _; reflexivity. }
  destruct (jis sel "cont") eqn:E3.
  { injection H as <-. right. split.
    - unfold jis in *. destruct sel; try discriminate. apply String.eqb_eq in E3. subst. reflexivity.
    - eexists; split; [reflexivity|]. unfold read_f_rad_cont. intros H.
      apply rbind_ok in H as (? & _ & H). injection H as <-. eexists _, _; reflexivity. }
  destruct (jis sel "lin_emi") eqn:E4.
  { injection H as <-. right. split.
    - unfold jis in *. destruct sel; try discriminate. apply String.eqb_eq in E4. subst. reflexivity.
    - eexists; split; [reflexivity|]. unfold read_f_rad_lin. intros H.
      apply rbind_ok in H as (? & _ & H). injection H as <-. eexists _, _; reflexivity. }
  destruct (jis sel "no") eqn:E5; [|discriminate]. injection H as <-. now left.
Qed.
Lemma yes_no_reader sel r name l : @choose_yes_no T sel r name = Ok l ->
  (l = [] /\ jis sel "no" = true) \/ (l = [r] /\ jis sel "yes" = true).
Proof.
  unfold choose_yes_no. destruct (jis sel "yes") eqn:E; intros H; [injection H as <-; auto|].
  destruct (jis sel "no") eqn:E2; [|discriminate]. injection H as <-. auto.
Qed.
Lemma yes_not_no (sel : json T) : jis sel "yes" = true -> jis sel "no" = false.
Proof. unfold jis. destruct sel; try discriminate. intros E. apply String.eqb_eq in E. now subst. Qed.

(** C50: order, at most one flux of each kind, and Snyder alone. *)
Theorem C50_factory_budget : forall (d : json T) profile mo,
  build_models d profile = Ok mo ->
  exists rad cond conv rain visc sny,
    mo_budget mo = rad ++ cond ++ conv ++ rain ++ visc ++ sny /\
    at_most_one is_radiation rad /\ at_most_one is_conduction cond /\
    at_most_one (eq FConvection) conv /\ at_most_one is_rain rain /\
    at_most_one (eq FViscous) visc /\ at_most_one (eq FSnyder) sny /\
    (sny <> [] -> rad = [] /\ conv = []).
Proof.
  intros d profile mo H. unfold build_models in H.
  apply rbind_ok in H as (s & _ & H).
  do 10 (apply rbind_ok in H as (? & _ & H)).
  apply rbind_ok in H as (fr & Hfr & H). apply rbind_ok in H as (fl & Hfl & H). injection H as <-.
  cbn [mo_budget]. unfold choose_fluxes in Hfr.
  apply rbind_ok in Hfr as (a & Ha & Hfr). apply rbind_ok in Hfr as (b & Hb & Hfr).
  apply rbind_ok in Hfr as (c & Hc & Hfr). apply rbind_ok in Hfr as (e & He & Hfr).
  apply rbind_ok in Hfr as (f & Hf & Hfr). apply rbind_ok in Hfr as (g & Hg & Hfr). injection Hfr as <-.
  rewrite !rmapM_app in Hfl.
  apply rbind_ok in Hfl as (qa & Qa & Hfl). apply rbind_ok in Hfl as (r1 & R1 & Hfl). injection Hfl as <-.
  apply rbind_ok in R1 as (qb & Qb & R1). apply rbind_ok in R1 as (r2 & R2 & R1). injection R1 as <-.
  apply rbind_ok in R2 as (qc & Qc & R2). apply rbind_ok in R2 as (r3 & R3 & R2). injection R2 as <-.
  apply rbind_ok in R3 as (qe & Qe & R3). apply rbind_ok in R3 as (r4 & R4 & R3). injection R3 as <-.
  apply rbind_ok in R4 as (qf & Qf & R4). apply rbind_ok in R4 as (qg & Qg & R4). injection R4 as <-.
  exists qa, qb, qc, qe, qf, qg. split; [reflexivity|].
  split. { unfold at_most_one. destruct qa as [|q qa]; [now left|right].
    destruct (radiation_reader _ _ d q Ha) as [->|(Hno & r & -> & Hr)]; [discriminate Qa|].
    cbn [rmapM] in Qa. apply rbind_ok in Qa as (y & Hy & Qa). cbn in Qa. injection Qa as -> <-. eauto. }
  split. { unfold at_most_one. destruct (yes_no_reader _ _ _ _ Hb) as [[-> _]|[-> _]]; cbn [rmapM] in Qb.
    - injection Qb as <-. now left.
    - right. apply rbind_ok in Qb as (y & Hy & Qb). cbn in Qb. injection Qb as <-. exists y. split; [|auto].
      unfold read_f_conduction in Hy. apply rbind_ok in Hy as (? & _ & Hy). apply rbind_ok in Hy as (? & _ & Hy).
      injection Hy as <-. eexists _, _; reflexivity. }
  split. { unfold at_most_one. destruct (yes_no_reader _ _ _ _ Hc) as [[-> _]|[-> _]]; cbn in Qc; injection Qc as <-; eauto. }
  split. { unfold at_most_one. destruct (yes_no_reader _ _ _ _ He) as [[-> _]|[-> _]]; cbn [rmapM] in Qe.
    - injection Qe as <-. now left.
    - right. apply rbind_ok in Qe as (y & Hy & Qe). cbn in Qe. injection Qe as <-. exists y. split; [|auto].
      unfold read_f_rain in Hy. apply rbind_ok in Hy as (? & _ & Hy). apply rbind_ok in Hy as (? & _ & Hy).
      apply rbind_ok in Hy as (? & _ & Hy). injection Hy as <-. eexists _, _, _; reflexivity. }
  split. { unfold at_most_one. destruct (yes_no_reader _ _ _ _ Hf) as [[-> _]|[-> _]]; cbn in Qf; injection Qf as <-; eauto. }
  unfold choose_snyder in Hg.
  destruct (jis (sel_snyder s) "yes") eqn:E1, (jis (sel_conv s) "no") eqn:E2, (jis (sel_rad s) "no") eqn:E3;
    cbn [andb] in Hg;
    try (destruct (jis (sel_snyder s) "no"); [|discriminate Hg]; injection Hg as <-; cbn in Qg; injection Qg as <-;
         split; [now left|]; intros X; now elim X).
  injection Hg as <-. cbn [rmapM] in Qg. apply rbind_ok in Qg as (y & Hy & Qg). cbn in Qg. injection Qg as <-.
  unfold read_f_snyder in Hy. apply rbind_ok in Hy as (? & _ & Hy). injection Hy as <-.
  split; [right; eauto|]. intros _. split.
  - destruct (radiation_reader _ _ d FSnyder Ha) as [->|(Hno & _)]; [|congruence].
    cbn in Qa. injection Qa as <-. reflexivity.
  - destruct (yes_no_reader _ _ _ _ Hc) as [[-> _]|[_ Y]].
    + cbn in Qc. injection Qc as <-. reflexivity.
    + apply yes_not_no in Y. congruence.
Qed.

Lemma factory_leaves_alone (d : json T) profile mo :
  build_models d profile = Ok mo -> ForallOrdPairs leaves_alone (mo_budget mo).
Proof.
  intros H. destruct (C50_factory_budget d profile mo H)
    as (rad & cond & conv & rain & visc & sny & -> & Hr & Hc & Hv & Hn & Hi & Hs & Hx).
  unfold at_most_one in *.
  assert (Hr' : rad = [] \/ exists k s, rad = [FRadiation k s]).
  { destruct Hr as [|(f & (k & s & ->) & ->)]; eauto. } clear Hr.
  assert (Hc' : cond = [] \/ exists a b, cond = [FConduction a b]).
  { destruct Hc as [|(f & (k & s & ->) & ->)]; eauto. } clear Hc.
  assert (Hn' : rain = [] \/ exists a b c, rain = [FRain a b c]).
  { destruct Hn as [|(f & (k & s & u & ->) & ->)]; eauto. } clear Hn.
  assert (L : forall f g : flux T, existsb (String.eqb (flux_name f)) (flux_name g :: flux_logs g) = false ->
              leaves_alone f g).
  { intros f g E Hin. rewrite <- not_true_iff_false in E. apply E. apply existsb_exists.
    eexists; split; [exact Hin|apply String.eqb_refl]. }
  assert (S1 : forall l, ForallOrdPairs leaves_alone l -> forall f,
     forallb (fun g => negb (existsb (String.eqb (flux_name f)) (flux_name g :: flux_logs g))) l = true ->
     ForallOrdPairs leaves_alone (f :: l)).
  { intros l Hl f Hf. constructor; [|exact Hl]. apply Forall_forall. intros g Hg. apply L.
    rewrite forallb_forall in Hf. apply negb_true_iff. auto. }
  destruct Hs as [->|(f & <- & ->)].
  - destruct Hr' as [->|(k & s & ->)], Hc' as [->|(a & b & ->)], Hv as [->|(f & <- & ->)],
      Hn' as [->|(p & q & r & ->)], Hi as [->|(f' & <- & ->)]; cbn [app];
      repeat (apply S1; [|reflexivity]); constructor.
  - destruct (Hx ltac:(discriminate)) as [-> ->].
    destruct Hc' as [->|(a & b & ->)], Hn' as [->|(p & q & r & ->)], Hi as [->|(f' & <- & ->)]; cbn [app];
      repeat (apply S1; [|reflexivity]); constructor.
Qed.

(** C44: in every budget the factory builds, what the row shows under a flux's
    name is the value that flux returned (the second of its two evaluations). *)
Theorem C44_no_flux_overwrites_another : forall (d : json T) profile mo (sm : sim T) width depth w total w',
  build_models d profile = Ok mo -> s_budget sm = mo_budget mo ->
  n_eqb (st_pos (w_st w)) (st_pos (w_st w)) = true ->
  compute_heat_budget sm width depth w = (Ok total, w') ->
  NoDup (map flux_name (s_budget sm)) /\
  forall f, In f (s_budget sm) -> exists q x c u,
    compute_flux f sm width depth (touched x c w) = (Ok q, u) /\
    logged (w_log w') (st_pos (w_st w)) (flux_name f) = Some (CNum q).
Proof.
  intros d profile mo sm width depth w total w' Hb Es Hp H.
  apply factory_leaves_alone in Hb. rewrite <- Es in Hb. clear Es. split.
  - clear -Hb. induction Hb as [|f l Hf _ IH]; cbn [map]; constructor; auto.
    intros Hin. apply in_map_iff in Hin as (g & E & Hg). rewrite Forall_forall in Hf.
    apply (Hf g Hg). rewrite <- E. now left.
  - intros f Hin. destruct (budget_trace _ _ _ _ _ _ Hp H) as (_ & qs & HL & _ & Hn).
    apply In_nth_error in Hin as (i & Hi).
    assert (Hq : exists q, nth_error qs i = Some q).
    { destruct (nth_error qs i) eqn:E; [eauto|]. apply nth_error_None in E.
      assert (nth_error (s_budget sm) i <> None) by congruence. apply nth_error_Some in H0. lia. }
    destruct Hq as (q & Hq). destruct (Hn i f q Hi Hq) as [_ (x & c & u & q2 & E & L)].
    exists q2, x, c, u. split; [exact E|]. apply L.
    clear -Hb Hi. revert i Hi. induction Hb as [|g l Hg _ IH]; intros [|i] Hi; try discriminate Hi.
    + injection Hi as ->. exact Hg.
    + exact (IH i Hi).
Qed.
(** A Snyder flux together with a convection flux, which the factory refuses,
    would corrupt the row: the convection entry is overwritten with 0. *)
Theorem C44_hand_made_budget_overwrites : forall (sm : sim T) width depth w total w',
  s_budget sm = [FConvection; FSnyder] ->
  n_eqb (st_pos (w_st w)) (st_pos (w_st w)) = true ->
  compute_heat_budget sm width depth w = (Ok total, w') ->
  logged (w_log w') (st_pos (w_st w)) "flowgofluxforcedconvectionheat" = Some (CNum zero).
Proof.
  intros sm width depth w total w' Hb Hp H. unfold compute_heat_budget in H. rewrite Hb in H.
  cbn [budget_loop] in H.
  apply bind_ok in H as (q & w1 & H1 & H). apply bind_ok in H as (u0 & v0 & L & H). apply log_ok in L. subst v0.
  injection H as -> <-.
  apply bind_ok in H1 as (q1 & w2 & H1 & H). apply bind_ok in H as (q2 & w3 & H2 & H).
  apply bind_ok in H as (u1 & v1 & L & H). apply log_ok in L. subst v1.
  destruct (framed_ok _ _ _ _ _ (framed_flux _ _ _ _) H1) as (x1 & c1 & -> & _).
  destruct (framed_ok _ _ _ _ _ (framed_flux _ _ _ _) H2) as (x2 & c2 & -> & _). clear H1 H2.
  apply bind_ok in H as (q3 & w4 & H1 & H). apply bind_ok in H as (q4 & w5 & H2 & H).
  apply bind_ok in H as (u2 & v2 & L & H). apply log_ok in L. subst v2. injection H as <- <-.
  destruct (framed_ok _ _ _ _ _ (framed_flux _ _ _ _) H1) as (x3 & c3 & -> & _). clear H1.
  rewrite !touched_touched in *.
  cbn [compute_flux] in H2. unfold snyder_flux in H2.
  apply bind_ok in H2 as (t & w6 & H2 & H).
  assert (F : framed ["effective_temperature_snyder"] (effective_temperature_snyder sm)).
  { unfold effective_temperature_snyder.
    repeat (first [ apply framed_ret | apply framed_log | apply framed_crust | apply framed_cover'
      | apply framed_molten | eapply framed_bind'; [| intros |]]); reflexivity. }
  destruct (framed_ok _ _ _ _ _ F H2) as (x5 & c5 & -> & _). clear H2 F. rewrite !touched_touched in H.
  apply bind_ok in H as (p & w7 & L & H). apply lift_ok in L as [_ ->].
  apply bind_ok in H as (u3 & v3 & L & H). apply log_ok in L. subst v3.
  apply bind_ok in H as (u4 & v4 & L & H). apply log_ok in L. subst v4.
  apply bind_ok in H as (u5 & v5 & L & H). apply log_ok in L. subst v5.
  apply bind_ok in H as (u6 & v6 & L & H). apply log_ok in L. subst v6.
  injection H as _ <-. rewrite !touched_touched.
  set (calls := _ ++ c5). unfold touched. cbn [w_log set_log]. cbn [app].
  unfold log_many. rewrite fold_left_app. cbn [fold_left fst snd].
  set (t0 := fold_left _ _ _).
  apply logged_add_other; [|discriminate|discriminate]. apply logged_add_other; [|discriminate|discriminate].
  apply logged_add_other; [|discriminate|discriminate].
  apply logged_add_same; [exact Hp|discriminate].
Qed.
End Budget.
