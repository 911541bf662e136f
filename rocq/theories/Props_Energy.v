(** * Props_Energy: energy and mass accounting over a whole table (C73) *)
From Coq Require Import Reals Lra.
From Verif Require Import Base Num Json Logger World Vesicle MeltVisc RelVisc Bubbles Terrain Lava
  Thermal Flux Integrator Factory Run RNum Spec Frame StepLog StepProofs LoggerProofs RowProofs StepProps StepRow ColumnProofs
  EffArray Props_Terrain Props_Step Props_Run Props_RunOuts TableTrace Props_Table Props_Plot.
Open Scope R_scope.

(** The number in a column of a row (0 if there is none). *)
Definition number (name : string) (r : row R) : R :=
  match assoc name r with Some (CNum x) => x | _ => 0 end.

(** The sum, over a list of rows, of a quantity computed from each row. *)
Fixpoint total (q : row R -> R) (rows : list (row R)) : R :=
  match rows with [] => 0 | r :: t => q r + total q t end.

Lemma total_snoc q l r : total q (l ++ [r]) = total q l + q r.
Proof. induction l as [|a l IH]; cbn [app total]; [lra|rewrite IH; lra]. Qed.

Lemma firstn_snoc {A} (l : list A) n x : nth_error l n = Some x -> firstn (S n) l = firstn n l ++ [x].
Proof.
  revert n. induction l as [|a l IH]; intros [|n] H; try discriminate.
  - injection H as ->. reflexivity.
  - cbn [firstn app]. f_equal. apply IH, H.
Qed.

(** A quantity that changes from row to row by [q] of the row adds up. *)
Lemma telescope (t : table R) (n : nat) (q f : row R -> R) (x0 x1 : R) :
  (n <= length t)%nat ->
  (forall r, nth_error t 0 = Some r -> (0 < n)%nat -> f r = x0) ->
  (forall i r r', (S i < n)%nat -> nth_error t i = Some r -> nth_error t (S i) = Some r' -> f r' = f r + q r) ->
  (forall i r, S i = n -> nth_error t i = Some r -> x1 = f r + q r) ->
  (n = 0%nat -> x1 = x0) ->
  x1 - x0 = total q (firstn n t).
Proof.
  intros Hn H0 HS HL HZ.
  assert (G : forall k r, (k < n)%nat -> nth_error t k = Some r -> f r - x0 = total q (firstn k t)).
  { induction k as [|k IH]; intros r Hk Hr.
    - rewrite (H0 _ Hr Hk). cbn. lra.
    - destruct (nth_error t k) as [p|] eqn:Ep; [|apply nth_error_None in Ep; lia].
      rewrite (firstn_snoc _ _ _ Ep), total_snoc, <- (IH p ltac:(lia) eq_refl), (HS _ _ _ Hk Ep Hr). lra. }
  destruct n as [|n]; [rewrite HZ by reflexivity; cbn; lra|].
  destruct (nth_error t n) as [p|] eqn:Ep; [|apply nth_error_None in Ep; lia].
  rewrite (firstn_snoc _ _ _ Ep), total_snoc, <- (G n p ltac:(lia) Ep), (HL _ _ eq_refl Ep). lra.
Qed.

Lemma holds_number r name x : holds r name x -> number name r = x.
Proof. unfold holds, number. now intros ->. Qed.

Lemma init_keeps_time (sm : sim R) : keeps (fun w => st_time (w_st w)) (init_effusion_rate sm).
Proof.
  unfold init_effusion_rate. destruct (n_eqb _ _).
  - intros w r w' H. injection H as _ <-. reflexivity.
  - assert (Hfr : forall A (m : M (T:=R) A), framed [] m -> keeps (fun w => st_time (w_st w)) m).
    { intros A m Hm. apply (keeps_framed _ [] m); auto. }
    generalize 0%nat. induction depth_count as [|n IH]; intros i; cbn [search_depth].
    + apply Hfr, framed_ret.
    + apply keeps_bind.
      * unfold try_depth.
        repeat (apply keeps_bind; [first [apply Hfr, framed_velocity | apply Hfr, framed_pure
           | intros w r w' H; injection H as _ <-; reflexivity] | intros ]).
        apply Hfr, framed_ret.
      * intros []; [apply Hfr, framed_ret | apply IH].
Qed.

Section run.
Context (sm : sim R) (fuel : nat) (s : state R) (depth : R) (w' : world R).
Hypothesis Hdx : s_dx sm <> 0.
Hypothesis Hrun : simulate fuel sm (initial_world s [] depth) = Some (Ok tt, w').

Lemma no_rows : w_iter w' = 0%nat -> st_temp (w_st w') = st_temp s /\ st_phi (w_st w') = st_phi s.
Proof.
  intros Z. destruct (run_rows sm fuel s depth w' Hdx Hrun) as (w0 & wn & E0 & _ & HS & _ & HE).
  rewrite Z in HS. injection HS as ->. assert (A := init_keeps_temp sm _ _ _ E0). assert (B := init_keeps_phi sm _ _ _ E0).
  cbn [initial_world w_st] in A, B.
  destruct HE as [->|S]; [auto|]. destruct (ss_st _ _ _ S) as [x ->]. cbn [set_strain_rate st_temp st_phi]. auto.
Qed.

Lemma enough_rows : (w_iter w' <= length (w_log w'))%nat.
Proof.
  destruct (C62_table_of_a_run sm fuel s depth w' Hdx Hrun) as (_ & done & rest & -> & <- & _).
  rewrite app_length. lia.
Qed.

(** C73.  The total cooling along the channel is the sum of the logged
    gradients times the step, and so is the total crystal growth. *)
Theorem C73_cooling_adds_up :
  st_temp (w_st w') - st_temp s = total (fun r => number "dtemp_dx" r * s_dx sm) (firstn (w_iter w') (w_log w')) /\
  st_phi (w_st w') - st_phi s = total (fun r => number "dphi_dx" r * s_dx sm) (firstn (w_iter w') (w_log w')).
Proof.
  split; [apply (telescope _ _ _ (number "core_temperature"))|apply (telescope _ _ _ (number "crystal_fraction"))];
    try exact enough_rows; try (intros Z; now destruct (no_rows Z)).
  - intros r Hr Hi. destruct (C72_rows_follow_one_another sm fuel s depth w' Hdx Hrun 0 r Hi Hr) as (t & p & a & b & T & _ & _ & _ & Z & _).
    destruct (Z eq_refl) as [-> _]. exact (holds_number _ _ _ T).
  - intros i r r' Hi Hr Hr'. destruct (C72_rows_follow_one_another sm fuel s depth w' Hdx Hrun i r ltac:(lia) Hr) as (t & p & a & b & T & P & A & B & _ & Z & _).
    destruct (Z r' Hi Hr') as [T' _]. rewrite (holds_number _ _ _ T), (holds_number _ _ _ A), (holds_number _ _ _ T'). reflexivity.
  - intros i r Hi Hr. destruct (C72_rows_follow_one_another sm fuel s depth w' Hdx Hrun i r ltac:(lia) Hr) as (t & p & a & b & T & P & A & B & _ & _ & Z & _).
    destruct (Z Hi) as [T' _]. rewrite (holds_number _ _ _ T), (holds_number _ _ _ A). exact T'.
  - intros r Hr Hi. destruct (C72_rows_follow_one_another sm fuel s depth w' Hdx Hrun 0 r Hi Hr) as (t & p & a & b & _ & P & _ & _ & Z & _).
    destruct (Z eq_refl) as [_ ->]. exact (holds_number _ _ _ P).
  - intros i r r' Hi Hr Hr'. destruct (C72_rows_follow_one_another sm fuel s depth w' Hdx Hrun i r ltac:(lia) Hr) as (t & p & a & b & T & P & A & B & _ & Z & _).
    destruct (Z r' Hi Hr') as [_ T']. rewrite (holds_number _ _ _ P), (holds_number _ _ _ B), (holds_number _ _ _ T'). reflexivity.
  - intros i r Hi Hr. destruct (C72_rows_follow_one_another sm fuel s depth w' Hdx Hrun i r ltac:(lia) Hr) as (t & p & a & b & T & P & A & B & _ & _ & Z & _).
    destruct (Z Hi) as [_ T']. rewrite (holds_number _ _ _ P), (holds_number _ _ _ B). exact T'.
Qed.

Lemma total_ext q1 q2 l : (forall i r, nth_error l i = Some r -> q1 r = q2 r) -> total q1 l = total q2 l.
Proof.
  induction l as [|a l IH]; intros H; [reflexivity|]. cbn [total]. rewrite (H 0%nat a eq_refl), IH; [reflexivity|].
  intros i r Hr. exact (H (S i) r Hr).
Qed.

Lemma total_scale k q l : total (fun r => k * q r) l = k * total q l.
Proof. induction l as [|a l IH]; cbn [total]; [lra|rewrite IH; lra]. Qed.

Lemma nth_error_firstn {A} (l : list A) n i x : nth_error (firstn n l) i = Some x -> (i < n)%nat /\ nth_error l i = Some x.
Proof.
  revert n i. induction l as [|a l IH]; intros [|n] [|i] H; try discriminate; cbn in *.
  - split; [lia|exact H].
  - apply IH in H as [A1 A2]. split; [lia|exact A2].
Qed.

(** C73.  Energy is conserved over the whole flow: the heat lost along the
    channel (per unit mass flowing through) is exactly the latent heat of the
    crystals that grew, whatever the models and the number of steps.  [eff] is
    the effusion rate in the table. *)
Theorem C73_energy_balance :
  exists eff, (forall i r, (i < w_iter w')%nat -> nth_error (w_log w') i = Some r -> assoc "effusion_rate" r = Some (CStr eff)) /\
    total (fun r => number "heat_budget" r * s_dx sm / number "density" r) (firstn (w_iter w') (w_log w')) =
    eff * lv_latent (s_lava sm) * (st_phi (w_st w') - st_phi s).
Proof.
  destruct (C72_every_row_balances sm fuel s depth w' Hdx Hrun) as (eff & h & X). exists eff. split.
  - intros i r Hi Hr. destruct (X i r Hi Hr) as (x & v & wd & rho & hb & rate & dT & sl & _ & _ & _ & _ & _ & _ & _ & _ & _ & E & _). exact E.
  - rewrite (proj2 C73_cooling_adds_up), <- total_scale. apply total_ext. intros i r Hr. apply nth_error_firstn in Hr as [Hi Hr].
    destruct (X i r Hi Hr) as (x & v & wd & rho & hb & rate & dT & sl & _ & _ & _ & Hrho & Hhb & Hra & HdT & _ & _ & _ & Hdp & _ & _ & _ & _ & _ & Q & Hz).
    rewrite (holds_number _ _ _ Hrho), (holds_number _ _ _ Hhb), (holds_number _ _ _ Hdp), Q.
    field. intros E. apply Hz. rewrite E. ring.
Qed.

(** C73.  When the density does not change along the flow, the sum of the
    heat_budget column times the step is the latent heat of the crystals
    grown, at the rate [eff * rho]. *)
Theorem C73_energy_balance_constant_density : forall rho,
  (forall i r, (i < w_iter w')%nat -> nth_error (w_log w') i = Some r -> holds r "density" rho) ->
  exists eff, (forall i r, (i < w_iter w')%nat -> nth_error (w_log w') i = Some r -> assoc "effusion_rate" r = Some (CStr eff)) /\
    total (number "heat_budget") (firstn (w_iter w') (w_log w')) * s_dx sm =
    eff * rho * lv_latent (s_lava sm) * (st_phi (w_st w') - st_phi s).
Proof.
  intros rho Hrho. destruct (C72_every_row_balances sm fuel s depth w' Hdx Hrun) as (eff & h & X). exists eff. split.
  - intros i r Hi Hr. destruct (X i r Hi Hr) as (x & v & wd & rh & hb & rate & dT & sl & _ & _ & _ & _ & _ & _ & _ & _ & _ & E & _). exact E.
  - rewrite (proj2 C73_cooling_adds_up), <- total_scale, Rmult_comm, <- total_scale. apply total_ext. intros i r Hr. apply nth_error_firstn in Hr as [Hi Hr].
    destruct (X i r Hi Hr) as (x & v & wd & rh & hb & rate & dT & sl & _ & _ & _ & Hrh & Hhb & Hra & HdT & _ & _ & _ & Hdp & _ & _ & _ & _ & _ & Q & _).
    assert (rh = rho) as ->. { specialize (Hrho i r Hi Hr). unfold holds in Hrho, Hrh. rewrite Hrho in Hrh. injection Hrh. auto. }
    rewrite (holds_number _ _ _ Hhb), (holds_number _ _ _ Hdp), Q. ring.
Qed.
(** C73.  With the constant vesicle-fraction model the density is constant,
    and the balance holds with the density the two parameters give. *)
Theorem C73_energy_balance_constant_vesicles : forall vf, lv_ves (s_lava sm) = VConstant vf ->
  exists eff, (forall i r, (i < w_iter w')%nat -> nth_error (w_log w') i = Some r -> assoc "effusion_rate" r = Some (CStr eff)) /\
    total (number "heat_budget") (firstn (w_iter w') (w_log w')) * s_dx sm =
    eff * (lv_dre (s_lava sm) * (1 - vf)) * lv_latent (s_lava sm) * (st_phi (w_st w') - st_phi s).
Proof.
  intros vf Hvf. apply C73_energy_balance_constant_density. intros i r Hi Hr.
  destruct (row_step sm fuel s depth w' i r Hdx Hrun Hi Hr) as
    (wi & wj & v & rho & wd & sl & hb & ra & dT & dt & C & SR & _ & _ & _ & _ & _ & Hn & _).
  unfold holds. rewrite Hn. destruct SR as [_ _ S3 _ _ _ _ _ _ _ _]. rewrite S3. do 2 f_equal.
  assert (Q := cs_rho _ _ _ _ _ _ _ _ _ _ _ C). unfold get_bulk_density, lava_vesicle_fraction in Q. rewrite Hvf in Q.
  cbn in Q. apply Ok_inj in Q. rewrite <- Q. rnum. reflexivity.
Qed.

(** C73.  The model's clock is the travel time: each row contributes the step
    divided by its mean velocity. *)
Theorem C73_travel_time :
  st_time (w_st w') - st_time s = total (fun r => s_dx sm / number "mean_velocity" r) (firstn (w_iter w') (w_log w')).
Proof.
  destruct (run_rows sm fuel s depth w' Hdx Hrun) as (w0 & wn & E0 & _ & HS & _ & HE).
  assert (G : forall k wk, (k <= w_iter w')%nat -> steps sm k w0 = (Ok tt, wk) ->
    st_time (w_st wk) - st_time s = total (fun r => s_dx sm / number "mean_velocity" r) (firstn k (w_log w'))).
  { induction k as [|k IH]; intros wk Hk Hs.
    - injection Hs as <-. rewrite (init_keeps_time sm _ _ _ E0). cbn. lra.
    - assert (L := enough_rows). destruct (nth_error (w_log w') k) as [r|] eqn:Er; [|apply nth_error_None in Er; lia].
      destruct (row_step sm fuel s depth w' k r Hdx Hrun ltac:(lia) Er) as
        (wi & wj & v & rho & wd & sl & hb & ra & dT & dt & C & SR & _ & _ & _ & _ & _ & Hn & w0' & E0' & Hs' & H1).
      rewrite E0 in E0'. injection E0' as <-. rewrite (steps_add sm _ _ _ _ Hs' H1) in Hs. injection Hs as <-.
      rewrite (firstn_snoc _ _ _ Er), total_snoc, <- (IH wi ltac:(lia) Hs'), (cs_time _ _ _ _ _ _ _ _ _ _ _ C).
      assert (D := cs_dt _ _ _ _ _ _ _ _ _ _ _ C). rnum. apply R_div_inv in D as [_ ->].
      unfold number. rewrite Hn. destruct SR as [S1 _ _ _ _ _ _ _ _ _ _]. rewrite S1. lra. }
  rewrite <- (G _ _ (le_n _) HS). destruct HE as [->|S]; [reflexivity|]. destruct (ss_st _ _ _ S) as [x ->]. reflexivity.
Qed.
End run.
