(** * Props_Refine: what a smaller step size changes (C79) *)
From Coq Require Import Reals Lra Lia.
From Verif Require Import Base Num Json Logger World Vesicle MeltVisc RelVisc Bubbles Terrain Lava
  Thermal Flux Integrator Factory Run RNum Spec StepLog EffArray Props_Run Props_RunOuts TableTrace Props_Table Refine.
Open Scope R_scope.

(** The cells of a row that describe the state of the lava and its gradients. *)
Definition row_state (r : row R) (x temp phi dtemp dphi : R) : Prop :=
  holds r "position" x /\ holds r "core_temperature" temp /\ holds r "crystal_fraction" phi /\
  holds r "dtemp_dx" dtemp /\ holds r "dphi_dx" dphi.

Definition value (r : row R) (name : string) : R := match assoc name r with Some (CNum x) => x | _ => 0 end.
Lemma value_of r name x : holds r name x -> value r name = x.
Proof. unfold holds, value. intros ->. reflexivity. Qed.

(** The rows of a run as sequences. *)
Lemma run_sequences (sm : sim R) fuel s depth w : s_dx sm <> 0 ->
  simulate fuel sm (initial_world s [] depth) = Some (Ok tt, w) ->
  forall i, (i < w_iter w)%nat -> let row k := nth k (w_log w) [] in
    nth_error (w_log w) i = Some (row i) /\
    row_state (row i) (st_pos s + INR i * s_dx sm) (value (row i) "core_temperature") (value (row i) "crystal_fraction")
      (value (row i) "dtemp_dx") (value (row i) "dphi_dx") /\
    (i = 0%nat -> value (row i) "core_temperature" = st_temp s /\ value (row i) "crystal_fraction" = st_phi s) /\
    ((S i < w_iter w)%nat ->
       value (row (S i)) "core_temperature" = value (row i) "core_temperature" + value (row i) "dtemp_dx" * s_dx sm /\
       value (row (S i)) "crystal_fraction" = value (row i) "crystal_fraction" + value (row i) "dphi_dx" * s_dx sm).
Proof.
  intros Hdx H i Hi row.
  destruct (C62_table_of_a_run sm fuel s depth w Hdx H) as (_ & done & rest & HL & Hlen & HE & _).
  assert (Hat : forall k, (k < w_iter w)%nat -> nth_error (w_log w) k = Some (row k)).
  { intros k Hk. unfold row. destruct (nth_error (w_log w) k) as [r|] eqn:E.
    - symmetry. f_equal. now apply nth_error_nth.
    - apply nth_error_None in E. rewrite HL, app_length in E. lia. }
  assert (Hr := Hat i Hi). split; [exact Hr|].
  destruct (C72_rows_follow_one_another sm fuel s depth w Hdx H i _ Hi Hr) as (t & p & dt & dp & A1 & A2 & A3 & A4 & A5 & A6 & _).
  rewrite (value_of _ _ _ A1), (value_of _ _ _ A2), (value_of _ _ _ A3), (value_of _ _ _ A4).
  assert (Hr2 := Hr). rewrite HL, nth_error_app1 in Hr2 by lia. destruct (HE _ _ Hr2) as [Hx _].
  split; [repeat split; assumption|]. split; [exact A5|].
  intros Hs. destruct (A6 _ Hs (Hat _ Hs)) as [B1 B2]. rewrite (value_of _ _ _ B1), (value_of _ _ _ B2). auto.
Qed.

(** C79.  The same set-up run with the step [h] and with the step [h/m] (from
    the same vent): if the gradients the rows show vary by at most [L] per unit
    of position, temperature and crystal fraction from the rows of one table to
    the rows of the other, and are at most [B], then after the distance [n*h]
    the two tables show, at the same position, temperatures and crystal
    fractions that differ by at most [h * (1 + B) * (exp (L * n * h) - 1)]:
    refining the step changes the results by an amount proportional to it. *)
Theorem C79_refining_the_step : forall (sm : sim R) h m n fuel fuel' s depth w w' L B,
  0 < h -> (0 < m)%nat -> 0 <= L ->
  simulate fuel (with_step h sm) (initial_world s [] depth) = Some (Ok tt, w) ->
  simulate fuel' (with_step (h / INR m) sm) (initial_world s [] depth) = Some (Ok tt, w') ->
  (n < w_iter w)%nat -> (n * m < w_iter w')%nat ->
  (forall j r' x' temp' phi' dtemp' dphi',
     (j < n * m)%nat -> nth_error (w_log w') j = Some r' -> row_state r' x' temp' phi' dtemp' dphi' ->
     Rabs dtemp' + Rabs dphi' <= B /\
     forall i r x temp phi dtemp dphi,
       (i < n)%nat -> nth_error (w_log w) i = Some r -> row_state r x temp phi dtemp dphi ->
       Rabs (dtemp - dtemp') + Rabs (dphi - dphi') <= L * (Rabs (x - x') + Rabs (temp - temp') + Rabs (phi - phi'))) ->
  exists r r' x temp phi dtemp dphi temp' phi' dtemp' dphi',
    nth_error (w_log w) n = Some r /\ nth_error (w_log w') (n * m) = Some r' /\
    row_state r x temp phi dtemp dphi /\ row_state r' x temp' phi' dtemp' dphi' /\
    x = st_pos s + INR n * h /\
    Rabs (temp - temp') + Rabs (phi - phi') <= h * (1 + B) * (exp (L * (INR n * h)) - 1).
Proof.
  intros sm h m n fuel fuel' s depth w w' L B Hh Hm HL H H' Hn Hn' HG.
  assert (Mp : 0 < INR m) by (apply lt_0_INR; lia).
  assert (Hd : 0 < h / INR m) by (apply Rdiv_lt_0_compat; lra).
  assert (Q : s_dx (with_step h sm) <> 0) by (change (h <> 0); lra).
  assert (Q' : s_dx (with_step (h / INR m) sm) <> 0) by (change (h / INR m <> 0); lra).
  assert (S := run_sequences _ _ _ _ _ Q H). assert (S' := run_sequences _ _ _ _ _ Q' H'). cbv zeta in S, S'.
  change (s_dx (with_step h sm)) with h in S. change (s_dx (with_step (h / INR m) sm)) with (h / INR m) in S'.
  set (row := fun k => nth k (w_log w) []) in *. set (row' := fun k => nth k (w_log w') []) in *.
  destruct (S n Hn) as (N1 & N2 & _). destruct (S' (n * m)%nat Hn') as (N1' & N2' & _).
  assert (Ex : st_pos s + INR (n * m) * (h / INR m) = st_pos s + INR n * h) by (rewrite mult_INR; field; lra).
  rewrite Ex in N2'.
  do 11 eexists. split; [exact N1|]. split; [exact N1'|]. split; [exact N2|]. split; [exact N2'|]. split; [reflexivity|].
  apply (refine_error h L B m n Hh HL Hm
    (fun k => value (row k) "core_temperature") (fun k => value (row k) "crystal_fraction")
    (fun k => value (row k) "dtemp_dx") (fun k => value (row k) "dphi_dx")
    (fun k => value (row' k) "core_temperature") (fun k => value (row' k) "crystal_fraction")
    (fun k => value (row' k) "dtemp_dx") (fun k => value (row' k) "dphi_dx")); [| | | | |apply le_n].
  - destruct (S 0%nat ltac:(lia)) as (_ & _ & K & _). destruct (S' 0%nat ltac:(lia)) as (_ & _ & K' & _).
    destruct (K eq_refl). destruct (K' eq_refl). split; congruence.
  - intros k Hk. apply (S k ltac:(lia)). lia.
  - intros j Hj. apply (S' j ltac:(lia)). lia.
  - intros j Hj. destruct (S' j ltac:(lia)) as (A & D & _). exact (proj1 (HG _ _ _ _ _ _ _ Hj A D)).
  - intros k i Hk Hi. assert (Hj : (k * m + i < n * m)%nat) by nia.
    destruct (S k ltac:(lia)) as (A & D & _). destruct (S' (k * m + i)%nat ltac:(lia)) as (A' & D' & _).
    destruct (HG _ _ _ _ _ _ _ Hj A' D') as [_ G]. specialize (G _ _ _ _ _ _ _ Hk A D).
    eapply Rle_trans; [exact G|]. apply Rmult_le_compat_l; [exact HL|]. unfold gap.
    assert (E : Rabs (st_pos s + INR k * h - (st_pos s + INR (k * m + i) * (h / INR m))) = INR i * (h / INR m)).
    { rewrite plus_INR, mult_INR.
      replace (st_pos s + INR k * h - (st_pos s + (INR k * INR m + INR i) * (h / INR m))) with (- (INR i * (h / INR m))) by (field; lra).
      rewrite Rabs_Ropp, Rabs_right; [reflexivity|]. apply Rle_ge, Rmult_le_pos; [apply pos_INR|lra]. }
    rewrite E. apply Req_le. lra.
Qed.
