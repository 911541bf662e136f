(** * Properties C46-C48: slope profile, smoothing, interpolation *)
From Verif Require Import Base Num Json Logger World Terrain RNum.
From Coq Require Import Sorted.

(** ** C46 *)
Section Profile.
Context {T : Type} {N : Num T}.
Open Scope num_scope.

(** Specification: a well-formed data line has (at least) five tab-separated
    numeric columns; the fourth is the distance, the fifth the slope in
    degrees. *)
Definition well_formed (line : string) (dist deg : T) : Prop :=
  exists c0 c1 c2 c3 c4 more x y z,
    split_on tab_char line = c0 :: c1 :: c2 :: c3 :: c4 :: more /\
    parse_float c0 = Ok x /\ parse_float c1 = Ok y /\ parse_float c2 = Ok z /\
    parse_float c3 = Ok dist /\ parse_float c4 = Ok deg.

Lemma read_line_wf line dist deg :
  well_formed line dist deg ->
  read_slope_line line = if deg <=? n_lit 1 10 then Ok None
                         else let? rad := radians deg in Ok (Some (dist, rad)).
Proof.
  intros (c0 & c1 & c2 & c3 & c4 & more & x & y & z & Hs & H0 & H1 & H2 & H3 & H4).
  unfold read_slope_line, column. rewrite Hs. cbn [nth_error]. rewrite H4. cbn [rbind].
  destruct (deg <=? n_lit 1 10); [reflexivity|].
  destruct (radians deg) as [rad|e]; cbn [rbind]; [|reflexivity].
  rewrite H3, H2, H0, H1. reflexivity.
Qed.

(** For every file whose data lines are well formed: exactly the rows steeper
    than 0.1 degree are kept, in file order, slope converted to radians. *)
Theorem C46_profile_filter : forall header lines (rows : list (T * T)) prof,
  Forall2 (fun line r => well_formed line (fst r) (snd r)) lines rows ->
  read_slope_profile (header :: lines) = Ok prof ->
  Forall2 (fun r p => fst p = fst r /\ radians (snd r) = Ok (snd p))
          (filter (fun r => negb (snd r <=? n_lit 1 10)) rows) prof.
Proof.
  intros header lines rows prof HF. unfold read_slope_profile. cbn [tl].
  revert prof. induction HF as [|line r lines rows Hwf HF IH]; intros prof H.
  - injection H as <-. constructor.
  - cbn [rmapM] in H. rewrite (read_line_wf _ _ _ Hwf) in H. cbn [filter].
    destruct (snd r <=? n_lit 1 10); cbn [negb].
    + cbn [rbind] in H. apply IH. destruct (rmapM read_slope_line lines); cbn [rbind] in *; [|discriminate].
      exact H.
    + destruct (radians (snd r)) as [rad|e] eqn:Er; cbn [rbind] in H; [|discriminate].
      destruct (rmapM read_slope_line lines) as [os|e]; cbn [rbind] in *; [|discriminate].
      injection H as <-. cbn [keep_some]. constructor; [auto|]. apply IH. reflexivity.
Qed.

(** A data line whose slope column is missing or not a number makes the
    reading fail, wherever it is. *)
Theorem C46_malformed_slope : forall header before line after,
  (forall deg, column (T:=T) (split_on tab_char line) 4 <> Ok deg) ->
  forall prof : list (T * T), read_slope_profile (header :: before ++ line :: after) <> Ok prof.
Proof.
  intros header before line after Hbad prof H. unfold read_slope_profile in H. cbn [tl] in H.
  apply rbind_ok in H as (rows & H & _). apply rmapM_Forall2 in H.
  apply Forall2_app_inv_l in H as (r1 & r2 & _ & H & _). inversion H as [|? r ? ? Hl _]; subst.
  unfold read_slope_line in Hl. apply rbind_ok in Hl as (deg & Hd & _). exact (Hbad _ Hd).
Qed.
(** ... and so does any malformed column of a row that is kept. *)
Theorem C46_malformed_kept_row : forall header before line after deg c,
  column (T:=T) (split_on tab_char line) 4 = Ok deg -> (deg <=? n_lit 1 10) = false ->
  (c < 4)%nat -> (forall x, column (T:=T) (split_on tab_char line) c <> Ok x) ->
  forall prof : list (T * T), read_slope_profile (header :: before ++ line :: after) <> Ok prof.
Proof.
  intros header before line after deg c Hd Hk Hc Hbad prof H. unfold read_slope_profile in H. cbn [tl] in H.
  apply rbind_ok in H as (rows & H & _). apply rmapM_Forall2 in H.
  apply Forall2_app_inv_l in H as (r1 & r2 & _ & H & _). inversion H as [|? r ? ? Hl _]; subst.
  unfold read_slope_line in Hl. rewrite Hd in Hl. cbn [rbind] in Hl. rewrite Hk in Hl.
  apply rbind_ok in Hl as (rad & _ & Hl). apply rbind_ok in Hl as (d3 & H3 & Hl).
  apply rbind_ok in Hl as (d2 & H2 & Hl). apply rbind_ok in Hl as (d0 & H0 & Hl).
  apply rbind_ok in Hl as (d1 & H1 & _).
  destruct c as [|[|[|[|c]]]]; try lia; [exact (Hbad _ H0)|exact (Hbad _ H1)|exact (Hbad _ H2)|exact (Hbad _ H3)].
Qed.
(** A malformed column of a row that is dropped goes unnoticed. *)
Theorem C46_dropped_rows_not_checked : forall header before line after deg,
  column (T:=T) (split_on tab_char line) 4 = Ok deg -> (deg <=? n_lit 1 10) = true ->
  read_slope_profile (T:=T) (header :: before ++ line :: after) = read_slope_profile (header :: before ++ after).
Proof.
  intros header before line after deg Hd Hk. unfold read_slope_profile. cbn [tl].
  assert (Hl : read_slope_line (T:=T) line = Ok None).
  { unfold read_slope_line. rewrite Hd. cbn [rbind]. now rewrite Hk. }
  induction before as [|b before IH]; cbn [app rmapM].
  - rewrite Hl. cbn [rbind]. destruct (rmapM read_slope_line after); reflexivity.
  - destruct (read_slope_line b) as [o|e]; cbn [rbind]; [|reflexivity].
    destruct (rmapM read_slope_line (before ++ line :: after)) as [x|e];
      destruct (rmapM read_slope_line (before ++ after)) as [y|e']; cbn [rbind] in *; try discriminate; auto.
    injection IH as IH. destruct o; cbn [keep_some]; now rewrite IH.
Qed.
End Profile.

Open Scope R_scope.
Lemma radians_R x : radians x = Ok (x * (PI / 180)).
Proof. unfold radians. rnum. rewrite R_div_ok by lra. reflexivity. Qed.

(** Exact reals: the profile in closed form; every slope in it is positive. *)
Theorem C46_profile_exact : forall header lines (rows : list (R * R)),
  Forall2 (fun line r => well_formed line (fst r) (snd r)) lines rows ->
  read_slope_profile (header :: lines)
  = Ok (map (fun r => (fst r, snd r * (PI / 180))) (filter (fun r => R_ltb (1 / 10) (snd r)) rows)).
Proof.
  intros header lines rows HF. unfold read_slope_profile. cbn [tl].
  induction HF as [|line r lines rows Hwf HF IH]; [reflexivity|].
  cbn [rmapM]. rewrite (read_line_wf _ _ _ Hwf). rnum. cbn [filter].
  destruct (rmapM read_slope_line lines) as [os|e]; cbn [rbind] in *; [|discriminate].
  injection IH as IH.
  destruct (R_leb (snd r) (1 / 10)) eqn:E; destruct (R_ltb (1 / 10) (snd r)) eqn:E2; rtests; try lra.
  - cbn [rbind keep_some]. now rewrite IH.
  - rewrite radians_R. cbn [rbind keep_some]. now rewrite IH.
Qed.

Example C46_nonvacuous : exists deg dist : R,
  well_formed ("1" ++ String tab_char ("2" ++ String tab_char ("3" ++ String tab_char ("10.5" ++ String tab_char "7")))) dist deg.
Proof.
  exists (n_lit 7 1), (n_lit 105 10). unfold well_formed. vm_compute split_on.
  do 9 eexists. split; [reflexivity|].
  repeat split; unfold parse_float; cbn; unfold scale10; cbn; reflexivity.
Qed.

(** ** C47 *)
(** Specification: arithmetic mean; the window of entry [i]: from
    [floor(n/2)] entries before to [floor(n/2)] entries after it, clipped to the
    profile. *)
Definition sum_R (l : list R) : R := fold_right Rplus 0 l.
Definition mean_R (l : list R) : R := sum_R l / INR (length l).
Definition window (l : list R) (half i : nat) : list R :=
  firstn (Nat.min (length l) (i + half + 1) - (i - half)) (skipn (i - half) l).

Lemma py_sum_R l : py_sum l = sum_R l.
Proof.
  unfold py_sum. rnum. assert (H : forall l a, fold_left Rplus l a = a + sum_R l).
  { clear l. induction l as [|x l IH]; intros a; cbn [fold_left sum_R fold_right]; [lra|]. rewrite IH. fold (sum_R l). lra. }
  rewrite H. lra.
Qed.

Lemma R_trunc_nonneg x : 0 <= x -> R_trunc x = Int_part x.
Proof. intros. unfold R_trunc. destruct (Rle_dec 0 x); [auto|lra]. Qed.
Lemma Int_part_unique x z : IZR z <= x < IZR z + 1 -> Int_part x = z.
Proof.
  intros H. replace x with (IZR z + (x - IZR z)) by ring.
  destruct (Req_dec (x - IZR z) 0) as [->|Hn].
  - rewrite Rplus_0_r. apply Int_part_IZR_id.
  - apply Int_part_non_int. lra.
Qed.
Definition half_window (n : R) : nat := Z.to_nat (Int_part (n / 2)).
Lemma Int_part_nonneg x : 0 <= x -> (0 <= Int_part x)%Z.
Proof.
  intros H. destruct (base_Int_part x) as [_ H1].
  assert (H2 : -1 < IZR (Int_part x)) by lra. apply (lt_IZR (-1)) in H2. lia.
Qed.

Lemma running_mean_at_R l n i : 0 <= n -> (i < length l)%nat ->
  running_mean_at l n i = Ok (mean_R (window l (half_window n) i)) /\
  window l (half_window n) i <> [].
Proof.
  intros Hn Hi. set (h := half_window n).
  assert (Hh : Int_part (n / 2) = Z.of_nat h).
  { unfold h, half_window. rewrite Z2Nat.id; auto. apply Int_part_nonneg. lra. }
  assert (Hi2 : Int_part (INR i + n / 2) = (Z.of_nat i + Z.of_nat h)%Z).
  { apply Int_part_unique. rewrite plus_IZR, <- Hh, <- INR_IZR_INZ. destruct (base_Int_part (n / 2)). lra. }
  assert (Hlen : length (window l h i) = (Nat.min (length l) (i + h + 1) - (i - h))%nat).
  { unfold window. rewrite firstn_length, skipn_length. lia. }
  split.
  2:{ intros E. rewrite E in Hlen. cbn in Hlen. lia. }
  unfold running_mean_at. rnum. rewrite R_div_ok by lra. cbn [rbind].
  rewrite R_trunc_nonneg by lra. rewrite Hh.
  rewrite <- INR_IZR_INZ. rewrite R_trunc_nonneg.
  2:{ assert (0 <= INR i) by apply pos_INR. lra. }
  rewrite Hi2. cbn [rbind].
  replace (py_slice l (Z.max 0 (Z.of_nat i - Z.of_nat h))
             (Z.min (Z.of_nat (length l) - 1) (Z.of_nat i + Z.of_nat h) + 1)) with (window l h i).
  2:{ unfold py_slice, slice, window.
      rewrite (proj2 (Z.ltb_ge _ _)) by lia. rewrite (proj2 (Z.ltb_ge _ _)) by lia.
      f_equal; [|f_equal]; lia. }
  rewrite py_sum_R, ?lit_1, <- INR_IZR_INZ. unfold mean_R. apply R_div_ok.
  apply not_0_INR. rewrite Hlen. lia.
Qed.

Lemma sum_bounds lo hi l : Forall (fun x => lo <= x <= hi) l ->
  INR (length l) * lo <= sum_R l <= INR (length l) * hi.
Proof.
  induction 1 as [|x l Hx HF IH]; [cbn; lra|]. cbn [length sum_R fold_right]. rewrite S_INR. fold (sum_R l). lra.
Qed.
Lemma mean_bounds lo hi l : l <> [] -> Forall (fun x => lo <= x <= hi) l -> lo <= mean_R l <= hi.
Proof.
  intros Hne HF. apply sum_bounds in HF. unfold mean_R.
  assert (0 < INR (length l)). { apply lt_0_INR. destruct l; [contradiction|cbn; lia]. }
  split; (apply Rmult_le_reg_r with (INR (length l)); [auto|]; unfold Rdiv;
          rewrite Rmult_assoc, Rinv_l by lra; lra).
Qed.
Lemma window_incl l h i x : In x (window l h i) -> In x l.
Proof.
  unfold window. intros H. 
  assert (A : In x (skipn (i - h) l)).
  { rewrite <- (firstn_skipn (Nat.min (length l) (i + h + 1) - (i - h)) (skipn (i - h) l)).
    apply in_or_app. auto. }
  rewrite <- (firstn_skipn (i - h) l). apply in_or_app. auto.
Qed.

Lemma rmapM_total {A B} (f : A -> res B) (g : A -> B) l :
  (forall x, In x l -> f x = Ok (g x)) -> rmapM f l = Ok (map g l).
Proof.
  induction l as [|x l IH]; intros H; cbn; [reflexivity|].
  rewrite H by (left; auto). cbn [rbind]. rewrite IH; [reflexivity|]. intros. apply H. right. auto.
Qed.

(** Smoothing is total for a window of non-negative size, keeps the length, and
    entry [i] is the mean of its window. *)
Theorem C47_running_mean : forall (l : list R) n,
  0 <= n ->
  running_mean l n = Ok (map (fun i => mean_R (window l (half_window n) i)) (seq 0 (length l))).
Proof.
  intros l n Hn. unfold running_mean. apply rmapM_total.
  intros i Hi. apply in_seq in Hi. apply running_mean_at_R; auto. lia.
Qed.
Theorem C47_mean_between : forall (l l' : list R) n lo hi,
  0 <= n -> running_mean l n = Ok l' -> Forall (fun x => lo <= x <= hi) l ->
  length l' = length l /\ Forall (fun x => lo <= x <= hi) l'.
Proof.
  intros l l' n lo hi Hn H HF. rewrite C47_running_mean in H by auto. injection H as <-.
  split; [now rewrite map_length, seq_length|].
  apply Forall_forall. intros x Hx. apply in_map_iff in Hx as (i & <- & Hi). apply in_seq in Hi.
  apply mean_bounds; [apply running_mean_at_R; auto; lia|].
  apply Forall_forall. intros y Hy. apply window_incl in Hy. rewrite Forall_forall in HF. auto.
Qed.
Theorem C47_constant_profile : forall c k n,
  0 <= n -> running_mean (repeat c k) n = Ok (repeat c k).
Proof.
  intros c k n Hn. destruct (running_mean (repeat c k) n) as [l'|e] eqn:E.
  2:{ rewrite C47_running_mean in E by auto. discriminate. }
  destruct (C47_mean_between _ _ _ c c Hn E) as [HL HF].
  - apply Forall_forall. intros x Hx. apply repeat_spec in Hx. lra.
  - f_equal. rewrite repeat_length in HL. clear E. revert k HL. induction HF as [|x l Hx HF IH]; intros k HL.
    + destruct k; [reflexivity|discriminate].
    + destruct k; [discriminate|]. cbn. f_equal; [lra|]. apply IH. cbn in HL. lia.
Qed.
(** A window of size below 2 smooths nothing. *)
Theorem C47_small_window_identity : forall (l : list R) n,
  0 <= n < 2 -> running_mean l n = Ok l.
Proof.
  intros l n Hn. rewrite C47_running_mean by lra. f_equal.
  assert (E : half_window n = 0%nat). { unfold half_window. rewrite (Int_part_unique _ 0); [reflexivity|cbn; lra]. }
  rewrite E. apply nth_ext with (d := 0) (d' := 0); [now rewrite map_length, seq_length|].
  intros i Hi. rewrite map_length, seq_length in Hi.
  rewrite nth_indep with (d' := mean_R (window l 0 0)) by (rewrite map_length, seq_length; auto).
  rewrite (map_nth (fun i => mean_R (window l 0 i)) (seq 0 (length l)) 0%nat).
  rewrite seq_nth by auto. cbn [plus]. unfold window.
  replace (Nat.min (length l) (i + 0 + 1) - (i - 0))%nat with 1%nat by lia.
  rewrite Nat.sub_0_r. destruct (skipn i l) as [|x r] eqn:Es.
  - assert (L := skipn_length i l). rewrite Es in L. cbn in L. lia.
  - rewrite <- (firstn_skipn i l), Es. rewrite app_nth2; rewrite firstn_length; [|lia].
    replace (i - Nat.min i (length l))%nat with 0%nat by lia. cbn. unfold mean_R. cbn. field.
Qed.
(** The configured number of points is not the number of points averaged when
    it is even: away from the ends, 2k and 2k+1 both average 2k+1 points. *)
Theorem C47_even_window : forall (l : list R) (k i : nat),
  (k <= i)%nat -> (i + k < length l)%nat ->
  length (window l (half_window (2 * INR k)) i) = (2 * k + 1)%nat /\
  length (window l (half_window (2 * INR k + 1)) i) = (2 * k + 1)%nat.
Proof.
  intros l k i Hk Hi.
  assert (E1 : half_window (2 * INR k) = k).
  { unfold half_window. rewrite (Int_part_unique _ (Z.of_nat k)); [apply Nat2Z.id|].
    rewrite <- INR_IZR_INZ. lra. }
  assert (E2 : half_window (2 * INR k + 1) = k).
  { unfold half_window. rewrite (Int_part_unique _ (Z.of_nat k)); [apply Nat2Z.id|].
    rewrite <- INR_IZR_INZ. lra. }
  rewrite E1, E2. unfold window. rewrite firstn_length, skipn_length. lia.
Qed.
(** A negative size (-2) empties every window: reading fails. *)
Theorem C47_negative_window_refuted : forall (l : list R),
  l <> [] -> running_mean l (-2) = Err ZeroDivisionError.
Proof.
  intros l Hl. destruct l as [|x l]; [contradiction|].
  unfold running_mean. cbn [length seq rmapM]. unfold running_mean_at at 1. rnum.
  rewrite R_div_ok by lra. cbn [rbind]. replace (-2 / 2) with (-1) by lra.
  assert (E : R_trunc (-1) = (-1)%Z).
  { unfold R_trunc. destruct (Rle_dec 0 (-1)); [lra|]. rewrite (Int_part_unique _ 1); [reflexivity|simpl; lra]. }
  rewrite E. replace (IZR (Z.of_nat 0) + -1) with (-1) by (simpl; lra). rewrite E. cbn [rbind].
  assert (Hs : py_slice (x :: l) (Z.max 0 (Z.of_nat 0 - -1)) (Z.min (Z.of_nat (S (length l)) - 1) (-1) + 1) = []).
  { unfold py_slice, slice. rewrite (Z.min_r _ (-1)) by lia. cbn [Z.add Z.ltb Z.compare Z.pos_sub].
    cbn [Z.of_nat Z.sub Z.opp Z.add Z.max Z.compare Z.ltb]. 
    rewrite (Z.min_l 0) by lia. reflexivity. }
  change (Z.of_nat (length (x :: l))) with (Z.of_nat (S (length l))). rewrite Hs. cbn [length Z.of_nat]. rewrite lit_1, R_div_0. reflexivity.
Qed.

(** ** C48 *)
(** Specification: straight line through two points. *)
Definition line_through (p q : R * R) (x : R) : R :=
  snd p + (snd q - snd p) * ((x - fst p) / (fst q - fst p)).

Definition increasing (pts : list (R * R)) : Prop := StronglySorted (fun p q => fst p < fst q) pts.

Lemma strictly_increasing_sorted (xs : list R) :
  strictly_increasing xs = true -> StronglySorted Rlt xs.
Proof.
  intros H. apply Sorted_StronglySorted; [intros a b c; apply Rlt_trans|].
  induction xs as [|x [|y r] IH]; [constructor|constructor; constructor|].
  cbn [strictly_increasing] in H. rnum. apply andb_prop in H as [H1 H2]. rtests.
  constructor; [apply IH; exact H2|constructor; exact H1].
Qed.
Lemma make_spline_ok (xs ys : list R) pts :
  make_spline xs ys = Ok pts ->
  pts = combine xs ys /\ length xs = length ys /\ (2 <= length pts)%nat /\ increasing pts.
Proof.
  unfold make_spline. destruct (length xs <? 2)%nat eqn:E1; [discriminate|].
  destruct (Nat.eqb (length xs) (length ys)) eqn:E2; cbn [negb]; [|discriminate].
  destruct (strictly_increasing xs) eqn:E3; [|discriminate]. intros H. injection H as <-.
  apply Nat.ltb_ge in E1. apply Nat.eqb_eq in E2. apply strictly_increasing_sorted in E3.
  split; auto. split; auto. split; [rewrite combine_length; lia|].
  clear E1. revert ys E2. unfold increasing. induction E3 as [|x r HS IH HF]; intros ys E2; [constructor|].
  destruct ys as [|y ys]; [discriminate|]. cbn [combine]. constructor; [apply IH; cbn in E2; lia|].
  apply Forall_forall. intros [a b] Hin. apply in_combine_l in Hin. rewrite Forall_forall in HF. apply HF, Hin.
Qed.

Lemma segment_R p q x : fst p < fst q ->
  segment (fst p) (snd p) (fst q) (snd q) x = Ok (line_through p q x).
Proof.
  intros H. unfold segment, line_through. rnum. rewrite !R_div_ok by lra. cbn [rbind]. f_equal. field. lra.
Qed.

(** Inside the profile: the straight line between the two neighbours. *)
Theorem C48_between_neighbours : forall pts before p q after x,
  increasing pts -> pts = before ++ p :: q :: after -> fst p <= x < fst q ->
  spline_eval pts x = Ok (line_through p q x).
Proof.
  intros pts before p q after x HS Hp Hx. unfold spline_eval. subst pts.
  assert (E : spline_segment (before ++ p :: q :: after) x = Ok (line_through p q x)).
  { induction before as [|[a ya] before IH]; cbn [app].
    - destruct p as [x0 y0], q as [x1 y1]. cbn [fst] in *. cbn [spline_segment].
      destruct after.
      + apply (segment_R (x0, y0) (x1, y1)). cbn. lra.
      + rnum. rewrite (proj2 (R_ltb_true _ _)) by lra. apply (segment_R (x0, y0) (x1, y1)). cbn. lra.
    - inversion HS as [|? ? HS' HF]; subst.
      destruct before as [|[b yb] before]; cbn [app] in *.
      + destruct p as [x0 y0], q as [x1 y1]. cbn [spline_segment].
        rnum. rewrite (proj2 (R_ltb_false _ _)) by (cbn [fst] in *; lra). exact (IH HS').
      + assert (b < fst p).
        { inversion HS' as [|? ? _ HF']; subst. rewrite Forall_forall in HF'. apply (HF' p).
          apply in_or_app. right. left. auto. }
        change (spline_segment ((a, ya) :: (b, yb) :: before ++ p :: q :: after) x)
          with (match before ++ p :: q :: after with
                | [] => segment a ya b yb x
                | _ :: _ => if n_ltb x b then segment a ya b yb x else spline_segment ((b, yb) :: before ++ p :: q :: after) x
                end).
        destruct (before ++ p :: q :: after) eqn:E; [destruct before; discriminate|]. rewrite <- E in *.
        rnum. rewrite (proj2 (R_ltb_false _ _)) by lra. exact (IH HS'). }
  rewrite E. reflexivity.
Qed.

(** Before the first point: the first segment extended. *)
Theorem C48_before_first : forall p q after x,
  increasing (p :: q :: after) -> x < fst p ->
  spline_eval (p :: q :: after) x = Ok (line_through p q x).
Proof.
  intros [x0 y0] [x1 y1] after x HS Hx. cbn [fst] in Hx. unfold spline_eval.
  assert (x0 < x1). { inversion HS as [|? ? _ HF]; subst. inversion HF; subst. auto. }
  cbn [spline_segment]. assert (E := segment_R (x0, y0) (x1, y1) x ltac:(cbn; lra)). cbn [fst snd] in E.
  destruct after; [rewrite E; reflexivity|]. rnum. rewrite (proj2 (R_ltb_true _ _)) by lra. rewrite E. reflexivity.
Qed.
(** From the last point on: the last segment extended. *)
Theorem C48_from_last_on : forall before p q x,
  increasing (before ++ [p; q]) -> fst q <= x ->
  spline_eval (before ++ [p; q]) x = Ok (line_through p q x).
Proof.
  intros before p q x HS Hx. unfold spline_eval.
  assert (E : spline_segment (before ++ [p; q]) x = Ok (line_through p q x)).
  { induction before as [|[a ya] before IH]; cbn [app] in *.
    - destruct p as [x0 y0], q as [x1 y1]. cbn [spline_segment]. apply (segment_R (x0, y0) (x1, y1)).
      inversion HS as [|? ? _ HF]; subst. inversion HF; subst. auto.
    - inversion HS as [|? ? HS' HF]; subst.
      destruct before as [|[b yb] before]; cbn [app] in *.
      + destruct p as [x0 y0], q as [x1 y1]. cbn [spline_segment]. cbn [fst] in *.
        assert (x0 < x1). { inversion HS' as [|? ? _ HF']; subst. inversion HF'; subst. auto. }
        rnum. rewrite (proj2 (R_ltb_false _ _)) by lra. exact (IH HS').
      + assert (b < fst q).
        { inversion HS' as [|? ? _ HF']; subst. rewrite Forall_forall in HF'. apply (HF' q).
          apply in_or_app. right. right. left. auto. }
        change (spline_segment ((a, ya) :: (b, yb) :: before ++ [p; q]) x)
          with (match before ++ [p; q] with
                | [] => segment a ya b yb x
                | _ :: _ => if n_ltb x b then segment a ya b yb x else spline_segment ((b, yb) :: before ++ [p; q]) x
                end).
        destruct (before ++ [p; q]) eqn:E; [destruct before; discriminate|]. rewrite <- E in *.
        rnum. rewrite (proj2 (R_ltb_false _ _)) by lra. exact (IH HS'). }
  rewrite E. reflexivity.
Qed.

Lemma line_at_left p q : fst p < fst q -> line_through p q (fst p) = snd p.
Proof. intros. unfold line_through. field. lra. Qed.
Lemma line_at_right p q : fst p < fst q -> line_through p q (fst q) = snd q.
Proof. intros. unfold line_through. field. lra. Qed.
Lemma line_between p q x lo hi : fst p <= x <= fst q -> fst p < fst q ->
  lo <= snd p <= hi -> lo <= snd q <= hi -> lo <= line_through p q x <= hi.
Proof.
  intros Hx Hpq Hp Hq. unfold line_through. set (u := (x - fst p) / (fst q - fst p)).
  assert (0 <= u <= 1).
  { unfold u, Rdiv. assert (0 < / (fst q - fst p)) by (apply Rinv_0_lt_compat; lra). split.
    - apply Rmult_le_pos; lra.
    - apply Rmult_le_reg_r with (fst q - fst p); [lra|]. rewrite Rmult_assoc, Rinv_l by lra. lra. }
  split; nra.
Qed.

(** The slope function passes through every point of the profile. *)
Theorem C48_through_points : forall pts p,
  increasing pts -> (2 <= length pts)%nat -> In p pts -> spline_eval pts (fst p) = Ok (snd p).
Proof.
  intros pts p HS HL Hin. apply in_split in Hin as (before & after & ->).
  assert (Hsort : forall q, In q after -> fst p < fst q).
  { intros q Hq. clear HL. induction before as [|b before IH]; cbn [app] in HS; inversion HS as [|? ? HS' HF]; subst; auto.
    rewrite Forall_forall in HF. auto. }
  destruct after as [|q after].
  - destruct (exists_last (l := before)) as (bb & r & ->).
    { intros ->. cbn in HL. lia. }
    rewrite <- app_assoc in *. cbn [app] in *.
    assert (fst r < fst p).
    { clear HL. induction bb as [|b bb IH]; cbn [app] in HS; inversion HS as [|? ? HS' HF]; subst; auto.
      inversion HF; auto. }
    rewrite C48_from_last_on by (auto; lra). now rewrite line_at_right.
  - assert (fst p < fst q) by (apply Hsort; left; auto).
    rewrite (C48_between_neighbours _ before p q after) by (auto; lra). now rewrite line_at_left.
Qed.

(** Every value inside the profile's range lies within the bounds of the
    profile's values. *)
Lemma locate (pts : list (R * R)) x first last :
  increasing pts -> hd_error pts = Some first -> (exists l, pts = l ++ [last]) ->
  fst first <= x < fst last ->
  exists before p q after, pts = before ++ p :: q :: after /\ fst p <= x < fst q.
Proof.
  intros HS. revert first. induction HS as [|p pts HS IH HF]; intros first Hh Hl Hx; [discriminate|].
  injection Hh as ->. destruct pts as [|q pts].
  - destruct Hl as (l & Hl). destruct l as [|? [|]]; try discriminate. injection Hl as ->. lra.
  - destruct (Rlt_le_dec x (fst q)).
    + exists nil, first, q, pts. split; [reflexivity|lra].
    + destruct (IH q eq_refl) as (b & p' & q' & a & E & Hx').
      * destruct Hl as (l & Hl). destruct l as [|? l]; [discriminate|]. injection Hl as -> Hl. eauto.
      * lra.
      * exists (first :: b), p', q', a. rewrite E. auto.
Qed.
Theorem C48_within_bounds : forall pts first last x lo hi,
  increasing pts -> hd_error pts = Some first -> (exists l, pts = l ++ [last]) ->
  fst first <= x < fst last -> Forall (fun p => lo <= snd p <= hi) pts ->
  exists y, spline_eval pts x = Ok y /\ lo <= y <= hi.
Proof.
  intros pts first last x lo hi HS Hh Hl Hx HF.
  destruct (locate pts x first last HS Hh Hl Hx) as (b & p & q & a & E & Hx').
  exists (line_through p q x). split; [eapply C48_between_neighbours; eauto|].
  rewrite E in HF. apply Forall_app in HF as [_ HF]. inversion HF as [|? ? Hp HF']; subst.
  inversion HF'; subst. apply line_between; auto; lra.
Qed.

(** Total: a slope function built from a profile is defined everywhere. *)
Theorem C48_defined_everywhere : forall xs ys pts x,
  make_spline xs ys = Ok pts -> exists y : R, spline_eval pts x = Ok y.
Proof.
  intros xs ys pts x H. apply make_spline_ok in H as (_ & _ & HL & HS).
  destruct pts as [|p [|q pts]]; [cbn in HL; lia|cbn in HL; lia|].
  destruct (Rlt_le_dec x (fst p)).
  - eexists. now apply C48_before_first.
  - destruct (exists_last (l := p :: q :: pts)) as (l & last & E); [discriminate|].
    destruct (Rlt_le_dec x (fst last)).
    + destruct (locate (p :: q :: pts) x p last HS eq_refl) as (b & p' & q' & a & E' & Hx'); [eauto|lra|].
      eexists. eapply C48_between_neighbours; eauto.
    + destruct (exists_last (l := l)) as (l' & prev & ->).
      { intros ->. cbn [app] in E. discriminate. }
      rewrite <- app_assoc in E. cbn [app] in E. rewrite E in *. eexists. now apply C48_from_last_on.
Qed.

(** From the file to the slope the model uses, without smoothing: at each kept
    distance the slope is the file's, in radians. *)
Theorem C48_file_to_slope : forall header lines (rows : list (R * R)) t t' r,
  Forall2 (fun line r => well_formed line (fst r) (snd r)) lines rows ->
  read_slope_from_file (header :: lines) None t = Ok t' ->
  In r rows -> 1 / 10 < snd r ->
  get_channel_slope t' (fst r) = Ok (snd r * (PI / 180)).
Proof.
  intros header lines rows t t' r HF H Hin Hr. unfold read_slope_from_file in H.
  rewrite (C46_profile_exact header lines rows HF) in H. cbn [rbind] in H.
  apply rbind_ok in H as (sp & Hs & H). injection H as <-. unfold get_channel_slope. cbn [ter_spline].
  apply make_spline_ok in Hs as (E & _ & HL & HS).
  set (prof := map (fun r => (fst r, snd r * (PI / 180))) (filter (fun r => R_ltb (1 / 10) (snd r)) rows)) in *.
  assert (E' : sp = prof).
  { rewrite E. clear. induction prof as [|[a b] l IH]; cbn; [auto|]. now rewrite IH. }
  subst sp. rewrite E' in *.
  assert (Hp : In (fst r, snd r * (PI / 180)) prof).
  { unfold prof. apply in_map_iff. exists r. split; auto. apply filter_In. split; auto. now apply R_ltb_true. }
  exact (C48_through_points prof _ HS HL Hp).
Qed.

(** Beyond the profile the slope can be negative although every profile slope
    is positive. *)
Theorem C48_extrapolation_refuted : exists (xs ys : list R) (pts : list (R * R)) (x y : R),
  make_spline xs ys = Ok pts /\
  Forall (fun p => 0 < snd p) pts /\ fst (last pts (0, 0)) < x /\
  spline_eval pts x = Ok y /\ y < 0.
Proof.
  exists [0; 10], [2 / 10; 1 / 10], [(0, 2 / 10); (10, 1 / 10)], 40, (- (2 / 10)).
  assert (HS : make_spline [0; 10] [2 / 10; 1 / 10] = Ok [(0, 2 / 10); (10, 1 / 10)]).
  { unfold make_spline. cbn [length Nat.ltb Nat.leb Nat.eqb negb strictly_increasing]. rnum.
    rewrite (proj2 (R_ltb_true 0 10)) by lra. reflexivity. }
  split; [exact HS|]. split; [repeat constructor; cbn; lra|]. split; [cbn; lra|]. split; [|lra].
  rewrite (C48_from_last_on [] (0, 2 / 10) (10, 1 / 10)).
  - f_equal. unfold line_through. cbn [fst snd]. lra.
  - apply make_spline_ok in HS. apply HS.
  - cbn. lra.
Qed.


(** From the file to the slope the model uses, with smoothing: at the distance
    of the i-th kept row the slope is the mean, in radians, of the kept rows at
    most n/2 places away. *)
Theorem C47_file_to_smoothed_slope : forall header lines (rows : list (R * R)) n t t' i r,
  Forall2 (fun line r => well_formed line (fst r) (snd r)) lines rows -> 0 <= n ->
  read_slope_from_file (header :: lines) (Some n) t = Ok t' ->
  let kept := filter (fun r => R_ltb (1 / 10) (snd r)) rows in
  nth_error kept i = Some r ->
  get_channel_slope t' (fst r) =
    Ok (mean_R (window (map (fun r => snd r * (PI / 180)) kept) (half_window n) i)).
Proof.
  intros header lines rows n t t' i r HF Hn H kept Hi. unfold read_slope_from_file in H.
  rewrite (C46_profile_exact header lines rows HF) in H. cbn [rbind] in H. fold kept in H.
  rewrite !map_map in H. cbn [fst snd] in H.
  rewrite C47_running_mean in H by exact Hn. cbn [rbind] in H.
  apply rbind_ok in H as (sp & Hs & H). injection H as <-. unfold get_channel_slope. cbn [ter_spline].
  apply make_spline_ok in Hs as (E & _ & HL & HS). rewrite E in *.
  match goal with |- _ = Ok ?m => refine (C48_through_points _ (fst r, m) HS HL _) end.
  assert (Hlen : (i < length kept)%nat) by (apply nth_error_Some; congruence).
  apply nth_error_In with i. rewrite <- (map_length fst kept) in Hlen. revert Hlen.
  assert (Q : nth_error (map fst kept) i = Some (fst r)) by (rewrite nth_error_map, Hi; reflexivity).
  assert (Q2 : nth_error (map (fun i0 => mean_R (window (map (fun r => snd r * (PI / 180)) kept) (half_window n) i0))
     (seq 0 (length (map (fun r : R * R => snd r * (PI / 180)) kept)))) i =
     Some (mean_R (window (map (fun r => snd r * (PI / 180)) kept) (half_window n) i))).
  { rewrite nth_error_map, map_length, nth_error_nth' with (d := O).
    - rewrite seq_nth; [reflexivity|]. apply nth_error_Some; congruence.
    - rewrite seq_length. apply nth_error_Some; congruence. }
  intros _. set (m := mean_R _) in Q2 |- *. clearbody m.
  set (l2 := map _ (seq 0 _)) in *. clearbody l2. set (l1 := map fst kept) in *. clearbody l1. clear -Q Q2.
  revert l1 l2 Q Q2. induction i as [|i IH]; intros [|b l1] [|a l2] Q Q2; cbn in *; try discriminate; try congruence; auto.
Qed.
(** The window is used exactly when the JSON says [true]. *)
Theorem C47_smoothing_switch : forall (d : json R) t depth smooth,
  read_terrain d = Ok (t, depth, smooth) ->
  (jget2 d "terrain_conditions" "slope_smoothing_active" = Ok (JBool true) /\
   exists n, jfloat2 d "terrain_conditions" "slope_smoothing_number_of_points" = Ok n /\ smooth = Some n) \/
  (jget2 d "terrain_conditions" "slope_smoothing_active" <> Ok (JBool true) /\ smooth = None).
Proof.
  intros d t depth smooth H. unfold read_terrain in H.
  do 5 (apply rbind_ok in H as (? & _ & H)). apply rbind_ok in H as (act & Ha & H).
  apply rbind_ok in H as (sm & Hs & H). apply rbind_ok in H as (? & _ & H). injection H as _ _ <-.
  rewrite Ha. destruct act as [|[|]| | | | |]; try (right; split; [congruence|]; injection Hs as <-; reflexivity).
  left. split; [reflexivity|]. apply rbind_ok in Hs as (n & Hn & Hs). injection Hs as <-. eauto.
Qed.
