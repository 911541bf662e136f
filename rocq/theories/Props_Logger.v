(** * Properties C01-C04: the logger (any arithmetic) *)
From Verif Require Import Base Num Json Logger Spec LoggerProofs RNum.
Open Scope nat_scope.

Section Props.
Context {T : Type} {N : Num T}.

(** C01.  After any history of calls, the cell of column [name] in the row of
    position [p] is the value of the last call with that name and that
    position (None if there is none), and every logged position has a row. *)
Theorem C01_last_write_wins : forall calls : list (@call T),
  (forall c, In c calls -> fst (fst c) <> "position") ->
  equality_on n_eqb (positions calls) ->
  let t := after clear calls in
  (forall i p name, name <> "position" ->
     nth_error (get_values "position" t) i = Some (Some (CNum p)) ->
     nth_error (get_values name t) i = Some (last_write n_eqb name p calls)) /\
  (forall c, In c calls -> exists i p,
     nth_error (get_values "position" t) i = Some (Some (CNum p)) /\ n_eqb (snd (fst c)) p = true).
Proof.
  intros calls Hn Heq t. split.
  - intros i p name Hname Hi. unfold t in *.
    rewrite get_positions in Hi by auto. rewrite get_values_aligned by auto.
    rewrite nth_error_map in *. destruct (nth_error _ i) as [q|]; [|discriminate].
    simpl in *. congruence.
  - intros c Hc. unfold t. rewrite get_positions by auto.
    destruct (first_seen_covers (positions calls) (snd (fst c)) Heq) as (q & Hq & E).
    { unfold positions. apply (in_map (fun c => snd (fst c))). exact Hc. }
    apply In_nth_error in Hq as [i Hi]. exists i, q. split; auto.
    rewrite nth_error_map, Hi. reflexivity.
Qed.

(** C01, as a caller sees it: a value that is not overwritten is found. *)
Theorem C01_written_value_is_kept : forall before later name (p : T) v,
  let calls := before ++ (name, p, v) :: later in
  (forall c, In c calls -> fst (fst c) <> "position") ->
  equality_on n_eqb (positions calls) ->
  (forall c, In c later -> fst (fst c) = name -> n_eqb (snd (fst c)) p = false) ->
  exists i q, n_eqb p q = true /\
    nth_error (get_values "position" (after clear calls)) i = Some (Some (CNum q)) /\
    nth_error (get_values name (after clear calls)) i = Some (Some v).
Proof.
  intros before later name p v calls Hn Heq Hl.
  destruct (C01_last_write_wins calls Hn Heq) as [H1 H2].
  destruct (H2 (name, p, v)) as (i & q & Hi & E); [apply in_or_app; simpl; auto|].
  simpl in E. exists i, q. split; [auto|]. split; [auto|].
  assert (Hnm : name <> "position") by (apply (Hn (name, p, v)); apply in_or_app; simpl; auto).
  rewrite (H1 i q name Hnm Hi). f_equal.
  assert (Hqin : In q (positions calls)).
  { assert (X := get_positions calls Hn Heq).
    assert (Hq : In q (first_seen n_eqb (positions calls))).
    { rewrite X, nth_error_map in Hi. destruct (nth_error _ i) eqn:Ei; [|discriminate].
      simpl in Hi. injection Hi as ->. eapply nth_error_In; eauto. }
    eapply first_seen_incl; eauto. }
  assert (Hpin : In p (positions calls)).
  { unfold positions, calls. rewrite map_app. apply in_or_app. simpl. auto. }
  assert (Hlater : last_write n_eqb name q later = None).
  { assert (Hsub : forall c, In c later -> In (snd (fst c)) (positions calls)).
    { intros c Hc. unfold positions, calls. rewrite map_app. apply in_or_app. right. right.
      apply (in_map (fun c => snd (fst c))). exact Hc. }
    clearbody calls. clear - Hl Heq Hsub Hqin Hpin E.
    induction later as [|[[n x] u] later IH]; simpl; auto.
    rewrite IH; auto.
    - destruct (String.eqb n name) eqn:En; auto. simpl.
      destruct (n_eqb x q) eqn:Ex; auto.
      apply String.eqb_eq in En.
      assert (Hf := Hl (n, x, u) (or_introl eq_refl) En). simpl in Hf.
      destruct Heq as (_ & Hs & Ht).
      assert (Hx : In x (positions calls)) by (apply (Hsub (n, x, u)); simpl; auto).
      rewrite (Ht x q p) in Hf; auto; discriminate.
    - intros c Hc. apply Hl. right; auto.
    - intros c Hc. apply Hsub. right; auto. }
  clear - Hlater E. unfold calls.
  induction before as [|[[n x] u] before IH]; simpl.
  - rewrite Hlater, String.eqb_refl, E. reflexivity.
  - now rewrite IH.
Qed.

(** C02.  The rows are exactly the distinct positions in first-logged order. *)
Theorem C02_one_row_per_position : forall calls : list (@call T),
  (forall c, In c calls -> fst (fst c) <> "position") ->
  equality_on n_eqb (positions calls) ->
  get_values "position" (after clear calls) =
    map (fun p => Some (CNum p)) (first_seen n_eqb (positions calls)) /\
  (forall i j p q, i <> j ->
     nth_error (get_values "position" (after clear calls)) i = Some (Some (CNum p)) ->
     nth_error (get_values "position" (after clear calls)) j = Some (Some (CNum q)) ->
     n_eqb p q = false).
Proof.
  intros calls Hn Heq. split; [apply get_positions; auto|].
  intros i j p q Hij Hi Hj. rewrite get_positions in * by auto.
  rewrite nth_error_map in *.
  destruct (nth_error (first_seen n_eqb (positions calls)) i) as [p'|] eqn:Ei; [|discriminate].
  destruct (nth_error (first_seen n_eqb (positions calls)) j) as [q'|] eqn:Ej; [|discriminate].
  simpl in *. injection Hi as ->. injection Hj as ->.
  destruct (nth_error_split _ _ Ei) as (l1 & l2 & Hl & Hlen).
  apply (first_seen_distinct (positions calls) Heq l1 p l2 Hl q).
  rewrite Hl in Ej. apply in_or_app.
  destruct (Nat.lt_ge_cases j i) as [Hlt|Hge].
  - left. rewrite nth_error_app1 in Ej by lia. eapply nth_error_In; eauto.
  - right. rewrite nth_error_app2 in Ej by lia.
    destruct (j - length l1) as [|k] eqn:Ek; [lia|]. simpl in Ej. eapply nth_error_In; eauto.
Qed.

(** C02, second half: a call (even with a NaN position) never removes or
    reorders rows or columns; it adds at most one row. *)
Theorem C02_rows_never_lost : forall name (p : T) v t,
  exists t' extra, add_variable name p v t = t' ++ extra /\ length extra <= 1 /\
    Forall2 (fun r r' => exists ext, map fst r' = map fst r ++ ext) t t'.
Proof. exact add_variable_extends. Qed.

(** C02, the NaN exception: a position that is not equal to itself gets a new
    row at every call. *)
Theorem C02_nan_position_refuted : forall (p : T) name v u,
  n_eqb p p = false -> name <> "position" ->
  length (after clear [(name, p, v); (name, p, u)]) = 2.
Proof.
  intros p name v u Hp Hn. unfold after, apply_call, clear. cbn [fold_left fst snd add_variable].
  unfold row_at. rewrite assoc_set_other by congruence. cbn [assoc String.eqb Ascii.eqb Bool.eqb].
  rewrite Hp. reflexivity.
Qed.

(** C03.  All columns are aligned with the position column. *)
Theorem C03_columns_aligned : forall calls : list (@call T),
  (forall c, In c calls -> fst (fst c) <> "position") ->
  equality_on n_eqb (positions calls) ->
  forall name, name <> "position" ->
  length (get_values name (after clear calls)) = length (get_values "position" (after clear calls)) /\
  combine (get_values "position" (after clear calls)) (get_values name (after clear calls)) =
    map (fun p => (Some (CNum p), last_write n_eqb name p calls)) (first_seen n_eqb (positions calls)).
Proof.
  intros calls Hn Heq name Hname. rewrite get_positions, get_values_aligned by auto. split.
  - now rewrite !map_length.
  - induction (first_seen n_eqb (positions calls)) as [|x l IH]; simpl; [reflexivity|]. now rewrite IH.
Qed.

(** C04.  Nothing is written for an empty table; otherwise the export is
    refused exactly when a row has a column that the first one has not, and an
    accepted export is the exact rectangular image of the table. *)
Theorem C04_csv_faithful_or_refused : forall t : table T,
  match t with
  | [] => write_values_to_file t = Ok None
  | first :: _ =>
      (write_values_to_file t = Err (ValueError "dict contains fields not in fieldnames") <->
         exists r k v, In r t /\ In (k, v) r /\ ~ In k (map fst first)) /\
      ((forall r k v, In r t -> In (k, v) r -> In k (map fst first)) <->
         exists f, write_values_to_file t = Ok (Some f)) /\
      (forall f, write_values_to_file t = Ok (Some f) ->
         csv_header f = map fst first /\
         length (csv_rows f) = length t /\
         forall i line r, nth_error (csv_rows f) i = Some line -> nth_error t i = Some r ->
           length line = length (csv_header f) /\
           forall j col, nth_error (csv_header f) j = Some col ->
             nth_error line j = Some (assoc col r))
  end.
Proof.
  intros [|first rest]; [reflexivity|].
  set (t := first :: rest). unfold write_values_to_file, t. fold t.
  destruct (rmapM_csv (map fst first) t) as [[(r & Hr & E) ->]|[H ->]]; simpl.
  - apply has_extra_true in E as (k & v & Hkv & Hk).
    split; [|split].
    + split; auto. intros _. exists r, k, v. auto.
    + split; [intros Hall; exfalso; apply Hk; exact (Hall r k v Hr Hkv) | intros (f & Hf); discriminate].
    + intros f Hf; discriminate.
  - split; [|split].
    + split; [discriminate|]. intros (r & k & v & Hr & Hkv & Hk).
      assert (Hx : has_extra (map fst first) r = true) by (apply has_extra_true; eauto).
      rewrite H in Hx by auto. discriminate.
    + split; [eauto|]. intros _ r k v Hr Hkv.
      destruct (in_dec string_dec k (map fst first)) as [Hin|Hin]; auto.
      assert (Hx : has_extra (map fst first) r = true) by (apply has_extra_true; eauto).
      rewrite H in Hx by auto. discriminate.
    + intros f Hf. injection Hf as <-. simpl. split; [reflexivity|]. split; [now rewrite map_length|].
      intros i line r Hi Hr.
      change (nth_error (map (csv_line (map fst first)) t) i = Some line) in Hi.
      change (nth_error t i = Some r) in Hr.
      rewrite nth_error_map, Hr in Hi. simpl in Hi. injection Hi as <-.
      unfold csv_line. split; [now rewrite map_length|].
      intros j col Hj. rewrite nth_error_map, Hj. reflexivity.
Qed.
End Props.
Print Assumptions C01_last_write_wins.
Print Assumptions C01_written_value_is_kept.
Print Assumptions C02_one_row_per_position.
Print Assumptions C02_rows_never_lost.
Print Assumptions C02_nan_position_refuted.
Print Assumptions C03_columns_aligned.
Print Assumptions C04_csv_faithful_or_refused.

(** Non-vacuity: real positions always satisfy the equality hypothesis. *)
Lemma equality_on_R (ps : list R) : equality_on (@n_eqb R _) ps.
Proof.
  repeat split; intros *; simpl; rewrite ?R_eqb_true; intros; subst; auto.
Qed.
Example C01_hypotheses_met :
  exists calls : list (@call R), length calls = 4 /\
    (forall c, In c calls -> fst (fst c) <> "position") /\
    equality_on n_eqb (positions calls) /\
    get_values "a" (after clear calls) = [Some (CNum 3%R); None] /\
    get_values "b" (after clear calls) = [Some (CNum 5%R); Some (CNum 4%R)].
Proof.
  exists [("a", 0, CNum 1); ("b", 10, CNum 4); ("a", 0, CNum 3); ("b", 0, CNum 5)]%R.
  split; [reflexivity|]. split.
  { intros c H. simpl in H. repeat destruct H as [<-|H]; simpl; try discriminate. destruct H. }
  split; [apply equality_on_R|].
  assert (E1 : R_eqb 10 0 = false) by (apply R_eqb_false; lra).
  assert (E2 : R_eqb 0 0 = true) by (apply R_eqb_true; lra).
  unfold after, get_values, apply_call, clear.
  repeat (cbn -[R_eqb]; unfold row_at; cbn -[R_eqb]; rewrite ?E1, ?E2).
  split; reflexivity.
Qed.
