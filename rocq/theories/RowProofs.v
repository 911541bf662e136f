(** * RowProofs: rows written by a step (any arithmetic) *)
From Verif Require Import Base Num Json Logger World Vesicle MeltVisc RelVisc Bubbles Terrain Lava
  Thermal Flux Integrator Frame StepLog StepProofs LoggerProofs.

(** The value the table holds for a position and a name: what a reader of the
    log finds. *)
Definition logged {T} {N : Num T} (t : table T) (p : T) (name : string) : option (cell T) :=
  match find (row_at p) t with
  | Some r => assoc name r
  | None => None
  end.

Section Rows.
Context {T : Type} {N : Num T}.

Definition sets (calls : list (string * cell T)) (r : row T) : row T :=
  fold_left (fun r c => assoc_set (fst c) (snd c) r) calls r.

Lemma assoc_app {V} k (l1 l2 : list (string * V)) :
  assoc k (l1 ++ l2) = match assoc k l1 with Some v => Some v | None => assoc k l2 end.
Proof.
  induction l1 as [|[k' v'] l1 IH]; simpl; auto. destruct (String.eqb k k'); auto.
Qed.

Lemma assoc_sets name calls r :
  assoc name (sets calls r) =
  match assoc name (rev calls) with Some v => Some v | None => assoc name r end.
Proof.
  revert r; induction calls as [|[k v] calls IH]; intros r; simpl; auto.
  rewrite IH, assoc_app. simpl.
  destruct (assoc name (rev calls)); auto.
  destruct (String.eqb name k) eqn:E.
  - apply String.eqb_eq in E. subst. apply assoc_set_same.
  - apply String.eqb_neq in E. apply assoc_set_other; auto.
Qed.

Definition no_position (calls : list (string * cell T)) : Prop :=
  Forall (fun n => n <> "position") (map fst calls).

Lemma assoc_rev_none (calls : list (string * cell T)) name :
  ~ In name (map fst calls) -> assoc name (rev calls) = None.
Proof.
  intros H. apply assoc_None_notin. rewrite map_rev. intros Hin. apply in_rev in Hin. auto.
Qed.

Lemma sets_position calls r :
  no_position calls -> assoc "position" (sets calls r) = assoc "position" r.
Proof.
  intros H. rewrite assoc_sets, assoc_rev_none; auto.
  intros Hin. unfold no_position in H. rewrite Forall_forall in H. now apply H in Hin.
Qed.

Lemma row_at_sets p calls r : no_position calls -> row_at p (sets calls r) = row_at p r.
Proof. intros H. unfold row_at. now rewrite sets_position. Qed.

Lemma sets_app c1 c2 r : sets (c1 ++ c2) r = sets c2 (sets c1 r).
Proof. unfold sets. apply fold_left_app. Qed.

Lemma log_many_app p c1 c2 (t : table T) : log_many p (c1 ++ c2) t = log_many p c2 (log_many p c1 t).
Proof. unfold log_many. apply fold_left_app. Qed.

Lemma split_at_row p (t : table T) :
  (exists t1 r t2, t = t1 ++ r :: t2 /\ Forall (fun r => row_at p r = false) t1 /\ row_at p r = true) \/
  Forall (fun r => row_at p r = false) t.
Proof.
  induction t as [|r t IH]; [right; constructor|].
  destruct (row_at p r) eqn:E.
  - left. exists [], r, t. auto.
  - destruct IH as [(t1 & r' & t2 & -> & H1 & H2)|H].
    + left. exists (r :: t1), r', t2. auto.
    + right. auto.
Qed.

Lemma log_many_hit p calls t1 r (t2 : table T) :
  no_position calls -> Forall (fun r => row_at p r = false) t1 -> row_at p r = true ->
  log_many p calls (t1 ++ r :: t2) = t1 ++ sets calls r :: t2.
Proof.
  revert r. induction calls as [|[k v] calls IH]; intros r Hn H1 H2; [reflexivity|].
  inversion Hn as [|? ? Hk Hn']; subst. simpl in Hk.
  unfold log_many. cbn [fold_left fst snd]. rewrite add_variable_app by auto. cbn [add_variable].
  rewrite H2. fold (log_many p calls (t1 ++ assoc_set k v r :: t2)).
  rewrite IH; auto. unfold row_at in *. rewrite assoc_set_other; auto.
Qed.

Definition fresh_row (p : T) : row T := [("position", CNum p)].

Lemma row_at_fresh p : row_at p (fresh_row p) = n_eqb p p.
Proof. reflexivity. Qed.

Lemma log_many_miss p calls (t : table T) :
  n_eqb p p = true -> no_position calls -> calls <> [] -> Forall (fun r => row_at p r = false) t ->
  log_many p calls t = t ++ [sets calls (fresh_row p)].
Proof.
  intros Hp Hn Hne Ht. destruct calls as [|[k v] calls]; [contradiction|].
  inversion Hn as [|? ? Hk Hn']; subst. simpl in Hk.
  unfold log_many. cbn [fold_left fst snd].
  rewrite <- (app_nil_r t) at 1. rewrite add_variable_app by auto. cbn [add_variable].
  fold (fresh_row p). fold (log_many p calls (t ++ [assoc_set k v (fresh_row p)])).
  rewrite log_many_hit; auto. unfold row_at. rewrite assoc_set_other by auto. exact Hp.
Qed.

(** Shape of the table after logging a batch. *)
Lemma log_many_shape p calls (t : table T) :
  n_eqb p p = true -> no_position calls -> calls <> [] ->
  (exists t1 r t2, t = t1 ++ r :: t2 /\ Forall (fun r => row_at p r = false) t1 /\ row_at p r = true /\
     log_many p calls t = t1 ++ sets calls r :: t2) \/
  (Forall (fun r => row_at p r = false) t /\ log_many p calls t = t ++ [sets calls (fresh_row p)]).
Proof.
  intros Hp Hn Hne. destruct (split_at_row p t) as [(t1 & r & t2 & -> & H1 & H2)|H].
  - left. exists t1, r, t2. repeat split; auto. now apply log_many_hit.
  - right. split; auto. now apply log_many_miss.
Qed.

Lemma find_skip p (t1 t2 : table T) :
  Forall (fun r => row_at p r = false) t1 -> find (row_at p) (t1 ++ t2) = find (row_at p) t2.
Proof. induction 1 as [|r t1 H _ IH]; simpl; auto. now rewrite H. Qed.

Lemma logged_after p calls (t : table T) name v :
  n_eqb p p = true -> no_position calls -> assoc name (rev calls) = Some v ->
  logged (log_many p calls t) p name = Some v.
Proof.
  intros Hp Hn Hv. unfold logged.
  destruct (log_many_shape p calls t Hp Hn) as [(t1 & r & t2 & -> & H1 & H2 & ->)|[H ->]].
  - intros ->. discriminate.
  - rewrite find_skip by auto. simpl. rewrite row_at_sets, H2 by auto.
    rewrite assoc_sets, Hv. reflexivity.
  - rewrite find_skip by auto. simpl. rewrite row_at_sets by auto. rewrite row_at_fresh, Hp.
    rewrite assoc_sets, Hv. reflexivity.
Qed.

(** Rows of other positions are untouched (no hypothesis on [p]). *)
Lemma add_variable_other p name v (t : table T) i r :
  nth_error t i = Some r -> row_at p r = false ->
  nth_error (add_variable name p v t) i = Some r.
Proof.
  revert i; induction t as [|r0 t IH]; intros i Hi Hr; [destruct i; discriminate|].
  cbn [add_variable]. destruct i as [|i]; simpl in Hi.
  - injection Hi as ->. rewrite Hr. reflexivity.
  - destruct (row_at p r0); simpl; auto.
Qed.
Lemma log_many_other p calls (t : table T) i r :
  nth_error t i = Some r -> row_at p r = false ->
  nth_error (log_many p calls t) i = Some r.
Proof.
  revert t; induction calls as [|[k v] calls IH]; intros t Hi Hr; [exact Hi|].
  unfold log_many. cbn [fold_left fst snd]. apply IH; auto. now apply add_variable_other.
Qed.

(** *** Columns *)
Definition add_key (ks : list string) (n : string) : list string :=
  if in_strings n ks then ks else ks ++ [n].
Definition add_keys (ns ks : list string) : list string := fold_left add_key ns ks.

Lemma keys_assoc_set k v (r : row T) : keys (assoc_set k v r) = add_key (keys r) k.
Proof.
  unfold add_key, keys. destruct (in_strings k (map fst r)) eqn:E.
  - apply in_strings_true in E. now apply assoc_set_keys_in.
  - apply assoc_set_keys_notin. intros H. apply in_strings_true in H. congruence.
Qed.
Lemma keys_sets calls (r : row T) : keys (sets calls r) = add_keys (map fst calls) (keys r).
Proof.
  revert r; induction calls as [|[k v] calls IH]; intros r; [reflexivity|].
  cbn [sets fold_left map fst snd]. unfold add_keys. cbn [fold_left].
  rewrite <- keys_assoc_set with (v := v). apply IH.
Qed.
Lemma add_keys_incl ns ks : incl ks (add_keys ns ks) /\ incl ns (add_keys ns ks).
Proof.
  revert ks; induction ns as [|n ns IH]; intros ks; cbn [add_keys fold_left].
  - split; [apply incl_refl|intros x []].
  - destruct (IH (add_key ks n)) as [H1 H2].
    assert (Hk : incl ks (add_key ks n) /\ In n (add_key ks n)).
    { unfold add_key. destruct (in_strings n ks) eqn:E.
      - apply in_strings_true in E. split; auto. apply incl_refl.
      - split; [apply incl_appl, incl_refl | apply in_or_app; simpl; auto]. }
    split.
    + eapply incl_tran; [apply Hk|exact H1].
    + intros x [<-|Hx]; [apply H1, Hk | apply H2; auto].
Qed.
Lemma add_keys_absorb ns ks : incl ns ks -> add_keys ns ks = ks.
Proof.
  revert ks; induction ns as [|n ns IH]; intros ks H; cbn [add_keys fold_left]; auto.
  assert (E : add_key ks n = ks).
  { unfold add_key. destruct (in_strings n ks) eqn:E; auto.
    exfalso. assert (In n ks) by (apply H; simpl; auto). apply in_strings_true in H0. congruence. }
  rewrite E. apply IH. intros x Hx. apply H; simpl; auto.
Qed.
Lemma add_keys_app n1 n2 ks : add_keys (n1 ++ n2) ks = add_keys n2 (add_keys n1 ks).
Proof. unfold add_keys. apply fold_left_app. Qed.
Lemma add_keys_sub ns ks x : In x (add_keys ns ks) -> In x ks \/ In x ns.
Proof.
  revert ks; induction ns as [|n ns IH]; intros ks; cbn [add_keys fold_left]; auto.
  intros H. apply IH in H as [H|H]; [|simpl; auto].
  unfold add_key in H. destruct (in_strings n ks); auto.
  apply in_app_or in H as [H|[<-|[]]]; simpl; auto.
Qed.

Lemma budget_names_no_position fl : Forall (fun n => n <> "position") (@budget_names T fl).
Proof.
  unfold budget_names. apply Forall_app. split; [|repeat constructor; discriminate].
  induction fl as [|f fl IH]; cbn [loop_names]; [constructor|].
  assert (Hf : Forall (fun n => n <> "position") (flux_logs f)).
  { destruct f as [[]| | | | |]; repeat constructor; discriminate. }
  repeat (apply Forall_app; split; auto). destruct f; repeat constructor; discriminate.
Qed.
Lemma step_calls_names x s vf mu rho tc f eff t0 tb :
  map fst (@step_calls T x s vf mu rho tc f eff t0 tb) = step_names.
Proof. reflexivity. Qed.
Lemma step_names_no_position : Forall (fun n => n <> "position") step_names.
Proof. repeat constructor; discriminate. Qed.
End Rows.
