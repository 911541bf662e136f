(** * Props_LogIndep: a run only writes to the logger, it never reads it (C70) *)
From Verif Require Import Base Num Json Logger World Vesicle MeltVisc RelVisc Bubbles Terrain Lava
  Thermal Flux Integrator Factory Run Spec LoggerProofs RNum LogIndep EffArray Props_EffArray Props_Logger.
From Coq Require Import Reals Lra.

Section Props.
Context {T : Type} {N : Num T}.

(** The rows of [old] whose position no call touches are left as they are. *)
Lemma after_untouched (old : table T) (calls : list (@call T)) :
  (forall c r, In c calls -> In r old -> row_at (snd (fst c)) r = false) ->
  forall new, after (old ++ new) calls = old ++ after new calls.
Proof.
  induction calls as [|c calls IH]; intros H new; [reflexivity|].
  unfold after in *. cbn [fold_left]. unfold apply_call at 2 4.
  rewrite add_variable_app.
  - apply IH. intros; apply H; simpl; auto.
  - apply Forall_forall. intros r Hr. apply H; simpl; auto.
Qed.

(** C70.  Everything a simulation does -- every value it computes, every
    decision, the exception if any, and the sequence of add_variable calls it
    makes -- is the same whatever the logger holds at the start. *)
Theorem C70_logger_is_write_only : forall (sm : sim T) fuel st depth,
  (forall old, simulate fuel sm (initial_world st old depth) = None) \/
  exists calls r w,
    (forall c, In c calls -> fst (fst c) <> "position") /\
    forall old, simulate fuel sm (initial_world st old depth) = Some (r, set_log (after old calls) w).
Proof.
  intros sm fuel st depth.
  destruct (obl_simulate sm fuel (initial_world st [] depth)) as [H|(c & r & w & Hn & H)]; [left|right; exists c, r, w; split; [exact Hn|]];
    intros old; exact (H old).
Qed.

Context (str_float : T -> string) (str_container : json T -> string).

(** The same for RunFlowgo.run: one list of calls for every initial content
    of the logger (what is already logged can only matter to the export). *)
Theorem C70_run_logs_the_same_calls : forall fuel (fs : fsys T) json_file folder,
  (forall old, run str_float str_container fuel fs old json_file folder = None) \/
  exists calls, (forall c, In c calls -> fst (fst c) <> "position") /\
    forall old, exists r fs', run str_float str_container fuel fs old json_file folder = Some (r, fs', after old calls).
Proof.
  intros fuel fs jf folder. unfold run.
  destruct (prepare mass_flag fs jf) as [[[[[eri name] sm] st] depth]|e].
  - destruct (C70_logger_is_write_only sm fuel st depth) as [H|(c & r & w & Hn & H)].
    + left. intros old. rewrite H. reflexivity.
    + right. exists c. split; [exact Hn|]. intros old. rewrite H. destruct r as [u|e].
      * cbn [set_log w_log]. destruct (write_table _ _ _) as [r1 fs1]. exists r1, fs1. reflexivity.
      * exists (Err e), fs. reflexivity.
  - right. exists []. split; [intros c []|]. intros old. exists (Err e), fs. reflexivity.
Qed.

(** *** Replaying the calls of a run on the table of that run changes nothing *)
Fixpoint present (name : string) (p : T) (t : table T) : Prop :=
  match t with
  | [] => False
  | r :: rest => if row_at p r then In name (map fst r) else present name p rest
  end.
Lemma assoc_set_keys_in k v (r : row T) n : In n (map fst r) -> In n (map fst (assoc_set k v r)).
Proof.
  induction r as [|[a b] r IH]; cbn [assoc_set map fst]; [intros []|]. destruct (String.eqb k a) eqn:E; cbn [map fst].
  - apply String.eqb_eq in E as ->. auto.
  - intros [H|H]; [left; exact H|right; auto].
Qed.
Lemma assoc_set_key_in k v (r : row T) : In k (map fst (assoc_set k v r)).
Proof.
  induction r as [|[a b] r IH]; cbn [assoc_set map fst]; [simpl; auto|]. destruct (String.eqb k a) eqn:E; cbn [map fst].
  - apply String.eqb_eq in E as ->. simpl; auto.
  - right. exact IH.
Qed.
Lemma assoc_set_present_keys k v (r : row T) : In k (map fst r) -> map fst (assoc_set k v r) = map fst r.
Proof.
  induction r as [|[a b] r IH]; cbn [assoc_set map fst]; [intros []|]. destruct (String.eqb k a) eqn:E; cbn [map fst].
  - apply String.eqb_eq in E as ->. reflexivity.
  - intros [H|H]; [apply String.eqb_neq in E; congruence|]. f_equal; auto.
Qed.
Lemma assoc_set_nodup k v (r : row T) : NoDup (map fst r) -> NoDup (map fst (assoc_set k v r)).
Proof.
  induction r as [|[a b] r IH]; cbn [assoc_set map fst]; intros H; [constructor; [intros []|constructor]|].
  destruct (String.eqb k a) eqn:E; cbn [map fst].
  - apply String.eqb_eq in E as ->. exact H.
  - inversion_clear H as [|? ? Ha Hr]. constructor; [|auto]. intros Hin. apply Ha.
    clear - Hin E. induction r as [|[c d] r IH]; cbn [assoc_set map fst] in *.
    + destruct Hin as [H|[]]. apply String.eqb_neq in E. congruence.
    + destruct (String.eqb k c) eqn:Ec; cbn [map fst] in Hin.
      * apply String.eqb_eq in Ec. subst c. exact Hin.
      * destruct Hin as [H|H]; [left; exact H|right; auto].
Qed.
Lemma row_at_set p k v (r : row T) : k <> "position" -> row_at p (assoc_set k v r) = row_at p r.
Proof. intros H. unfold row_at. rewrite assoc_set_other by auto. reflexivity. Qed.

Lemma present_self name p v (t : table T) : name <> "position" -> n_eqb p p = true -> present name p (add_variable name p v t).
Proof.
  intros Hn Hp. induction t as [|r t IH]; cbn [add_variable].
  - cbn [present]. rewrite row_at_set by auto. unfold row_at. cbn [assoc String.eqb Ascii.eqb Bool.eqb]. rewrite Hp. apply assoc_set_key_in.
  - destruct (row_at p r) eqn:E; cbn [present]; [rewrite row_at_set, E by auto; apply assoc_set_key_in|rewrite E; exact IH].
Qed.
Lemma present_other name p k q v (t : table T) : k <> "position" -> present name p t -> present name p (add_variable k q v t).
Proof.
  intros Hk. induction t as [|r t IH]; cbn [add_variable present]; [intros []|]. intros H.
  destruct (row_at q r); cbn [present]; [rewrite row_at_set by auto|]; destruct (row_at p r); auto using assoc_set_keys_in.
Qed.
Lemma present_after (calls : list (@call T)) : named_ok calls -> forall name p t, present name p t -> present name p (after t calls).
Proof.
  induction calls as [|[[k q] v] calls IH]; intros Hn name p t H; [exact H|].
  unfold after in *. cbn [fold_left]. apply IH; [intros c Hc; apply Hn; simpl; auto|]. apply present_other; [|exact H].
  apply (Hn (k, q, v)); simpl; auto.
Qed.
Lemma present_calls (calls : list (@call T)) : named_ok calls -> (forall p, In p (map (fun c => snd (fst c)) calls) -> n_eqb p p = true) ->
  forall c t, In c calls -> present (fst (fst c)) (snd (fst c)) (after t calls).
Proof.
  induction calls as [|[[k q] v] calls IH]; intros Hn Hp c t [].
  - subst c. cbn [fst snd]. unfold after. cbn [fold_left]. apply present_after; [intros c Hc; apply Hn; simpl; auto|].
    apply present_self; [apply (Hn (k, q, v)); simpl; auto|apply Hp; simpl; auto].
  - unfold after in *. cbn [fold_left]. apply IH; auto; [intros d Hd; apply Hn; simpl; auto|intros p Hq; apply Hp; simpl; auto].
Qed.
Lemma skeleton_add name p v (t : table T) : present name p t -> map (map fst) (add_variable name p v t) = map (map fst) t.
Proof.
  induction t as [|r t IH]; cbn [add_variable present map]; [intros []|]. destruct (row_at p r); cbn [map]; intros H.
  - f_equal. apply assoc_set_present_keys. exact H.
  - f_equal. auto.
Qed.
Lemma skeleton_after (calls : list (@call T)) : named_ok calls -> forall t,
  (forall c, In c calls -> present (fst (fst c)) (snd (fst c)) t) -> map (map fst) (after t calls) = map (map fst) t.
Proof.
  induction calls as [|[[k q] v] calls IH]; intros Hn t H; [reflexivity|].
  unfold after in *. cbn [fold_left]. rewrite IH.
  - apply skeleton_add. apply (H (k, q, v)). simpl; auto.
  - intros c Hc. apply Hn; simpl; auto.
  - intros c Hc. apply present_other; [apply (Hn (k, q, v)); simpl; auto|apply H; simpl; auto].
Qed.
Lemma nodup_add name p v (t : table T) : Forall (fun r => NoDup (map fst r)) t -> Forall (fun r => NoDup (map fst r)) (add_variable name p v t).
Proof.
  induction 1 as [|r t H Ht IH]; cbn [add_variable].
  - constructor; [|constructor]. apply assoc_set_nodup. constructor; [intros []|constructor].
  - destruct (row_at p r); constructor; auto using assoc_set_nodup.
Qed.
Lemma nodup_after (calls : list (@call T)) t : Forall (fun r => NoDup (map fst r)) t -> Forall (fun r => NoDup (map fst r)) (after t calls).
Proof. revert t. induction calls as [|c calls IH]; intros t H; [exact H|]. unfold after in *. cbn [fold_left]. apply IH, nodup_add, H. Qed.

Lemma assoc_cons_other k a (b : cell T) r : k <> a -> assoc k ((a, b) :: r) = assoc k r.
Proof. intros H. cbn [assoc]. destruct (String.eqb k a) eqn:E; [apply String.eqb_eq in E; contradiction|reflexivity]. Qed.
Lemma row_ext (r1 r2 : row T) : map fst r1 = map fst r2 -> NoDup (map fst r1) -> (forall k, assoc k r1 = assoc k r2) -> r1 = r2.
Proof.
  revert r2. induction r1 as [|[a b] r1 IH]; intros [|[c d] r2] Hk Hd H; try discriminate; [reflexivity|].
  cbn [map fst] in Hk. injection Hk as <- Hk. cbn [map fst] in Hd. inversion_clear Hd as [|? ? Ha Hr].
  assert (E := H a). cbn [assoc] in E. rewrite String.eqb_refl in E. injection E as <-. f_equal. apply IH; auto.
  intros k. destruct (string_dec k a) as [->|Hka].
  - assert (N1 : forall r : row T, ~ In a (map fst r) -> assoc a r = None).
    { clear. induction r as [|[x y] r IH]; intros Hn; [reflexivity|]. cbn [map fst In] in Hn. rewrite assoc_cons_other by firstorder. apply IH. firstorder. }
    rewrite !N1; auto. rewrite <- Hk. exact Ha.
  - assert (E := H k). rewrite !assoc_cons_other in E by exact Hka. exact E.
Qed.

Lemma first_seen_acc_app (eqb : T -> T -> bool) a : forall acc b, first_seen_acc eqb acc (a ++ b) = first_seen_acc eqb (first_seen_acc eqb acc a) b.
Proof. induction a as [|x a IH]; intros acc b; cbn [first_seen_acc app]; [reflexivity|]. destruct (existsb _ acc); apply IH. Qed.
Lemma first_seen_acc_known (eqb : T -> T -> bool) b : forall acc, (forall x, In x b -> existsb (eqb x) acc = true) -> first_seen_acc eqb acc b = acc.
Proof. induction b as [|x b IH]; intros acc H; cbn [first_seen_acc]; [reflexivity|]. rewrite H by (simpl; auto). apply IH. intros; apply H; simpl; auto. Qed.
Lemma first_seen_twice (ps : list T) : equality_on n_eqb ps -> first_seen n_eqb (ps ++ ps) = first_seen n_eqb ps.
Proof.
  intros He. unfold first_seen at 1. rewrite first_seen_acc_app. apply first_seen_acc_known. intros x Hx.
  destruct (first_seen_covers ps x He Hx) as (q & Hq & E). apply existsb_exists. exists q. auto.
Qed.
Lemma last_write_app name (p : T) (a b : list (@call T)) :
  last_write n_eqb name p (a ++ b) = match last_write n_eqb name p b with Some u => Some u | None => last_write n_eqb name p a end.
Proof.
  induction a as [|[[n q] v] a IH]; cbn [last_write app]; [destruct (last_write n_eqb name p b); reflexivity|].
  rewrite IH. destruct (last_write n_eqb name p b); reflexivity.
Qed.

Theorem C70_replay_changes_nothing : forall calls : list (@call T),
  (forall c, In c calls -> fst (fst c) <> "position") ->
  equality_on n_eqb (positions calls) ->
  after (after clear calls) calls = after clear calls.
Proof.
  intros calls Hn He.
  assert (Sk : map (map fst) (after (after clear calls) calls) = map (map fst) (after clear calls)).
  { apply skeleton_after; [exact Hn|]. intros c Hc. apply present_calls; auto. intros p Hp. apply (proj1 He). exact Hp. }
  assert (R1 := logger_refines calls Hn He).
  assert (R2 : Forall2 (row_rel (fun n p => last_write n_eqb n p calls)) (first_seen n_eqb (positions calls)) (after (after clear calls) calls)).
  { rewrite <- after_app. rewrite <- (first_seen_twice (positions calls) He).
    assert (E : positions calls ++ positions calls = positions (calls ++ calls)) by (unfold positions; rewrite map_app; reflexivity).
    rewrite E. eapply Forall2_impl_in; [|apply logger_refines].
    - intros p r _ [A B]. split; [exact A|]. intros n Hnp. rewrite B, last_write_app by exact Hnp. destruct (last_write n_eqb n p calls); reflexivity.
    - now apply named_app.
    - rewrite <- E. eapply equality_on_incl; [|exact He]. intros x Hx. apply in_app_or in Hx as [Hx|Hx]; exact Hx. }
  assert (D := nodup_after calls (after clear calls) (nodup_after calls clear (Forall_nil _))).
  revert Sk R1 R2 D. generalize (after (after clear calls) calls). intros t2.
  generalize (after clear calls). intros t1. generalize (first_seen n_eqb (positions calls)). intros ps Sk R1. revert t2 Sk. induction R1 as [|p r ps t1 [Ha Hb] R1 IH]; intros [|r2 t2] Sk R2 D; try discriminate; [reflexivity|].
  cbn [map] in Sk. injection Sk as S1 S2. inversion R2 as [|? ? ? ? [Hc Hd] R2']; subst. inversion_clear D as [|? ? D1 D2].
  f_equal; [|apply IH; assumption]. apply row_ext; auto.
  intros k. destruct (string_dec k "position") as [->|Hk]; [congruence|]. rewrite Hb, Hd by exact Hk. reflexivity.
Qed.
End Props.

(** ** Running the same configuration twice on one runner (exact arithmetic) *)
Lemma R_equality_on (ps : list R) : equality_on n_eqb ps.
Proof.
  assert (E : forall x y : R, n_eqb x y = true <-> x = y) by (intros; apply R_eqb_true).
  split; [|split]; intros *; rewrite ?E; try congruence; auto.
Qed.

Section Rerun.
Context (str_float : R -> string) (str_container : json R -> string).

(** C70.  Rows left by an earlier run at positions the new run does not visit
    stay as they are, in front of the rows that a fresh runner would give. *)
Theorem C70_rows_of_other_positions : forall fuel (fs : fsys R) json_file folder (old : table R) r fs' fresh,
  run str_float str_container fuel fs [] json_file folder = Some (r, fs', fresh) ->
  (forall row p, In row old -> In (Some (CNum p)) (get_values "position" fresh) -> assoc "position" row <> Some (CNum p)) ->
  exists r2 fs2, run str_float str_container fuel fs old json_file folder = Some (r2, fs2, old ++ fresh).
Proof.
  intros fuel fs jf folder old r fs' fresh H Hd.
  destruct (C70_run_logs_the_same_calls str_float str_container fuel fs jf folder) as [Hn|(c & Hn & E)].
  - rewrite Hn in H. discriminate.
  - destruct (E []) as (r1 & f1 & E1). rewrite E1 in H. injection H as -> -> <-.
    destruct (E old) as (r2 & f2 & E2). exists r2, f2. rewrite E2. do 2 f_equal.
    rewrite <- (app_nil_r old) at 1. apply after_untouched. intros x row Hx Hrow.
    destruct (C01_last_write_wins c Hn (R_equality_on _)) as [_ K]. destruct (K x Hx) as (i & p & Hi & Ep).
    apply R_eqb_true in Ep. assert (D := Hd row p Hrow (nth_error_In _ _ Hi)). unfold row_at.
    destruct (assoc "position" row) as [[q|q]|]; try reflexivity.
    destruct (n_eqb (snd (fst x)) q) eqn:Eq; [|reflexivity]. apply R_eqb_true in Eq. exfalso. apply D. congruence.
Qed.

(** C70.  run() called a second time on the same runner with the same
    configuration leaves the same table and rewrites the same file with the
    same content: rows are replaced, not duplicated.  (The result file must
    not be one of the files the run reads.) *)
Theorem C70_second_run_is_idempotent : forall fuel (fs : fsys R) f json_file folder fs1 table1,
  fs json_file = Some (FJson (JObj f)) ->
  run str_float str_container fuel fs [] json_file folder = Some (Ok tt, fs1, table1) ->
  fs1 json_file = fs json_file ->
  (forall p, slope_path f = Some p -> fs1 p = fs p) ->
  fs1 "resources/crust_temperature_profile.txt" = fs "resources/crust_temperature_profile.txt" ->
  exists fs2, run str_float str_container fuel fs1 table1 json_file folder = Some (Ok tt, fs2, table1) /\
    forall q, fs2 q = fs1 q.
Proof.
  intros fuel fs f jf folder fs1 t1 Hf H Hj Hs Hp.
  assert (P : prepare mass_flag fs jf = prepare mass_flag fs1 jf).
  { apply (prepare_agree _ _ _ _ _ Hf); unfold agree; auto. intros p Hq. symmetry. auto. }
  unfold run in H |- *. rewrite <- P. destruct (prepare mass_flag fs jf) as [[[[[eri name] sm] st] depth]|e]; [|discriminate].
  destruct (C70_logger_is_write_only sm fuel st depth) as [Hn|(c & r & w & Hn & E)]; [rewrite Hn in H; discriminate|].
  rewrite E in H |- *. destruct r as [u|e]; [|discriminate]. cbn [set_log w_log] in H |- *.
  destruct (write_table (result_path str_float str_container folder name eri) (after [] c) fs) as [r1 fs'] eqn:W.
  injection H as -> <- <-.
  assert (I := C70_replay_changes_nothing c Hn (R_equality_on _)). unfold clear in I. rewrite I.
  unfold write_table in W |- *. destruct (after [] c) as [|first rest] eqn:Et.
  - injection W as <-. exists fs. auto.
  - destruct (write_values_to_file (first :: rest)) as [x|e]; [|discriminate]. injection W as <-.
    eexists. split; [reflexivity|]. intros q. unfold fs_write. destruct (String.eqb q _); reflexivity.
Qed.
End Rerun.
Print Assumptions C70_run_logs_the_same_calls.
Print Assumptions C70_second_run_is_idempotent.
