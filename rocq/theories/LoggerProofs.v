(** * LoggerProofs: the logger refines a finite map of last writes *)
From Verif Require Import Base Num Json Logger Spec.

Section LoggerProofs.
Context {T : Type} {N : Num T}.

Definition call : Type := (string * T * cell T)%type.
Definition apply_call (t : table T) (c : call) : table T :=
  add_variable (fst (fst c)) (snd (fst c)) (snd c) t.
(** The table after a sequence of calls. *)
Definition after (t : table T) (calls : list call) : table T := fold_left apply_call calls t.
Definition positions (calls : list call) : list T := map (fun c => snd (fst c)) calls.

(** *** Rows are only extended *)
Definition keys (r : row T) : list string := map fst r.

Lemma assoc_set_prefix k v (r : row T) :
  exists ext, keys (assoc_set k v r) = keys r ++ ext.
Proof.
  destruct (in_dec string_dec k (map fst r)) as [H|H]; unfold keys.
  - exists []. rewrite app_nil_r. now apply assoc_set_keys_in.
  - exists [k]. now apply assoc_set_keys_notin.
Qed.

Lemma add_variable_extends name p v t :
  exists t' extra, add_variable name p v t = t' ++ extra /\
    (length extra <= 1)%nat /\
    Forall2 (fun r r' => exists ext, keys r' = keys r ++ ext) t t'.
Proof.
  induction t as [|r rest IH]; simpl.
  - exists [], [assoc_set name v [("position", CNum p)]]. simpl. repeat split; auto.
  - destruct (row_at p r).
    + exists (assoc_set name v r :: rest), []. rewrite app_nil_r. repeat split; auto.
      constructor. apply assoc_set_prefix.
      clear. induction rest; constructor; auto. exists []. now rewrite app_nil_r.
    + destruct IH as (t' & extra & -> & Hl & Hf). exists (r :: t'), extra.
      repeat split; auto. constructor; auto. exists []. now rewrite app_nil_r.
Qed.

(** *** Refinement *)
Definition row_rel (f : string -> T -> option (cell T)) (p : T) (r : row T) : Prop :=
  assoc "position" r = Some (CNum p) /\
  forall name, name <> "position" -> assoc name r = f name p.

Lemma row_at_eqb p q r : assoc "position" r = Some (CNum q) -> row_at p r = n_eqb p q.
Proof. unfold row_at. now intros ->. Qed.

Lemma add_variable_app name p v t1 t2 :
  Forall (fun r => row_at p r = false) t1 ->
  add_variable name p v (t1 ++ t2) = t1 ++ add_variable name p v t2.
Proof. induction 1 as [|r t1 H _ IH]; simpl; [reflexivity|]. now rewrite H, IH. Qed.

Lemma Forall2_impl_in {A B} (P Q : A -> B -> Prop) l1 l2 :
  (forall a b, In a l1 -> P a b -> Q a b) -> Forall2 P l1 l2 -> Forall2 Q l1 l2.
Proof.
  intros H F. induction F; constructor.
  - apply H; simpl; auto.
  - apply IHF. intros; apply H; simpl; auto.
Qed.

Lemma rel_not_at f p ps t :
  Forall2 (row_rel f) ps t -> (forall q, In q ps -> n_eqb p q = false) ->
  Forall (fun r => row_at p r = false) t.
Proof.
  intros F H. induction F as [|q r ps t [Hq _] F IH]; constructor.
  - rewrite (row_at_eqb p q r Hq). apply H; simpl; auto.
  - apply IH. intros; apply H; simpl; auto.
Qed.

Definition upd (name : string) (p : T) (v : cell T) (f : string -> T -> option (cell T)) :=
  fun n q => if String.eqb name n && n_eqb p q then Some v else f n q.

Lemma new_row_rel name p v f :
  name <> "position" -> n_eqb p p = true -> (forall n, f n p = None) ->
  row_rel (upd name p v f) p (assoc_set name v [("position", CNum p)]).
Proof.
  intros Hn Hp Hf. split.
  - rewrite assoc_set_other; auto.
  - intros n Hnp. unfold upd. rewrite Hp, andb_true_r, Hf.
    destruct (String.eqb name n) eqn:E.
    + apply String.eqb_eq in E. subst. apply assoc_set_same.
    + apply String.eqb_neq in E. rewrite assoc_set_other by auto. simpl.
      destruct (String.eqb n "position") eqn:E2; auto. apply String.eqb_eq in E2. contradiction.
Qed.

Lemma old_row_rel name p v f q r :
  n_eqb p q = false -> row_rel f q r -> row_rel (upd name p v f) q r.
Proof.
  intros H [H1 H2]. split; auto. intros n Hn. unfold upd. rewrite H, andb_false_r. auto.
Qed.

Lemma upd_row_rel name p v f q r :
  name <> "position" -> n_eqb p q = true -> row_rel f q r ->
  row_rel (upd name p v f) q (assoc_set name v r).
Proof.
  intros Hn H [H1 H2]. split.
  - rewrite assoc_set_other; auto.
  - intros n Hnp. unfold upd. rewrite H, andb_true_r.
    destruct (String.eqb name n) eqn:E.
    + apply String.eqb_eq in E. subst. apply assoc_set_same.
    + apply String.eqb_neq in E. rewrite assoc_set_other; auto.
Qed.

(** Pairwise distinct positions. *)
Definition distinct (ps : list T) : Prop :=
  forall l1 x l2, ps = l1 ++ x :: l2 -> forall y, In y (l1 ++ l2) -> n_eqb x y = false /\ n_eqb y x = false.

Lemma existsb_split {A} (g : A -> bool) l :
  existsb g l = true -> exists l1 x l2, l = l1 ++ x :: l2 /\ g x = true /\ (forall y, In y l1 -> g y = false).
Proof.
  induction l as [|a l IH]; simpl; [discriminate|].
  destruct (g a) eqn:E; simpl; intros H.
  - exists [], a, l. repeat split; auto. intros y [].
  - destruct (IH H) as (l1 & x & l2 & -> & Hx & Hy). exists (a :: l1), x, l2.
    repeat split; auto. intros y [<-|Hy']; auto.
Qed.

Lemma existsb_false {A} (g : A -> bool) l :
  existsb g l = false -> forall x, In x l -> g x = false.
Proof.
  induction l as [|a l IH]; simpl; intros H x; [intros []|].
  apply orb_false_iff in H as [H1 H2]. intros [<-|Hx]; auto.
Qed.

Lemma represents_step ps f t name p v :
  name <> "position" ->
  equality_on n_eqb (p :: ps) -> distinct ps ->
  (existsb (n_eqb p) ps = false -> forall n, f n p = None) ->
  Forall2 (row_rel f) ps t ->
  Forall2 (row_rel (upd name p v f)) (if existsb (n_eqb p) ps then ps else ps ++ [p])
    (add_variable name p v t).
Proof.
  intros Hname (Hr & Hs & Ht) Hd Hf F.
  destruct (existsb (n_eqb p) ps) eqn:E.
  - destruct (existsb_split _ _ E) as (l1 & q & l2 & -> & Hq & Hl1).
    apply Forall2_app_inv_l in F as (t1 & t2' & F1 & F2 & ->).
    inversion F2 as [|q0 r l2' t2 Hrel F2' Eq1 Eq2]; subst.
    rewrite add_variable_app by (eapply rel_not_at; eauto).
    simpl. destruct Hrel as [Hq0 Hrel]. rewrite (row_at_eqb p q r Hq0), Hq.
    apply Forall2_app.
    + eapply Forall2_impl_in; [|exact F1]. intros a b Ha Hab. apply old_row_rel; auto.
    + constructor.
      * apply upd_row_rel; auto. split; auto.
      * eapply Forall2_impl_in; [|exact F2']. intros a b Ha Hab. apply old_row_rel; auto.
        destruct (n_eqb p a) eqn:Epa; auto.
        assert (Hc : n_eqb q a = true).
        { apply (Ht q p a); simpl; auto; try (right; apply in_or_app; right; simpl; auto; fail).
          apply Hs; simpl; auto. right. apply in_or_app; right; simpl; auto. }
        destruct (Hd l1 q l2 eq_refl a) as [Hc' _]; [apply in_or_app; auto|]. congruence.
  - rewrite <- (app_nil_r t), add_variable_app by (eapply rel_not_at; eauto using existsb_false).
    apply Forall2_app.
    + eapply Forall2_impl_in; [|exact F]. intros a b Ha Hab. apply old_row_rel; auto.
      eapply existsb_false in E; eauto.
    + constructor; [|constructor]. apply new_row_rel; auto. apply Hr; simpl; auto.
Qed.

(** [first_seen] and [last_write] on an appended call. *)
Lemma first_seen_acc_snoc (eqb : T -> T -> bool) acc ps p :
  first_seen_acc eqb acc (ps ++ [p]) =
  let l := first_seen_acc eqb acc ps in if existsb (eqb p) l then l else l ++ [p].
Proof.
  revert acc; induction ps as [|q ps IH]; intros acc; simpl.
  - reflexivity.
  - destruct (existsb (eqb q) acc); apply IH.
Qed.

Lemma last_write_snoc name p (calls : list call) c :
  last_write n_eqb name p (calls ++ [c]) =
  if String.eqb (fst (fst c)) name && n_eqb (snd (fst c)) p then Some (snd c)
  else last_write n_eqb name p calls.
Proof.
  induction calls as [|[[n q] v] calls IH]; simpl.
  - destruct c as [[n q] v]. reflexivity.
  - rewrite IH. destruct (String.eqb (fst (fst c)) name && n_eqb (snd (fst c)) p); auto.
Qed.

Lemma first_seen_acc_incl (eqb : T -> T -> bool) acc ps x :
  In x (first_seen_acc eqb acc ps) -> In x acc \/ In x ps.
Proof.
  revert acc; induction ps as [|p ps IH]; intros acc; simpl; auto.
  destruct (existsb (eqb p) acc); intros H; apply IH in H; [tauto|].
  destruct H as [H|H]; [|tauto]. apply in_app_or in H. simpl in H. tauto.
Qed.
Lemma first_seen_incl (ps : list T) x : In x (first_seen n_eqb ps) -> In x ps.
Proof. intros H. apply first_seen_acc_incl in H as [[]|H]. exact H. Qed.

Lemma equality_on_incl (eqb : T -> T -> bool) l l' :
  (forall x, In x l' -> In x l) -> equality_on eqb l -> equality_on eqb l'.
Proof.
  intros Hi (A & B & C). repeat split; intros; eauto.
Qed.

Lemma first_seen_distinct ps : equality_on n_eqb ps -> distinct (first_seen n_eqb ps).
Proof.
  induction ps as [|p ps IH] using rev_ind; intros Heq.
  - intros l1 x l2 H. destruct l1; discriminate H.
  - assert (Heq' : equality_on n_eqb ps).
    { eapply equality_on_incl; [|exact Heq]. intros; apply in_or_app; auto. }
    specialize (IH Heq'). unfold first_seen in *. rewrite first_seen_acc_snoc. cbv zeta.
    destruct (existsb (n_eqb p) _) eqn:E; auto.
    set (l := first_seen_acc n_eqb [] ps) in *.
    assert (Hin : forall y, In y l -> In y (ps ++ [p])).
    { intros y Hy. apply in_or_app. left. apply (first_seen_incl ps). exact Hy. }
    assert (Hp : forall y, In y l -> n_eqb p y = false /\ n_eqb y p = false).
    { intros y Hy. assert (E1 := existsb_false _ _ E y Hy). split; auto.
      destruct (n_eqb y p) eqn:E2; auto. destruct Heq as (_ & Hs & _).
      rewrite <- E1. symmetry. apply Hs; auto. apply in_or_app; simpl; auto. }
    intros l1 x l2 Hl y Hy.
    destruct l2 as [|z l2 _] using rev_ind.
    + apply app_inj_tail in Hl as [<- <-]. rewrite app_nil_r in Hy. auto.
    + change (l1 ++ x :: l2 ++ [z]) with (l1 ++ (x :: l2) ++ [z]) in Hl.
      rewrite app_assoc in Hl. apply app_inj_tail in Hl as [Hl <-].
      rewrite app_assoc in Hy. apply in_app_or in Hy as [Hy|[<-|[]]].
      * apply (IH l1 x l2 Hl y Hy).
      * destruct (Hp x); [rewrite Hl; apply in_or_app; simpl; auto|]. auto.
Qed.

Lemma last_write_none name p (calls : list call) :
  (forall q, In q (positions calls) -> n_eqb q p = false) -> last_write n_eqb name p calls = None.
Proof.
  induction calls as [|[[n q] v] calls IH]; simpl; intros H; auto.
  rewrite IH by auto. rewrite (H q) by auto. now rewrite andb_false_r.
Qed.

Lemma first_seen_covers ps p :
  equality_on n_eqb ps -> In p ps -> exists q, In q (first_seen n_eqb ps) /\ n_eqb p q = true.
Proof.
  induction ps as [|x ps IH] using rev_ind; intros Heq Hin; [destruct Hin|].
  assert (Heq' : equality_on n_eqb ps).
  { eapply equality_on_incl; [|exact Heq]. intros; apply in_or_app; auto. }
  unfold first_seen in *. rewrite first_seen_acc_snoc. cbv zeta.
  apply in_app_or in Hin as [Hin|[<-|[]]].
  - destruct (IH Heq' Hin) as (q & Hq & E).
    destruct (existsb (n_eqb x) _); exists q; split; auto. apply in_or_app; auto.
  - destruct (existsb (n_eqb x) _) eqn:E.
    + apply existsb_exists in E as (q & Hq & Hx). eauto.
    + exists x. split; [apply in_or_app; simpl; auto|].
      destruct Heq as (Hr & _). apply Hr. apply in_or_app; simpl; auto.
Qed.

Theorem logger_refines (calls : list call) :
  (forall c, In c calls -> fst (fst c) <> "position") ->
  equality_on n_eqb (positions calls) ->
  Forall2 (row_rel (fun n p => last_write n_eqb n p calls))
    (first_seen n_eqb (positions calls)) (after clear calls).
Proof.
  induction calls as [|c calls IH] using rev_ind; intros Hn Heq.
  - constructor.
  - unfold positions in *. rewrite map_app in *. simpl in *.
    assert (Heq' : equality_on n_eqb (map (fun c => snd (fst c)) calls)).
    { eapply equality_on_incl; [|exact Heq]. intros; apply in_or_app; auto. }
    assert (IH' := IH (fun c H => Hn c (in_or_app _ _ _ (or_introl H))) Heq').
    unfold after in *. rewrite fold_left_app. simpl. unfold apply_call at 1.
    unfold first_seen in *. rewrite first_seen_acc_snoc. cbv zeta.
    assert (Hstep := represents_step (first_seen_acc n_eqb [] (map (fun c => snd (fst c)) calls))
       (fun n p => last_write n_eqb n p calls) (fold_left apply_call calls clear)
       (fst (fst c)) (snd (fst c)) (snd c)).
    eapply Forall2_impl_in; [|apply Hstep; auto].
    + intros q r _ [H1 H2]. split; auto. intros n Hnp. rewrite H2 by auto. unfold upd.
      now rewrite last_write_snoc.
    + apply Hn. apply in_or_app; simpl; auto.
    + eapply equality_on_incl; [|exact Heq]. intros x [<-|Hx].
      * apply in_or_app; simpl; auto.
      * apply in_or_app; left. apply (first_seen_incl _ _ Hx).
    + apply first_seen_distinct; auto.
    + intros E n. apply last_write_none. intros q Hq.
      destruct (n_eqb q (snd (fst c))) eqn:E2; auto.
      destruct (first_seen_covers _ q Heq' Hq) as (q' & Hq' & E3).
      assert (E4 := existsb_false _ _ E q' Hq').
      destruct Heq as (_ & Hs & Ht).
      assert (Hq'in : In q' (map (fun c => snd (fst c)) calls)) by (apply first_seen_incl; auto).
      assert (In q (map (fun c : call => snd (fst c)) calls ++ [snd (fst c)])) by (apply in_or_app; auto).
      assert (In q' (map (fun c : call => snd (fst c)) calls ++ [snd (fst c)])) by (apply in_or_app; auto).
      assert (In (snd (fst c)) (map (fun c : call => snd (fst c)) calls ++ [snd (fst c)])) by (apply in_or_app; simpl; auto).
      rewrite <- E4. symmetry. apply (Ht (snd (fst c)) q q'); auto.
Qed.

Lemma Forall2_map_eq {A B C} (f : A -> C) (g : B -> C) (P : A -> B -> Prop) l1 l2 :
  (forall a b, P a b -> g b = f a) -> Forall2 P l1 l2 -> map g l2 = map f l1.
Proof. intros H F. induction F; simpl; [reflexivity|]. now rewrite (H _ _ H0), IHF. Qed.

Theorem get_values_aligned (calls : list call) name :
  (forall c, In c calls -> fst (fst c) <> "position") ->
  equality_on n_eqb (positions calls) ->
  name <> "position" ->
  get_values name (after clear calls) =
  map (fun p => last_write n_eqb name p calls) (first_seen n_eqb (positions calls)).
Proof.
  intros Hn Heq Hp. unfold get_values.
  eapply Forall2_map_eq; [|apply (logger_refines calls Hn Heq)].
  intros p r [_ H]. now apply H.
Qed.

Theorem get_positions (calls : list call) :
  (forall c, In c calls -> fst (fst c) <> "position") ->
  equality_on n_eqb (positions calls) ->
  get_values "position" (after clear calls) =
  map (fun p => Some (CNum p)) (first_seen n_eqb (positions calls)).
Proof.
  intros Hn Heq. unfold get_values.
  eapply Forall2_map_eq; [|apply (logger_refines calls Hn Heq)].
  intros p r [H _]. exact H.
Qed.

(** *** Export *)
Lemma in_strings_true s l : in_strings s l = true <-> In s l.
Proof.
  unfold in_strings. rewrite existsb_exists. split.
  - intros (x & Hx & E). apply String.eqb_eq in E. now subst.
  - intros H. exists s. split; auto. apply String.eqb_refl.
Qed.

Lemma has_extra_true fields (r : row T) :
  has_extra fields r = true <-> exists k v, In (k, v) r /\ ~ In k fields.
Proof.
  unfold has_extra. rewrite existsb_exists. split.
  - intros ([k v] & Hin & E). exists k, v. split; auto.
    intros Hk. apply in_strings_true in Hk. simpl in E. rewrite Hk in E. discriminate.
  - intros (k & v & Hin & Hk). exists (k, v). split; auto. simpl.
    destruct (in_strings k fields) eqn:E; auto. apply in_strings_true in E. contradiction.
Qed.

Lemma rmapM_csv fields (t : table T) :
  (exists r, In r t /\ has_extra fields r = true) /\
     rmapM (csv_of_row fields) t = Err (ValueError "dict contains fields not in fieldnames")
  \/ (forall r, In r t -> has_extra fields r = false) /\
     rmapM (csv_of_row fields) t = Ok (map (csv_line fields) t).
Proof.
  induction t as [|r t IH]; simpl.
  - right. split; [intros ? []|reflexivity].
  - unfold csv_of_row at 1 3. destruct (has_extra fields r) eqn:E; simpl.
    + left. split; eauto.
    + destruct IH as [[(r' & Hr & E') ->]|[H ->]]; simpl.
      * left. split; eauto.
      * right. split; auto. intros x [<-|Hx]; auto.
Qed.
End LoggerProofs.
