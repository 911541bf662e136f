(** * CrashProofs: processes on a disk, in general *)
From Coq Require Import FunctionalExtensionality List Lia.
From Verif Require Import Base Num Json Logger World Run EffArray Crash.

Section Facts.
Context {T : Type} (garbled : file T -> nat -> file T).
Local Notation seen := (seen garbled).
Local Notation goes := (goes garbled).
Local Notation alone := (alone garbled).
Local Notation reads := (reads garbled).
Local Notation writes := (writes garbled).
Local Notation move := (move garbled).
Local Notation together := (together garbled).

Lemma put_same (p : string) (c : content T) d : put p c d p = Some c.
Proof. unfold put. now rewrite String.eqb_refl. Qed.
Lemma put_other (p q : string) (c : content T) d : q <> p -> put p c d q = d q.
Proof. intros H. unfold put. now apply String.eqb_neq in H as ->. Qed.
Lemma put_put (p : string) (c c' : content T) d : put p c (put p c' d) = put p c d.
Proof. apply functional_extensionality. intros q. unfold put. now destruct (String.eqb q p). Qed.
Lemma seen_put p f (d : disk T) : seen (put p (Whole f) d) = fs_write p f (seen d).
Proof. apply functional_extensionality. intros q. unfold Crash.seen, put, fs_write. now destruct (String.eqb q p). Qed.

Context {A : Type}.

(** ** A move changes neither the outcome nor the footprint *)
Lemma move_keeps m d (x : proc T A) d' x' : move m d x = (d', x') ->
  alone d' x' = alone d x /\ incl (reads d' x') (reads d x) /\ incl (writes d' x') (writes d x).
Proof.
  destruct x as [a|p k|p f next|p f next], m as [k'|]; intros H; injection H as <- <-; cbn [Crash.alone Crash.reads Crash.writes]; rewrite ?put_put;
    repeat split; try apply incl_refl; apply incl_tl, incl_refl.
Qed.
Lemma goes_keeps : forall ms d (x : proc T A) d' x', goes ms d x = (d', x') ->
  alone d' x' = alone d x /\ incl (reads d' x') (reads d x) /\ incl (writes d' x') (writes d x).
Proof.
  induction ms as [|m ms IH]; intros d x d' x' H; cbn [Crash.goes] in H.
  - injection H as <- <-. repeat split; apply incl_refl.
  - destruct (move m d x) as [d1 x1] eqn:E. destruct (move_keeps _ _ _ _ _ E) as (A1 & A2 & A3).
    destruct (IH _ _ _ _ H) as (B1 & B2 & B3). split; [congruence|]. split; eapply incl_tran; eauto.
Qed.
Lemma goes_app : forall ms ms' d (x : proc T A), goes (ms ++ ms') d x = let '(d', x') := goes ms d x in goes ms' d' x'.
Proof.
  induction ms as [|m ms IH]; intros ms' d x; cbn [Crash.goes app]; [reflexivity|]. destruct (move m d x) as [d1 x1]. apply IH.
Qed.

(** ** What a killed process leaves behind *)
(** The files a process writes when undisturbed, in order. *)
Fixpoint outputs (d : disk T) (x : proc T A) : list (string * file T) :=
  match x with
  | Done _ => []
  | Read p k => outputs d (k (seen d p))
  | Write p f next | Writing p f next => (p, f) :: outputs (put p (Whole f) d) next
  end.
Lemma writes_outputs : forall (x : proc T A) d, writes d x = map fst (outputs d x).
Proof. induction x as [a|p k IH|p f next IH|p f next IH]; intros d; cbn; rewrite ?IH; auto. Qed.
Lemma move_leaves m d (x : proc T A) d' x' : move m d x = (d', x') -> forall q,
  (d' q = d q \/ exists f, In (q, f) (outputs d x) /\ (d' q = Some (Whole f) \/ exists k, d' q = Some (Part f k) /\ exists next, x' = Writing q f next)) /\
  incl (outputs d' x') (outputs d x).
Proof.
  destruct x as [a|p k|p f next|p f next], m as [k'|]; intros H q; injection H as <- <-; cbn [outputs]; rewrite ?put_put.
  1, 2, 3, 4, 5: split; [left; reflexivity|apply incl_refl].
  all: split; [|solve [apply incl_refl | apply incl_tl, incl_refl]].
  all: destruct (string_dec q p) as [->|Ne]; [right; exists f; rewrite put_same; split; [left; reflexivity|]|left; now apply put_other].
  - right. exists 0. split; eauto.
  - right. exists k'. split; eauto.
  - left. reflexivity.
Qed.
Lemma goes_leaves : forall ms d (x : proc T A) d' x', goes ms d x = (d', x') -> forall q,
  (d' q = d q \/ exists f, In (q, f) (outputs d x) /\ (d' q = Some (Whole f) \/ exists k, d' q = Some (Part f k) /\ exists next, x' = Writing q f next)) /\
  incl (outputs d' x') (outputs d x).
Proof.
  intros ms. induction ms as [|m ms IH] using rev_ind; intros d x d' x' H q.
  - injection H as <- <-. split; [auto|apply incl_refl].
  - rewrite goes_app in H. destruct (goes ms d x) as [d1 x1] eqn:E. cbn [Crash.goes] in H. destruct (move m d1 x1) as [d2 x2] eqn:E2.
    injection H as <- <-. destruct (IH _ _ _ _ E q) as [Q1 I1]. destruct (move_leaves _ _ _ _ _ E2 q) as [Q2 I2].
    split; [|eapply incl_tran; eauto].
    destruct Q2 as [Q2|(f & Hf & Q2)]; [|right; exists f; split; [apply I1, Hf|exact Q2]].
    destruct Q1 as [Q1|(f & Hf & [Q1|(k & Q1 & next & ->)])]; [left; congruence| |].
    + right. exists f. split; [exact Hf|]. left. congruence.
    + right. exists f. split; [exact Hf|]. cbn [Crash.move] in E2. destruct m as [k'|]; injection E2 as <- <-; rewrite put_same.
      * right. exists k'. split; eauto.
      * left. reflexivity.
Qed.

(** ** Starting again *)
(** The paths read before the process itself has written them. *)
Fixpoint needs (d : disk T) (own : list string) (x : proc T A) : list string :=
  match x with
  | Done _ => []
  | Read p k => (if in_dec string_dec p own then [] else [p]) ++ needs d own (k (seen d p))
  | Write p f next | Writing p f next => needs (put p (Whole f) d) (p :: own) next
  end.
Lemma needs_reads : forall (x : proc T A) d own, incl (needs d own x) (reads d x).
Proof.
  induction x as [a|p k IH|p f next IH|p f next IH]; intros d own; cbn; try apply incl_refl; auto.
  destruct (in_dec string_dec p own); cbn; [apply incl_tl|apply incl_cons; [left; reflexivity|apply incl_tl]]; apply IH.
Qed.
Lemma alone_agree : forall (x : proc T A) d d' own (S : list string),
  (forall q, ~ In q S -> d q = d' q) -> (forall q, In q own -> d q = d' q) ->
  (forall q, In q (needs d own x) -> ~ In q S) ->
  fst (alone d x) = fst (alone d' x) /\
  (forall q, (~ In q S \/ In q own \/ In q (writes d x)) -> snd (alone d x) q = snd (alone d' x) q) /\
  writes d x = writes d' x.
Proof.
  induction x as [a|p k IH|p f next IH|p f next IH]; intros d d' own S H1 H2 H3; cbn [Crash.alone Crash.writes needs] in *.
  - split; [reflexivity|]. split; [|reflexivity]. intros q [Q|[Q|[]]]; cbn; auto.
  - assert (E : seen d p = seen d' p).
    { unfold Crash.seen. destruct (in_dec string_dec p own) as [i|n]; [now rewrite (H2 p i)|].
      rewrite (H1 p); [reflexivity|]. apply H3. left. reflexivity. }
    rewrite <- E. apply IH with (own := own) (S := S); auto. intros q Hq. apply H3. apply in_or_app. right. exact Hq.
  - destruct (IH (put p (Whole f) d) (put p (Whole f) d') (p :: own) S) as (A1 & A2 & A3).
    + intros q Hq. unfold put. destruct (String.eqb q p); auto.
    + intros q [<-|Hq]; [now rewrite !put_same|]. unfold put. destruct (String.eqb q p); auto.
    + intros q Hq. apply H3, Hq.
    + split; [exact A1|]. split; [|now rewrite A3]. intros q Q. apply A2. destruct Q as [Q|[Q|[<-|Q]]]; cbn; auto.
  - destruct (IH (put p (Whole f) d) (put p (Whole f) d') (p :: own) S) as (A1 & A2 & A3).
    + intros q Hq. unfold put. destruct (String.eqb q p); auto.
    + intros q [<-|Hq]; [now rewrite !put_same|]. unfold put. destruct (String.eqb q p); auto.
    + intros q Hq. apply H3, Hq.
    + split; [exact A1|]. split; [|now rewrite A3]. intros q Q. apply A2. destruct Q as [Q|[Q|[<-|Q]]]; cbn; auto.
Qed.
(** A process that needs nothing it writes can be killed at any moment and
    started again. *)
Lemma restart ms d (x : proc T A) d' x' : goes ms d x = (d', x') ->
  (forall q, In q (needs d [] x) -> ~ In q (writes d x)) -> alone d' x = alone d x.
Proof.
  intros H Hn. destruct (alone_agree x d d' [] (writes d x)) as (E1 & E2 & _); auto.
  - intros q Hq. destruct (goes_leaves _ _ _ _ _ H q) as [[Q|(f & Hf & _)] _]; [congruence|].
    exfalso. apply Hq. rewrite writes_outputs. change q with (fst (q, f)). now apply in_map.
  - intros q [].
  - destruct (alone d x) as [a e] eqn:Ea, (alone d' x) as [a' e'] eqn:Ea'. cbn in E1, E2. subst a'. f_equal.
    apply functional_extensionality. intros q. destruct (in_dec string_dec q (writes d x)); symmetry; apply E2; auto.
Qed.

(** ** Several processes *)
Definition moves_of (i : nat) (sch : list (nat * option nat)) : list (option nat) :=
  map snd (filter (fun s => Nat.eqb (fst s) i) sch).
Definition independent (d : disk T) (ps : nat -> proc T A) : Prop :=
  forall i j q, i <> j -> In q (writes d (ps i)) -> ~ In q (reads d (ps j)) /\ ~ In q (writes d (ps j)).

Lemma together_app : forall sch sch' d (ps : nat -> proc T A), together (sch ++ sch') d ps = let '(d', ps') := together sch d ps in together sch' d' ps'.
Proof.
  induction sch as [|[i m] sch IH]; intros sch' d ps; cbn [Crash.together app]; [reflexivity|]. destruct (move m d (ps i)) as [d1 x1]. apply IH.
Qed.
Lemma move_put m d (x : proc T A) d' x' : move m d x = (d', x') ->
  d' = d \/ exists p c, In p (writes d x) /\ d' = put p c d.
Proof.
  destruct x as [a|p k|p f next|p f next], m as [k'|]; intros H; injection H as <- <-; cbn [Crash.writes];
    solve [left; reflexivity|right; eexists p, _; split; [left; reflexivity|reflexivity]].
Qed.
Lemma move_same m d e (x : proc T A) : (forall q, In q (reads e x) -> d q = e q) ->
  snd (move m d x) = snd (move m e x) /\ forall q, d q = e q -> fst (move m d x) q = fst (move m e x) q.
Proof.
  intros H. destruct x as [a|p k|p f next|p f next], m as [k'|]; cbn [Crash.move fst snd]; auto.
  - split; [|auto]. unfold Crash.seen. rewrite (H p); [reflexivity|]. left. reflexivity.
  - split; [reflexivity|]. intros q E. unfold put. now destruct (String.eqb q p).
  - split; [reflexivity|]. intros q E. unfold put. now destruct (String.eqb q p).
  - split; [reflexivity|]. intros q E. unfold put. now destruct (String.eqb q p).
Qed.
(** Each of several independent processes behaves as if it were alone. *)
Lemma as_if_alone d (ps : nat -> proc T A) : independent d ps -> forall sch d' ps', together sch d ps = (d', ps') ->
  (forall i, ps' i = snd (goes (moves_of i sch) d (ps i)) /\
     forall q, In q (reads d (ps i)) \/ In q (writes d (ps i)) -> d' q = fst (goes (moves_of i sch) d (ps i)) q) /\
  forall q, (forall i, ~ In q (writes d (ps i))) -> d' q = d q.
Proof.
  intros I sch. induction sch as [|[i m] sch IH] using rev_ind; intros d' ps' H.
  - injection H as <- <-. split; [intros i; split; [reflexivity|auto]|auto].
  - rewrite together_app in H. destruct (together sch d ps) as [d1 ps1]. destruct (IH _ _ eq_refl) as [J1 J2].
    cbn [Crash.together] in H. destruct (move m d1 (ps1 i)) as [d2 x2] eqn:E. injection H as <- <-.
    assert (Mi : moves_of i (sch ++ [(i, m)]) = moves_of i sch ++ [m]).
    { unfold moves_of. rewrite filter_app, map_app. cbn. now rewrite Nat.eqb_refl. }
    assert (Mj : forall j, j <> i -> moves_of j (sch ++ [(i, m)]) = moves_of j sch).
    { intros j Hj. unfold moves_of. rewrite filter_app, map_app. cbn. rewrite (proj2 (Nat.eqb_neq i j)) by auto. apply app_nil_r. }
    destruct (J1 i) as [K1 K2]. destruct (goes (moves_of i sch) d (ps i)) as [e x] eqn:Eg. cbn [fst snd] in K1, K2.
    destruct (goes_keeps _ _ _ _ _ Eg) as (_ & R1 & W1).
    assert (S := move_same m d1 e x ltac:(intros q Hq; apply K2; left; apply R1, Hq)).
    rewrite K1 in E. rewrite E in S. cbn [fst snd] in S. destruct S as [S1 S2].
    assert (Ch : forall q, ~ In q (writes d (ps i)) -> d2 q = d1 q).
    { assert (Mp := move_put m e x). destruct (move m e x) as [e2 y2] eqn:Ee. destruct (Mp _ _ eq_refl) as [->|(p & c & Hp & ->)].
      - intros q Hq. revert E Ee. clear -Hq W1. destruct x as [a|p k|p f next|p f next], m; cbn [Crash.move]; intros E Ee; injection E as <- _; auto;
          apply put_other; intros ->; apply Hq, W1; left; reflexivity.
      - intros q Hq. revert E. destruct x as [a|p' k|p' f next|p' f next], m; cbn [Crash.move]; intros E; injection E as <- _; auto;
          apply put_other; intros ->; apply Hq, W1; left; reflexivity. }
    split.
    + intros j. unfold upd. destruct (Nat.eqb_spec j i) as [->|Ne].
      * rewrite Mi, goes_app, Eg. cbn [Crash.goes]. destruct (move m e x) as [e2 y2]. cbn [fst snd] in *.
        split; [exact S1|]. intros q Hq. apply S2. apply K2, Hq.
      * rewrite (Mj j Ne). destruct (J1 j) as [L1 L2]. split; [exact L1|]. intros q Hq. rewrite <- (L2 q Hq). apply Ch.
        intros Hw. destruct (I i j q (not_eq_sym Ne) Hw) as [Q1 Q2]. tauto.
    + intros q Hq. rewrite Ch by apply Hq. apply J2, Hq.
Qed.
Lemma goes_done ms d (x : proc T A) d' a : goes ms d x = (d', Done a) -> alone d x = (a, d').
Proof. intros H. destruct (goes_keeps _ _ _ _ _ H) as (E & _). cbn in E. congruence. Qed.
End Facts.

(** ** Composed processes *)
Section Andthen.
Context {T : Type} (garbled : file T -> nat -> file T) {A B : Type}.
Local Notation seen := (seen garbled).
Local Notation alone := (alone garbled).
Local Notation outputs := (outputs garbled).
Local Notation needs := (needs garbled).
Local Notation goes := (goes garbled).
Variable k : A -> proc T B.

Lemma alone_andthen : forall (x : proc T A) d, alone d (andthen x k) = let '(a, d') := alone d x in alone d' (k a).
Proof. induction x as [a|p c IH|p f next IH|p f next IH]; intros d; cbn [andthen Crash.alone]; auto. Qed.
Lemma outputs_andthen : forall (x : proc T A) d,
  outputs d (andthen x k) = outputs d x ++ (let '(a, d') := alone d x in outputs d' (k a)).
Proof. induction x as [a|p c IH|p f next IH|p f next IH]; intros d; cbn [andthen Crash.alone CrashProofs.outputs app]; rewrite ?IH; auto. Qed.
Lemma reads_andthen : forall (x : proc T A) d,
  Crash.reads garbled d (andthen x k) = Crash.reads garbled d x ++ (let '(a, d') := alone d x in Crash.reads garbled d' (k a)).
Proof. induction x as [a|p c IH|p f next IH|p f next IH]; intros d; cbn [andthen Crash.alone Crash.reads app]; rewrite ?IH; auto. Qed.
Lemma needs_andthen : forall (x : proc T A) d own q, In q (needs d own (andthen x k)) ->
  In q (needs d own x) \/ exists own', incl own own' /\ In q (needs (snd (alone d x)) own' (k (fst (alone d x)))).
Proof.
  induction x as [a|p c IH|p f next IH|p f next IH]; intros d own q H; cbn [andthen Crash.alone CrashProofs.needs fst snd] in *.
  - right. exists own. split; [apply incl_refl|exact H].
  - apply in_app_or in H as [H|H]; [left; apply in_or_app; auto|]. apply IH in H as [H|H]; [left; apply in_or_app; auto|auto].
  - apply IH in H as [H|(own' & I & H)]; [auto|]. right. exists own'. split; [|exact H]. eapply incl_tran; [|exact I]. apply incl_tl, incl_refl.
  - apply IH in H as [H|(own' & I & H)]; [auto|]. right. exists own'. split; [|exact H]. eapply incl_tran; [|exact I]. apply incl_tl, incl_refl.
Qed.
Lemma goes_andthen : forall ms (x : proc T A) d d' a, goes ms d x = (d', Done a) ->
  exists ms', goes ms' d (andthen x k) = (d', k a).
Proof.
  induction ms as [|m ms IH]; intros x d d' a H; cbn [Crash.goes] in H.
  - injection H as <- ->. exists []. reflexivity.
  - destruct (move garbled m d x) as [d1 x1] eqn:E. destruct (IH _ _ _ _ H) as [ms' H'].
    destruct x as [a0|p c|p f next|p f next], m as [n|]; cbn [Crash.move] in E; injection E as <- <-; cbn [andthen] in *;
      [exists ms'; exact H'|exists ms'; exact H'|exists ms'; exact H'|exists (None :: ms')|exists ms'; exact H'|exists (None :: ms')|exists (Some n :: ms')|exists (None :: ms')]; exact H'.
Qed.
End Andthen.

Section More.
Context {T : Type} (garbled : file T -> nat -> file T) {A : Type}.
Lemma needs_own : forall (x : proc T A) d own q, In q (needs garbled d own x) -> ~ In q own.
Proof.
  induction x as [a|p c IH|p f next IH|p f next IH]; intros d own q H; cbn [needs] in H.
  - destruct H.
  - apply in_app_or in H as [H|H]; [|eauto]. destruct (in_dec string_dec p own) as [i|n]; [destruct H|]. destruct H as [<-|[]]. exact n.
  - apply IH in H. intros Hq. apply H. now right.
  - apply IH in H. intros Hq. apply H. now right.
Qed.
(** Left alone, a process finishes. *)
Lemma finishes : forall (x : proc T A) d, exists ms, goes garbled ms d x = (snd (alone garbled d x), Done (fst (alone garbled d x))).
Proof.
  induction x as [a|p c IH|p f next IH|p f next IH]; intros d; cbn [alone].
  - exists []. reflexivity.
  - destruct (IH (seen garbled d p) d) as [ms H]. exists (None :: ms). exact H.
  - destruct (IH (put p (Whole f) d)) as [ms H]. exists (None :: None :: ms). cbn [goes move]. rewrite put_put. exact H.
  - destruct (IH (put p (Whole f) d)) as [ms H]. exists (None :: ms). exact H.
Qed.
(** A schedule in which only process [i] moves. *)
Lemma only : forall ms i d (ps : nat -> proc T A),
  together garbled (map (pair i) ms) d ps =
  let '(d', x') := goes garbled ms d (ps i) in (d', match ms with [] => ps | _ => upd i x' ps end).
Proof.
  intros ms i. induction ms as [|m ms IH]; intros d ps; cbn [map together goes]; [reflexivity|].
  destruct (move garbled m d (ps i)) as [d1 x1]. rewrite IH. unfold upd at 1. rewrite Nat.eqb_refl.
  destruct (goes garbled ms d1 x1) as [d2 x2] eqn:E. f_equal. destruct ms.
  - injection E as <- <-. reflexivity.
  - apply functional_extensionality. intros j. unfold upd. now destruct (Nat.eqb j i).
Qed.
End More.
