(** * Props_CausalFile: extending or editing the slope file downstream: C83 for files *)
From Coq Require Import Reals Lra Classical_Prop.
From Verif Require Import Base Num Json Logger World Vesicle MeltVisc RelVisc Bubbles Terrain Lava
  Thermal Flux Integrator Factory Run RNum Props_Terrain Valid Props_Prefix Causal Props_Causal.
Open Scope R_scope.

(** How many kept lines after its own an entry of the smoothed profile depends on. *)
Definition reach (smooth : option R) : nat := match smooth with Some n => half_window n | None => 0%nat end.

Lemma profile_common header (common tail : list string) (prof pts : list (R * R)) :
  read_slope_profile (header :: common ++ tail) = Ok prof -> read_slope_profile (header :: common) = Ok pts ->
  exists more, prof = pts ++ more.
Proof.
  unfold read_slope_profile. cbn [tl]. intros H1 H2.
  apply rbind_ok in H1 as (r & Hr & H1). apply Ok_inj in H1. subst prof.
  apply rbind_ok in H2 as (r0 & Hr0 & H2). apply Ok_inj in H2. subst pts.
  apply rmapM_app in Hr as (r1 & r2 & -> & R1 & R2). rewrite R1 in Hr0. apply Ok_inj in Hr0. subst r0.
  exists (keep_some r2). clear. induction r1 as [|[q|] r1 IH]; cbn [app keep_some]; congruence.
Qed.
Lemma window_common (l t : list R) h i : (i + h < length l)%nat -> window (l ++ t) h i = window l h i.
Proof.
  intros H. unfold window. rewrite app_length. replace (Nat.min (length l + length t) (i + h + 1)) with (i + h + 1)%nat by lia.
  replace (Nat.min (length l) (i + h + 1)) with (i + h + 1)%nat by lia.
  rewrite skipn_app. replace (i - h - length l)%nat with 0%nat by lia. cbn [skipn].
  rewrite firstn_app, skipn_length. replace (i + h + 1 - (i - h) - (length l - (i - h)))%nat with 0%nat by lia.
  cbn [firstn]. now rewrite app_nil_r.
Qed.
Lemma map_ext_seq {B} (f g : nat -> B) n : (forall i, (i < n)%nat -> f i = g i) -> map f (seq 0 n) = map g (seq 0 n).
Proof. intros H. apply map_ext_in. intros i Hi. apply in_seq in Hi. apply H. lia. Qed.
Lemma firstn_combine {A B} n : forall (l : list A) (m : list B), firstn n (combine l m) = combine (firstn n l) (firstn n m).
Proof. induction n as [|n IH]; intros [|x l] [|y m]; cbn; rewrite ?IH; try reflexivity; now destruct (firstn n l). Qed.
Lemma nth_combine {A B} k : forall (l : list A) (m : list B) x, length l = length m -> nth_error l k = Some x ->
  exists y, nth_error (combine l m) k = Some (x, y).
Proof.
  induction k as [|k IH]; intros [|a l] [|b m] x L H; try discriminate; cbn in *; [injection H as <-; eauto|].
  apply IH; [lia|exact H].
Qed.

(** The slope points used by the run: the first [n] depend on the first kept
    lines only. *)
Lemma smoothed_common (pts more : list R) smooth k v : (forall n, smooth = Some n -> 0 <= n) ->
  (k + reach smooth < length pts)%nat ->
  match smooth with Some n => running_mean (pts ++ more) n | None => Ok (pts ++ more) end = Ok v ->
  firstn (S k) v = match smooth with
                   | Some n => map (fun i => mean_R (window pts (half_window n) i)) (seq 0 (S k))
                   | None => firstn (S k) pts
                   end.
Proof.
  intros Hn Hk H. destruct smooth as [n|]; cbn [reach] in Hk.
  - rewrite C47_running_mean in H by (apply Hn; reflexivity). apply Ok_inj in H. subst v.
    rewrite app_length. replace (length pts + length more)%nat with (S k + (length pts + length more - S k))%nat by lia.
    rewrite seq_app, map_app, firstn_app. rewrite map_length, seq_length, Nat.sub_diag, firstn_O, app_nil_r. rewrite firstn_all2 by (rewrite map_length, seq_length; lia).
    apply map_ext_seq. intros i Hi. rewrite window_common by lia. reflexivity.
  - apply Ok_inj in H. subst v. rewrite firstn_app. replace (S k - length pts)%nat with 0%nat by lia. cbn [firstn].
    now rewrite app_nil_r.
Qed.

(** Two slope files with the same first lines: the two terrains have the same
    slope before the k-th kept point of the common part, provided the smoothing
    window of that point does not reach beyond the common part. *)
Theorem C83_slope_before_the_change : forall header common tail1 tail2 smooth t (t1 t2 : terrain R) pts k q,
  (forall n, smooth = Some n -> 0 <= n) ->
  read_slope_from_file (header :: common ++ tail1) smooth t = Ok t1 ->
  read_slope_from_file (header :: common ++ tail2) smooth t = Ok t2 ->
  read_slope_profile (header :: common) = Ok pts ->
  nth_error pts k = Some q -> (1 <= k)%nat -> (k + reach smooth < length pts)%nat ->
  forall p, p < fst q -> get_channel_slope t1 p = get_channel_slope t2 p.
Proof.
  intros header common tail1 tail2 smooth t t1 t2 pts k q Hn H1 H2 Hp Hq Hk Hr p Hlt.
  unfold read_slope_from_file in H1, H2.
  apply rbind_ok in H1 as (f1 & P1 & H1). apply rbind_ok in H1 as (v1 & V1 & H1). apply rbind_ok in H1 as (s1 & S1 & H1).
  apply rbind_ok in H2 as (f2 & P2 & H2). apply rbind_ok in H2 as (v2 & V2 & H2). apply rbind_ok in H2 as (s2 & S2 & H2).
  apply Ok_inj in H1. apply Ok_inj in H2. subst t1 t2. unfold get_channel_slope. cbn [ter_spline].
  destruct (profile_common _ _ _ _ _ P1 Hp) as (m1 & ->). destruct (profile_common _ _ _ _ _ P2 Hp) as (m2 & ->).
  rewrite map_app in V1, V2.
  assert (Hr' : (k + reach smooth < length (map snd pts))%nat) by (rewrite map_length; exact Hr).
  assert (E1 := smoothed_common _ _ _ _ _ Hn Hr' V1). assert (E2 := smoothed_common _ _ _ _ _ Hn Hr' V2).
  apply make_spline_ok in S1 as (-> & L1 & _). apply make_spline_ok in S2 as (-> & L2 & _).
  assert (F : forall m, firstn (S k) (map fst (pts ++ m)) = firstn (S k) (map fst pts)).
  { intros m. rewrite map_app, firstn_app, map_length. replace (S k - length pts)%nat with 0%nat by lia. cbn [firstn]. apply app_nil_r. }
  destruct (nth_combine k (map fst (pts ++ m1)) v1 (fst q) L1) as (y & Hy).
  { rewrite map_app, nth_error_app1 by (rewrite map_length; lia). rewrite nth_error_map, Hq. reflexivity. }
  apply (spline_firstn _ _ k (fst q, y) p Hk).
  - rewrite !firstn_combine, !F, E1, E2. reflexivity.
  - exact Hy.
  - change (R_ltb p (fst q) = true). apply R_ltb_true. exact Hlt.
Qed.

(** ** C83 for a configuration.  Two file systems that differ only in the slope
    file, and there only after the lines [common]. *)
Definition slope_file_changed (a b : fsys R) (path header : string) (common tail1 tail2 : list string) : Prop :=
  a path = Some (FText (header :: common ++ tail1)) /\ b path = Some (FText (header :: common ++ tail2)) /\
  (forall q, q <> path -> a q = b q) /\ path <> "resources/crust_temperature_profile.txt".
(** The smoothing window the configuration asks for, if any. *)
Definition smoothing_of (a : fsys R) (json_file : string) (smooth : option R) : Prop :=
  exists d t depth, a json_file = Some (FJson d) /\ read_terrain d = Ok (t, depth, smooth).

Lemma prepare_changed flag (a b : fsys R) jf path header common tail1 tail2 smooth pts k q
  eri1 name1 (sm1 : sim R) st1 depth1 eri2 name2 (sm2 : sim R) st2 depth2 :
  slope_file_changed a b path header common tail1 tail2 ->
  smoothing_of a jf smooth -> (forall n, smooth = Some n -> 0 <= n) ->
  read_slope_profile (header :: common) = Ok pts ->
  nth_error pts k = Some q -> (1 <= k)%nat -> (k + reach smooth < length pts)%nat ->
  prepare flag a jf = Ok (eri1, name1, sm1, st1, depth1) -> prepare flag b jf = Ok (eri2, name2, sm2, st2, depth2) ->
  eri2 = eri1 /\ name2 = name1 /\ st2 = st1 /\ depth2 = depth1 /\ same_within (fun p => p < fst q) sm1 sm2.
Proof.
  intros (Ha & Hb & Hab & Hpath) (d & tt & dp & Hj & Ht) Hn Hp Hq Hk Hr H1 H2.
  assert (jf <> path) by (intros ->; congruence).
  assert (Hc : crust_profile b = crust_profile a) by (unfold crust_profile; rewrite Hab by congruence; reflexivity).
  unfold prepare, load_json in H1, H2. rewrite <- Hab in H2 by assumption. rewrite Hj in H1, H2. rewrite Hc in H2. cbn [rbind] in H1, H2.
  do 6 (apply rbind_ok in H1 as (? & ? & H1); apply rbind_ok in H2 as (? & ? & H2);
    match goal with A : ?e = Ok ?x, B : ?e = Ok ?y |- _ => rewrite A in B; apply Ok_inj in B; subst y end).
  rewrite Ht in H1, H2. cbn [rbind] in H1, H2.
  apply rbind_ok in H1 as (l1 & L1 & H1). apply rbind_ok in H2 as (l2 & L2 & H2).
  apply rbind_ok in H1 as (t1 & T1 & H1). apply rbind_ok in H2 as (t2 & T2 & H2).
  apply rbind_ok in H1 as (m & M1 & H1). apply rbind_ok in H2 as (m2 & M2 & H2). rewrite M1 in M2. apply Ok_inj in M2. subst m2.
  apply rbind_ok in H1 as (i & I1 & H1). apply rbind_ok in H2 as (i2 & I2 & H2). rewrite I1 in I2. apply Ok_inj in I2. subst i2.
  apply Ok_inj in H1. apply Ok_inj in H2.
  injection H1 as <- <- <- <- <-. injection H2 as <- <- <- <- <-.
  do 4 (split; [reflexivity|]).
  assert (K1 := T1). assert (K2 := T2). unfold read_slope_from_file in K1, K2.
  apply rbind_ok in K1 as (? & _ & K1). apply rbind_ok in K1 as (? & _ & K1). apply rbind_ok in K1 as (? & _ & K1).
  apply rbind_ok in K2 as (? & _ & K2). apply rbind_ok in K2 as (? & _ & K2). apply rbind_ok in K2 as (? & _ & K2).
  apply Ok_inj in K1. apply Ok_inj in K2.
  constructor; cbn; try reflexivity; try (subst t1 t2; reflexivity).
  intros p Hlt. unfold read_slope_lines in L1, L2.
  apply rbind_ok in L1 as (s1 & S1 & L1). apply rbind_ok in L2 as (s2 & S2 & L2). rewrite S1 in S2. apply Ok_inj in S2. subst s2.
  destruct (string_dec s1 path) as [->|Hne].
  - rewrite Ha in L1. rewrite Hb in L2. apply Ok_inj in L1. apply Ok_inj in L2. subst l1 l2.
    exact (C83_slope_before_the_change _ _ _ _ _ _ _ _ _ _ _ Hn T1 T2 Hp Hq Hk Hr p Hlt).
  - rewrite <- Hab in L2 by exact Hne. rewrite L1 in L2. apply Ok_inj in L2. subst l2. rewrite T1 in T2. apply Ok_inj in T2. subst t2.
    reflexivity.
Qed.

(** The logs of two runs of the same configuration on slope files that are the
    same up to some line: the rows before the k-th kept point are the same. *)
Theorem C83_slope_file_downstream : forall sf sc fuel1 fuel2 (a b : fsys R) path header common tail1 tail2 smooth pts k q
    json_file folder fs1 fs2 log1 log2 eri name (sm : sim R) st depth,
  slope_file_changed a b path header common tail1 tail2 ->
  smoothing_of a json_file smooth -> (forall n, smooth = Some n -> 0 <= n) ->
  read_slope_profile (header :: common) = Ok pts ->
  nth_error pts k = Some q -> (1 <= k)%nat -> (k + reach smooth < length pts)%nat ->
  prepare mass_flag a json_file = Ok (eri, name, sm, st, depth) -> 0 < s_dx sm -> st_pos st < fst q ->
  run sf sc fuel1 a (new_runner []) json_file folder = Some (Ok tt, fs1, log1) ->
  run sf sc fuel2 b (new_runner []) json_file folder = Some (Ok tt, fs2, log2) ->
  exists same more1 more2, log1 = same ++ more1 /\ log2 = same ++ more2 /\
    forall r, In r more1 \/ In r more2 -> exists p, row_position r p /\ fst q <= p.
Proof.
  intros sf sc fuel1 fuel2 a b path header common tail1 tail2 smooth pts k q jf folder fs1 fs2 log1 log2 eri name sm st depth
    Hc Hs Hn Hp Hq Hk Hr H1 Hdx Hst R1 R2.
  unfold run in R1, R2. rewrite H1 in R1. change (new_runner (T:=R) []) with (@nil (row R)) in *.
  destruct (prepare mass_flag b jf) as [[[[[eri2 name2] sm2] st2] depth2]|e] eqn:H2; [|discriminate R2].
  destruct (prepare_changed _ _ _ _ _ _ _ _ _ _ _ _ _ _ _ _ _ _ _ _ _ _ _ Hc Hs Hn Hp Hq Hk Hr H1 H2) as (-> & -> & -> & -> & S).
  destruct (simulate fuel1 sm (initial_world st [] depth)) as [[[[]|e1] w1]|] eqn:E1; try discriminate R1.
  destruct (simulate fuel2 sm2 (initial_world st [] depth)) as [[[[]|e2] w2]|] eqn:E2; try discriminate R2.
  assert (log1 = w_log w1) as -> by (destruct (write_table _ (w_log w1) a); congruence).
  assert (log2 = w_log w2) as -> by (destruct (write_table _ (w_log w2) b); congruence).
  destruct (C83_downstream_does_not_matter (fun p => p < fst q) sm sm2 fuel1 fuel2 st depth w1 w2) as [(c & m1 & m2 & A & B & C) _]; auto.
  { intros x y Hx Hy. lra. }
  exists c, m1, m2. split; [exact A|]. split; [exact B|]. intros r Hin. destruct (C r Hin) as (p & Hrp & Hnp).
  exists p. split; [exact Hrp|]. lra.
Qed.
