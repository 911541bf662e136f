(** * Props_CloseLosses: a small error in the heat losses stays small (C91) *)
From Coq Require Import Reals Lra Lia List.
From Verif Require Import Base Num Json Logger World Vesicle MeltVisc RelVisc Bubbles Terrain Lava
  Thermal Flux Integrator Factory Run Frame StepLog Spec RNum RPow StepProofs LoggerProofs RowProofs StepProps StepRow Gives Steady EffArray Props_Run Props_Step Props_Budget Props_BudgetStep Props_RunOuts
  Props_Velocity Props_Rheology Props_Material Props_Terrain Props_Thermal Props_Flux ColumnProofs TableTrace Props_Table Props_Recompute Props_Energy
  Safe Valid Props_ValidRun Cooling Props_Cooling Recompute Lipschitz ModelLip Refine Losses Props_Refine Props_RefineRun Props_Compare Props_Weaker.
Open Scope R_scope.

(** Two Euler sums for two laws that differ by at most [m]. *)
Lemma drift_apart h Lp m n (T1 P1 T2 P2 f1 q1 f2 q2 : nat -> R) : 0 < h -> 0 <= Lp -> 0 <= m ->
  T1 0%nat = T2 0%nat -> P1 0%nat = P2 0%nat ->
  (forall k, (k < n)%nat -> T1 (S k) = T1 k + f1 k * h /\ P1 (S k) = P1 k + q1 k * h) ->
  (forall k, (k < n)%nat -> T2 (S k) = T2 k + f2 k * h /\ P2 (S k) = P2 k + q2 k * h) ->
  (forall k, (k < n)%nat -> Rabs (f1 k - f2 k) + Rabs (q1 k - q2 k) <= Lp * (Rabs (T1 k - T2 k) + Rabs (P1 k - P2 k)) + m) ->
  forall k, (k <= n)%nat -> Rabs (T1 k - T2 k) + Rabs (P1 k - P2 k) <= exp (Lp * (INR k * h)) * (INR k * h * m).
Proof.
  intros Hh HL Hm Z1 Z2 H1 H2 HF. induction k as [|k IH]; intros Hk.
  - rewrite Z1, Z2, !Rminus_diag_eq, Rabs_R0 by reflexivity. cbn [INR]. rewrite !Rmult_0_l, Rmult_0_r. lra.
  - specialize (IH ltac:(lia)). destruct (H1 k ltac:(lia)) as [-> ->]. destruct (H2 k ltac:(lia)) as [-> ->]. specialize (HF k ltac:(lia)).
    set (g := Rabs (T1 k - T2 k) + Rabs (P1 k - P2 k)) in *.
    assert (Pg : 0 <= g) by (unfold g; assert (Q := Rabs_pos (T1 k - T2 k)); assert (Q' := Rabs_pos (P1 k - P2 k)); lra).
    assert (A1 : Rabs (T1 k + f1 k * h - (T2 k + f2 k * h)) <= Rabs (T1 k - T2 k) + Rabs (f1 k - f2 k) * h).
    { replace (T1 k + f1 k * h - (T2 k + f2 k * h)) with ((T1 k - T2 k) + (f1 k - f2 k) * h) by ring.
      eapply Rle_trans; [apply Rabs_triang|]. rewrite Rabs_mult, (Rabs_right h) by lra. lra. }
    assert (A2 : Rabs (P1 k + q1 k * h - (P2 k + q2 k * h)) <= Rabs (P1 k - P2 k) + Rabs (q1 k - q2 k) * h).
    { replace (P1 k + q1 k * h - (P2 k + q2 k * h)) with ((P1 k - P2 k) + (q1 k - q2 k) * h) by ring.
      eapply Rle_trans; [apply Rabs_triang|]. rewrite Rabs_mult, (Rabs_right h) by lra. lra. }
    assert (A3 : (Rabs (f1 k - f2 k) + Rabs (q1 k - q2 k)) * h <= (Lp * g + m) * h) by (apply Rmult_le_compat_r; lra).
    apply Rle_trans with ((1 + Lp * h) * g + h * m); [unfold g in *; lra|].
    rewrite S_INR. replace (Lp * ((INR k + 1) * h)) with (Lp * h + Lp * (INR k * h)) by ring. rewrite exp_plus.
    set (a := exp (Lp * h)). set (b := exp (Lp * (INR k * h))) in *.
    assert (0 <= Lp * h) by (apply Rmult_le_pos; lra). assert (0 <= INR k) by apply pos_INR.
    assert (Ea : 1 + Lp * h <= a) by apply exp_ineq1_le. assert (Eb : 1 <= b).
    { unfold b. rewrite <- exp_0. apply exp_le. repeat apply Rmult_le_pos; lra. }
    assert (B1 : (1 + Lp * h) * g <= a * (b * (INR k * h * m))) by (apply Rmult_le_compat; lra).
    assert (B2 : 1 * (h * m) <= a * b * (h * m)).
    { apply Rmult_le_compat_r; [apply Rmult_le_pos; lra|]. apply Rle_trans with (1 * 1); [lra|]. apply Rmult_le_compat; lra. }
    replace (a * b * ((INR k + 1) * h * m)) with (a * (b * (INR k * h * m)) + a * b * (h * m)) by ring. lra.
Qed.

(** ** C91 *)
(** Two runs of one set-up whose heat losses, divided by the latent heat, differ by
    at most a fraction [eps] on every warm surface: row by row the temperatures,
    crystal fractions and velocities differ by at most a constant times [eps].  The
    constant depends neither on the step nor on the second set-up. *)
Theorem C91_small_errors_in_the_losses :
  forall (d : json R) profile mo (sm : sim R) (s : state R) depth phi1 v0,
  build_models d profile = Ok mo -> s_budget sm = mo_budget mo ->
  losing sm s depth -> smooth sm phi1 -> 0 < v0 ->
  exists C, 0 < C /\ forall (d' : json R) profile' mo' a b L eps, build_models d' profile' = Ok mo' -> b = mo_budget mo' ->
    losing (with_losses a b L sm) s depth -> 0 <= eps ->
    (forall u, warm_surface (get_solid_temperature (s_cryst sm)) (air_temp (s_air sm)) u ->
       warm_surface (get_solid_temperature (s_cryst sm)) (air_temp a) u ->
       Rabs (heat_loss a b u / L - heat_loss (s_air sm) (s_budget sm) u / lv_latent (s_lava sm)) <=
         eps * (heat_loss (s_air sm) (s_budget sm) u / lv_latent (s_lava sm))) ->
  forall h n fuel fuel' w w', 0 < h ->
    simulate fuel (with_step h sm) (initial_world s [] depth) = Some (Ok tt, w) ->
    simulate fuel' (with_step h (with_losses a b L sm)) (initial_world s [] depth) = Some (Ok tt, w') ->
    (n < w_iter w)%nat -> (n < w_iter w')%nat -> flows_freely v0 phi1 (w_log w) n -> flows_freely v0 phi1 (w_log w') n ->
    exists r r' x temp phi v temp' phi' v',
      nth_error (w_log w) n = Some r /\ nth_error (w_log w') n = Some r' /\
      holds r "position" x /\ holds r' "position" x /\
      holds r "core_temperature" temp /\ holds r "crystal_fraction" phi /\ holds r "mean_velocity" v /\
      holds r' "core_temperature" temp' /\ holds r' "crystal_fraction" phi' /\ holds r' "mean_velocity" v' /\
      Rabs (temp - temp') <= C * eps /\ Rabs (phi - phi') <= C * eps /\ Rabs (v - v') <= C * eps.
Proof.
  intros d profile mo sm s depth phi1 v0 Hb Es K S Hv0. assert (V := co_admissible _ _ _ K).
  destruct (gradients_full sm s depth phi1 v0 V S Hv0) as (D & su & vel & G & rate & ((Lv & Bv & HLv & HBv & HV) & Prate & DG & _) & HG).
  destruct (HG d profile mo (s_air sm) (s_budget sm) (lv_latent (s_lava sm)) Hb Es) as ((LF & B & HL & HB & HF) & W1 & G1);
    [rewrite with_losses_same; exact K|]. rewrite with_losses_same in G1.
  set (F1 := fun p => - (heat_loss (s_air sm) (s_budget sm) (su p) / (lv_latent (s_lava sm) * G p))) in *.
  assert (P1 : 0 < lv_latent (s_lava sm)) by apply (va_lava _ _ _ V).
  set (Lp := (1 + rate) * LF). assert (HLp : 0 <= Lp) by (unfold Lp; apply Rmult_le_pos; lra).
  set (M := (1 + rate) * B). assert (HM : 0 <= M) by (unfold M; apply Rmult_le_pos; lra).
  set (X := ter_maxlen (s_ter sm) - st_pos s). assert (HX : 0 <= X) by (unfold X; assert (Q := va_pos _ _ _ V); lra).
  set (Z := exp (Lp * X) * (X * M)). assert (HZ : 0 <= Z).
  { unfold Z. apply Rmult_le_pos; [apply Rlt_le, exp_pos|apply Rmult_le_pos; assumption]. }
  exists ((1 + Lv) * Z + 1). split; [assert (0 <= (1 + Lv) * Z) by (apply Rmult_le_pos; lra); lra|].
  intros d' profile' mo' a b L eps Hb' Es' K' Heps Near h n fuel fuel' w w' Hh H H' Hn Hn' Fr Fr'.
  destruct (HG d' profile' mo' a b L Hb' Es' K') as (_ & W2 & G2). clear HG.
  set (F2 := fun p => - (heat_loss a b (su p) / (L * G p))) in *.
  assert (P2 : 0 < L) by apply (va_lava _ _ _ (co_admissible _ _ _ K')).
  (* the two laws at one point *)
  assert (Laws : forall p, D p -> Rabs (F1 p - F2 p) <= eps * B).
  { intros p Dp. assert (Q := Near _ (W1 p Dp) (W2 p Dp)). destruct (DG p Dp) as [_ Pg].
    assert (Hb1 : Rabs (F1 p) <= B) by exact (proj1 (HF p Dp)).
    set (q1 := heat_loss (s_air sm) (s_budget sm) (su p) / lv_latent (s_lava sm)) in *. set (q2 := heat_loss a b (su p) / L) in *.
    assert (E1 : F1 p = - (q1 / G p)) by (unfold F1, q1; field; lra). assert (E2 : F2 p = - (q2 / G p)) by (unfold F2, q2; field; lra).
    rewrite E1 in Hb1. rewrite E1, E2. replace (- (q1 / G p) - - (q2 / G p)) with ((q2 - q1) * / G p) by (field; lra).
    assert (Pi : 0 < / G p) by (apply Rinv_0_lt_compat; exact Pg). rewrite Rabs_mult, (Rabs_right (/ G p)) by lra.
    apply Rle_trans with (eps * (q1 * / G p)); [rewrite <- Rmult_assoc; apply Rmult_le_compat_r; lra|].
    apply Rmult_le_compat_l; [exact Heps|]. eapply Rle_trans; [apply Rle_abs|]. rewrite <- Rabs_Ropp. exact Hb1. }
  assert (Qh : s_dx (with_step h sm) <> 0) by (change (h <> 0); lra).
  assert (S1 := run_sequences _ _ _ _ _ Qh H). assert (Qh' : s_dx (with_step h (with_losses a b L sm)) <> 0) by (change (h <> 0); lra).
  assert (S2 := run_sequences _ _ _ _ _ Qh' H'). cbv zeta in S1, S2.
  change (s_dx (with_step h sm)) with h in S1. change (s_dx (with_step h (with_losses a b L sm))) with h in S2.
  set (r1 k := nth k (w_log w) []) in *. set (r2 k := nth k (w_log w') []) in *.
  assert (VV : forall (q : sim R) fu z, s_dx q <> 0 -> simulate fu q (initial_world s [] depth) = Some (Ok tt, z) ->
    forall i r, (i < w_iter z)%nat -> nth_error (w_log z) i = Some r -> exists v, holds r "mean_velocity" v).
  { intros q fu z Hq Hz i r Hi Hr.
    destruct (C72_every_row_balances _ _ _ _ _ Hq Hz) as (e & hh & HBal).
    destruct (HBal i r Hi Hr) as (? & v & ? & ? & ? & ? & ? & ? & _ & A & _). eauto. }
  assert (Close : forall k, (k <= n)%nat -> exists p1 p2, D p1 /\ D p2 /\ px p1 = st_pos s + INR k * h /\ px p2 = st_pos s + INR k * h /\
    px p1 < ter_maxlen (s_ter sm) /\
    pt p1 = value (r1 k) "core_temperature" /\ pp p1 = value (r1 k) "crystal_fraction" /\ pt p2 = value (r2 k) "core_temperature" /\ pp p2 = value (r2 k) "crystal_fraction" /\
    value (r1 k) "dtemp_dx" = F1 p1 /\ value (r1 k) "dphi_dx" = - rate * F1 p1 /\ value (r2 k) "dtemp_dx" = F2 p2 /\ value (r2 k) "dphi_dx" = - rate * F2 p2 /\
    holds (r1 k) "mean_velocity" (vel p1) /\ holds (r2 k) "mean_velocity" (vel p2)).
  { intros k Hk. destruct (S1 k ltac:(lia)) as (N1 & R1 & _). destruct (S2 k ltac:(lia)) as (N2 & R2 & _).
    destruct (VV _ _ _ Qh H k _ ltac:(lia) N1) as (v & Hv). destruct (VV _ _ _ Qh' H' k _ ltac:(lia) N2) as (v' & Hv').
    destruct (G1 h fuel w Hh H k _ _ _ _ _ _ v ltac:(lia) N1 R1 Hv) as [Hx U].
    destruct (G2 h fuel' w' Hh H' k _ _ _ _ _ _ v' ltac:(lia) N2 R2 Hv') as [_ U'].
    destruct (Fr k _ v _ Hk N1 Hv (proj1 (proj2 (proj2 R1)))) as [f1 f2]. destruct (U f1 f2) as (D1 & E1 & E2 & E3).
    destruct (Fr' k _ v' _ Hk N2 Hv' (proj1 (proj2 (proj2 R2)))) as [f3 f4]. destruct (U' f3 f4) as (D2 & E4 & E5 & E6).
    subst v v'. eexists _, _. split; [exact D1|]. split; [exact D2|]. cbn [px pt pp]. fold (r1 k) (r2 k) in *.
    repeat (split; [first [reflexivity|assumption]|]). assumption. }
  destruct (S1 0%nat ltac:(lia)) as (_ & _ & Z1 & _). destruct (S2 0%nat ltac:(lia)) as (_ & _ & Z2 & _).
  destruct (Z1 eq_refl) as [Z3 Z4]. destruct (Z2 eq_refl) as [Z5 Z6]. fold (r1 0%nat) in Z3, Z4. fold (r2 0%nat) in Z5, Z6.
  assert (Dr := drift_apart h Lp (M * eps) n (fun k => value (r1 k) "core_temperature") (fun k => value (r1 k) "crystal_fraction")
    (fun k => value (r2 k) "core_temperature") (fun k => value (r2 k) "crystal_fraction")
    (fun k => value (r1 k) "dtemp_dx") (fun k => value (r1 k) "dphi_dx") (fun k => value (r2 k) "dtemp_dx") (fun k => value (r2 k) "dphi_dx") Hh HLp
    ltac:(apply Rmult_le_pos; assumption) ltac:(cbv beta; congruence) ltac:(cbv beta; congruence)
    ltac:(intros k Hk; apply (S1 k); lia) ltac:(intros k Hk; apply (S2 k); lia)).
  cbv beta in Dr. clear Z1 Z2 Z3 Z4 Z5 Z6.
  assert (HF' : forall k, (k < n)%nat ->
    Rabs (value (r1 k) "dtemp_dx" - value (r2 k) "dtemp_dx") + Rabs (value (r1 k) "dphi_dx" - value (r2 k) "dphi_dx") <=
    Lp * (Rabs (value (r1 k) "core_temperature" - value (r2 k) "core_temperature") + Rabs (value (r1 k) "crystal_fraction" - value (r2 k) "crystal_fraction")) + M * eps).
  { intros k Hk. destruct (Close k ltac:(lia)) as (p1 & p2 & D1 & D2 & X1 & X2 & _ & Q1 & Q2 & Q3 & Q4 & -> & -> & -> & -> & _).
    assert (Ld : Rabs (F1 p1 - F1 p2) <= LF * dist p1 p2) by exact (proj2 (HF _ D1) _ D2). unfold dist in Ld.
    rewrite X1, X2, Q1, Q2, Q3, Q4, (Rminus_diag_eq (st_pos s + INR k * h)), Rabs_R0 in Ld by reflexivity.
    assert (La := Laws _ D2). rewrite <- Rmult_minus_distr_l, Rabs_mult, Rabs_Ropp, (Rabs_right rate) by lra.
    set (gk := Rabs (value (r1 k) "core_temperature" - value (r2 k) "core_temperature") + Rabs (value (r1 k) "crystal_fraction" - value (r2 k) "crystal_fraction")) in *.
    assert (Tri : Rabs (F1 p1 - F2 p2) <= LF * gk + eps * B).
    { replace (F1 p1 - F2 p2) with ((F1 p1 - F1 p2) + (F1 p2 - F2 p2)) by ring. eapply Rle_trans; [apply Rabs_triang|]. unfold gk. lra. }
    assert (Q := Rmult_le_compat_l (1 + rate) _ _ ltac:(lra) Tri). unfold Lp, M. lra. }
  specialize (Dr HF' n (le_n _)).
  destruct (S1 n Hn) as (N1 & (M1 & M2 & M3 & _) & _). destruct (S2 n Hn') as (N2 & (M4 & M5 & M6 & _) & _).
  destruct (Close n (le_n _)) as (p1 & p2 & D1 & D2 & X1 & X2 & Xm & Q1 & Q2 & Q3 & Q4 & _ & _ & _ & _ & V1 & V2).
  exists (r1 n), (r2 n), (st_pos s + INR n * h). do 6 eexists.
  split; [exact N1|]. split; [exact N2|]. split; [exact M1|]. split; [exact M4|]. split; [exact M2|]. split; [exact M3|]. split; [exact V1|].
  split; [exact M5|]. split; [exact M6|]. split; [exact V2|]. fold (r1 n) (r2 n).
  set (gT := Rabs (value (r1 n) "core_temperature" - value (r2 n) "core_temperature")) in *.
  set (gP := Rabs (value (r1 n) "crystal_fraction" - value (r2 n) "crystal_fraction")) in *.
  assert (PT : 0 <= gT) by apply Rabs_pos. assert (PP : 0 <= gP) by apply Rabs_pos.
  assert (Hx : 0 <= INR n * h <= X).
  { split; [apply Rmult_le_pos; [apply pos_INR|lra]|unfold X; lra]. }
  assert (Tot : gT + gP <= Z * eps).
  { eapply Rle_trans; [exact Dr|]. unfold Z. replace (exp (Lp * X) * (X * M) * eps) with (exp (Lp * X) * (X * (M * eps))) by ring. apply Rmult_le_compat.
    - apply Rlt_le, exp_pos.
    - apply Rmult_le_pos; [lra|]. apply Rmult_le_pos; assumption.
    - apply exp_le. apply Rmult_le_compat_l; lra.
    - apply Rmult_le_compat_r; [apply Rmult_le_pos; assumption|lra]. }
  assert (0 <= Z * eps) by (apply Rmult_le_pos; assumption). assert (0 <= Lv * (Z * eps)) by (apply Rmult_le_pos; lra).
  replace (((1 + Lv) * Z + 1) * eps) with (Z * eps + Lv * (Z * eps) + eps) by ring.
  split; [lra|]. split; [lra|].
  destruct (HV _ D1) as [_ Ld]. specialize (Ld _ D2). unfold dist in Ld. rewrite X1, X2, Q1, Q2, Q3, Q4, (Rminus_diag_eq (st_pos s + INR n * h)), Rabs_R0 in Ld by reflexivity.
  fold gT gP in Ld. assert (Lv * (0 + gT + gP) <= Lv * (Z * eps)) by (apply Rmult_le_compat_l; lra). lra.
Qed.

(** ** Parameter by parameter *)
(** [x'] is [x] within a fraction [e]. *)
Definition within (e x x' : R) : Prop := Rabs (x' - x) <= e * x.
(** The flux [f'] in the air [a'] is of the kind of [f] in the air [a], with parameters
    within a fraction [e]. *)
Definition near (e : R) (a a' : air R) (f f' : flux R) : Prop :=
  match f, f' with
  | FRadiation (RadBasic x) s, FRadiation (RadBasic x') s' => within e (s * x) (s' * x')
  | FRadiation (Rad2Emi x y) s, FRadiation (Rad2Emi x' y') s' => within e (s * x) (s' * x') /\ within e (s * y) (s' * y')
  | FRadiation RadCont s, FRadiation RadCont s' => within e s s'
  | FRadiation RadLin s, FRadiation RadLin s' => within e s s'
  | FConduction tb c, FConduction tb' c' => tb' = tb /\ within e c c'
  | FConvection, FConvection => within e (convection_coefficient a) (convection_coefficient a')
  | FRain q d l, FRain q' d' l' => within e (q * d * l) (q' * d' * l')
  | FViscous, FViscous | FSnyder, FSnyder => True
  | _, _ => False
  end.

Lemma within_elim e x x' : within e x x' -> x - e * x <= x' <= x + e * x.
Proof. unfold within. intros H. assert (Q1 := Rle_abs (x' - x)). assert (Q2 := Rle_abs (- (x' - x))). rewrite Rabs_Ropp in Q2. lra. Qed.
Lemma within_intro e x x' : x - e * x <= x' <= x + e * x -> within e x x'.
Proof. unfold within. intros H. apply Rabs_le. lra. Qed.
Lemma within_more e e' x x' : 0 <= x -> e <= e' -> within e x x' -> within e' x x'.
Proof. unfold within. intros Hx He H. eapply Rle_trans; [exact H|apply Rmult_le_compat_r; assumption]. Qed.
Lemma within_same e x : 0 <= e -> 0 <= x -> within e x x.
Proof. intros He Hx. unfold within. rewrite Rminus_diag_eq, Rabs_R0 by reflexivity. apply Rmult_le_pos; assumption. Qed.
Lemma within_mult e e' x x' y y' : 0 <= x -> 0 <= y -> within e x x' -> within e' y y' -> within (e + e' + e * e') (x * y) (x' * y').
Proof.
  unfold within. intros Hx Hy H1 H2. replace (x' * y' - x * y) with ((x' - x) * (y' - y) + (x' - x) * y + x * (y' - y)) by ring.
  eapply Rle_trans; [apply Rabs_triang|]. assert (Q := Rabs_triang ((x' - x) * (y' - y)) ((x' - x) * y)). rewrite !Rabs_mult in *.
  rewrite (Rabs_right y), (Rabs_right x) in * by lra.
  assert (A1 : Rabs (x' - x) * Rabs (y' - y) <= e * x * (e' * y)) by (apply Rmult_le_compat; try apply Rabs_pos; assumption).
  assert (A2 : Rabs (x' - x) * y <= e * x * y) by (apply Rmult_le_compat_r; assumption).
  assert (A3 : x * Rabs (y' - y) <= x * (e' * y)) by (apply Rmult_le_compat_l; assumption).
  replace ((e + e' + e * e') * (x * y)) with (e * x * (e' * y) + e * x * y + x * (e' * y)) by ring. lra.
Qed.
Lemma within_scale e x x' y : 0 <= y -> within e x x' -> within e (x * y) (x' * y).
Proof.
  unfold within. intros Hy H. rewrite <- Rmult_minus_distr_r, Rabs_mult, (Rabs_right y), <- Rmult_assoc by lra.
  apply Rmult_le_compat_r; assumption.
Qed.
Lemma within_inv e x x' : 0 <= e <= 1 / 2 -> 0 < x -> within e x x' -> within (2 * e) (/ x) (/ x').
Proof.
  intros He Hx H. assert (B := within_elim _ _ _ H). assert (Q : e * x <= 1 / 2 * x) by (apply Rmult_le_compat_r; lra).
  assert (Px' : 0 < x') by lra. unfold within in *. replace (/ x' - / x) with ((x' - x) * - (/ x * / x')) by (field; lra).
  assert (Pi : 0 < / x * / x') by (apply Rmult_lt_0_compat; apply Rinv_0_lt_compat; assumption).
  rewrite Rabs_mult, Rabs_Ropp, (Rabs_right (/ x * / x')) by lra.
  apply Rle_trans with (e * x * (/ x * / x')); [apply Rmult_le_compat_r; lra|].
  replace (e * x * (/ x * / x')) with (e * / x') by (field; lra).
  rewrite (Rmult_comm 2 e), Rmult_assoc. apply Rmult_le_compat_l; [lra|].
  apply (Rmult_le_reg_r (x * x')); [apply Rmult_lt_0_compat; assumption|].
  replace (/ x' * (x * x')) with x by (field; lra). replace (2 * / x * (x * x')) with (2 * x') by (field; lra). lra.
Qed.

(** A warm surface is warmer than the air by a definite fraction, also for convection. *)
Lemma almost_one_margin x : 1 <= x <= 2600 -> x <= 1.0022 * Rpower x (99975 / 100000).
Proof.
  intros Hx. assert (L : ln x <= 8.5).
  { apply Rle_trans with (ln (exp 8.5)); [|rewrite ln_exp; lra].
    assert (x <= exp 8.5); [|destruct H as [H|H]; [left; apply ln_increasing; lra|rewrite H; lra]].
    replace 8.5 with (INR 136 * (1 / 16)) by (cbn; lra).
    assert (P : forall n t, exp (INR n * t) = exp t ^ n).
    { induction n as [|n IH]; intros t; [cbn [INR pow]; rewrite Rmult_0_l; apply exp_0|].
      rewrite S_INR, Rmult_plus_distr_r, Rmult_1_l, exp_plus, IH. cbn [pow]. ring. }
    rewrite P. apply Rle_trans with ((17 / 16) ^ 136).
    - apply Rle_trans with 2600; [lra|]. replace ((17 / 16) ^ 136) with ((((17 / 16) ^ 17) ^ 2) ^ 4) by (rewrite <- !pow_mult; reflexivity).
      apply Rle_trans with (((2.8) ^ 2) ^ 4); [lra|]. apply pow_incr. split; [lra|]. apply pow_incr. lra.
    - apply pow_incr. split; [lra|]. assert (Q := exp_ineq1_le (1 / 16)). lra. }
  assert (E : x = Rpower x (25 / 100000) * Rpower x (99975 / 100000)).
  { rewrite <- Rpower_plus. replace (25 / 100000 + 99975 / 100000) with 1 by lra. rewrite Rpower_1; lra. }
  rewrite E at 1. apply Rmult_le_compat_r; [apply Rlt_le, Rpower_gt_0|]. unfold Rpower.
  apply Rle_trans with (exp (2125 / 1000000)); [apply exp_le; lra|].
  assert (Q := exp_ineq1_le (- (2125 / 1000000))). rewrite exp_Ropp in Q. assert (Pe := exp_pos (2125 / 1000000)).
  apply Rmult_le_compat_r with (r := exp (2125 / 1000000)) in Q; [|lra]. rewrite Rinv_l in Q by lra. lra.
Qed.
Lemma convecting_margin a ts u : warm_surface ts (air_temp a) u -> 1 <= air_temp a ->
  0.00029 * air_temp a <= convecting_temperature u - air_temp a.
Proof.
  intros [_ _ _ Hh Hc Hf _ _ _] Ha. unfold convecting_temperature.
  rewrite !(pospow_pos _ 1.333) by lra.
  set (lo := Rmin (su_crust u) (su_hot u)).
  assert (L1 : 401 / 400 * air_temp a <= lo <= 2600) by (unfold lo, Rmin; destruct (Rle_dec (su_crust u) (su_hot u)); lra).
  assert (L2 : lo <= su_crust u) by apply Rmin_l. assert (L3 : lo <= su_hot u) by apply Rmin_r.
  set (y := su_cover u * Rpower (su_crust u) 1.333 + (1 - su_cover u) * Rpower (su_hot u) 1.333).
  assert (M : Rpower lo 1.333 <= y).
  { apply mix_ge; auto; apply Rpower_pos_incr_le; lra. }
  assert (P := Rpower_gt_0 lo 1.333). rewrite pospow_pos by lra.
  assert (Q : Rpower (Rpower lo 1.333) 0.75 <= Rpower y 0.75) by (apply Rpower_pos_incr_le; lra).
  rewrite Rpower_mult in Q. replace (1.333 * 0.75) with (99975 / 100000) in Q by lra.
  assert (A := almost_one_margin lo ltac:(lra)). lra.
Qed.
Lemma net_near e a a' ts u : warm_surface ts (air_temp a) u -> 1 <= air_temp a -> 0 <= e <= 1 / 2 -> within e (air_temp a) (air_temp a') ->
  within (820 * e) (net_fourth_powers (su_cover u) (su_crust u) (su_hot u) (air_temp a)) (net_fourth_powers (su_cover u) (su_crust u) (su_hot u) (air_temp a')).
Proof.
  intros [_ _ _ Hh Hc Hf _ _ _] Ha He H. unfold within in *. unfold net_fourth_powers.
  set (t := air_temp a) in *. set (t' := air_temp a') in *.
  match goal with |- Rabs ?x <= _ => replace x with ((t - t') * (t ^ 3 + t ^ 2 * t' + t * t' ^ 2 + t' ^ 3)) by ring end.
  assert (B := within_elim e t t' H). assert (Q : e * t <= 1 / 2 * t) by (apply Rmult_le_compat_r; lra).
  assert (Pt' : 0 < t' <= 3 / 2 * t) by lra.
  assert (T2 : 0 <= t' ^ 2 <= (9 / 4) * t ^ 2).
  { split; [apply pow_le; lra|]. replace ((9 / 4) * t ^ 2) with ((3 / 2 * t) ^ 2) by field. apply pow_incr. lra. }
  assert (T3 : 0 <= t' ^ 3 <= (27 / 8) * t ^ 3).
  { split; [apply pow_le; lra|]. replace ((27 / 8) * t ^ 3) with ((3 / 2 * t) ^ 3) by field. apply pow_incr. lra. }
  assert (P2 : 0 < t ^ 2) by (apply pow_lt; lra). assert (P3 : 0 < t ^ 3) by (apply pow_lt; lra). assert (P4 : 0 < t ^ 4) by (apply pow_lt; lra).
  assert (U1 : 0 <= t ^ 2 * t' <= t ^ 2 * (3 / 2 * t)) by (split; [apply Rmult_le_pos; lra|apply Rmult_le_compat_l; lra]).
  assert (U2 : 0 <= t * t' ^ 2 <= t * ((9 / 4) * t ^ 2)) by (split; [apply Rmult_le_pos; lra|apply Rmult_le_compat_l; lra]).
  set (S := t ^ 3 + t ^ 2 * t' + t * t' ^ 2 + t' ^ 3).
  assert (Bs : 0 <= S <= (65 / 8) * t ^ 3).
  { unfold S. replace (t ^ 2 * (3 / 2 * t)) with (3 / 2 * t ^ 3) in U1 by field. replace (t * ((9 / 4) * t ^ 2)) with ((9 / 4) * t ^ 3) in U2 by field. lra. }
  rewrite Rabs_mult, (Rabs_right S) by lra. rewrite Rabs_minus_sym.
  apply Rle_trans with (e * t * ((65 / 8) * t ^ 3)); [apply Rmult_le_compat; try lra; apply Rabs_pos|].
  assert (N : 1 / 100 * t ^ 4 <= su_cover u * (su_crust u ^ 4 - t ^ 4) + (1 - su_cover u) * (su_hot u ^ 4 - t ^ 4)).
  { assert (G : forall z, 401 / 400 * t <= z -> 1 / 100 * t ^ 4 <= z ^ 4 - t ^ 4).
    { intros z Hz. assert (Q4 : (401 / 400 * t) ^ 4 <= z ^ 4) by (apply pow_incr; lra). rewrite Rpow_mult_distr in Q4.
      assert (Q5 : 101 / 100 * t ^ 4 <= (401 / 400) ^ 4 * t ^ 4) by (apply Rmult_le_compat_r; lra). lra. }
    apply mix_ge; [exact Hf|apply G; lra|apply G; lra]. }
  replace (e * t * ((65 / 8) * t ^ 3)) with (e * ((65 / 8) * t ^ 4)) by field. rewrite (Rmult_comm 820 e), Rmult_assoc.
  apply Rmult_le_compat_l; lra.
Qed.

Lemma near_law (sm sm' : sim R) e u f f' : 1 <= air_temp (s_air sm) -> 1 <= air_temp (s_air sm') -> 0 <= e <= 1 / 2 ->
  warm_surface (get_solid_temperature (s_cryst sm)) (air_temp (s_air sm)) u ->
  warm_surface (get_solid_temperature (s_cryst sm)) (air_temp (s_air sm')) u ->
  within e (air_temp (s_air sm)) (air_temp (s_air sm')) ->
  is_loss sm f -> near e (s_air sm) (s_air sm') f f' ->
  within (6000 * e) (flux_law (s_air sm) u f) (flux_law (s_air sm') u f').
Proof.
  intros Ha Ha' He W W' Ht Hl Hk. assert (Pf := loss_positive sm u f Ha W Hl).
  set (a := s_air sm) in *. set (a' := s_air sm') in *.
  destruct (radiating_between _ _ _ W Ha) as [Rt E4]. assert (Nb := net_between _ _ _ W Ha).
  destruct (radiating_between _ _ _ W' Ha') as [Rt' E4'].
  assert (Nn := net_near e a a' _ u W Ha He Ht). assert (Cm := convecting_margin _ _ _ W Ha).
  assert (Lin : within (1400 * e) (lin_fit (radiating_temperature a u) * radiating_temperature a u ^ 4)
                                  (lin_fit (radiating_temperature a' u) * radiating_temperature a' u ^ 4)).
  { set (s := radiating_temperature a u) in *. set (s' := radiating_temperature a' u) in *. rewrite <- E4, <- E4' in Nn.
    assert (S4 : 0 <= s ^ 4) by (apply pow_le; lra). assert (S4' : 0 <= s' ^ 4) by (apply pow_le; lra). unfold within in *.
    assert (Low : 0.66 * s ^ 4 <= lin_fit s * s ^ 4) by (apply Rmult_le_compat_r; [exact S4|unfold lin_fit; lra]).
    assert (Key : forall x y, 0 <= x <= y -> y <= 2600 -> Rabs (lin_fit y * y ^ 4 - lin_fit x * x ^ 4) <= 1.05 * (y ^ 4 - x ^ 4)).
    { intros x y Hx Hy. assert (Q := lin_radiance x y Hx Hy). rewrite Rabs_right by lra.
      assert (y ^ 4 >= x ^ 4) by (apply Rle_ge, pow_incr; lra). assert (0 <= y ^ 4) by (apply pow_le; lra).
      assert (lin_fit y * y ^ 4 <= lin_fit x * y ^ 4) by (apply Rmult_le_compat_r; [lra|unfold lin_fit; lra]).
      assert (lin_fit x * (y ^ 4 - x ^ 4) <= 1.05 * (y ^ 4 - x ^ 4)) by (apply Rmult_le_compat_r; [lra|unfold lin_fit; lra]). lra. }
    assert (Step : Rabs (lin_fit s' * s' ^ 4 - lin_fit s * s ^ 4) <= 1.05 * Rabs (s' ^ 4 - s ^ 4)).
    { destruct (Rle_dec s s') as [L|L].
      - assert (s ^ 4 <= s' ^ 4) by (apply pow_incr; lra). rewrite (Rabs_right (s' ^ 4 - s ^ 4)) by lra. apply Key; lra.
      - assert (s' ^ 4 <= s ^ 4) by (apply pow_incr; lra). rewrite Rabs_minus_sym, (Rabs_minus_sym (s' ^ 4)), (Rabs_right (s ^ 4 - s' ^ 4)) by lra. apply Key; lra. }
    assert (e * (0.66 * s ^ 4) <= e * (lin_fit s * s ^ 4)) by (apply Rmult_le_compat_l; [apply He|exact Low]).
    assert (0 <= e * s ^ 4) by (apply Rmult_le_pos; [apply He|exact S4]). set (x := e * s ^ 4) in *.
    replace (820 * e * s ^ 4) with (820 * x) in Nn by (unfold x; ring). replace (e * (0.66 * s ^ 4)) with (0.66 * x) in H by (unfold x; ring).
    replace (1400 * e * (lin_fit s * s ^ 4)) with (1400 * (e * (lin_fit s * s ^ 4))) by ring. lra. }
  assert (W0 := W). destruct W0 as [Hw Hd Htm Hh Hc Hf Hv Hm Hs].
  assert (Ee : e * e <= 1 / 2 * e) by (apply Rmult_le_compat_r; lra).
  destruct f, f'; try (destruct k; exact (False_ind _ Hk)); try exact (False_ind _ Hk); cbn [flux_law is_loss near] in *.
  - apply within_scale; [lra|]. destruct k, k0; try contradiction; cbn [emissivity_of] in *.
    + rewrite E4, E4'. assert (0 <= sigma * eps) by (apply Rmult_le_pos; lra).
      eapply within_more; [| |apply (within_mult e (820 * e)); [assumption|lra|exact Hk|exact Nn]]; [|nra].
      apply Rmult_le_pos; lra.
    + rewrite E4, E4'. destruct Hk as [H1 H2].
      assert (M1 := mix_pos (su_cover u) eps1 eps2 ltac:(lra) ltac:(lra) ltac:(lra)).
      assert (Hk : within e (sigma * (su_cover u * eps1 + (1 - su_cover u) * eps2)) (sigma0 * (su_cover u * eps0 + (1 - su_cover u) * eps3))).
      { apply within_elim in H1, H2. apply within_intro.
        assert (A1 : su_cover u * (sigma * eps1 - e * (sigma * eps1)) <= su_cover u * (sigma0 * eps0) <= su_cover u * (sigma * eps1 + e * (sigma * eps1)))
          by (split; apply Rmult_le_compat_l; lra).
        assert (A2 : (1 - su_cover u) * (sigma * eps2 - e * (sigma * eps2)) <= (1 - su_cover u) * (sigma0 * eps3) <= (1 - su_cover u) * (sigma * eps2 + e * (sigma * eps2)))
          by (split; apply Rmult_le_compat_l; lra).
        lra. }
      assert (0 <= sigma * (su_cover u * eps1 + (1 - su_cover u) * eps2)) by (apply Rmult_le_pos; lra).
      eapply within_more; [| |apply (within_mult e (820 * e)); [assumption|lra|exact Hk|exact Nn]]; [|nra].
      apply Rmult_le_pos; lra.
    + rewrite E4, E4'. set (ce := su_cover u * cont_fit _ + _).
      assert (0 < ce) by (apply mix_pos; [lra|apply cont_pos; lra|apply cont_pos; lra]).
      assert (0 <= sigma * ce) by (apply Rmult_le_pos; lra).
      eapply within_more; [| |apply (within_mult e (820 * e)); [assumption|lra|apply within_scale; [lra|exact Hk]|exact Nn]]; [|nra].
      apply Rmult_le_pos; lra.
    + rewrite !Rmult_assoc. assert (Q := lin_radiance 0 (radiating_temperature a u) ltac:(lra) ltac:(lra)).
      assert (0 <= lin_fit (radiating_temperature a u) * radiating_temperature a u ^ 4) by lra.
      eapply within_more; [| |apply (within_mult e (1400 * e)); [lra|assumption|exact Hk|exact Lin]]; [|nra].
      apply Rmult_le_pos; lra.
  - destruct Hk as [Eb Hk]. rewrite Eb. clear Eb. unfold conductive_flux in *. apply within_scale; [lra|].
    assert (P : 0 < (1.929 - 1.554 * su_vf u) ^ 2) by (apply pow_lt; lra).
    assert (P0 : 0 <= (1.929 - 1.554 * su_vf u) ^ 2 * (su_temp u - t_base)) by (apply Rmult_le_pos; lra).
    unfold Rdiv at 1 3. rewrite !(Rmult_comm ((1.929 - 1.554 * su_vf u) ^ 2 * (su_temp u - t_base))).
    apply within_scale; [exact P0|].
    assert (Pc : 0 < cbd / 100 * su_depth u) by (apply Rmult_lt_0_compat; lra).
    apply (within_more (2 * e)); [apply Rlt_le, Rinv_0_lt_compat; exact Pc|lra|]. apply within_inv; [exact He|exact Pc|].
    apply within_scale; [lra|]. apply within_scale; [lra|exact Hk].
  - apply within_scale; [lra|]. unfold convection_coefficient in Hk. fold a in Hl.
    assert (Hc' : within (3500 * e) (convecting_temperature u - air_temp a) (convecting_temperature u - air_temp a')).
    { unfold within in *. replace (convecting_temperature u - air_temp a' - (convecting_temperature u - air_temp a)) with (- (air_temp a' - air_temp a)) by ring.
      rewrite Rabs_Ropp. assert (e * (0.00029 * air_temp a) <= e * (convecting_temperature u - air_temp a)) by (apply Rmult_le_compat_l; lra).
      assert (0 <= e * air_temp a) by (apply Rmult_le_pos; lra). lra. }
    eapply within_more; [| |apply (within_mult e (3500 * e)); [lra|lra|exact Hk|exact Hc']]; [|nra].
    apply Rmult_le_pos; lra.
  - apply within_scale; [lra|]. apply (within_more e); [lra|lra|exact Hk].
  - apply within_same; lra.
  - apply within_same; lra.
Qed.
Lemma near_loss (sm sm' : sim R) e u : 1 <= air_temp (s_air sm) -> 1 <= air_temp (s_air sm') -> 0 <= e <= 1 / 2 ->
  warm_surface (get_solid_temperature (s_cryst sm)) (air_temp (s_air sm)) u ->
  warm_surface (get_solid_temperature (s_cryst sm)) (air_temp (s_air sm')) u ->
  within e (air_temp (s_air sm)) (air_temp (s_air sm')) ->
  forall b b', Forall2 (near e (s_air sm) (s_air sm')) b b' -> Forall (is_loss sm) b ->
  0 <= heat_loss (s_air sm) b u /\ within (6000 * e) (heat_loss (s_air sm) b u) (heat_loss (s_air sm') b' u).
Proof.
  intros Ha Ha' He W W' Ht b b' N. induction N as [|f f' b b' Nf N IH]; intros Hb; unfold heat_loss; cbn [map fold_right].
  - split; [lra|]. apply within_same; lra.
  - inversion Hb as [|? ? Hf Hb1]; subst. destruct (IH Hb1) as [P Q]. unfold heat_loss in P, Q.
    assert (Pf := loss_positive sm u f Ha W Hf). split; [lra|].
    assert (Qf := near_law sm sm' e u f f' Ha Ha' He W W' Ht Hf Nf). apply within_elim in Q, Qf. apply within_intro. lra.
Qed.

Lemma near_loss_latent e q q' L L' : 0 <= e <= 1 / 2 -> 0 <= q -> 0 < L -> within (6000 * e) q q' -> within e L L' ->
  Rabs (q' / L' - q / L) <= 13000 * e * (q / L).
Proof.
  intros He P PL Q HL. assert (Pi : 0 < / L) by (apply Rinv_0_lt_compat; exact PL).
  change (within (13000 * e) (q * / L) (q' * / L')). assert (Ee : e * e <= 1 / 2 * e) by (apply Rmult_le_compat_r; lra).
  eapply within_more; [| |apply (within_mult (6000 * e) (2 * e)); [exact P|lra|exact Q|apply within_inv; assumption]]; [|lra].
  apply Rmult_le_pos; lra.
Qed.

(** Emissivity, convection coefficient, conduction thickness, rain, latent heat and
    air temperature, each known within a fraction [eps]: the rows are known within a
    constant times [eps]. *)
Theorem C91_small_errors_in_the_parameters :
  forall (d : json R) profile mo (sm : sim R) (s : state R) depth phi1 v0,
  build_models d profile = Ok mo -> s_budget sm = mo_budget mo ->
  losing sm s depth -> smooth sm phi1 -> 0 < v0 ->
  exists C, 0 < C /\ forall (d' : json R) profile' mo' a b L eps, build_models d' profile' = Ok mo' -> b = mo_budget mo' ->
    losing (with_losses a b L sm) s depth -> 0 <= eps <= 1 / 2 ->
    Forall2 (near eps (s_air sm) a) (s_budget sm) b ->
    within eps (air_temp (s_air sm)) (air_temp a) -> within eps (lv_latent (s_lava sm)) L ->
  forall h n fuel fuel' w w', 0 < h ->
    simulate fuel (with_step h sm) (initial_world s [] depth) = Some (Ok tt, w) ->
    simulate fuel' (with_step h (with_losses a b L sm)) (initial_world s [] depth) = Some (Ok tt, w') ->
    (n < w_iter w)%nat -> (n < w_iter w')%nat -> flows_freely v0 phi1 (w_log w) n -> flows_freely v0 phi1 (w_log w') n ->
    exists r r' x temp phi v temp' phi' v',
      nth_error (w_log w) n = Some r /\ nth_error (w_log w') n = Some r' /\
      holds r "position" x /\ holds r' "position" x /\
      holds r "core_temperature" temp /\ holds r "crystal_fraction" phi /\ holds r "mean_velocity" v /\
      holds r' "core_temperature" temp' /\ holds r' "crystal_fraction" phi' /\ holds r' "mean_velocity" v' /\
      Rabs (temp - temp') <= C * eps /\ Rabs (phi - phi') <= C * eps /\ Rabs (v - v') <= C * eps.
Proof.
  intros d profile mo sm s depth phi1 v0 Hb Es K S Hv0.
  destruct (C91_small_errors_in_the_losses d profile mo sm s depth phi1 v0 Hb Es K S Hv0) as (C & PC & G).
  exists (C * 13000). split; [lra|]. intros d' profile' mo' a b L eps Hb' Es' K' He Nr Ht HL h n fuel fuel' w w' Hh H H' Hn Hn' Fr Fr'.
  rewrite Rmult_assoc. apply (G d' profile' mo' a b L (13000 * eps) Hb' Es' K' ltac:(lra)) with (h := h) (fuel := fuel) (fuel' := fuel'); try assumption.
  intros u W W'. destruct (near_loss sm (with_losses a b L sm) eps u (co_air _ _ _ K) (co_air _ _ _ K') He W W' Ht _ _ Nr (co_losses _ _ _ K)) as [P Q].
  assert (PL : 0 < lv_latent (s_lava sm)) by apply (va_lava _ _ _ (co_admissible _ _ _ K)).
  exact (near_loss_latent eps _ _ _ _ He P PL Q HL).
Qed.
