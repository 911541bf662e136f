(** * Refine: the same set-up with another step size, and the error of one-step sums *)
From Coq Require Import Reals Lra Lia.
From Verif Require Import Base Num Json Logger World Vesicle MeltVisc RelVisc Bubbles Terrain Lava Thermal Flux.
Open Scope R_scope.

(** The same set-up with another value of the configuration's "step_size". *)
Definition with_step {T} (dx : T) (sm : sim T) : sim T :=
  {| s_dx := dx; s_lava := s_lava sm; s_air := s_air sm; s_ter := s_ter sm; s_cryst := s_cryst sm; s_crust := s_crust sm;
     s_cover := s_cover sm; s_budget := s_budget sm; s_mass := s_mass sm |}.

(** ** Sums with step [h] and with step [h/m] *)
Section Sums.
Variables (h L B : R) (m n : nat).
Hypothesis Hh : 0 < h.
Hypothesis HL : 0 <= L.
Hypothesis Hm : (0 < m)%nat.
Let d := h / INR m.
Variables (Tc Pc gT gP Tf Pf fT fP : nat -> R).
Definition gap (k j : nat) : R := Rabs (Tc k - Tf j) + Rabs (Pc k - Pf j).
Hypothesis H0 : Tc 0 = Tf 0 /\ Pc 0 = Pf 0.
Hypothesis Hc : forall k, (k < n)%nat -> Tc (S k) = Tc k + gT k * h /\ Pc (S k) = Pc k + gP k * h.
Hypothesis Hf : forall j, (j < n * m)%nat -> Tf (S j) = Tf j + fT j * d /\ Pf (S j) = Pf j + fP j * d.
Hypothesis HB : forall j, (j < n * m)%nat -> Rabs (fT j) + Rabs (fP j) <= B.
Hypothesis HLip : forall k i, (k < n)%nat -> (i < m)%nat ->
  Rabs (gT k - fT (k * m + i)) + Rabs (gP k - fP (k * m + i)) <= L * (INR i * d + gap k (k * m + i)).

Lemma md : INR m * d = h.
Proof. unfold d. field. apply not_0_INR. lia. Qed.
Lemma d_pos : 0 < d.
Proof. unfold d. apply Rdiv_lt_0_compat; [exact Hh|]. apply lt_0_INR. lia. Qed.
Lemma id_le i : (i <= m)%nat -> 0 <= INR i * d <= h.
Proof.
  intros Hi. assert (D := d_pos). rewrite <- md. apply le_INR in Hi. assert (P := pos_INR i). split; nra.
Qed.
Lemma tri a b c e : Rabs (a - (b + c * e)) <= Rabs (a - b) + Rabs c * Rabs e.
Proof. replace (a - (b + c * e)) with ((a - b) + - (c * e)) by ring. rewrite <- Rabs_mult, <- (Rabs_Ropp (c * e)). apply Rabs_triang. Qed.

(** within one coarse step the fine sum drifts by at most B per metre *)
Lemma inner k i : (k < n)%nat -> (i <= m)%nat -> gap k (k * m + i) <= gap k (k * m) + INR i * d * B.
Proof.
  intros Hk. induction i as [|i IH]; intros Hi.
  - rewrite Nat.add_0_r. cbn [INR]. lra.
  - specialize (IH ltac:(lia)). assert (J : (k * m + i < n * m)%nat) by nia.
    destruct (Hf _ J) as [F1 F2]. specialize (HB _ J). replace (k * m + S i)%nat with (S (k * m + i)) by lia.
    unfold gap at 1. rewrite F1, F2. assert (D := d_pos).
    assert (A1 := tri (Tc k) (Tf (k * m + i)) (fT (k * m + i)) d). assert (A2 := tri (Pc k) (Pf (k * m + i)) (fP (k * m + i)) d).
    rewrite (Rabs_right d) in A1, A2 by lra. rewrite S_INR. unfold gap in IH |- *. nra.
Qed.
(** so one coarse step and [m] fine steps part by little *)
Lemma outer k : (k < n)%nat -> gap (S k) (S k * m) <= (1 + L * h) * gap k (k * m) + L * h * h * (1 + B).
Proof.
  intros Hk. assert (D := d_pos). set (e := gap k (k * m)).
  assert (B0 : 0 <= B). { assert (J : (k * m + 0 < n * m)%nat) by nia. specialize (HB _ J).
    assert (P1 := Rabs_pos (fT (k * m + 0))). assert (P2 := Rabs_pos (fP (k * m + 0))). lra. }
  assert (S1 : forall i, (i <= m)%nat ->
    Rabs (Tc k + gT k * (INR i * d) - Tf (k * m + i)) + Rabs (Pc k + gP k * (INR i * d) - Pf (k * m + i))
    <= e + INR i * d * (L * (h + e + h * B))).
  { induction i as [|i IH]; intros Hi.
    - rewrite Nat.add_0_r. cbn [INR]. rewrite !Rmult_0_l, !Rmult_0_r, !Rplus_0_r. unfold e, gap. lra.
    - specialize (IH ltac:(lia)). assert (J : (k * m + i < n * m)%nat) by nia. destruct (Hf _ J) as [F1 F2].
      replace (k * m + S i)%nat with (S (k * m + i)) by lia. rewrite F1, F2.
      assert (G := HLip k i Hk ltac:(lia)). assert (I1 := inner k i Hk ltac:(lia)). fold e in I1.
      destruct (id_le i ltac:(lia)) as [K1 K2].
      assert (X : Rabs (gT k - fT (k * m + i)) + Rabs (gP k - fP (k * m + i)) <= L * (h + e + h * B)).
      { eapply Rle_trans; [exact G|]. apply Rmult_le_compat_l; [exact HL|]. nra. }
      assert (Y : forall a g f b, Rabs (a + g * (INR (S i) * d) - (b + f * d)) <= Rabs (a + g * (INR i * d) - b) + Rabs (g - f) * d).
      { intros a g f b. replace (a + g * (INR (S i) * d) - (b + f * d)) with ((a + g * (INR i * d) - b) + (g - f) * d) by (rewrite S_INR; ring).
        eapply Rle_trans; [apply Rabs_triang|]. rewrite Rabs_mult, (Rabs_right d) by lra. lra. }
      assert (Y1 := Y (Tc k) (gT k) (fT (k * m + i)%nat) (Tf (k * m + i)%nat)).
      assert (Y2 := Y (Pc k) (gP k) (fP (k * m + i)%nat) (Pf (k * m + i)%nat)).
      assert (Z : (Rabs (gT k - fT (k * m + i)) + Rabs (gP k - fP (k * m + i))) * d <= L * (h + e + h * B) * d) by (apply Rmult_le_compat_r; lra).
      rewrite S_INR in *. lra. }
  specialize (S1 m (le_n m)). rewrite md in S1. destruct (Hc k Hk) as [C1 C2].
  unfold gap at 1. rewrite C1, C2. replace (S k * m)%nat with (k * m + m)%nat by lia. nra.
Qed.
Lemma refine_error k : (k <= n)%nat -> gap k (k * m) <= h * (1 + B) * (exp (L * (INR k * h)) - 1).
Proof.
  intros Hk.
  assert (E1 : forall x, 0 <= x -> 1 + x <= exp x).
  { intros x [Hx|<-]; [apply Rlt_le, exp_ineq1; lra|rewrite exp_0; lra]. }
  assert (P : gap k (k * m) <= h * (1 + B) * ((1 + L * h) ^ k - 1)).
  { induction k as [|k IH].
    - cbn. unfold gap. destruct H0 as [-> ->]. rewrite !Rminus_diag_eq, Rabs_R0 by reflexivity. lra.
    - eapply Rle_trans; [apply outer; lia|]. specialize (IH ltac:(lia)). cbn [pow]. assert (0 <= L * h) by nra. nra. }
  destruct k as [|k].
  - cbn in P |- *. rewrite !Rmult_0_l, Rmult_0_r, exp_0. lra.
  - eapply Rle_trans; [exact P|].
    assert (B0 : 0 <= B). { assert (J : (0 < n * m)%nat) by nia. specialize (HB _ J).
      assert (P1 := Rabs_pos (fT 0)). assert (P2 := Rabs_pos (fP 0)). lra. }
    apply Rmult_le_compat_l; [apply Rmult_le_pos; lra|]. assert (Q : (1 + L * h) ^ (S k) <= exp (L * (INR (S k) * h))); [|lra].
    generalize (S k). intros j. induction j as [|j IH]; [cbn; rewrite Rmult_0_l, Rmult_0_r, exp_0; lra|].
    rewrite S_INR. replace (L * ((INR j + 1) * h)) with (L * h + L * (INR j * h)) by ring. rewrite exp_plus. cbn [pow].
    assert (0 <= L * h) by nra. apply Rmult_le_compat; [lra|apply pow_le; lra|apply E1; lra|exact IH].
Qed.
End Sums.
