(** * RPow: real powers *)
From Verif Require Import Base Num RNum.
Open Scope R_scope.

Lemma Rpower_gt_0 x y : 0 < Rpower x y.
Proof. unfold Rpower. apply exp_pos. Qed.
Lemma Rpower_1_l y : Rpower 1 y = 1.
Proof. unfold Rpower. rewrite ln_1, Rmult_0_r. apply exp_0. Qed.
Lemma ln_le_0 x : 0 < x <= 1 -> ln x <= 0.
Proof. intros H. rewrite <- ln_1. destruct (Req_dec x 1) as [->|]; [lra|]. apply Rlt_le, ln_increasing; lra. Qed.
Lemma ln_lt_0 x : 0 < x < 1 -> ln x < 0.
Proof. intros H. rewrite <- ln_1. apply ln_increasing; lra. Qed.
Lemma ln_gt_0 x : 1 < x -> 0 < ln x.
Proof. intros H. rewrite <- ln_1. apply ln_increasing; lra. Qed.
Lemma exp_le x y : x <= y -> exp x <= exp y.
Proof. intros H. destruct (Req_dec x y) as [->|]; [lra|]. apply Rlt_le, exp_increasing. lra. Qed.

(** base in (0,1], negative exponent *)
Lemma Rpower_neg_ge_1 b e : 0 < b <= 1 -> 0 <= e -> 1 <= Rpower b (- e).
Proof.
  intros Hb He. rewrite <- exp_0. unfold Rpower. apply exp_le.
  assert (H := ln_le_0 b Hb). nra.
Qed.
Lemma Rpower_neg_gt_1 b e : 0 < b < 1 -> 0 < e -> 1 < Rpower b (- e).
Proof.
  intros Hb He. rewrite <- exp_0. unfold Rpower. apply exp_increasing.
  assert (H := ln_lt_0 b Hb). nra.
Qed.
Lemma Rpower_neg_decr b1 b2 e : 0 < b1 < b2 -> 0 < e -> Rpower b2 (- e) < Rpower b1 (- e).
Proof.
  intros Hb He. unfold Rpower. apply exp_increasing.
  assert (ln b1 < ln b2) by (apply ln_increasing; lra). nra.
Qed.
Lemma Rpower_pos_incr b1 b2 e : 0 < b1 < b2 -> 0 < e -> Rpower b1 e < Rpower b2 e.
Proof.
  intros Hb He. unfold Rpower. apply exp_increasing.
  assert (ln b1 < ln b2) by (apply ln_increasing; lra). nra.
Qed.
Lemma Rpower_pos_incr_le b1 b2 e : 0 < b1 <= b2 -> 0 <= e -> Rpower b1 e <= Rpower b2 e.
Proof.
  intros Hb He. unfold Rpower. apply exp_le.
  assert (ln b1 <= ln b2). { destruct (Req_dec b1 b2) as [->|]; [lra|]. apply Rlt_le, ln_increasing; lra. } nra.
Qed.
Lemma Rpower_le_1 b e : 0 < b <= 1 -> 0 <= e -> Rpower b e <= 1.
Proof. intros Hb He. rewrite <- (Rpower_1_l e). apply Rpower_pos_incr_le; lra. Qed.
Lemma Rpower_lt_1 b e : 0 < b < 1 -> 0 < e -> Rpower b e < 1.
Proof. intros Hb He. rewrite <- (Rpower_1_l e). apply Rpower_pos_incr; lra. Qed.

(** [x ^ y] for [x >= 0], [y > 0], as [pow] computes it (0 at 0). *)
Definition pospow (x y : R) : R := if Rlt_dec 0 x then Rpower x y else 0.
Lemma R_power_pospow a b x y : 0 <= x -> 0 < y -> R_power a b x y = Ok (pospow x y).
Proof.
  intros Hx Hy. unfold pospow. destruct (Rlt_dec 0 x).
  - now apply R_power_pos.
  - replace x with 0 by lra. now apply R_power_0_pos.
Qed.
Lemma pospow_0 y : pospow 0 y = 0.
Proof. unfold pospow. destruct (Rlt_dec 0 0); lra. Qed.
Lemma pospow_pos x y : 0 < x -> pospow x y = Rpower x y.
Proof. intros. unfold pospow. destruct (Rlt_dec 0 x); lra. Qed.
Lemma pospow_ge_0 x y : 0 <= pospow x y.
Proof. unfold pospow. destruct (Rlt_dec 0 x); [apply Rlt_le, Rpower_gt_0|lra]. Qed.
Lemma pospow_incr x1 x2 y : 0 <= x1 < x2 -> 0 < y -> pospow x1 y < pospow x2 y.
Proof.
  intros H Hy. rewrite (pospow_pos x2) by lra. unfold pospow. destruct (Rlt_dec 0 x1).
  - apply Rpower_pos_incr; lra.
  - apply Rpower_gt_0.
Qed.
Lemma pospow_incr_le x1 x2 y : 0 <= x1 <= x2 -> 0 < y -> pospow x1 y <= pospow x2 y.
Proof.
  intros H Hy. destruct (Req_dec x1 x2) as [->|]; [lra|]. apply Rlt_le, pospow_incr; lra.
Qed.
