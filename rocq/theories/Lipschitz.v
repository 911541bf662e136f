(** * Lipschitz: bounded Lipschitz functions of position, temperature and crystal fraction *)
From Coq Require Import Reals Lra Lia List Sorting.Sorted.
From Verif Require Import Base RPow.
Open Scope R_scope.

Record point : Type := { px : R; pt : R; pp : R }.
Definition dist (p q : point) : R := Rabs (px p - px q) + Rabs (pt p - pt q) + Rabs (pp p - pp q).
Lemma dist_pos p q : 0 <= dist p q.
Proof. unfold dist. assert (A := Rabs_pos (px p - px q)). assert (B := Rabs_pos (pt p - pt q)). assert (C := Rabs_pos (pp p - pp q)). lra. Qed.

Section Lip.
Variable D : point -> Prop.
(** bounded and Lipschitz on [D] *)
Definition lip (f : point -> R) : Prop := exists L B, 0 <= L /\ 0 <= B /\
  forall p, D p -> Rabs (f p) <= B /\ forall q, D q -> Rabs (f p - f q) <= L * dist p q.
(** ... and bounded below by a positive number *)
Definition plip (f : point -> R) : Prop := lip f /\ exists c, 0 < c /\ forall p, D p -> c <= f p.

Lemma lip_ext f g : (forall p, D p -> f p = g p) -> lip f -> lip g.
Proof.
  intros E (L & B & HL & HB & H). exists L, B. split; [exact HL|]. split; [exact HB|]. intros p Hp. rewrite <- E by exact Hp.
  destruct (H p Hp) as [H1 H2]. split; [exact H1|]. intros q Hq. rewrite <- E by exact Hq. auto.
Qed.
Lemma plip_ext f g : (forall p, D p -> f p = g p) -> plip f -> plip g.
Proof.
  intros E [H (c & Hc & H1)]. split; [now apply (lip_ext f)|]. exists c. split; [exact Hc|]. intros p Hp. rewrite <- E by exact Hp. auto.
Qed.
Lemma lip_const c : lip (fun _ => c).
Proof.
  exists 0, (Rabs c). split; [lra|]. split; [apply Rabs_pos|]. intros p _. split; [lra|]. intros q _.
  rewrite Rminus_diag_eq, Rabs_R0 by reflexivity. lra.
Qed.
Lemma plip_const c : 0 < c -> plip (fun _ => c).
Proof. intros H. split; [apply lip_const|]. exists c. split; [exact H|]. intros; lra. Qed.
Lemma abs_range x a b : a <= x <= b -> Rabs x <= Rabs a + Rabs b.
Proof. unfold Rabs. destruct (Rcase_abs x), (Rcase_abs a), (Rcase_abs b); lra. Qed.
Lemma lip_x a b : (forall p, D p -> a <= px p <= b) -> lip px.
Proof.
  intros H. exists 1, (Rabs a + Rabs b). split; [lra|]. split; [assert (X := Rabs_pos a); assert (Y := Rabs_pos b); lra|].
  intros p Hp. split; [apply abs_range, H, Hp|]. intros q _. unfold dist.
  assert (X := Rabs_pos (pt p - pt q)). assert (Y := Rabs_pos (pp p - pp q)). lra.
Qed.
Lemma lip_t a b : (forall p, D p -> a <= pt p <= b) -> lip pt.
Proof.
  intros H. exists 1, (Rabs a + Rabs b). split; [lra|]. split; [assert (X := Rabs_pos a); assert (Y := Rabs_pos b); lra|].
  intros p Hp. split; [apply abs_range, H, Hp|]. intros q _. unfold dist.
  assert (X := Rabs_pos (px p - px q)). assert (Y := Rabs_pos (pp p - pp q)). lra.
Qed.
Lemma lip_p a b : (forall p, D p -> a <= pp p <= b) -> lip pp.
Proof.
  intros H. exists 1, (Rabs a + Rabs b). split; [lra|]. split; [assert (X := Rabs_pos a); assert (Y := Rabs_pos b); lra|].
  intros p Hp. split; [apply abs_range, H, Hp|]. intros q _. unfold dist.
  assert (X := Rabs_pos (px p - px q)). assert (Y := Rabs_pos (pt p - pt q)). lra.
Qed.
Lemma lip_plus f g : lip f -> lip g -> lip (fun p => f p + g p).
Proof.
  intros (L & B & HL & HB & H) (L' & B' & HL' & HB' & H'). exists (L + L'), (B + B'). split; [lra|]. split; [lra|].
  intros p Hp. destruct (H p Hp) as [A1 A2]. destruct (H' p Hp) as [A1' A2']. split.
  - eapply Rle_trans; [apply Rabs_triang|lra].
  - intros q Hq. replace (f p + g p - (f q + g q)) with ((f p - f q) + (g p - g q)) by ring.
    eapply Rle_trans; [apply Rabs_triang|]. specialize (A2 q Hq). specialize (A2' q Hq). lra.
Qed.
Lemma lip_mult f g : lip f -> lip g -> lip (fun p => f p * g p).
Proof.
  intros (L & B & HL & HB & H) (L' & B' & HL' & HB' & H'). exists (L * B' + B * L'), (B * B').
  split; [nra|]. split; [nra|].
  intros p Hp. destruct (H p Hp) as [A1 A2]. destruct (H' p Hp) as [A1' A2']. split.
  - rewrite Rabs_mult. apply Rmult_le_compat; auto using Rabs_pos.
  - intros q Hq. replace (f p * g p - f q * g q) with ((f p - f q) * g p + f q * (g p - g q)) by ring.
    eapply Rle_trans; [apply Rabs_triang|]. rewrite !Rabs_mult.
    specialize (A2 q Hq). specialize (A2' q Hq). destruct (H q Hq) as [C1 _]. assert (Z := dist_pos p q).
    assert (X1 : Rabs (f p - f q) * Rabs (g p) <= L * dist p q * B') by (apply Rmult_le_compat; auto using Rabs_pos).
    assert (X2 : Rabs (f q) * Rabs (g p - g q) <= B * (L' * dist p q)) by (apply Rmult_le_compat; auto using Rabs_pos).
    lra.
Qed.
Lemma lip_opp f : lip f -> lip (fun p => - f p).
Proof. intros H. apply (lip_ext (fun p => -1 * f p)); [intros; ring|]. apply lip_mult; [apply lip_const|exact H]. Qed.
Lemma lip_minus f g : lip f -> lip g -> lip (fun p => f p - g p).
Proof. intros H1 H2. unfold Rminus. apply lip_plus; [exact H1|now apply lip_opp]. Qed.
Lemma lip_pow f n : lip f -> lip (fun p => f p ^ n).
Proof. intros H. induction n as [|n IH]; cbn [pow]; [apply lip_const|now apply lip_mult]. Qed.
Lemma lip_sum {A} (l : list A) (f : A -> point -> R) : (forall a, In a l -> lip (f a)) ->
  lip (fun p => fold_right Rplus 0 (map (fun a => f a p) l)).
Proof.
  induction l as [|a l IH]; intros H; cbn [map fold_right]; [apply lip_const|].
  apply lip_plus; [apply H; now left|]. apply IH. intros b Hb. apply H. now right.
Qed.
(** composition with a function that is Lipschitz on bounded sets *)
Lemma lip_comp (g : R -> R) f : lip f ->
  (forall B, 0 <= B -> exists K, 0 <= K /\ forall x y, Rabs x <= B -> Rabs y <= B -> Rabs (g x - g y) <= K * Rabs (x - y)) ->
  lip (fun p => g (f p)).
Proof.
  intros (L & B & HL & HB & H) Hg. destruct (Hg B HB) as (K & HK & HG).
  exists (K * L), (Rabs (g 0) + K * B). split; [nra|]. split; [assert (X := Rabs_pos (g 0)); nra|].
  intros p Hp. destruct (H p Hp) as [A1 A2]. split.
  - assert (X := HG (f p) 0 A1 ltac:(rewrite Rabs_R0; lra)). replace (f p - 0) with (f p) in X by ring.
    assert (Y := Rabs_triang_inv (g (f p)) (g 0)). assert (K * Rabs (f p) <= K * B) by (apply Rmult_le_compat_l; lra). lra.
  - intros q Hq. destruct (H q Hq) as [C1 _]. eapply Rle_trans; [apply HG; assumption|].
    rewrite Rmult_assoc. apply Rmult_le_compat_l; [exact HK|apply A2, Hq].
Qed.
Lemma exp_lip B x y : Rabs x <= B -> Rabs y <= B -> Rabs (exp x - exp y) <= exp B * Rabs (x - y).
Proof.
  intros Hx Hy. destruct (MVT_abs exp exp y x) as (c & E & H1 & H2); [intros; apply derivable_pt_lim_exp|].
  rewrite E. apply Rmult_le_compat_r; [apply Rabs_pos|]. rewrite Rabs_right by (apply Rle_ge, Rlt_le, exp_pos). apply exp_le.
  assert (x <= Rabs x) by apply Rle_abs. assert (y <= Rabs y) by apply Rle_abs. assert (Rmax y x <= B) by (apply Rmax_lub; lra). lra.
Qed.
Lemma plip_exp f : lip f -> plip (fun p => exp (f p)).
Proof.
  intros H. split.
  - apply lip_comp; [exact H|]. intros B HB. exists (exp B). split; [apply Rlt_le, exp_pos|apply exp_lip].
  - destruct H as (L & B & _ & _ & H). exists (exp (- B)). split; [apply exp_pos|]. intros p Hp. apply exp_le.
    destruct (H p Hp) as [A _]. assert (X := Rle_abs (- f p)). rewrite Rabs_Ropp in X. lra.
Qed.
Lemma sin_lip x y : Rabs (sin x - sin y) <= Rabs (x - y).
Proof.
  destruct (MVT_abs sin cos y x) as (c & E & _); [intros; apply derivable_pt_lim_sin|].
  rewrite E. rewrite <- (Rmult_1_l (Rabs (x - y))) at 2. apply Rmult_le_compat_r; [apply Rabs_pos|].
  apply Rabs_le. apply COS_bound.
Qed.
Lemma lip_sin f : lip f -> lip (fun p => sin (f p)).
Proof. intros H. apply lip_comp; [exact H|]. intros B _. exists 1. split; [lra|]. intros x y _ _. rewrite Rmult_1_l. apply sin_lip. Qed.
Lemma lip_max f c : lip f -> lip (fun p => Rmax c (f p)).
Proof.
  intros H. apply lip_comp; [exact H|]. intros B _. exists 1. split; [lra|]. intros x y _ _.
  unfold Rmax. destruct (Rle_dec c x), (Rle_dec c y); unfold Rabs; repeat destruct (Rcase_abs _); lra.
Qed.
Lemma lip_min f c : lip f -> lip (fun p => Rmin (f p) c).
Proof.
  intros H. apply (lip_comp (fun x => Rmin x c)); [exact H|]. intros B _. exists 1. split; [lra|]. intros x y _ _.
  unfold Rmin. destruct (Rle_dec x c), (Rle_dec y c); unfold Rabs; repeat destruct (Rcase_abs _); lra.
Qed.
Lemma lip_inv f c : lip f -> 0 < c -> (forall p, D p -> c <= Rabs (f p)) -> lip (fun p => / f p).
Proof.
  intros (L & B & HL & HB & H) Hc HF. exists (/ (c * c) * L), (/ c).
  assert (0 < / (c * c)) by (apply Rinv_0_lt_compat; nra). assert (0 < / c) by (apply Rinv_0_lt_compat; lra).
  split; [nra|]. split; [lra|]. assert (Z : forall p, D p -> f p <> 0).
  { intros p Hp E. specialize (HF p Hp). rewrite E, Rabs_R0 in HF. lra. }
  intros p Hp. split.
  - rewrite Rabs_inv. apply Rinv_le_contravar; [exact Hc|auto].
  - intros q Hq. replace (/ f p - / f q) with (/ (f p * f q) * (f q - f p)) by (field; auto).
    rewrite Rabs_mult, Rabs_inv, Rabs_mult, (Rabs_minus_sym (f q)). rewrite Rmult_assoc. apply Rmult_le_compat.
    + apply Rlt_le, Rinv_0_lt_compat. specialize (HF p Hp) as A1. specialize (HF q Hq) as A2. nra.
    + apply Rabs_pos.
    + apply Rinv_le_contravar; [nra|]. apply Rmult_le_compat; auto; lra.
    + apply H; assumption.
Qed.
Lemma plip_inv f : plip f -> plip (fun p => / f p).
Proof.
  intros [H (c & Hc & HF)]. split.
  - apply (lip_inv f c); auto. intros p Hp. eapply Rle_trans; [apply HF, Hp|apply Rle_abs].
  - destruct H as (L & B & HL & HB & H). exists (/ (B + 1)). split; [apply Rinv_0_lt_compat; lra|].
    intros p Hp. specialize (HF p Hp). destruct (H p Hp) as [A _]. assert (X := Rle_abs (f p)). apply Rinv_le_contravar; lra.
Qed.
Lemma plip_mult f g : plip f -> plip g -> plip (fun p => f p * g p).
Proof.
  intros [H (c & Hc & HF)] [H' (c' & Hc' & HF')]. split; [now apply lip_mult|]. exists (c * c'). split; [nra|].
  intros p Hp. specialize (HF p Hp). specialize (HF' p Hp). apply Rmult_le_compat; lra.
Qed.
Lemma plip_div f g : plip f -> plip g -> plip (fun p => f p / g p).
Proof. intros H H'. unfold Rdiv. apply plip_mult; [exact H|now apply plip_inv]. Qed.
Lemma lip_div f g : lip f -> plip g -> lip (fun p => f p / g p).
Proof. intros H H'. unfold Rdiv. apply lip_mult; [exact H|]. apply plip_inv in H'. apply H'. Qed.
Lemma ln_lip c x y : 0 < c -> c <= x -> c <= y -> Rabs (ln x - ln y) <= / c * Rabs (x - y).
Proof.
  intros Hc Hx Hy. assert (Hm : c <= Rmin y x) by (apply Rmin_glb; assumption).
  destruct (MVT_abs ln Rinv y x) as (z & E & H1 & H2); [intros z Hz; apply derivable_pt_lim_ln; lra|].
  rewrite E. apply Rmult_le_compat_r; [apply Rabs_pos|].
  rewrite Rabs_right by (apply Rle_ge, Rlt_le, Rinv_0_lt_compat; lra). apply Rinv_le_contravar; lra.
Qed.
Lemma lip_ln f : plip f -> lip (fun p => ln (f p)).
Proof.
  intros [(L & B & HL & HB & H) (c & Hc & HF)]. assert (Ic : 0 < / c) by (apply Rinv_0_lt_compat; lra).
  exists (/ c * L), (Rabs (ln c) + / c * (B + c)). split; [nra|]. split.
  { assert (X := Rabs_pos (ln c)). assert (0 <= / c * (B + c)) by (apply Rmult_le_pos; lra). lra. }
  intros p Hp. destruct (H p Hp) as [A1 A2]. split.
  - assert (X := ln_lip c (f p) c Hc (HF p Hp) (Rle_refl c)). assert (Y := Rabs_triang_inv (ln (f p)) (ln c)).
    assert (Z : Rabs (f p - c) <= B + c).
    { eapply Rle_trans; [unfold Rminus; apply Rabs_triang|]. rewrite Rabs_Ropp, (Rabs_right c) by lra. lra. }
    assert (/ c * Rabs (f p - c) <= / c * (B + c)) by (apply Rmult_le_compat_l; lra). lra.
  - intros q Hq. eapply Rle_trans; [apply (ln_lip c); auto|]. rewrite Rmult_assoc. apply Rmult_le_compat_l; [lra|apply A2, Hq].
Qed.
Lemma plip_Rpower f g : plip f -> lip g -> plip (fun p => Rpower (f p) (g p)).
Proof. intros Hf Hg. unfold Rpower. apply plip_exp, lip_mult; [exact Hg|now apply lip_ln]. Qed.
Lemma plip_pospow f c : plip f -> plip (fun p => pospow (f p) c).
Proof.
  intros H. apply (plip_ext (fun p => Rpower (f p) c)).
  - intros p Hp. destruct H as [_ (e & He & H)]. specialize (H p Hp). rewrite pospow_pos by lra. reflexivity.
  - apply plip_Rpower; [exact H|apply lip_const].
Qed.
Lemma plip_pow f n : plip f -> plip (fun p => f p ^ n).
Proof. intros H. induction n as [|n IH]; cbn [pow]; [apply plip_const; lra|now apply plip_mult]. Qed.
Lemma plip_lip f : plip f -> lip f. Proof. intros [H _]. exact H. Qed.
Lemma plip_above f c : lip f -> 0 < c -> (forall p, D p -> c <= f p) -> plip f.
Proof. intros H Hc HF. split; [exact H|]. exists c. auto. Qed.
End Lip.

Lemma lip_sub (D D' : point -> Prop) f : (forall p, D' p -> D p) -> lip D f -> lip D' f.
Proof. intros H (L & B & HL & HB & HF). exists L, B. split; [exact HL|]. split; [exact HB|]. intros p Hp. destruct (HF p (H p Hp)) as [A1 A2]. auto. Qed.
Lemma plip_sub (D D' : point -> Prop) f : (forall p, D' p -> D p) -> plip D f -> plip D' f.
Proof. intros H [HF (c & Hc & HG)]. split; [now apply (lip_sub D)|]. exists c. auto. Qed.

(** Piecewise linear functions through increasing knots are Lipschitz. *)
Definition chord (p q : R * R) (x : R) : R := snd p + (snd q - snd p) / (fst q - fst p) * (x - fst p).
Fixpoint polyline (p : R * R) (l : list (R * R)) (x : R) : R :=
  match l with
  | [] => snd p
  | q :: r => match r with [] => chord p q x | _ :: _ => if Rlt_dec x (fst q) then chord p q x else polyline q r x end
  end.
Lemma chord_left p q : fst p < fst q -> chord p q (fst p) = snd p.
Proof. intros H. unfold chord. ring. Qed.
Lemma chord_right p q : fst p < fst q -> chord p q (fst q) = snd q.
Proof. intros H. unfold chord. field. lra. Qed.
Lemma polyline_lip l : forall p, StronglySorted (fun a b => fst a < fst b) (p :: l) -> l <> [] ->
  polyline p l (fst p) = snd p /\ exists L, 0 <= L /\ forall x y, Rabs (polyline p l x - polyline p l y) <= L * Rabs (x - y).
Proof.
  induction l as [|q r IH]; intros p HS Hne; [congruence|].
  assert (Hpq : fst p < fst q). { inversion HS as [|? ? ? HF]; subst. now inversion HF. }
  assert (HS' : StronglySorted (fun a b => fst a < fst b) (q :: r)) by now inversion HS.
  set (k := Rabs ((snd q - snd p) / (fst q - fst p))).
  assert (Hk : 0 <= k) by apply Rabs_pos.
  assert (HC : forall x y, Rabs (chord p q x - chord p q y) <= k * Rabs (x - y)).
  { intros x y. unfold chord, k. rewrite <- Rabs_mult. apply Req_le. f_equal. ring. }
  destruct r as [|q' r].
  - cbn [polyline]. split; [now apply chord_left|]. exists k. auto.
  - destruct (IH q HS' ltac:(discriminate)) as (E & L & HL & HP).
    assert (HM := Rmax_l k L). assert (HN := Rmax_r k L).
    set (f := polyline q (q' :: r)) in *.
    assert (F : forall x, polyline p (q :: q' :: r) x = if Rlt_dec x (fst q) then chord p q x else f x) by reflexivity.
    split; [rewrite F; destruct (Rlt_dec (fst p) (fst q)); [now apply chord_left|lra]|].
    exists (Rmax k L). split; [lra|].
    assert (Hle : forall x y, x < fst q -> fst q <= y -> Rabs (chord p q x - f y) <= Rmax k L * Rabs (x - y)).
    { intros x y Hx Hy. replace (chord p q x - f y) with ((chord p q x - chord p q (fst q)) + (f (fst q) - f y)) by (rewrite E, chord_right by exact Hpq; ring).
      eapply Rle_trans; [apply Rabs_triang|]. assert (A := HC x (fst q)). assert (B := HP (fst q) y).
      assert (A1 : Rabs (x - fst q) = fst q - x) by (rewrite Rabs_left; lra).
      assert (B1 : Rabs (fst q - y) = y - fst q) by (rewrite Rabs_left1; lra).
      assert (C1 : Rabs (x - y) = y - x) by (rewrite Rabs_left1; lra).
      rewrite A1 in A. rewrite B1 in B. rewrite C1. nra. }
    intros x y. rewrite !F. assert (Z := Rabs_pos (x - y)).
    destruct (Rlt_dec x (fst q)), (Rlt_dec y (fst q)).
    + eapply Rle_trans; [apply HC|]. apply Rmult_le_compat_r; assumption.
    + apply Hle; lra.
    + rewrite <- Rabs_Ropp. rewrite (Rabs_minus_sym x y). replace (- (f x - chord p q y)) with (chord p q y - f x) by ring. apply Hle; lra.
    + eapply Rle_trans; [apply HP|]. apply Rmult_le_compat_r; assumption.
Qed.
