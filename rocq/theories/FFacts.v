(** * FFacts: facts about the binary64 instance *)
From Coq Require Import ZArith Reals Lra Psatz.
From Flocq Require Import Core BinarySingleNaN.
From Verif Require Import Base Num FNum.
Open Scope R_scope.

Notation rnd := (round radix2 (FLT_exp emin prec) (round_mode mode_NE)).
Notation B2R := (B2R (prec:=prec) (emax:=emax)).

Lemma fexp_is : SpecFloat.fexp prec emax = FLT_exp emin prec.
Proof. reflexivity. Qed.

(** A literal n/d is n/d rounded to nearest. *)
Lemma quot_correct sx m d :
  let x := IZR (cond_Zopp sx (Zpos m)) / IZR (Zpos d) in
  Rabs (rnd x) < bpow radix2 emax -> B2R (quot sx m d) = rnd x /\ is_finite (quot sx m d) = true.
Proof.
  intros x Hx. unfold quot.
  destruct (Bdiv_correct_aux prec emax _ _ mode_NE sx m 0 false d 0) as [V H]. cbn [proj1].
  cbv zeta in H. rewrite B2R_SF2B, is_finite_SF2B.
  assert (E : F2R (Float radix2 (cond_Zopp sx (Zpos m)) 0) / F2R (Float radix2 (cond_Zopp false (Zpos d)) 0) = x).
  { unfold F2R, x. simpl. rewrite !Rmult_1_r. reflexivity. }
  rewrite E in H. rewrite Rlt_bool_true in H by exact Hx. destruct H as (H1 & H2 & _). auto.
Qed.
Lemma lit_correct n d : let x := IZR n / IZR (Zpos d) in
  Rabs (rnd x) < bpow radix2 emax -> B2R (lit n d) = rnd x /\ is_finite (lit n d) = true.
Proof.
  intros x Hx. destruct n; cbn [lit].
  - unfold x. replace (0 / IZR (Z.pos d)) with 0 by (unfold Rdiv; ring). rewrite round_0 by typeclasses eauto. auto.
  - apply (quot_correct false p d Hx).
  - apply (quot_correct true p d Hx).
Qed.

(** ** Comparisons *)
Lemma Bleb_refl (x : b64) : is_nan x = false -> Bleb x x = true.
Proof.
  intros H. unfold Bleb, SpecFloat.SFleb. change (match Bcompare x x with Some (Eq | Lt) => true | _ => false end = true).
  destruct x as [s|[]| |s m e Hb]; try reflexivity; try discriminate.
  rewrite Bcompare_correct by reflexivity. rewrite Rcompare_Eq by reflexivity. reflexivity.
Qed.
Lemma Bleb_trans (x y z : b64) : Bleb x y = true -> Bleb y z = true -> Bleb x z = true.
Proof.
  intros H1 H2.
  destruct x as [sx|[]| |sx mx ex Hx], y as [sy|[]| |sy my ey Hy], z as [sz|[]| |sz mz ez Hz];
    try reflexivity; try discriminate;
    try (cbn in H1, H2; (reflexivity || discriminate || (destruct sy; discriminate) || (destruct sx; discriminate)));
    rewrite Bleb_correct in * by reflexivity;
    revert H1 H2; (case Rle_bool_spec; [intros H1 _|discriminate]); (case Rle_bool_spec; [intros H2 _|discriminate]);
    apply Rle_bool_true; lra.
Qed.
Lemma Bcompare_dichotomy (x y : b64) : Bleb x y = true -> Beqb x y = false -> Bltb x y = true.
Proof.
  unfold Bleb, Beqb, Bltb, SpecFloat.SFleb, SpecFloat.SFeqb, SpecFloat.SFltb.
  destruct (SpecFloat.SFcompare _ _) as [[]|]; congruence.
Qed.
Lemma Bleb_inf (x : b64) : is_nan x = false -> Bleb x (B754_infinity false) = true.
Proof. destruct x as [s|[]| |[] m e Hb]; try reflexivity; discriminate. Qed.
Lemma Bltb_le (x y : b64) : Bltb x y = true -> Bleb x y = true.
Proof.
  unfold Bleb, Bltb, SpecFloat.SFleb, SpecFloat.SFltb. destruct (SpecFloat.SFcompare _ _) as [[]|]; congruence.
Qed.
Lemma Bltb_irrefl (x : b64) : Bltb x x = false.
Proof.
  destruct (is_nan x) eqn:E.
  - destruct x; try discriminate. reflexivity.
  - assert (H := Beqb_refl _ _ x). rewrite E in H. revert H. unfold Beqb, Bltb, SpecFloat.SFeqb, SpecFloat.SFltb.
    destruct (SpecFloat.SFcompare _ _) as [[]|]; cbn; congruence.
Qed.
Lemma Bleb_not_lt (x y : b64) : Bleb x y = true -> Bltb y x = false.
Proof.
  intros H. destruct (Bltb y x) eqn:E; [|reflexivity].
  unfold Bleb, SpecFloat.SFleb in H. unfold Bltb, SpecFloat.SFltb in E.
  assert (S := Bcompare_swap _ _ x y). unfold Bcompare in S. rewrite S in E.
  destruct (SpecFloat.SFcompare (B2SF x) (B2SF y)) as [[]|]; cbn in E; discriminate.
Qed.
Lemma Beqb_leb (x y : b64) : Beqb x y = true -> Bleb x y = true /\ Bleb y x = true.
Proof.
  intros H. unfold Beqb, SpecFloat.SFeqb in H. unfold Bleb, SpecFloat.SFleb.
  assert (S := Bcompare_swap _ _ x y). unfold Bcompare in S. rewrite S.
  destruct (SpecFloat.SFcompare (B2SF x) (B2SF y)) as [[]|]; cbn; auto; discriminate.
Qed.
Lemma Bleb_antisym (x y : b64) : Bleb x y = true -> Bleb y x = true -> Beqb x y = true.
Proof.
  unfold Bleb, Beqb, SpecFloat.SFleb, SpecFloat.SFeqb. intros H1 H2.
  assert (S := Bcompare_swap _ _ x y). unfold Bcompare in S. rewrite S in H2.
  destruct (SpecFloat.SFcompare (B2SF x) (B2SF y)) as [[]|]; cbn in *; auto; discriminate.
Qed.
Lemma Bleb_not_nan (x y : b64) : Bleb x y = true -> is_nan x = false /\ is_nan y = false.
Proof.
  destruct x as [sx|[]| |sx mx ex Hx], y as [sy|[]| |sy my ey Hy]; try (intros H; discriminate H); auto;
    destruct sx; try discriminate; auto.
Qed.
Lemma Bleb_total (x y : b64) : is_nan x = false -> is_nan y = false -> Bleb x y = false -> Bltb y x = true.
Proof.
  intros Hx Hy H. unfold Bleb, SpecFloat.SFleb in H. unfold Bltb, SpecFloat.SFltb.
  assert (S := Bcompare_swap _ _ x y). unfold Bcompare in S. rewrite S.
  destruct (SpecFloat.SFcompare (B2SF x) (B2SF y)) as [[]|] eqn:E; try discriminate; [reflexivity|].
  destruct x as [sx|[]| |sx mx ex Bx], y as [sy|[]| |sy my ey By]; try discriminate;
    try (destruct sx; discriminate); try (destruct sy; discriminate).
Qed.

(** ** Adding a positive step *)
Lemma Bplus_inf_sign (x y : b64) : is_finite x = true -> is_finite y = true -> 0 < B2R y ->
  B2SF (Bplus mode_NE x y) = SpecFloat.S754_infinity (Bsign x) -> Bsign x = Bsign y ->
  Bplus mode_NE x y = B754_infinity false.
Proof.
  intros Fx Fy Py H Hs.
  assert (Sy : Bsign y = false).
  { destruct y as [s|s| |[] m e Hb]; try reflexivity; simpl in Py; try lra.
    - exfalso. assert (F2R (Float radix2 (Zneg m) e) < 0) by (apply F2R_lt_0; reflexivity). simpl in Py. lra. }
  rewrite Hs, Sy in H. destruct (Bplus mode_NE x y); simpl in H; try discriminate. injection H as ->. reflexivity.
Qed.
Lemma plus_step (x y : b64) : is_nan x = false -> is_finite y = true -> 0 < B2R y ->
  is_nan (Bplus mode_NE x y) = false /\ Bleb x (Bplus mode_NE x y) = true.
Proof.
  intros Nx Fy Py. destruct (is_finite x) eqn:Fx.
  - assert (C := Bplus_correct _ _ _ _ mode_NE x y Fx Fy).
    destruct (Rlt_bool _ _) in C.
    + destruct C as (C1 & C2 & _). split.
      * destruct (Bplus mode_NE x y); auto; discriminate.
      * rewrite Bleb_correct by auto. apply Rle_bool_true. rewrite C1.
        apply round_ge_generic; try typeclasses eauto; [apply generic_format_B2R|lra].
    + destruct C as (C1 & C2). rewrite (Bplus_inf_sign x y) by auto. split; [reflexivity|apply Bleb_inf; auto].
  - destruct x as [s|s| |s m e Hb]; try discriminate.
    destruct y as [s'|s'| |s' m' e' Hb']; try discriminate; destruct s; split; reflexivity.
Qed.

(** How far a step gets at least: [x + dx/2], or past the limit. *)
Lemma plus_progress (x y lim : b64) :
  is_finite x = true -> is_finite y = true -> is_finite lim = true ->
  0 <= B2R x -> 0 < B2R y ->
  bpow radix2 (-1022) <= B2R lim -> B2R lim * bpow radix2 (-52) <= B2R y ->
  Bleb lim (Bplus mode_NE x y) = true \/
  (is_finite (Bplus mode_NE x y) = true /\ B2R x + B2R y / 2 <= B2R (Bplus mode_NE x y)).
Proof.
  intros Fx Fy Fl Px Py Hn Hy.
  assert (C := Bplus_correct _ _ _ _ mode_NE x y Fx Fy).
  assert (Vexp : Valid_exp (FLT_exp emin prec)) by (apply FLT_exp_valid; reflexivity).
  destruct (Rlt_bool _ _) in C.
  - destruct C as (C1 & C2 & _). rewrite fexp_is in C1.
    destruct (Rle_dec (B2R lim) (B2R x + B2R y)) as [H|H].
    + left. rewrite Bleb_correct by auto. apply Rle_bool_true. rewrite C1.
      apply round_ge_generic; try typeclasses eauto; [apply generic_format_B2R|exact H].
    + right. split; [exact C2|]. rewrite C1. apply Rnot_le_lt in H. set (s := B2R x + B2R y) in *.
      assert (E := error_le_half_ulp radix2 (FLT_exp emin prec) (fun z => negb (Z.even z)) s).
      change (Rabs (rnd s - s) <= / 2 * ulp radix2 (FLT_exp emin prec) s) in E.
      assert (U : ulp radix2 (FLT_exp emin prec) s <= B2R y).
      { apply Rle_trans with (ulp radix2 (FLT_exp emin prec) (B2R lim)).
        - apply (@ulp_le_pos radix2 (FLT_exp emin prec) Vexp (FLT_exp_monotone emin prec)); unfold s in *; lra.
        - apply Rle_trans with (2 := Hy).
          apply Rle_trans with (Rabs (B2R lim) * bpow radix2 (1 - prec)).
          + apply ulp_FLT_le. change (emin + prec - 1)%Z with (-1022)%Z.
            rewrite Rabs_pos_eq by (apply Rle_trans with (2 := Hn); apply bpow_ge_0). exact Hn.
          + rewrite Rabs_pos_eq by (apply Rle_trans with (2 := Hn); apply bpow_ge_0). apply Rle_refl. }
      apply Rabs_le_inv in E. unfold s in *. lra.
  - left. destruct C as (C1 & C2). rewrite (Bplus_inf_sign x y) by auto. apply Bleb_inf.
    destruct lim; auto; discriminate.
Qed.
