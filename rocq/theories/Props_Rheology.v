(** * Properties C24-C33: viscosity, density, yield strength (exact reals) *)
From Verif Require Import Base Num Json Logger World Vesicle MeltVisc RelVisc Bubbles Terrain Lava
  Spec Frame RNum RPow Erf.
Open Scope R_scope.

(** A state like [s] with another crystal fraction / temperature. *)
Notation with_phi p s := (set_crystal_fraction p s).
Notation with_temp t s := (set_core_temperature t s).

(** ** C24 *)
(** Specification: the crystal fraction at which each model's viscosity
    diverges (maximum packing), given the vesicle fraction [vf]; [None] where
    the model's parameters are outside its domain or the model is not one of
    the Newtonian ones. *)
Definition mueller_packing (rp : R) : R := 55 / 100 * exp (- ((ln rp / ln 10) ^ 2 / 2)).
Definition packing_limit (m : rel_model R) (vf : R) : option R :=
  match m with
  | RelER => Some (100 / 151)
  | RelKD phimax b => if Rlt_dec 0 phimax then if Rlt_dec 0 b then Some phimax else None else None
  | RelMP phimax => if Rlt_dec 0 phimax then Some phimax else None
  | RelMueller rp => if Rlt_dec 0 rp then Some (mueller_packing rp) else None
  | RelPTP1 _ | RelPTP2 _ | RelPTP3 _ => Some (1 - vf)
  | _ => None
  end.
(** The vesicle fraction a model reads (0 for those that read none). *)
Definition rel_vesicles (m : rel_model R) (s : state R) : res R :=
  match m with
  | RelPTP1 vm | RelPTP2 vm | RelPTP3 vm => computes_vesicle_fraction vm s
  | _ => Ok 0
  end.

Lemma ves_phi vm p (s : state R) :
  computes_vesicle_fraction vm (with_phi p s) = computes_vesicle_fraction vm s.
Proof. destruct vm; reflexivity. Qed.

Lemma mueller_phimax_R rp : 0 < rp -> mueller_phimax rp = Ok (mueller_packing rp).
Proof.
  intros H. unfold mueller_phimax, mueller_packing. rnum. unfold R_log10.
  destruct (Rlt_dec 0 rp); [|lra]. cbn [rbind]. unfold R_pow. rewrite !R_power_2. cbn [rbind].
  rewrite R_div_ok by lra. cbn [rbind]. f_equal. f_equal. f_equal. unfold log10. field.
  apply Rgt_not_eq. rewrite <- ln_1. apply ln_increasing; lra.
Qed.
Lemma mueller_packing_pos rp : 0 < mueller_packing rp.
Proof. unfold mueller_packing. apply Rmult_lt_0_compat; [lra|apply exp_pos]. Qed.

(** Value of each model below its limit, in closed form. *)
Definition rel_value (m : rel_model R) (vf phi : R) : R :=
  match m with
  | RelER => Rpower (1 - 151 / 100 * phi) (- (5 / 2))
  | RelKD phimax b => Rpower (1 - phi / phimax) (- (b * phimax))
  | RelMP phimax => Rpower (1 - phi / phimax) (- 2)
  | RelMueller rp => Rpower (1 - phi / mueller_packing rp) (- 2)
  | RelPTP1 _ => Rpower (1 - phi / (1 - vf)) (- (5 / 2)) * Rpower (1 - vf) (- 1)
  | RelPTP2 _ => Rpower (1 - phi - vf) (- ((5 * phi + 2 * vf) / (2 * (phi + vf))))
  | RelPTP3 _ => Rpower (1 - vf / (1 - phi)) (- 1) * Rpower (1 - phi) (- (5 / 2))
  | _ => 0
  end.

Lemma mult_ge_1 a b : 1 <= a -> 1 <= b -> 1 <= a * b.
Proof. intros. nra. Qed.
Lemma div_lt_1 a b : 0 < b -> a < b -> a / b < 1.
Proof. intros Hb H. apply Rmult_lt_reg_r with b; auto. unfold Rdiv. rewrite Rmult_assoc, Rinv_l by lra. lra. Qed.
Lemma div_ge_0 a b : 0 < b -> 0 <= a -> 0 <= a / b.
Proof. intros Hb H. apply Rmult_le_pos; auto. apply Rlt_le, Rinv_0_lt_compat; auto. Qed.
Lemma div_lt_compat a a' b : 0 < b -> a < a' -> a / b < a' / b.
Proof. intros Hb H. apply Rmult_lt_compat_r; auto. apply Rinv_0_lt_compat; auto. Qed.

Lemma rel_value_correct m s vf limit :
  rel_vesicles m s = Ok vf -> packing_limit m vf = Some limit ->
  0 <= vf < 1 -> 0 <= st_phi s < limit ->
  (0 < st_phi s + vf \/ forall vm, m <> RelPTP2 vm) ->
  compute_relative_viscosity m s = Ok (rel_value m vf (st_phi s)).
Proof.
  intros Hvf Hl Hv Hp H2. destruct m; cbn [rel_vesicles packing_limit] in *; try discriminate;
    cbn [compute_relative_viscosity rel_value].
  - injection Hl as <-. rnum. rewrite R_div_ok by lra. cbn [rbind]. unfold R_mpow.
    rewrite R_power_pos by lra. f_equal. f_equal. lra.
  - destruct (Rlt_dec 0 phimax); [|discriminate]. destruct (Rlt_dec 0 einstein); [|discriminate].
    injection Hl as <-. rnum. rewrite R_div_ok by lra. cbn [rbind]. unfold R_mpow.
    assert (st_phi s / phimax < 1) by (apply div_lt_1; lra).
    rewrite R_power_pos by lra. f_equal. f_equal. ring.
  - destruct (Rlt_dec 0 phimax); [|discriminate]. injection Hl as <-. rnum.
    rewrite R_div_ok by lra. cbn [rbind]. unfold R_mpow.
    assert (st_phi s / phimax < 1) by (apply div_lt_1; lra).
    rewrite R_power_pos by lra. f_equal.
  - destruct (Rlt_dec 0 rp); [|discriminate]. injection Hl as <-.
    rewrite mueller_phimax_R by auto. assert (Hm := mueller_packing_pos rp). cbn [rbind]. rnum.
    rewrite R_div_ok by lra. cbn [rbind]. unfold R_mpow.
    assert (st_phi s / mueller_packing rp < 1) by (apply div_lt_1; lra).
    rewrite R_power_pos by lra. reflexivity.
  - injection Hl as <-. rewrite Hvf. cbn [rbind]. rnum. rewrite R_div_ok by lra. cbn [rbind].
    assert (st_phi s / (1 - vf) < 1) by (apply div_lt_1; lra).
    unfold R_pow. rewrite !R_power_pos by lra. cbn [rbind]. f_equal. f_equal. f_equal. lra.
  - injection Hl as <-. rewrite Hvf. cbn [rbind]. rnum.
    assert (0 < st_phi s + vf). { destruct H2 as [?|H2]; auto. now destruct (H2 vm). }
    rewrite R_div_ok by lra. cbn [rbind]. unfold R_mpow. rewrite R_power_pos by lra. reflexivity.
  - injection Hl as <-. rewrite Hvf. cbn [rbind]. rnum. rewrite R_div_ok by lra. cbn [rbind].
    assert (vf / (1 - st_phi s) < 1) by (apply div_lt_1; lra).
    unfold R_pow. rewrite !R_power_pos by lra. cbn [rbind]. f_equal. f_equal. f_equal. lra.
Qed.

Lemma rel_value_ge_1 m vf limit phi :
  packing_limit m vf = Some limit -> 0 <= vf < 1 -> 0 <= phi < limit ->
  (0 < phi + vf \/ forall vm, m <> RelPTP2 vm) ->
  1 <= rel_value m vf phi.
Proof.
  intros Hl Hv Hp H2. destruct m; cbn [packing_limit rel_value] in *; try discriminate.
  - injection Hl as <-. apply Rpower_neg_ge_1; lra.
  - destruct (Rlt_dec 0 phimax); [|discriminate]. destruct (Rlt_dec 0 einstein); [|discriminate].
    injection Hl as <-.
    assert (phi / phimax < 1) by (apply div_lt_1; lra). assert (0 <= phi / phimax) by (apply div_ge_0; lra).
    apply Rpower_neg_ge_1; [lra|]. apply Rmult_le_pos; lra.
  - destruct (Rlt_dec 0 phimax); [|discriminate]. injection Hl as <-.
    assert (phi / phimax < 1) by (apply div_lt_1; lra). assert (0 <= phi / phimax) by (apply div_ge_0; lra).
    apply (Rpower_neg_ge_1 _ 2); lra.
  - destruct (Rlt_dec 0 rp); [|discriminate]. injection Hl as <-. assert (Hm := mueller_packing_pos rp).
    assert (phi / mueller_packing rp < 1) by (apply div_lt_1; lra).
    assert (0 <= phi / mueller_packing rp) by (apply div_ge_0; lra).
    apply (Rpower_neg_ge_1 _ 2); lra.
  - injection Hl as <-. assert (phi / (1 - vf) < 1) by (apply div_lt_1; lra).
    assert (0 <= phi / (1 - vf)) by (apply div_ge_0; lra).
    apply mult_ge_1.
    + apply Rpower_neg_ge_1; lra.
    + apply (Rpower_neg_ge_1 _ 1); lra.
  - injection Hl as <-. assert (0 < phi + vf). { destruct H2 as [?|H2]; auto. now destruct (H2 vm). }
    apply Rpower_neg_ge_1; [lra|]. apply div_ge_0; lra.
  - injection Hl as <-. assert (vf / (1 - phi) < 1) by (apply div_lt_1; lra).
    assert (0 <= vf / (1 - phi)) by (apply div_ge_0; lra).
    apply mult_ge_1.
    + apply (Rpower_neg_ge_1 _ 1); lra.
    + apply Rpower_neg_ge_1; lra.
Qed.

Lemma rel_value_incr m vf limit p1 p2 :
  packing_limit m vf = Some limit -> 0 <= vf < 1 -> 0 <= p1 < p2 -> p2 < limit ->
  (0 < p1 + vf \/ forall vm, m <> RelPTP2 vm) ->
  rel_value m vf p1 < rel_value m vf p2.
Proof.
  intros Hl Hv Hp Hp2 H2. destruct m; cbn [packing_limit rel_value] in *; try discriminate.
  - injection Hl as <-. apply Rpower_neg_decr; lra.
  - destruct (Rlt_dec 0 phimax); [|discriminate]. destruct (Rlt_dec 0 einstein); [|discriminate].
    injection Hl as <-.
    assert (p2 / phimax < 1) by (apply div_lt_1; lra). assert (p1 / phimax < p2 / phimax) by (apply div_lt_compat; lra).
    apply Rpower_neg_decr; [lra|]. apply Rmult_lt_0_compat; lra.
  - destruct (Rlt_dec 0 phimax); [|discriminate]. injection Hl as <-.
    assert (p2 / phimax < 1) by (apply div_lt_1; lra). assert (p1 / phimax < p2 / phimax) by (apply div_lt_compat; lra).
    apply (Rpower_neg_decr _ _ 2); lra.
  - destruct (Rlt_dec 0 rp); [|discriminate]. injection Hl as <-. assert (Hm := mueller_packing_pos rp).
    assert (p2 / mueller_packing rp < 1) by (apply div_lt_1; lra).
    assert (p1 / mueller_packing rp < p2 / mueller_packing rp) by (apply div_lt_compat; lra).
    apply (Rpower_neg_decr _ _ 2); lra.
  - injection Hl as <-. assert (p2 / (1 - vf) < 1) by (apply div_lt_1; lra).
    assert (p1 / (1 - vf) < p2 / (1 - vf)) by (apply div_lt_compat; lra).
    apply Rmult_lt_compat_r; [apply Rpower_gt_0|]. apply Rpower_neg_decr; lra.
  - injection Hl as <-. assert (0 < p1 + vf). { destruct H2 as [?|H2]; auto. now destruct (H2 vm). }
    assert (He : forall p, 0 < p + vf -> (5 * p + 2 * vf) / (2 * (p + vf)) = 5 / 2 - 3 / 2 * (vf / (p + vf))).
    { intros p Hpp. field. lra. }
    assert (Hi : / (p2 + vf) <= / (p1 + vf)) by (apply Rinv_le_contravar; lra).
    set (e1 := (5 * p1 + 2 * vf) / (2 * (p1 + vf))). set (e2 := (5 * p2 + 2 * vf) / (2 * (p2 + vf))).
    assert (E12 : e1 <= e2).
    { unfold e1, e2. rewrite !He by lra. unfold Rdiv.
      assert (vf * / (p2 + vf) <= vf * / (p1 + vf)) by (apply Rmult_le_compat_l; lra). lra. }
    assert (Hpos : 0 < e1).
    { unfold e1. apply Rdiv_lt_0_compat; lra. }
    apply Rlt_le_trans with (Rpower (1 - p2 - vf) (- e1)).
    + apply Rpower_neg_decr; lra.
    + unfold Rpower. apply exp_le. assert (ln (1 - p2 - vf) < 0) by (apply ln_lt_0; lra). nra.
  - injection Hl as <-. assert (vf / (1 - p2) < 1) by (apply div_lt_1; lra).
    assert (Hi : / (1 - p1) < / (1 - p2)) by (apply Rinv_lt_contravar; [nra|lra]).
    assert (vf / (1 - p1) <= vf / (1 - p2)) by (apply Rmult_le_compat_l; lra).
    assert (0 <= vf / (1 - p1)) by (apply div_ge_0; lra).
    apply Rle_lt_trans with (Rpower (1 - vf / (1 - p2)) (- 1) * Rpower (1 - p1) (- (5 / 2))).
    + apply Rmult_le_compat_r; [apply Rlt_le, Rpower_gt_0|].
      destruct (Req_dec (vf / (1 - p1)) (vf / (1 - p2))) as [->|]; [lra|].
      apply Rlt_le, (Rpower_neg_decr _ _ 1); lra.
    + apply Rmult_lt_compat_l; [apply Rpower_gt_0|]. apply Rpower_neg_decr; lra.
Qed.

(** The theorem: below the packing limit the model is defined and at least 1;
    more crystals, strictly more viscosity.  (ptp2 divides by the total of
    crystals and bubbles, so it needs one of them to be positive.) *)
Theorem C24_relative_viscosity : forall m (s : state R) vf limit p1 p2,
  rel_vesicles m s = Ok vf -> packing_limit m vf = Some limit ->
  0 <= vf < 1 -> 0 <= p1 < p2 -> p2 < limit ->
  (0 < p1 + vf \/ forall vm, m <> RelPTP2 vm) ->
  exists x1 x2,
    compute_relative_viscosity m (with_phi p1 s) = Ok x1 /\
    compute_relative_viscosity m (with_phi p2 s) = Ok x2 /\
    1 <= x1 < x2.
Proof.
  intros m s vf limit p1 p2 Hvf Hl Hv Hp Hp2 H2.
  assert (Hv' : forall p, rel_vesicles m (with_phi p s) = Ok vf).
  { intros p. destruct m; cbn [rel_vesicles] in *; rewrite ?ves_phi; auto. }
  exists (rel_value m vf p1), (rel_value m vf p2). split; [|split].
  - apply (rel_value_correct m (with_phi p1 s) vf limit); auto. cbn [st_phi set_crystal_fraction]. lra.
  - apply (rel_value_correct m (with_phi p2 s) vf limit); auto; cbn [st_phi set_crystal_fraction].
    lra. destruct H2; auto. left. lra.
  - split; [eapply rel_value_ge_1; eauto; lra|eapply rel_value_incr; eauto].
Qed.

(** mader in its Newtonian range (below half of the packing limit, or flow index
    at least 0.9) is mp with Mueller's limit. *)
Theorem C24_mader_newtonian : forall rp (s : state R),
  0 < rp -> 0 <= st_phi s < mueller_packing rp ->
  let q := st_phi s / mueller_packing rp in
  q < 1 / 2 \/ 9 / 10 <= 1 - 2 / 10 * rp * q ^ 4 ->
  compute_relative_viscosity (RelMader rp) s = compute_relative_viscosity (RelMueller rp) s.
Proof.
  intros rp s Hrp Hp q Hq. cbn [compute_relative_viscosity].
  rewrite mueller_phimax_R by auto. assert (Hm := mueller_packing_pos rp). cbn [rbind]. rnum.
  rewrite R_div_ok by lra. cbn [rbind]. fold q. unfold R_pow. rewrite R_power_4. cbn [rbind].
  destruct (R_leb (1 / 2) q) eqn:E1; [|reflexivity].
  destruct (R_ltb _ _) eqn:E2; [|reflexivity]. rtests. destruct Hq; lra.
Qed.

(** bll below the critical packing: defined, at least 1, strictly increasing. *)
Theorem C24_bll_newtonian : forall vm mm phimax bsolid bgas radius surf phicrit (s : state R) vf mv p1 p2,
  computes_vesicle_fraction vm s = Ok vf -> compute_melt_viscosity mm s = Ok mv ->
  0 < phimax -> 0 < bsolid -> 0 <= bgas -> 0 < surf -> 0 <= vf < 1 ->
  0 <= p1 < p2 -> p2 < phimax -> p2 * (1 - vf) + vf <= phicrit ->
  let m := RelBLL vm mm phimax bsolid bgas radius surf phicrit in
  exists x1 x2,
    compute_relative_viscosity m (with_phi p1 s) = Ok x1 /\
    compute_relative_viscosity m (with_phi p2 s) = Ok x2 /\
    1 <= x1 < x2.
Proof.
  intros vm mm phimax bs bg ra su pc s vf mv p1 p2 Hvf Hmv Hpm Hbs Hbg Hsu Hv Hp Hp2 Hc m.
  assert (Hval : forall p, 0 <= p -> p < phimax -> p * (1 - vf) + vf <= pc ->
    compute_relative_viscosity m (with_phi p s) = Ok (Rpower (1 - p / phimax) (- bs) * Rpower (1 - vf) (- bg))).
  { intros p Hp0 Hpl Hpc. unfold m. cbn [compute_relative_viscosity]. rewrite ves_phi, Hvf. cbn [rbind].
    assert (Hmv' : compute_melt_viscosity mm (with_phi p s) = Ok mv) by (destruct mm; exact Hmv).
    rewrite Hmv'. cbn [rbind]. rnum. rewrite R_div_ok by lra. cbn [rbind].
    assert (E1 : R_leb 1 vf = false) by (apply R_leb_false; lra). rewrite E1.
    cbn [st_phi set_crystal_fraction]. rewrite R_div_ok by lra. cbn [rbind].
    assert (E2 : R_ltb pc (p * (1 - vf) + vf) = false) by (apply R_ltb_false; lra). rewrite E2.
    assert (p / phimax < 1) by (apply div_lt_1; lra).
    unfold R_pow. rewrite !R_power_pos by lra. cbn [rbind].
    match goal with |- (if R_leb ?x 0 then _ else _) = _ => assert (E3 : R_leb x 0 = false) end.
    { destruct (R_leb (st_strain (with_phi p s)) 0) eqn:E; rtests; apply R_leb_false; lra. }
    rewrite E3. reflexivity. }
  assert (Hpc1 : p1 * (1 - vf) + vf <= pc) by nra.
  eexists _, _. split; [apply Hval; lra|]. split; [apply Hval; lra|].
  assert (0 <= p1 / phimax) by (apply div_ge_0; lra).
  assert (p2 / phimax < 1) by (apply div_lt_1; lra).
  assert (p1 / phimax < p2 / phimax) by (apply div_lt_compat; lra).
  split.
  - apply mult_ge_1; apply Rpower_neg_ge_1; lra.
  - apply Rmult_lt_compat_r; [apply Rpower_gt_0|]. apply Rpower_neg_decr; lra.
Qed.

(** ** C25 *)
(** er: the check is sound and complete. *)
Theorem C25_er_sound : forall (s : state R),
  (rel_is_notcompatible RelER s = Ok false -> exists x, compute_relative_viscosity RelER s = Ok x /\ 0 < x) /\
  (rel_is_notcompatible RelER s = Ok true <-> 100 / 151 <= st_phi s).
Proof.
  intros s. cbn [rel_is_notcompatible compute_relative_viscosity]. rnum. rewrite R_div_ok by lra.
  cbn [rbind]. replace (1 / (151 / 100)) with (100 / 151) by field.
  split.
  - intros H. injection H as H. rtests. unfold R_mpow. rewrite R_power_pos by lra.
    eexists. split; [reflexivity|apply Rpower_gt_0].
  - split; intros H; [injection H as H; now rtests|]. f_equal. now apply R_leb_true.
Qed.

(** The others: sound except exactly at the limit. *)
Theorem C25_sound_off_the_limit : forall m (s : state R) vf limit,
  rel_vesicles m s = Ok vf -> packing_limit m vf = Some limit -> 0 <= vf < 1 -> 0 <= st_phi s ->
  (0 < st_phi s + vf \/ forall vm, m <> RelPTP2 vm) ->
  rel_is_notcompatible m s = Ok false -> st_phi s <> limit ->
  exists x, compute_relative_viscosity m s = Ok x /\ 1 <= x.
Proof.
  intros m s vf limit Hvf Hl Hv Hp H2 Hc Hne.
  assert (Hlt : st_phi s < limit).
  { destruct m; cbn [rel_vesicles packing_limit rel_is_notcompatible] in *; try discriminate.
    - injection Hl as <-. rnum. rewrite R_div_ok in Hc by lra. injection Hc as Hc. rtests. lra.
    - destruct (Rlt_dec 0 phimax); [|discriminate]. destruct (Rlt_dec 0 einstein); [|discriminate].
      injection Hl as <-. rnum. rewrite R_div_ok in Hc by lra. injection Hc as Hc. rtests.
      assert (st_phi s <= phimax).
      { apply Rmult_le_reg_r with (/ phimax); [apply Rinv_0_lt_compat; lra|]. rewrite Rinv_r by lra. exact Hc. }
      lra.
    - destruct (Rlt_dec 0 phimax); [|discriminate].
      injection Hl as <-. rnum. rewrite R_div_ok in Hc by lra. injection Hc as Hc. rtests.
      assert (st_phi s <= phimax).
      { apply Rmult_le_reg_r with (/ phimax); [apply Rinv_0_lt_compat; lra|]. rewrite Rinv_r by lra. exact Hc. }
      lra.
    - destruct (Rlt_dec 0 rp); [|discriminate]. injection Hl as <-. rewrite mueller_phimax_R in Hc by auto.
      assert (Hm := mueller_packing_pos rp). cbn [rbind] in Hc. rnum. rewrite R_div_ok in Hc by lra.
      injection Hc as Hc. rtests.
      assert (st_phi s <= mueller_packing rp).
      { apply Rmult_le_reg_r with (/ mueller_packing rp); [apply Rinv_0_lt_compat; lra|]. rewrite Rinv_r by lra. exact Hc. }
      lra.
    - injection Hl as <-. rewrite Hvf in Hc. cbn [rbind] in Hc. rnum. injection Hc as Hc. rtests. lra.
    - injection Hl as <-. rewrite Hvf in Hc. cbn [rbind] in Hc. rnum. injection Hc as Hc. rtests. lra.
    - injection Hl as <-. rewrite Hvf in Hc. cbn [rbind] in Hc. rnum. injection Hc as Hc. rtests. lra. }
  exists (rel_value m vf (st_phi s)). split.
  - eapply rel_value_correct; eauto.
  - eapply rel_value_ge_1; eauto.
Qed.

(** At the limit itself every model but er calls the state compatible and then
    raises. *)
Theorem C25_packing_limit_refuted : forall m (s : state R) vf limit,
  rel_vesicles m s = Ok vf -> packing_limit m vf = Some limit -> 0 <= vf < 1 ->
  m <> RelER -> st_phi s = limit ->
  rel_is_notcompatible m s = Ok false /\ exists e, compute_relative_viscosity m s = Err e.
Proof.
  intros m s vf limit Hvf Hl Hv Her Hp.
  destruct m; cbn [rel_vesicles packing_limit rel_is_notcompatible compute_relative_viscosity] in *;
    try discriminate; try contradiction.
  - destruct (Rlt_dec 0 phimax); [|discriminate]. destruct (Rlt_dec 0 einstein); [|discriminate].
    injection Hl as <-. rnum. rewrite Hp. rewrite R_div_ok by lra. cbn [rbind].
    replace (phimax / phimax) with 1 by (field; lra). split.
    + f_equal. apply R_ltb_false. lra.
    + unfold R_mpow. replace (1 - 1) with 0 by ring. rewrite R_power_0_neg by nra. eauto.
  - destruct (Rlt_dec 0 phimax); [|discriminate]. injection Hl as <-. rnum. rewrite Hp.
    rewrite R_div_ok by lra. cbn [rbind]. replace (phimax / phimax) with 1 by (field; lra). split.
    + f_equal. apply R_ltb_false. lra.
    + unfold R_mpow. replace (1 - 1) with 0 by ring. rewrite R_power_0_neg by lra. eauto.
  - destruct (Rlt_dec 0 rp); [|discriminate]. injection Hl as <-. rewrite mueller_phimax_R by auto.
    assert (Hm := mueller_packing_pos rp). cbn [rbind]. rnum. rewrite Hp. rewrite R_div_ok by lra. cbn [rbind].
    replace (mueller_packing rp / mueller_packing rp) with 1 by (field; lra). split.
    + f_equal. apply R_ltb_false. lra.
    + unfold R_mpow. replace (1 - 1) with 0 by ring. rewrite R_power_0_neg by lra. eauto.
  - injection Hl as <-. rewrite Hvf, Hp. cbn [rbind]. rnum. split.
    + f_equal. apply R_ltb_false. lra.
    + rewrite R_div_ok by lra. cbn [rbind]. replace ((1 - vf) / (1 - vf)) with 1 by (field; lra).
      replace (1 - 1) with 0 by ring. unfold R_pow. rewrite R_power_0_neg by lra. cbn. eauto.
  - injection Hl as <-. rewrite Hvf, Hp. cbn [rbind]. rnum. split.
    + f_equal. apply R_ltb_false. lra.
    + rewrite R_div_ok by lra. cbn [rbind]. replace (1 - (1 - vf) - vf) with 0 by ring.
      unfold R_mpow. rewrite R_power_0_neg; [eauto|].
      assert (0 < (5 * (1 - vf) + 2 * vf) / (2 * (1 - vf + vf))); [|lra]. apply Rdiv_lt_0_compat; lra.
  - injection Hl as <-. rewrite Hvf, Hp. cbn [rbind]. rnum. split.
    + f_equal. apply R_ltb_false. lra.
    + replace (1 - (1 - vf)) with vf by ring. destruct (Req_dec vf 0) as [->|Hn].
      * rewrite R_div_0. cbn. eauto.
      * rewrite R_div_ok by lra. cbn [rbind]. replace (vf / vf) with 1 by (field; lra).
        replace (1 - 1) with 0 by ring. unfold R_pow. rewrite R_power_0_neg by lra. cbn. eauto.
Qed.

(** bll: sound for a vesicle fraction strictly between 0 and 1, unsound at the
    limit for bubble-free lava. *)
Theorem C25_bll_sound_with_bubbles : forall vm mm phimax bsolid bgas radius surf phicrit (s : state R) vf mv,
  computes_vesicle_fraction vm s = Ok vf -> compute_melt_viscosity mm s = Ok mv ->
  0 < phimax -> 0 < surf -> 0 < vf < 1 -> 0 <= st_phi s ->
  let m := RelBLL vm mm phimax bsolid bgas radius surf phicrit in
  rel_is_notcompatible m s = Ok false -> exists x, compute_relative_viscosity m s = Ok x /\ 0 < x.
Proof.
  intros vm mm phimax bs bg ra su pc s vf mv Hvf Hmv Hpm Hsu Hv Hp m Hc.
  unfold m in *. cbn [rel_is_notcompatible compute_relative_viscosity] in *. rewrite Hvf in *. cbn [rbind] in *.
  rewrite Hmv. cbn [rbind]. rnum. injection Hc as Hc. rtests.
  rewrite R_div_ok by lra. cbn [rbind].
  assert (E1 : R_leb 1 vf = false) by (apply R_leb_false; lra). rewrite E1.
  rewrite R_div_ok by lra. cbn [rbind].
  assert (Hq : st_phi s / phimax < 1).
  { apply div_lt_1; [lra|]. nra. }
  set (st := if R_leb (st_strain s) 0 then 1 / 1000000000000 else st_strain s).
  assert (Hst : 0 < st). { unfold st. destruct (R_leb (st_strain s) 0) eqn:E; rtests; lra. }
  assert (E3 : R_leb st 0 = false) by (apply R_leb_false; lra).
  destruct (R_ltb pc (st_phi s * (1 - vf) + vf)).
  - unfold R_pow. rewrite !R_power_pos by lra. cbn [rbind]. rewrite E3.
    eexists. split; [reflexivity|]. repeat apply Rmult_lt_0_compat; apply Rpower_gt_0.
  - unfold R_pow. rewrite !R_power_pos by lra. cbn [rbind]. rewrite E3.
    eexists. split; [reflexivity|]. apply Rmult_lt_0_compat; apply Rpower_gt_0.
Qed.
Theorem C25_bll_bubble_free_refuted : forall vm mm phimax bsolid bgas radius surf phicrit (s : state R) mv,
  computes_vesicle_fraction vm s = Ok 0 -> compute_melt_viscosity mm s = Ok mv ->
  0 < phimax -> 0 < bsolid -> 0 < surf -> st_phi s = phimax ->
  let m := RelBLL vm mm phimax bsolid bgas radius surf phicrit in
  rel_is_notcompatible m s = Ok false /\ exists e, compute_relative_viscosity m s = Err e.
Proof.
  intros vm mm phimax bs bg ra su pc s mv Hvf Hmv Hpm Hbs Hsu Hp m.
  unfold m in *. cbn [rel_is_notcompatible compute_relative_viscosity] in *. rewrite Hvf in *. cbn [rbind] in *.
  rewrite Hmv. cbn [rbind]. rnum. rewrite Hp. split.
  - f_equal. apply R_ltb_false. lra.
  - rewrite R_div_ok by lra. cbn [rbind].
    assert (E1 : R_leb 1 0 = false) by (apply R_leb_false; lra). rewrite E1.
    rewrite R_div_ok by lra. cbn [rbind]. replace (phimax / phimax) with 1 by (field; lra).
    replace (1 - 1) with 0 by ring. unfold R_pow. rewrite R_power_0_neg by lra.
    destruct (R_ltb _ _); cbn; eauto.
Qed.

(** mader: with a positive strain rate the value is defined whenever the check
    passes, but the check passes beyond the packing limit too, where the
    viscosity falls as crystals are added. *)
Theorem C25_mader_defined : forall rp (s : state R),
  0 < rp -> 0 < st_strain s -> 0 <= st_phi s ->
  rel_is_notcompatible (RelMader rp) s = Ok false ->
  exists x, compute_relative_viscosity (RelMader rp) s = Ok x /\ 0 < x.
Proof.
  intros rp s Hrp Hs Hp Hc. cbn [rel_is_notcompatible compute_relative_viscosity] in *.
  rewrite mueller_phimax_R in * by auto. assert (Hm := mueller_packing_pos rp). cbn [rbind] in *. rnum.
  rewrite R_div_ok in * by lra. cbn [rbind] in *. set (q := st_phi s / mueller_packing rp) in *.
  injection Hc as Hc. rtests. unfold R_pow. rewrite R_power_4. cbn [rbind].
  assert (Ha : exists a, R_mpow (1 - q) (- 2) = Ok a /\ 0 < a).
  { unfold R_mpow. destruct (Rlt_dec 0 (1 - q)).
    - rewrite R_power_pos by auto. eexists. split; [reflexivity|apply Rpower_gt_0].
    - rewrite (R_power_neg_int _ _ (1 - q) (-2)) by lra. eexists. split; [reflexivity|].
      simpl. apply Rinv_0_lt_compat. nra. }
  destruct Ha as (a & Ha & Hap).
  destruct (R_leb (1 / 2) q); [|eauto]. destruct (R_ltb _ _); [|eauto].
  assert (E : R_leb (st_strain s) 0 = false) by (apply R_leb_false; auto). rewrite E.
  rewrite Ha. cbn [rbind]. rewrite R_power_pos by auto. cbn [rbind].
  eexists. split; [reflexivity|]. apply Rmult_lt_0_compat; auto. apply Rpower_gt_0.
Qed.

Theorem C25_mader_beyond_packing_refuted : forall (s : state R),
  let over k := with_phi (k * mueller_packing 1) s in
  st_strain s = 1 ->
  rel_is_notcompatible (RelMader 1) (over 2) = Ok false /\
  rel_is_notcompatible (RelMader 1) (over 3) = Ok false /\
  exists x2 x3, compute_relative_viscosity (RelMader 1) (over 2) = Ok x2 /\
    compute_relative_viscosity (RelMader 1) (over 3) = Ok x3 /\ x3 < x2.
Proof.
  intros s over Hs. assert (Hm := mueller_packing_pos 1).
  assert (Hval : forall k : Z, (2 <= k)%Z ->
    rel_is_notcompatible (RelMader 1) (over (IZR k)) = Ok false /\
    compute_relative_viscosity (RelMader 1) (over (IZR k)) = Ok (/ ((1 - IZR k) * ((1 - IZR k) * 1)))).
  { intros k Hk. apply IZR_le in Hk. unfold over. cbn [rel_is_notcompatible compute_relative_viscosity].
    rewrite mueller_phimax_R by lra. cbn [rbind st_phi set_crystal_fraction st_strain]. rnum. rewrite R_div_ok by lra.
    cbn [rbind]. replace (IZR k * mueller_packing 1 / mueller_packing 1) with (IZR k) by (field; lra).
    split; [f_equal; apply R_eqb_false; lra|].
    unfold R_pow. rewrite R_power_4. cbn [rbind].
    assert (E1 : R_leb (1 / 2) (IZR k) = true) by (apply R_leb_true; lra). rewrite E1.
    assert (Hk4 : 16 <= IZR k ^ 4). { simpl. assert (4 <= IZR k * IZR k) by nra. nra. }
    assert (E2 : R_ltb (1 - 2 / 10 * 1 * IZR k ^ 4) (9 / 10) = true) by (apply R_ltb_true; lra). rewrite E2.
    assert (E3 : R_leb (st_strain s) 0 = false) by (apply R_leb_false; lra). rewrite E3.
    unfold R_mpow. rewrite (R_power_neg_int _ _ (1 - IZR k) (-2)) by lra. cbn [rbind].
    rewrite R_power_pos by lra. cbn [rbind]. rewrite Hs, Rpower_1_l. f_equal. simpl. ring. }
  destruct (Hval 2%Z ltac:(lia)) as [A1 A2]. destruct (Hval 3%Z ltac:(lia)) as [B1 B2].
  split; [exact A1|]. split; [exact B1|]. eexists _, _. split; [exact A2|]. split; [exact B2|]. lra.
Qed.
