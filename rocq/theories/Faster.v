(** * Faster: a faster, deeper flow loses less heat per unit of lava carried *)
From Coq Require Import Reals Lra Lia List.
From Verif Require Import Base Num Json Logger World Vesicle MeltVisc RelVisc Bubbles Terrain Lava
  Thermal Flux Integrator Spec RNum RPow Props_Flux Cooling Recompute Refine Losses Props_Compare Props_Weaker.
Open Scope R_scope.

(** The same surface at another velocity and depth: with the crust model
    [f = fc * exp (al * v)] only the cover changes with them. *)
Record sped_up (al fc : R) (u u' : surface) : Prop := {
  sp_width : su_width u' = su_width u;
  sp_temp : su_temp u' = su_temp u;
  sp_hot : su_hot u' = su_hot u;
  sp_crust : su_crust u' = su_crust u;
  sp_vf : su_vf u' = su_vf u;
  sp_cover : su_cover u = fc * exp (al * su_v u);
  sp_cover' : su_cover u' = fc * exp (al * su_v u');
  sp_v : su_v u <= su_v u';
  sp_depth : su_depth u <= su_depth u'
}.

(** exp lies below its chord between 0 and [a]. *)
Lemma exp_chord l a : 0 <= l <= 1 -> exp (l * a) <= 1 - l + l * exp a.
Proof.
  intros Hl. set (e := exp (l * a)). assert (Pe : 0 < e) by apply exp_pos.
  assert (E1 : exp a = e * exp ((1 - l) * a)) by (unfold e; rewrite <- exp_plus; f_equal; ring).
  assert (E2 : 1 = e * exp (- (l * a))) by (unfold e; rewrite <- exp_plus, <- exp_0; f_equal; ring).
  assert (B1 := exp_ineq1_le ((1 - l) * a)). assert (B2 := exp_ineq1_le (- (l * a))).
  assert (C1 : e * (1 + (1 - l) * a) <= exp a) by (rewrite E1; apply Rmult_le_compat_l; lra).
  assert (C2 : e * (1 - l * a) <= 1) by (rewrite E2 at 2; apply Rmult_le_compat_l; lra).
  assert (l * (e * (1 + (1 - l) * a)) <= l * exp a) by (apply Rmult_le_compat_l; lra).
  assert ((1 - l) * (e * (1 - l * a)) <= (1 - l) * 1) by (apply Rmult_le_compat_l; lra).
  replace e with (l * (e * (1 + (1 - l) * a)) + (1 - l) * (e * (1 - l * a))) by ring. lra.
Qed.

(** x^c, c below 1, lies above its chords. *)
Lemma power_chord c l x y : 0 <= c <= 1 -> 0 <= l <= 1 -> 0 < x -> 0 < y ->
  l * Rpower x c + (1 - l) * Rpower y c <= Rpower (l * x + (1 - l) * y) c.
Proof.
  intros Hc Hl Hx Hy. set (m := l * x + (1 - l) * y). assert (Pm : 0 < m) by (apply mix_pos; assumption).
  assert (T : forall z, 0 < z -> Rpower z c <= Rpower m c * (1 - c + c * (z / m))).
  { intros z Hz. assert (Pz : 0 < z / m) by (apply Rdiv_lt_0_compat; assumption).
    replace z with (m * (z / m)) at 1 by (field; lra). rewrite <- Rpower_mult_distr by assumption.
    apply Rmult_le_compat_l; [apply Rlt_le, exp_pos|].
    assert (Q := exp_chord c (ln (z / m)) Hc). rewrite exp_ln in Q by assumption. exact Q. }
  assert (T1 := T x Hx). assert (T2 := T y Hy). assert (P := Rpower_gt_0 m c).
  assert (l * Rpower x c <= l * (Rpower m c * (1 - c + c * (x / m)))) by (apply Rmult_le_compat_l; lra).
  assert ((1 - l) * Rpower y c <= (1 - l) * (Rpower m c * (1 - c + c * (y / m)))) by (apply Rmult_le_compat_l; lra).
  assert (E : l * (Rpower m c * (1 - c + c * (x / m))) + (1 - l) * (Rpower m c * (1 - c + c * (y / m))) = Rpower m c).
  { replace (l * (Rpower m c * (1 - c + c * (x / m))) + (1 - l) * (Rpower m c * (1 - c + c * (y / m))))
      with (Rpower m c * (1 - c + c * ((l * x + (1 - l) * y) / m))) by (field; lra).
    fold m. replace (m / m) with 1 by (field; lra). ring. }
  lra.
Qed.

(** x^c, c above 1, lies below them. *)
Lemma power_chord_above c l x y : 1 <= c -> 0 <= l <= 1 -> 0 < x -> 0 < y ->
  Rpower (l * x + (1 - l) * y) c <= l * Rpower x c + (1 - l) * Rpower y c.
Proof.
  intros Hc Hl Hx Hy. set (m := l * x + (1 - l) * y). assert (Pm : 0 < m) by (apply mix_pos; assumption).
  assert (Pc : 0 < / c <= 1) by (split; [apply Rinv_0_lt_compat; lra|rewrite <- Rinv_1; apply Rinv_le_contravar; lra]).
  assert (T : forall z, 0 < z -> Rpower m c * (1 - c + c * (z / m)) <= Rpower z c).
  { intros z Hz. assert (Pz : 0 < z / m) by (apply Rdiv_lt_0_compat; assumption).
    replace z with (m * (z / m)) at 2 by (field; lra). rewrite <- Rpower_mult_distr by assumption.
    apply Rmult_le_compat_l; [apply Rlt_le, exp_pos|].
    assert (Q := exp_chord (/ c) (c * ln (z / m)) ltac:(lra)). rewrite <- Rmult_assoc, Rinv_l, Rmult_1_l, exp_ln in Q by lra.
    change (exp (c * ln (z / m))) with (Rpower (z / m) c) in Q. apply (Rmult_le_compat_l c) in Q; [|lra].
    replace (c * (1 - / c + / c * Rpower (z / m) c)) with (c - 1 + Rpower (z / m) c) in Q by (field; lra). lra. }
  assert (T1 := T x Hx). assert (T2 := T y Hy).
  assert (l * (Rpower m c * (1 - c + c * (x / m))) <= l * Rpower x c) by (apply Rmult_le_compat_l; lra).
  assert ((1 - l) * (Rpower m c * (1 - c + c * (y / m))) <= (1 - l) * Rpower y c) by (apply Rmult_le_compat_l; lra).
  assert (E : l * (Rpower m c * (1 - c + c * (x / m))) + (1 - l) * (Rpower m c * (1 - c + c * (y / m))) = Rpower m c).
  { replace (l * (Rpower m c * (1 - c + c * (x / m))) + (1 - l) * (Rpower m c * (1 - c + c * (y / m))))
      with (Rpower m c * (1 - c + c * ((l * x + (1 - l) * y) / m))) by (field; lra).
    fold m. replace (m / m) with 1 by (field; lra). ring. }
  lra.
Qed.
(** The linear emissivity law: (a - b n^(1/4)) n. *)
Lemma lin_chord l x y : 0 <= l <= 1 -> 0 < x -> 0 < y ->
  l * (lin_fit (root4 x) * x) + (1 - l) * (lin_fit (root4 y) * y) <=
  lin_fit (root4 (l * x + (1 - l) * y)) * (l * x + (1 - l) * y).
Proof.
  intros Hl Hx Hy. assert (Pm : 0 < l * x + (1 - l) * y) by (apply mix_pos; assumption).
  assert (E : forall z, 0 < z -> lin_fit (root4 z) * z = 1.0463014 * z - 0.000148144 * Rpower z 1.25).
  { intros z Hz. unfold lin_fit, root4. rewrite pospow_pos by exact Hz.
    replace (Rpower z 1.25) with (Rpower z (1 / 4) * z); [replace 0.25 with (1 / 4) by lra; ring|].
    rewrite <- (Rpower_1 z) at 2 by exact Hz. rewrite <- Rpower_plus. f_equal. lra. }
  rewrite !E by assumption. assert (Q := power_chord_above 1.25 l x y ltac:(lra) Hl Hx Hy). lra.
Qed.

(** Speeding up uncovers the lava, but less than in proportion. *)
Lemma uncovers al fc v v' : al <= 0 -> 0 <= fc <= 1 -> 0 < v <= v' ->
  let c := 1 - fc * exp (al * v) in let c' := 1 - fc * exp (al * v') in
  exists m, v / v' <= m <= 1 /\ c = m * c' /\ 0 <= c'.
Proof.
  intros Ha Hf Hv c c'.
  assert (E1 : exp (al * v') <= exp (al * v)).
  { destruct (Rle_lt_or_eq_dec (al * v') (al * v)) as [Q|Q]; [nra| |rewrite Q; lra]. left. now apply exp_increasing. }
  assert (E2 : exp (al * v') <= 1). { rewrite <- exp_0. destruct (Rle_lt_or_eq_dec (al * v') 0) as [Q|Q]; [nra| |rewrite Q; lra]. left. now apply exp_increasing. }
  assert (P0 := exp_pos (al * v')).
  assert (Pc' : 0 <= c') by (unfold c'; nra).
  set (l := v / v'). assert (Hl : 0 <= l <= 1).
  { unfold l. split; [apply Rlt_le, Rdiv_lt_0_compat; lra|]. apply Rmult_le_reg_r with v'; [lra|]. unfold Rdiv. rewrite Rmult_assoc, Rinv_l by lra. lra. }
  assert (Ev : al * v = l * (al * v')) by (unfold l; field; lra).
  assert (Q := exp_chord l (al * v') Hl). rewrite <- Ev in Q.
  assert (Lc : l * c' <= c).
  { unfold c, c'. assert (fc * exp (al * v) <= fc * (1 - l + l * exp (al * v'))) by (apply Rmult_le_compat_l; lra).
    assert (0 <= (1 - l) * (1 - fc)) by (apply Rmult_le_pos; lra). lra. }
  assert (Cc : c <= c') by (unfold c, c'; nra).
  destruct (Req_dec c' 0) as [Z|Z].
  - exists 1. split; [lra|]. split; [|lra]. rewrite Z in *. lra.
  - exists (c / c'). assert (0 < c') by lra. split; [|split; [field; lra|lra]].
    split.
    + apply Rmult_le_reg_r with c'; [lra|]. unfold Rdiv. rewrite Rmult_assoc, Rinv_l, Rmult_1_r by lra. exact Lc.
    + apply Rmult_le_reg_r with c'; [lra|]. unfold Rdiv. rewrite Rmult_assoc, Rinv_l by lra. lra.
Qed.

(** Two emissivities, the crust's the larger. *)
Lemma two_chord m c e1 e2 n1 n2 : 0 <= m <= 1 -> 0 <= c <= 1 -> 0 < e1 -> e2 <= e1 -> 0 < n1 -> n1 <= n2 ->
  m * (((1 - c) * e1 + c * e2) * ((1 - c) * n1 + c * n2)) <= ((1 - m * c) * e1 + m * c * e2) * ((1 - m * c) * n1 + m * c * n2).
Proof.
  intros Hm Hc He He' Hn Hn'.
  assert (Q1 : 0 <= (1 - m) * (e1 * n1)) by (apply Rmult_le_pos; [lra|apply Rmult_le_pos; lra]).
  assert (Q2 : 0 <= (e1 - e2) * (n2 - n1) * (m * (1 - m)) * (c * c)) by (repeat apply Rmult_le_pos; lra).
  match goal with |- ?l <= ?r => assert (QD : r - l = (1 - m) * (e1 * n1) + (e1 - e2) * (n2 - n1) * (m * (1 - m)) * (c * c)) by ring end. lra.
Qed.

(** The fluxes that grow less than in proportion to the uncovered part. *)
Definition tame (sm : sim R) (f : flux R) : Prop :=
  match f with
  | FRadiation (RadBasic _) _ | FRadiation RadLin _ | FConduction _ _ | FConvection | FRain _ _ _ => True
  (* two emissivities: the crust is cooler than the molten lava and emits at least as well *)
  | FRadiation (Rad2Emi e1 e2) _ => e2 <= e1 /\ exists tc, s_crust sm = CtConstant tc /\ tc <= get_solid_temperature (s_cryst sm) - lv_buffer (s_lava sm)
  (* the quadratic law: moreover the sum of the two temperatures is beyond the top of the parabola *)
  | FRadiation RadCont _ => exists tc, s_crust sm = CtConstant tc /\ tc <= get_solid_temperature (s_cryst sm) - lv_buffer (s_lava sm) /\
      0.000719320 <= 0.000000340085 * (tc + (get_solid_temperature (s_cryst sm) - lv_buffer (s_lava sm)))
  | _ => False
  end.
(** The temperatures of the surface are those of the set-up's models. *)
Definition surface_of_models (sm : sim R) (u : surface) : Prop :=
  su_hot u = su_temp u - lv_buffer (s_lava sm) /\ forall tc, s_crust sm = CtConstant tc -> su_crust u = tc.

Lemma tame_law (sm : sim R) al fc u u' f : 1 <= air_temp (s_air sm) -> al <= 0 -> 0 <= fc <= 1 ->
  warm_surface (get_solid_temperature (s_cryst sm)) (air_temp (s_air sm)) u ->
  warm_surface (get_solid_temperature (s_cryst sm)) (air_temp (s_air sm)) u' ->
  sped_up al fc u u' -> surface_of_models sm u -> is_loss sm f -> tame sm f ->
  su_v u / su_v u' * flux_law (s_air sm) u' f <= flux_law (s_air sm) u f.
Proof.
  intros Ha Hal Hfc W W' Sp [Sh Sc] Hl Ht. set (a := s_air sm) in *.
  destruct (radiating_between _ _ _ W Ha) as [_ E4]. destruct (radiating_between _ _ _ W' Ha) as [_ E4'].
  assert (Nb' := net_between _ _ _ W' Ha). assert (Cv' := convecting_above _ _ _ W' Ha).
  set (u1 := {| su_width := su_width u; su_depth := su_depth u; su_temp := su_temp u; su_hot := su_hot u; su_crust := su_crust u;
                su_cover := 1; su_vf := su_vf u; su_mu := su_mu u; su_v := su_v u |}).
  assert (W1 : warm_surface (get_solid_temperature (s_cryst sm)) (air_temp a) u1).
  { destruct W. constructor; cbn; auto. lra. }
  assert (Nb1 := net_between _ _ _ W1 Ha). assert (Cv1 := convecting_above _ _ _ W1 Ha). assert (Pl := loss_positive sm u' f Ha W' Hl). fold a in Pl.
  destruct W as [Hw Hd Htm Hh Hc Hf Hv Hm Hs]. destruct W' as [Hw' Hd' Htm' Hh' Hc' Hf' Hv' Hm' Hs'].
  destruct (uncovers al fc (su_v u) (su_v u') Hal Hfc ltac:(split; [lra|apply (sp_v _ _ _ _ Sp)])) as (m & Bm & Em & Pc).
  rewrite <- (sp_cover _ _ _ _ Sp), <- (sp_cover' _ _ _ _ Sp) in Em. rewrite <- (sp_cover' _ _ _ _ Sp) in Pc.
  assert (Hl0 : 0 < su_v u / su_v u') by (apply Rdiv_lt_0_compat; assumption).
  set (l := su_v u / su_v u') in *.
  assert (Go : forall x x', 0 < x' -> m * x' <= x -> l * x' <= x).
  { intros x x' P Q. eapply Rle_trans; [|exact Q]. apply Rmult_le_compat_r; lra. }
  assert (Ec : su_cover u = 1 - m * (1 - su_cover u')) by lra.
  destruct f as [k sigma|tb cbd| |rate dens latent| |]; cbn [tame] in Ht; try contradiction.
  - assert (En : net_fourth_powers (su_cover u) (su_crust u) (su_hot u) (air_temp a) =
      m * net_fourth_powers (su_cover u') (su_crust u') (su_hot u') (air_temp a) +
      (1 - m) * net_fourth_powers 1 (su_crust u) (su_hot u) (air_temp a)).
    { unfold net_fourth_powers. rewrite (sp_crust _ _ _ _ Sp), (sp_hot _ _ _ _ Sp), Ec. ring. }
    destruct k as [eps|eps_crust eps_hot| |]; try contradiction; apply Go; try exact Pl; cbn [flux_law emissivity_of is_loss] in *.
    2,3:assert (Two : forall e1 e2, 0 < e1 -> e2 <= e1 -> su_crust u <= su_hot u ->
        m * (sigma * (su_cover u' * e1 + (1 - su_cover u') * e2) * net_fourth_powers (su_cover u') (su_crust u') (su_hot u') (air_temp a) * su_width u) <=
        sigma * (su_cover u * e1 + (1 - su_cover u) * e2) * net_fourth_powers (su_cover u) (su_crust u) (su_hot u) (air_temp a) * su_width u).
    2,4:intros e1 e2 He1 He Hle; rewrite <- Rmult_assoc; apply Rmult_le_compat_r; [lra|];
      unfold net_fourth_powers; rewrite (sp_crust _ _ _ _ Sp), (sp_hot _ _ _ _ Sp), Ec;
      assert (Pn1 := proj1 Nb1); unfold net_fourth_powers in Pn1; cbn [u1 su_cover su_crust su_hot] in Pn1;
      assert (Hdn : su_crust u ^ 4 <= su_hot u ^ 4) by (apply pow_incr; lra);
      assert (Q := two_chord m (1 - su_cover u') e1 e2 (su_crust u ^ 4 - air_temp a ^ 4) (su_hot u ^ 4 - air_temp a ^ 4) ltac:(lra) ltac:(lra) He1 He ltac:(lra) ltac:(lra));
      apply (Rmult_le_compat_l sigma) in Q; [|lra];
      match type of Q with ?l <= ?r => match goal with |- ?l' <= ?r' => replace l' with l by ring; replace r' with r by ring; exact Q end end.
    2:{ destruct Ht as [He (tc & Etc & Htc)]. specialize (Sc tc Etc). rewrite E4, E4', (sp_width _ _ _ _ Sp). apply Two; lra. }
    2:{ destruct Ht as (tc & Etc & Htc & Htop). specialize (Sc tc Etc). rewrite E4, E4', (sp_width _ _ _ _ Sp), (sp_crust _ _ _ _ Sp), (sp_hot _ _ _ _ Sp).
      rewrite (sp_crust _ _ _ _ Sp), (sp_hot _ _ _ _ Sp) in Two. apply Two; [apply cont_pos; lra| |lra].
      unfold cont_fit. assert (0 <= (su_hot u - su_crust u) * (0.000000340085 * (su_hot u + su_crust u) - 0.000719320)) by (apply Rmult_le_pos; lra). lra. }
    2:{ rewrite E4, E4', (sp_width _ _ _ _ Sp), <- Rmult_assoc. apply Rmult_le_compat_r; [lra|]. unfold radiating_temperature. rewrite En.
      cbn [u1 su_cover su_crust su_hot] in Nb1.
      assert (Q := lin_chord m _ _ ltac:(lra) (proj1 Nb') (proj1 Nb1)).
      set (n' := net_fourth_powers (su_cover u') (su_crust u') (su_hot u') (air_temp a)) in *. set (n1 := net_fourth_powers 1 (su_crust u) (su_hot u) (air_temp a)) in *.
      assert (Pn : 0 <= (1 - m) * (lin_fit (root4 n1) * n1)).
      { apply Rmult_le_pos; [lra|]. destruct (radiating_between _ _ _ W1 Ha) as [B1 _]. apply Rmult_le_pos; [|lra].
        apply Rlt_le, lin_pos. change (root4 n1) with (radiating_temperature a u1). lra. }
      replace (m * (sigma * lin_fit (root4 n') * n')) with (sigma * (m * (lin_fit (root4 n') * n'))) by ring.
      replace (sigma * lin_fit (root4 (m * n' + (1 - m) * n1)) * (m * n' + (1 - m) * n1)) with (sigma * (lin_fit (root4 (m * n' + (1 - m) * n1)) * (m * n' + (1 - m) * n1))) by ring.
      apply Rmult_le_compat_l; lra. }
     rewrite E4, E4', (sp_width _ _ _ _ Sp).
    rewrite <- Rmult_assoc. apply Rmult_le_compat_r; [lra|].
    replace (m * (sigma * eps * net_fourth_powers (su_cover u') (su_crust u') (su_hot u') (air_temp a)))
      with (sigma * eps * (m * net_fourth_powers (su_cover u') (su_crust u') (su_hot u') (air_temp a))) by ring.
    apply Rmult_le_compat_l; [apply Rmult_le_pos; lra|].
    unfold net_fourth_powers in *. cbn [u1 su_cover su_crust su_hot] in Nb1. rewrite (sp_crust _ _ _ _ Sp), (sp_hot _ _ _ _ Sp), Ec.
    assert (0 <= (1 - m) * (1 * (su_crust u ^ 4 - air_temp a ^ 4) + (1 - 1) * (su_hot u ^ 4 - air_temp a ^ 4))) by (apply Rmult_le_pos; lra). lra.
  - cbn [flux_law is_loss] in *. unfold conductive_flux in *. rewrite (sp_width _ _ _ _ Sp), (sp_vf _ _ _ _ Sp), (sp_temp _ _ _ _ Sp) in *.
    assert (D := sp_depth _ _ _ _ Sp).
    assert (P1 : 0 < (1.929 - 1.554 * su_vf u) ^ 2) by (apply pow_lt; lra).
    assert (P2 : 0 < (1.929 - 1.554 * su_vf u) ^ 2 * (su_temp u - tb)) by (apply Rmult_lt_0_compat; lra).
    apply Rle_trans with (1 * ((1.929 - 1.554 * su_vf u) ^ 2 * (su_temp u - tb) / (cbd / 100 * su_depth u') * su_width u)); [apply Rmult_le_compat_r; lra|].
    rewrite Rmult_1_l. apply Rmult_le_compat_r; [lra|]. unfold Rdiv at 1 3. apply Rmult_le_compat_l; [lra|].
    apply Rinv_le_contravar; [apply Rmult_lt_0_compat; lra|]. apply Rmult_le_compat_l; lra.
  - apply Go; [exact Pl|]. cbn [flux_law is_loss] in *. rewrite (sp_width _ _ _ _ Sp), <- Rmult_assoc. apply Rmult_le_compat_r; [lra|].
    set (k := air_ch a * air_rho a * air_cp a * air_wind a) in *.
    replace (m * (k * (convecting_temperature u' - air_temp a))) with (k * (m * (convecting_temperature u' - air_temp a))) by ring.
    apply Rmult_le_compat_l; [change (0 < k) in Hl; lra|].
    cut (m * convecting_temperature u' + (1 - m) * convecting_temperature u1 <= convecting_temperature u).
    { intros Q. assert (0 <= (1 - m) * (convecting_temperature u1 - air_temp a)) by (apply Rmult_le_pos; lra). lra. }
    unfold convecting_temperature. cbn [u1 su_cover su_crust su_hot]. rewrite (sp_crust _ _ _ _ Sp), (sp_hot _ _ _ _ Sp).
    assert (Pk : 0 < pospow (su_crust u) 1.333) by (rewrite pospow_pos by lra; apply Rpower_gt_0).
    assert (Ph : 0 < pospow (su_hot u) 1.333) by (rewrite pospow_pos by lra; apply Rpower_gt_0).
    set (A := pospow (su_crust u) 1.333) in *. set (B := pospow (su_hot u) 1.333) in *.
    assert (P1 : 0 < su_cover u' * A + (1 - su_cover u') * B) by (apply mix_pos; assumption).
    assert (P2 : 0 < 1 * A + (1 - 1) * B) by lra.
    rewrite (pospow_pos _ 0.75 P1), (pospow_pos _ 0.75 P2).
    assert (P3 : 0 < su_cover u * A + (1 - su_cover u) * B) by (apply mix_pos; assumption). rewrite (pospow_pos _ 0.75 P3).
    replace (su_cover u * A + (1 - su_cover u) * B) with (m * (su_cover u' * A + (1 - su_cover u') * B) + (1 - m) * (1 * A + (1 - 1) * B)) by (rewrite Ec; ring).
    apply power_chord; try lra.
  - cbn [flux_law]. rewrite (sp_width _ _ _ _ Sp). cbn [flux_law] in Pl. rewrite (sp_width _ _ _ _ Sp) in Pl.
    apply Rle_trans with (1 * (rate * dens * latent * su_width u)); [apply Rmult_le_compat_r; lra|lra].
Qed.

(** The sum. *)
Lemma tame_loss (sm : sim R) al fc u u' : 1 <= air_temp (s_air sm) -> al <= 0 -> 0 <= fc <= 1 ->
  warm_surface (get_solid_temperature (s_cryst sm)) (air_temp (s_air sm)) u ->
  warm_surface (get_solid_temperature (s_cryst sm)) (air_temp (s_air sm)) u' ->
  sped_up al fc u u' -> surface_of_models sm u -> forall b, Forall (is_loss sm) b -> Forall (tame sm) b ->
  0 <= heat_loss (s_air sm) b u' /\ su_v u / su_v u' * heat_loss (s_air sm) b u' <= heat_loss (s_air sm) b u.
Proof.
  intros Ha Hal Hfc W W' Sp Sm b. induction b as [|f b IH]; intros Hb Ht; unfold heat_loss; cbn [map fold_right]; [lra|].
  inversion Hb; subst. inversion Ht; subst. destruct IH as [I1 I2]; auto. unfold heat_loss in I1, I2.
  assert (Q := tame_law sm al fc u u' f Ha Hal Hfc W W' Sp Sm ltac:(assumption) ltac:(assumption)).
  assert (Q' := loss_positive sm u' f Ha W' ltac:(assumption)). lra.
Qed.
