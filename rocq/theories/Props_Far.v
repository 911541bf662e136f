(** * Props_Far: the settings that apply beyond the critical distance: C85 *)
From Coq Require Import Reals Lra.
From Verif Require Import Base Num Json Logger World Vesicle MeltVisc RelVisc Bubbles Terrain Lava
  Thermal Flux Integrator Factory Run RNum StepProps Props_Budget Props_Factory Props_EffArray Props_Unused Props_Run Props_RunOuts Valid
  Causal Props_Causal.

Section Far.
Context {T : Type} {N : Num T}.
Implicit Types F : list (string * json T).

(** ** Specification *)
(** The distance itself, and the values that replace others beyond it. *)
Definition far_keys : list (string * string) :=
  [("lava_state", "critical_distance"); ("lava_state", "vesicle_fraction_2"); ("crystals_parameters", "crystallization_rate_2");
   ("thermal_parameters", "crust_temperature_2"); ("thermal_parameters", "alpha_2"); ("thermal_parameters", "crust_cover_fraction_2")].
Definition is_far (p : string * string) : bool :=
  existsb (fun q => String.eqb (fst p) (fst q) && String.eqb (snd p) (snd q)) far_keys.
(** Every other setting a run consults. *)
Definition near_keys : list (string * string) := filter (fun p => negb (is_far p)) consulted.

(** The two configurations differ at most in the far settings.  The model
    bimodal_f_temp switches to crystallization_rate_2 at a temperature, not at a
    distance: with it that rate has to be the same too. *)
Record same_near F1 F2 : Prop := {
  sn_settings : same_settings near_keys top_keys F1 F2;
  sn_rate2 : same_at F1 F2 "crystals_parameters" "crystallization_rate_2" \/
             jget2 (JObj F1) "models" "crystallization_rate_model" <> Ok (JStr "bimodal_f_temp")
}.
(** Up to the critical distance of either configuration (everywhere, when
    neither gives one). *)
Definition before_critical F1 F2 (p : T) : Prop := forall c,
  jfloat2 (JObj F1) "lava_state" "critical_distance" = Ok c \/ jfloat2 (JObj F2) "lava_state" "critical_distance" = Ok c ->
  n_leb p c = true.

(** ** The models agree up to there *)
Section Near.
Context (F1 F2 : list (string * json T)) (S : same_near F1 F2).
Let d1 := JObj F1.
Let d2 := JObj F2.
Let P := before_critical F1 F2.
Lemma ne_at s k : listed near_keys s k = true -> same_at F1 F2 s k.
Proof. intros H. apply (srs_entries _ _ _ _ (sn_settings _ _ S)). apply listed_in. exact H. Qed.
Lemma ne_float s k : listed near_keys s k = true -> jfloat2 d1 s k = jfloat2 d2 s k.
Proof. intros H. apply same_jfloat2, ne_at, H. Qed.
Lemma ne_get s k : listed near_keys s k = true -> jget2 d1 s k = jget2 d2 s k.
Proof. intros H. apply same_jget2, ne_at, H. Qed.
Lemma ne_req s k : listed near_keys s k = true -> require2 d1 s k = require2 d2 s k.
Proof. intros H. apply same_presence_require2, same_at_presence, ne_at, H. Qed.
Lemma ne_top k : existsb (String.eqb k) top_keys = true -> assoc k F1 = assoc k F2.
Proof.
  intros H. apply (srs_top _ _ _ _ (sn_settings _ _ S)). apply existsb_exists in H as (x & Hx & E). apply String.eqb_eq in E. now subst.
Qed.
Lemma ne_jget k : existsb (String.eqb k) top_keys = true -> jget d1 k = jget d2 k.
Proof. intros H. unfold jget, d1, d2. now rewrite (ne_top k H). Qed.
Lemma ne_require1 k : existsb (String.eqb k) top_keys = true -> require1 d1 k = require1 d2 k.
Proof. intros H. unfold require1, jmem, jget, d1, d2. now rewrite (ne_top k H). Qed.

Ltac same := repeat first
  [ rewrite ne_float by reflexivity | rewrite ne_get by reflexivity | rewrite ne_req by reflexivity ]; reflexivity.
Ltac opens H := repeat (let x := fresh "x" in let E := fresh "E" in apply rbind_ok in H as (x & E & H)).
(** Readings of a near setting in both documents: the same number. *)
Ltac joins := repeat match goal with
  | A : jfloat2 d1 ?s ?k = Ok ?x, B : jfloat2 d2 ?s ?k = Ok ?y |- _ =>
      rewrite (ne_float s k eq_refl) in A; rewrite A in B; apply Ok_inj in B; subst y; clear A
  end.

Lemma far_selectors : read_selectors d1 = read_selectors d2.
Proof. unfold read_selectors. same. Qed.
Lemma far_melt sel : build_melt sel d1 = build_melt sel d2.
Proof. unfold build_melt, read_melt_basic, read_melt_shaw, read_melt_vft. same. Qed.
Lemma far_yield sel : build_yield sel d1 = build_yield sel d2.
Proof. unfold build_yield, read_y_basic, read_y_dragoni, read_y_dragoni_alone, read_y_ryerson, read_y_bll. same. Qed.
Lemma far_air : read_air d1 = read_air d2.
Proof. unfold read_air. same. Qed.
Lemma far_terrain : read_terrain d1 = read_terrain d2.
Proof. unfold read_terrain, jfloat1. rewrite ne_jget by reflexivity. same. Qed.
Lemma far_mass : mass_raw d1 = mass_raw d2.
Proof.
  unfold mass_raw, jget, d1, d2. pose proof (ne_at "terrain_conditions" "mass_conservation" eq_refl) as H. unfold same_at in H.
  destruct (assoc "terrain_conditions" F1) as [[]|], (assoc "terrain_conditions" F2) as [[]|]; cbn [rbind]; try congruence.
  now rewrite H.
Qed.
Lemma far_fluxes s fr : choose_fluxes s = Ok fr -> rmapM (fun r => r d1) fr = rmapM (fun r => r d2) fr.
Proof.
  intros H.
  assert (G : Forall (fun r => r d1 = r d2) fr).
  { unfold choose_fluxes in H.
    apply rbind_ok in H as (l1 & H1 & H). apply rbind_ok in H as (l2 & H2 & H). apply rbind_ok in H as (l3 & H3 & H).
    apply rbind_ok in H as (l4 & H4 & H). apply rbind_ok in H as (l5 & H5 & H). apply rbind_ok in H as (l6 & H6 & H).
    injection H as <-. rewrite !Forall_app.
    assert (YN : forall sel r name l, choose_yes_no sel r name = Ok l -> r d1 = r d2 -> Forall (fun r => r d1 = r d2) l).
    { intros sel r name l Hc Hr. unfold choose_yes_no in Hc. destruct (jis sel "yes"); [injection Hc as <-; auto|].
      destruct (jis sel "no"); [injection Hc as <-; auto|discriminate]. }
    repeat split.
    - unfold choose_radiation in H1.
      repeat match type of H1 with (if jis ?v ?n then _ else _) = _ => destruct (jis v n) end; try discriminate H1; injection H1 as <-;
      repeat constructor; unfold read_f_rad_basic, read_f_rad_2emi, read_f_rad_cont, read_f_rad_lin; same.
    - eapply YN; [eassumption|]. unfold read_f_conduction. same.
    - eapply YN; [eassumption|]. reflexivity.
    - eapply YN; [eassumption|]. unfold read_f_rain. same.
    - eapply YN; [eassumption|]. reflexivity.
    - unfold choose_snyder in H6. destruct (jis (sel_snyder s) "yes" && jis (sel_conv s) "no" && jis (sel_rad s) "no");
        [|destruct (jis (sel_snyder s) "no"); [|discriminate]]; injection H6 as <-; auto.
      repeat constructor. unfold read_f_snyder. same. }
  clear H. induction G as [|r fr E G IH]; [reflexivity|]. cbn [rmapM]. rewrite E, IH. reflexivity.
Qed.

Lemma crit1 c p : jfloat2 d1 "lava_state" "critical_distance" = Ok c -> P p -> n_leb p c = true.
Proof. intros E H. apply H. left. exact E. Qed.
Lemma crit2 c p : jfloat2 d2 "lava_state" "critical_distance" = Ok c -> P p -> n_leb p c = true.
Proof. intros E H. apply H. right. exact E. Qed.
(** Both models test the position against their critical distance: both are on the near side. *)
Ltac nearside Hp := repeat match goal with
  | A : jfloat2 d1 "lava_state" "critical_distance" = Ok ?c |- context [n_leb _ ?c] => rewrite (crit1 c _ A Hp)
  | A : jfloat2 d2 "lava_state" "critical_distance" = Ok ?c |- context [n_leb _ ?c] => rewrite (crit2 c _ A Hp)
  end.

Lemma far_vesicle sel v1 v2 : build_vesicle sel d1 = Ok v1 -> build_vesicle sel d2 = Ok v2 ->
  forall s, P (st_pos s) -> computes_vesicle_fraction v1 s = computes_vesicle_fraction v2 s.
Proof.
  unfold build_vesicle, read_v_constant, read_v_bimodal, read_v_variable, read_v_variable_bimodal, read_v_poly.
  intros A B s Hp.
  repeat match type of A with (if jis ?v ?n then _ else _) = _ => destruct (jis v n) end; try discriminate A;
    opens A; opens B; apply Ok_inj in A; apply Ok_inj in B; subst v1 v2;
    joins; cbn [computes_vesicle_fraction]; nearside Hp; reflexivity.
Qed.
Lemma far_cryst sel c1 c2 : sel = JStr "bimodal_f_temp" -> same_at F1 F2 "crystals_parameters" "crystallization_rate_2" ->
  build_cryst sel d1 = Ok c1 -> build_cryst sel d2 = Ok c2 -> c1 = c2.
Proof.
  intros -> E A B. change (build_cryst (JStr "bimodal_f_temp") d1) with (read_cr_bimodal_f_temp d1) in A.
  change (build_cryst (JStr "bimodal_f_temp") d2) with (read_cr_bimodal_f_temp d2) in B.
  apply same_jfloat2 in E. fold d1 d2 in E.
  unfold read_cr_bimodal_f_temp in A, B. opens A. opens B. apply Ok_inj in A. apply Ok_inj in B. subst c1 c2.
  match goal with A : jfloat2 d1 "crystals_parameters" "crystallization_rate_2" = Ok ?x, B : jfloat2 d2 "crystals_parameters" "crystallization_rate_2" = Ok ?y |- _ =>
      rewrite E in A; rewrite A in B; apply Ok_inj in B; subst y; clear A end.
  joins. reflexivity.
Qed.
Lemma far_rate sel c1 c2 :
  (same_at F1 F2 "crystals_parameters" "crystallization_rate_2" \/ sel <> JStr "bimodal_f_temp") ->
  build_cryst sel d1 = Ok c1 -> build_cryst sel d2 = Ok c2 ->
  (forall s, P (st_pos s) -> compute_crystallization_rate c1 s = compute_crystallization_rate c2 s) /\
  get_solid_temperature c1 = get_solid_temperature c2 /\ (forall t, get_crystal_fraction c1 t = get_crystal_fraction c2 t).
Proof.
  intros D A B.
  assert (Dec : sel = JStr "bimodal_f_temp" \/ jis sel "bimodal_f_temp" = false).
  { destruct sel as [| | | |x| |]; try (right; reflexivity). cbn [jis]. destruct (String.eqb_spec x "bimodal_f_temp"); [left; congruence|now right]. }
  destruct Dec as [Q|Q].
  - destruct D as [D|D]; [|contradiction]. rewrite (far_cryst sel c1 c2 Q D A B). auto.
  - clear D. unfold build_cryst, read_cr_basic, read_cr_bimodal, read_cr_melts in A, B. rewrite Q in A, B.
    repeat match type of A with (if jis ?v ?n then _ else _) = _ => destruct (jis v n) end; try discriminate A.
    + opens A; opens B; apply Ok_inj in A; apply Ok_inj in B; subst c1 c2; joins. auto.
    + opens A; opens B; apply Ok_inj in A; apply Ok_inj in B; subst c1 c2; joins. split; [|auto].
      intros s Hp. cbn [compute_crystallization_rate]. nearside Hp. reflexivity.
    + apply rbind_ok in A as ([|] & ? & A); [|discriminate A]. apply rbind_ok in B as ([|] & ? & B); [|discriminate B].
      opens A; opens B; apply Ok_inj in A; apply Ok_inj in B; subst c1 c2; joins. auto.
Qed.
Lemma far_crust sel profile c1 c2 : build_crust sel profile d1 = Ok c1 -> build_crust sel profile d2 = Ok c2 ->
  forall s, P (st_pos s) -> compute_crust_temperature c1 s = compute_crust_temperature c2 s.
Proof.
  unfold build_crust, read_ct_constant, read_ct_hon, read_ct_bimodal, read_ct_field.
  intros A B s Hp.
  repeat match type of A with (if jis ?v ?n then _ else _) = _ => destruct (jis v n) end; try discriminate A.
  - opens A; opens B; apply Ok_inj in A; apply Ok_inj in B; subst c1 c2; joins; reflexivity.
  - opens A; opens B; apply Ok_inj in A; apply Ok_inj in B; subst c1 c2; reflexivity.
  - opens A; opens B; apply Ok_inj in A; apply Ok_inj in B; subst c1 c2. cbn [compute_crust_temperature]. nearside Hp. reflexivity.
  - destruct profile as [lines|]; [|discriminate A].
    apply rbind_ok in A as (t1 & T1 & A). apply rbind_ok in B as (t2 & T2 & B). rewrite T1 in T2. apply Ok_inj in T2. subst t2.
    opens A; opens B; apply Ok_inj in A; apply Ok_inj in B; subst c1 c2; reflexivity.
Qed.
Lemma far_cover sel c1 c2 : build_cover sel d1 = Ok c1 -> build_cover sel d2 = Ok c2 ->
  forall p, P p -> cover_parameters c1 p = cover_parameters c2 p.
Proof.
  unfold build_cover, read_cv_basic, read_cv_bimodal. intros A B p Hp.
  repeat match type of A with (if jis ?v ?n then _ else _) = _ => destruct (jis v n) end; try discriminate A;
    opens A; opens B; apply Ok_inj in A; apply Ok_inj in B; subst c1 c2; joins; cbn [cover_parameters]; nearside Hp; reflexivity.
Qed.
Lemma far_rel sel v1 v2 mm r1 r2 : (forall s, P (st_pos s) -> computes_vesicle_fraction v1 s = computes_vesicle_fraction v2 s) ->
  build_rel sel v1 mm d1 = Ok r1 -> build_rel sel v2 mm d2 = Ok r2 ->
  forall s, P (st_pos s) -> compute_relative_viscosity r1 s = compute_relative_viscosity r2 s /\
    rel_is_notcompatible r1 s = rel_is_notcompatible r2 s.
Proof.
  unfold build_rel, read_rel_kd, read_rel_mp, read_rel_mueller, read_rel_mader, read_rel_bll, read_rel_costa1, read_rel_costa2, rvp.
  intros V A B s Hp. specialize (V s Hp).
  repeat match type of A with (if jis ?v ?n then _ else _) = _ => destruct (jis v n) end; try discriminate A;
    opens A; opens B; apply Ok_inj in A; apply Ok_inj in B; subst r1 r2; joins; cbn [compute_relative_viscosity rel_is_notcompatible];
    rewrite ?V; auto.
Qed.
Lemma far_bub sel v1 v2 mm rm1 rm2 b1 b2 :
  (forall s, P (st_pos s) -> computes_vesicle_fraction v1 s = computes_vesicle_fraction v2 s) ->
  (forall s, P (st_pos s) -> compute_relative_viscosity rm1 s = compute_relative_viscosity rm2 s) ->
  build_bub sel v1 mm rm1 d1 = Ok b1 -> build_bub sel v2 mm rm2 d2 = Ok b2 ->
  forall s, P (st_pos s) -> compute_relative_viscosity_bubbles b1 s = compute_relative_viscosity_bubbles b2 s.
Proof.
  unfold build_bub, read_bub_mader, rvp. intros V Rm A B s Hp. specialize (V s Hp). specialize (Rm s Hp).
  repeat match type of A with (if jis ?v ?n then _ else _) = _ => destruct (jis v n) end; try discriminate A;
    opens A; opens B; apply Ok_inj in A; apply Ok_inj in B; subst b1 b2; joins; cbn [compute_relative_viscosity_bubbles];
    rewrite ?V, ?Rm; reflexivity.
Qed.

(** Everything [prepare] builds. *)
Lemma far_prepare flag (fs : fsys T) jf eri1 name1 (sm1 : sim T) st1 depth1 eri2 name2 (sm2 : sim T) st2 depth2 :
  prepare flag (fs_write jf (FJson d1) fs) jf = Ok (eri1, name1, sm1, st1, depth1) ->
  prepare flag (fs_write jf (FJson d2) fs) jf = Ok (eri2, name2, sm2, st2, depth2) ->
  eri2 = eri1 /\ name2 = name1 /\ st2 = st1 /\ depth2 = depth1 /\ same_within P sm1 sm2.
Proof.
  intros A B.
  assert (Hsel : forall sel1, read_selectors d1 = Ok sel1 ->
     same_at F1 F2 "crystals_parameters" "crystallization_rate_2" \/ sel_cryst sel1 <> JStr "bimodal_f_temp").
  { intros sel1 Q. destruct (sn_rate2 _ _ S) as [D|D]; [now left|]. right. intros E. apply D. unfold read_selectors in Q.
    opens Q. apply Ok_inj in Q. subst sel1. cbn in E. subst. assumption. }
  rewrite !prepare_split in *. apply rbind_ok in A as ([[[e1 n1] s1] p1] & A & A'). apply rbind_ok in B as ([[[e2 n2] s2] p2] & B & B').
  apply rbind_ok in A' as (i1 & I1 & A'). apply rbind_ok in B' as (i2 & I2 & B'). apply Ok_inj in A'. apply Ok_inj in B'.
  injection A' as -> -> -> -> ->. injection B' as -> -> -> -> ->.
  unfold prepare_models in A, B. rewrite <- (ne_jget "effusion_rate_init") in B by reflexivity.
  rewrite <- !ne_require1 in B by reflexivity. rewrite <- far_mass, <- far_terrain in B.
  do 6 (apply rbind_ok in A as (? & ? & A); apply rbind_ok in B as (? & ? & B);
    match goal with A : ?e = Ok ?x, B : ?e = Ok ?y |- _ => rewrite A in B; apply Ok_inj in B; subst y end).
  apply rbind_ok in A as ([[t1 dp1] sm1'] & RT & A). rewrite RT in B. cbn [rbind] in B.
  apply rbind_ok in A as (l1 & L1 & A). apply rbind_ok in B as (l2 & L2 & B).
  assert (l2 = l1).
  { unfold read_slope_lines in L1, L2. apply rbind_ok in L1 as (q & Q & L1). rewrite Q in L2. cbn [rbind] in L2.
    unfold fs_write in L1, L2. destruct (String.eqb q jf); [discriminate|]. congruence. }
  subst l2. apply rbind_ok in A as (ter & RS & A). rewrite RS in B. cbn [rbind] in B.
  assert (Ep : crust_profile (fs_write jf (FJson d2) fs) = crust_profile (fs_write jf (FJson d1) fs)).
  { unfold crust_profile, fs_write. destruct (String.eqb _ jf); reflexivity. }
  rewrite Ep in B.
  apply rbind_ok in A as (m1 & M1 & A). apply rbind_ok in B as (m2 & M2 & B). apply Ok_inj in A. apply Ok_inj in B.
  injection A as <- <- <- <-. injection B as <- <- <- <-. cbn [s_lava s_cryst] in I1, I2.
  unfold build_models in M1, M2. rewrite <- far_selectors, <- far_air in M2.
  apply rbind_ok in M1 as (sel & Q & M1). rewrite Q in M2. cbn [rbind] in M2. specialize (Hsel _ Q).
  rewrite <- far_melt, <- far_yield in M2.
  apply rbind_ok in M1 as (cr1 & C1 & M1). apply rbind_ok in M2 as (cr2 & C2 & M2).
  apply rbind_ok in M1 as (ar & AR & M1). rewrite AR in M2. cbn [rbind] in M2.
  apply rbind_ok in M1 as (v1 & V1 & M1). apply rbind_ok in M2 as (v2 & V2 & M2).
  apply rbind_ok in M1 as (mm & MM & M1). rewrite MM in M2. cbn [rbind] in M2.
  apply rbind_ok in M1 as (r1 & R1 & M1). apply rbind_ok in M2 as (r2 & R2 & M2).
  apply rbind_ok in M1 as (b1 & B1 & M1). apply rbind_ok in M2 as (b2 & B2 & M2).
  apply rbind_ok in M1 as (ym & YM & M1). rewrite YM in M2. cbn [rbind] in M2.
  apply rbind_ok in M1 as (lv1 & LV1 & M1). apply rbind_ok in M2 as (lv2 & LV2 & M2).
  apply rbind_ok in M1 as (cv1 & CV1 & M1). apply rbind_ok in M2 as (cv2 & CV2 & M2).
  apply rbind_ok in M1 as (ct1 & CT1 & M1). apply rbind_ok in M2 as (ct2 & CT2 & M2).
  apply rbind_ok in M1 as (fr & FR & M1). rewrite FR in M2. cbn [rbind] in M2. rewrite <- (far_fluxes _ _ FR) in M2.
  apply rbind_ok in M1 as (fl & FL & M1). rewrite FL in M2. cbn [rbind] in M2. apply Ok_inj in M1. apply Ok_inj in M2. subst m1 m2.
  cbn [mo_cryst mo_air mo_lava mo_cover mo_crust mo_budget] in *.
  assert (Vs := far_vesicle _ _ _ V1 V2). assert (Rs := far_rel _ _ _ _ _ _ Vs R1 R2).
  assert (Bs := far_bub _ _ _ _ _ _ _ _ Vs (fun s Hp => proj1 (Rs s Hp)) B1 B2).
  destruct (far_rate _ _ _ Hsel C1 C2) as (Cs & Ct & Cf).
  assert (Ks := far_crust _ _ _ _ CT1 CT2). assert (Os := far_cover _ _ _ CV1 CV2).
  unfold read_lava, rvp in LV1, LV2. opens LV1. opens LV2. apply Ok_inj in LV1. apply Ok_inj in LV2. subst lv1 lv2. joins.
  split; [reflexivity|]. split; [reflexivity|]. split; [|split; [reflexivity|]].
  - unfold initialize_state, jfloat1 in I1, I2. rewrite <- (ne_jget "effusion_rate_init") in I2 by reflexivity.
    rewrite <- !ne_float in I2 by reflexivity. cbn [lv_terupt] in I1, I2. rewrite <- Cf in I2. congruence.
  - constructor; cbn; try reflexivity; try assumption.
    + intros s Hp. unfold get_bulk_density, lava_vesicle_fraction. cbn. rewrite (Vs s Hp). reflexivity.
    + intros s Hp. unfold computes_bulk_viscosity. cbn. rewrite (proj1 (Rs s Hp)), (Bs s Hp). reflexivity.
    + intros s Hp. exact (proj2 (Rs s Hp)).
Qed.
End Near.
End Far.

Open Scope R_scope.
Lemma before_critical_closed (F1 F2 : list (string * json R)) : closed_upstream (before_critical F1 F2).
Proof.
  intros p q Hp Hq c Hc. specialize (Hp c Hc). change (R_leb p c = true) in Hp. change (R_leb q c = true).
  apply R_leb_true in Hp. apply R_leb_true. lra.
Qed.

(** ** C85.  Two configurations that differ at most in the settings that apply
    beyond the critical distance (and in that distance): when the vent is
    upstream of it, the two tables begin with the same rows, every other row of
    either lies beyond the critical distance of one of the two configurations,
    and a flow that stops upstream of both is the same in every respect. *)
Theorem C85_far_settings_apply_far : forall sf sc (F1 F2 : list (string * json R)) fuel1 fuel2 (fs : fsys R) json_file folder
    fs1 fs2 log1 log2 eri name (sm : sim R) st depth,
  same_near F1 F2 ->
  prepare mass_flag (fs_write json_file (FJson (JObj F1)) fs) json_file = Ok (eri, name, sm, st, depth) ->
  0 < s_dx sm -> before_critical F1 F2 (st_pos st) ->
  run sf sc fuel1 (fs_write json_file (FJson (JObj F1)) fs) (new_runner []) json_file folder = Some (Ok tt, fs1, log1) ->
  run sf sc fuel2 (fs_write json_file (FJson (JObj F2)) fs) (new_runner []) json_file folder = Some (Ok tt, fs2, log2) ->
  exists same more1 more2, log1 = same ++ more1 /\ log2 = same ++ more2 /\
    (forall r, In r more1 \/ In r more2 -> exists p, row_position r p /\ ~ before_critical F1 F2 p) /\
    ((forall r p, In r log1 -> row_position r p -> before_critical F1 F2 (p + s_dx sm)) ->
       log2 = log1 /\ forall q, q <> json_file -> fs2 q = fs1 q).
Proof.
  intros sf sc F1 F2 fuel1 fuel2 fs jf folder fs1 fs2 log1 log2 eri name sm st depth S H1 Hdx Hst R1 R2.
  unfold run in R1, R2. rewrite H1 in R1. change (new_runner (T:=R) []) with (@nil (row R)) in *.
  destruct (prepare mass_flag (fs_write jf (FJson (JObj F2)) fs) jf) as [[[[[eri2 name2] sm2] st2] depth2]|e] eqn:H2; [|discriminate R2].
  destruct (far_prepare F1 F2 S _ _ _ _ _ _ _ _ _ _ _ _ _ H1 H2) as (-> & -> & -> & -> & W).
  destruct (simulate fuel1 sm (initial_world st [] depth)) as [[[[]|e1] w1]|] eqn:E1; try discriminate R1.
  destruct (simulate fuel2 sm2 (initial_world st [] depth)) as [[[[]|e2] w2]|] eqn:E2; try discriminate R2.
  destruct (C83_downstream_does_not_matter (before_critical F1 F2) sm sm2 fuel1 fuel2 st depth w1 w2
    (before_critical_closed F1 F2) Hdx W Hst E1 E2) as [(c & m1 & m2 & A & B & C) D].
  assert (L1 : log1 = w_log w1) by (destruct (write_table _ (w_log w1) _); congruence).
  assert (L2 : log2 = w_log w2) by (destruct (write_table _ (w_log w2) _); congruence).
  exists c, m1, m2. split; [congruence|]. split; [congruence|]. split; [exact C|]. intros Up.
  assert (Hw : w2 = w1).
  { apply D. assert (Hd : s_dx sm <> 0) by lra. assert (RP := rows_in_place _ _ _ _ _ Hd E1).
    destruct (C62_table_of_a_run sm fuel1 st depth w1 Hd E1) as (HP & done & rest & HL & Hlen & _). rewrite HP.
    destruct (w_iter w1) as [|k] eqn:Ek; [cbn [INR]; rewrite Rmult_0_l, Rplus_0_r; exact Hst|].
    assert (X : exists r, nth_error (w_log w1) k = Some r).
    { destruct (nth_error (w_log w1) k) eqn:Q; [eauto|]. apply nth_error_None in Q. rewrite HL, app_length in Q. lia. }
    destruct X as (r & Hr). specialize (RP _ _ Hr).
    replace (st_pos st + INR (Datatypes.S k) * s_dx sm) with (st_pos st + INR k * s_dx sm + s_dx sm) by (rewrite S_INR; lra).
    rewrite L1 in Up. apply (Up r); [exact (nth_error_In _ _ Hr)|exact RP]. }
  subst w2. split; [congruence|].
  unfold write_table in R1, R2. destruct (w_log w1) as [|first rest].
  { injection R1 as <- <-. injection R2 as <- <-. intros q Hq. unfold fs_write. apply String.eqb_neq in Hq. now rewrite Hq. }
  destruct (write_values_to_file (first :: rest)); [|discriminate R1]. injection R1 as <- <-. injection R2 as <- <-.
  intros q Hq. unfold fs_write. apply String.eqb_neq in Hq. rewrite Hq. reflexivity.
Qed.
