(** * Props_Recompute: every column of a result row follows from the others (C76) *)
From Verif Require Import Base Num Json Logger World Vesicle MeltVisc RelVisc Bubbles Terrain Lava
  Thermal Flux Integrator Factory Run Frame StepLog StepProofs LoggerProofs RowProofs StepProps StepRow ColumnProofs
  Spec RNum RPow Props_Step Props_Velocity Props_Material Props_Thermal Gives Props_Flux Props_Terrain Steady Props_Budget Props_BudgetStep
  Props_Run Props_RunOuts TableTrace Props_Table Recompute.
Open Scope R_scope.

(** ** Which call wrote a cell *)
Lemma assoc_not_in {V} n (l : list (string * V)) : ~ In n (map fst l) -> assoc n l = None.
Proof.
  induction l as [|[k v] l IH]; intros H; [reflexivity|]. cbn [assoc map fst In] in *.
  destruct (String.eqb n k) eqn:E; [|auto]. apply String.eqb_eq in E. subst. exfalso. auto.
Qed.
Lemma assoc_flat {V B} n (h : B -> list (string * V)) fl g v : In g fl ->
  assoc n (rev (h g)) = Some v ->
  (forall l1 l2, fl = l1 ++ g :: l2 -> Forall (fun g' => ~ In n (map fst (h g'))) l2) ->
  assoc n (rev (flat_map h fl)) = Some v.
Proof.
  intros Hin Hv Hq. apply in_split in Hin as (l1 & l2 & E). specialize (Hq l1 l2 E). rewrite E.
  rewrite flat_map_app, rev_app_distr, assoc_app. cbn [flat_map]. rewrite rev_app_distr, assoc_app.
  rewrite (assoc_not_in n (rev (flat_map h l2))).
  - now rewrite Hv.
  - rewrite map_rev, <- in_rev. intros Hi. apply in_map_iff in Hi as (p & <- & Hp).
    apply in_flat_map in Hp as (g' & Hg' & Hp). rewrite Forall_forall in Hq. apply (Hq g' Hg'). now apply in_map.
Qed.
Lemma ordpairs_split {B} (P : B -> B -> Prop) l l1 g l2 : ForallOrdPairs P l -> l = l1 ++ g :: l2 -> Forall (P g) l2.
Proof.
  intros H. revert l1. induction H as [|a l Ha _ IH]; intros [|b l1] E; cbn [app] in E; try discriminate.
  - injection E as -> ->. exact Ha.
  - injection E as -> ->. now apply (IH l1).
Qed.

(** The columns that describe a flux besides its value. *)
Definition own_columns (g : flux R) : list string :=
  match g with
  | FRadiation _ _ => ["effective_radiation_temperature"; "epsilon_effective"; "spectral_radiance"]
  | FConvection => ["characteristic_surface_temperature"]
  | FSnyder => ["effective_temperature_snyder"]
  | _ => []
  end.
Definition spares (f g : flux R) : Prop :=
  forall n, In n (own_columns f) -> ~ In n (flux_name g :: flux_logs g).
Lemma factory_spares (d : json R) profile mo :
  build_models d profile = Ok mo -> ForallOrdPairs spares (mo_budget mo).
Proof.
  intros H. destruct (C50_factory_budget d profile mo H)
    as (rad & cond & conv & rain & visc & sny & -> & Hr & Hc & Hv & Hn & Hi & Hs & Hx).
  unfold at_most_one in *.
  assert (Hr' : rad = [] \/ exists k s, rad = [FRadiation k s]).
  { destruct Hr as [|(f & (k & s & ->) & ->)]; eauto. } clear Hr.
  assert (Hc' : cond = [] \/ exists a b, cond = [FConduction a b]).
  { destruct Hc as [|(f & (k & s & ->) & ->)]; eauto. } clear Hc.
  assert (Hn' : rain = [] \/ exists a b c, rain = [FRain a b c]).
  { destruct Hn as [|(f & (k & s & u & ->) & ->)]; eauto. } clear Hn.
  assert (L : forall f g : flux R,
              forallb (fun n => negb (existsb (String.eqb n) (flux_name g :: flux_logs g))) (own_columns f) = true -> spares f g).
  { intros f g E n Hn Hin. rewrite forallb_forall in E. apply E in Hn. apply negb_true_iff in Hn.
    rewrite <- not_true_iff_false in Hn. apply Hn. apply existsb_exists. eexists; split; [exact Hin|apply String.eqb_refl]. }
  assert (S1 : forall l, ForallOrdPairs spares l -> forall f,
     forallb (fun g => forallb (fun n => negb (existsb (String.eqb n) (flux_name g :: flux_logs g))) (own_columns f)) l = true ->
     ForallOrdPairs spares (f :: l)).
  { intros l Hl f Hf. constructor; [|exact Hl]. apply Forall_forall. intros g Hg. apply L.
    rewrite forallb_forall in Hf. auto. }
  destruct Hs as [->|(f & <- & ->)].
  - destruct Hr' as [->|(k & s & ->)], Hc' as [->|(a & b & ->)], Hv as [->|(f & <- & ->)],
      Hn' as [->|(p & q & r & ->)], Hi as [->|(f' & <- & ->)]; cbn [app];
      repeat (apply S1; [|reflexivity]); constructor.
  - destruct (Hx ltac:(discriminate)) as [-> ->].
    destruct Hc' as [->|(a & b & ->)], Hn' as [->|(p & q & r & ->)], Hi as [->|(f' & <- & ->)]; cbn [app];
      repeat (apply S1; [|reflexivity]); constructor.
Qed.

Lemma inner_calls_names sm u g : map fst (inner_calls sm u g) = flux_logs g.
Proof. destruct g as [[]| | | | |]; reflexivity. Qed.
Lemma flux_calls_names sm u g n : In n (map fst (flux_calls sm u g)) -> In n (flux_name g :: flux_logs g).
Proof.
  unfold flux_calls. rewrite !map_app, !in_app_iff, !inner_calls_names. cbn. intuition.
Qed.

(** ** One completed step *)
Section Step.
Variable (sm : sim R) (w w' : world R) (v rho width slope hb rate dtemp dt : R).
Hypothesis Hf : strain_free (s_lava sm).
Hypothesis Hal : ForallOrdPairs leaves_alone (s_budget sm).
Hypothesis Hsp : ForallOrdPairs spares (s_budget sm).
Hypothesis C : completed_step sm w w' v rho width slope hb rate dtemp dt.
Let cell name := logged (w_log w') (st_pos (w_st w)) name.

Lemma step_columns : exists u t0 tb,
  (su_width u = width /\ su_depth u = w_depth w /\ su_v u = v /\ su_temp u = st_temp (w_st w) /\
   su_hot u = st_temp (w_st w) - lv_buffer (s_lava sm) /\
   su_cover u = snd (cover_parameters (s_cover sm) (st_pos (w_st w))) * exp (fst (cover_parameters (s_cover sm) (st_pos (w_st w))) * v)) /\
  compute_crust_temperature (s_crust sm) (w_st w) = Ok (su_crust u) /\
  lava_vesicle_fraction (s_lava sm) (w_st w) = Ok (su_vf u) /\
  computes_bulk_viscosity (s_lava sm) (w_st w) = Ok (su_mu u) /\
  get_yield_strength (s_lava sm) (w_st w) = Ok t0 /\
  get_basal_shear_stress (s_lava sm) (s_ter sm) (w_depth w) (w_st w) = Ok tb /\
  v = jeffreys_bingham (w_depth w) t0 tb (su_mu u) /\
  (cell "crust_temperature" = Some (CNum (su_crust u)) /\ cell "vesicle_fraction" = Some (CNum (su_vf u)) /\
   cell "viscosity" = Some (CNum (su_mu u)) /\ cell "effective_cover_fraction" = Some (CNum (su_cover u)) /\
   cell "tho_0" = Some (CNum t0) /\ cell "tho_b" = Some (CNum tb) /\ cell "strain_rate" = Some (CNum (3 * v / w_depth w))) /\
  Forall (in_domain sm u) (s_budget sm) /\
  (forall g, In g (s_budget sm) -> cell (flux_name g) = Some (CNum (flux_law (s_air sm) u g)) /\
     forall n c, In n (own_columns g) -> assoc n (rev (inner_calls sm u g)) = Some c -> cell n = Some c).
Proof.
  destruct (cs_log _ _ _ _ _ _ _ _ _ _ _ C) as
    (bc & sx & vf & mu & tc & f & t0 & tb & x & wb & Hn & Hlog & Hwb & (new & Hv & Hhb) & Hvf & Hmu & Htc & (cs & wc & Hcov) & Ht0 & Htb & Hx).
  rewrite Hf in Hmu.
  destruct (C20_velocity_only_if _ _ _ _ _ _ Hv) as (mu' & t0' & tb' & Hmu' & Ht0' & Htb' & Nm & Nb & Nd & Ev & En).
  rewrite Hmu in Hmu'. rewrite Ht0 in Ht0'. rewrite Htb in Htb'.
  injection Hmu' as <-. injection Ht0' as <-. injection Htb' as <-.
  assert (Vel : forall y, mean_velocity (s_lava sm) (s_ter sm) (w_depth w) (set_strain_rate y (w_st w)) = Ok (v, new)).
  { intros y. rewrite En, Ev. apply C20_velocity_is_jeffreys; try assumption.
    rewrite Hf. exact Hmu. }
  set (wv := set_eff (eff_of sm v w) (after_velocity new w)) in *.
  assert (Est : w_st wv = set_strain_rate new (w_st w)) by reflexivity.
  assert (Ef : f = snd (cover_parameters (s_cover sm) (st_pos (w_st w))) * exp (fst (cover_parameters (s_cover sm) (st_pos (w_st w))) * v)).
  { apply C36_cover_formula in Hcov as (v' & Hv' & ->). subst wb. apply mean_velocity_M in Hv' as (n' & Hv' & _).
    change (w_depth (touched sx cs (touched sx bc (set_eff (eff_of sm v w) w)))) with (w_depth w) in Hv'.
    change (w_st (touched sx cs (touched sx bc (set_eff (eff_of sm v w) w)))) with (set_strain_rate sx (w_st w)) in Hv'.
    rewrite Vel in Hv'. injection Hv' as <- _. reflexivity. }
  set (u := {| su_width := width; su_depth := w_depth w; su_temp := st_temp (w_st w);
               su_hot := st_temp (w_st w) - lv_buffer (s_lava sm); su_crust := tc; su_cover := f;
               su_vf := vf; su_mu := mu; su_v := v |}).
  assert (HR : row_of sm wv u).
  { constructor; cbn [u su_v su_cover su_temp su_hot su_crust su_vf su_mu].
    - intros c. unfold compute_mean_velocity.
      change (w_depth (touched (st_strain (w_st wv)) c wv)) with (w_depth w).
      change (w_st (touched (st_strain (w_st wv)) c wv)) with (set_strain_rate new (w_st w)).
      rewrite Vel. reflexivity.
    - rewrite Est. exact Ef.
    - reflexivity.
    - reflexivity.
    - rewrite Est, crust_strain. exact Htc.
    - rewrite Est. unfold lava_vesicle_fraction in *. rewrite ves_strain. exact Hvf.
    - rewrite Est, Hf. exact Hmu. }
  assert (F := f_budget sm wv u HR [] hb wb).
  rewrite touched_nil in F. destruct (F Hhb) as (Ehb & Ewb & Hdom). clear F. cbn [app] in Ewb.
  set (bcs := flat_map (flux_calls sm u) (s_budget sm) ++ _) in *.
  assert (Esx : sx = new).
  { rewrite Hwb in Ewb. apply (f_equal (fun w => st_strain (w_st w))) in Ewb. exact Ewb. }
  assert (Hl : log_many (st_pos (w_st w)) bc (w_log w) = log_many (st_pos (w_st w)) bcs (w_log w)).
  { rewrite Hwb in Ewb. apply (f_equal w_log) in Ewb. exact Ewb. }
  rewrite log_many_app, Hl, <- log_many_app in Hlog.
  set (sc := step_calls x (set_strain_rate sx (w_st w)) vf mu rho tc f (eff_of sm v w) t0 tb) in *.
  assert (Nbc : forall n, In n (map fst bcs) -> n = "heat_budget" \/ In n (loop_names (s_budget sm))).
  { intros n. unfold bcs. rewrite map_app, in_app_iff. cbn [map fst In]. intros [H|[H|[]]]; [right|now left].
    clear -H. induction (s_budget sm) as [|g fl IH]; [exact H|]. cbn [flat_map loop_names] in *. rewrite map_app, !in_app_iff in *.
    cbn [In]. destruct H as [H|H]; [|auto]. apply flux_calls_names in H. cbn [In] in H. intuition. }
  assert (L : forall name c, assoc name (rev (bcs ++ sc)) = Some c -> cell name = Some c).
  { intros name c Hc. unfold cell. rewrite Hlog. apply logged_after; [apply R_refl| |exact Hc].
    apply no_position_names. rewrite map_app, in_app_iff. intros [Hi|Hi].
    - apply Nbc in Hi as [Hi|Hi]; [discriminate|]. now apply loop_names_no_position in Hi.
    - unfold sc in Hi. rewrite step_calls_names in Hi. cbn in Hi. intuition discriminate. }
  assert (L1 : forall name c, assoc name (rev sc) = Some c -> cell name = Some c).
  { intros name c Hc. apply L. rewrite rev_app_distr, assoc_app, Hc. reflexivity. }
  assert (L2 : forall name c, ~ In name ("heat_budget" :: step_names) ->
     assoc name (rev (flat_map (flux_calls sm u) (s_budget sm))) = Some c -> cell name = Some c).
  { intros name c Hi Hc. apply L. rewrite rev_app_distr, assoc_app, (assoc_not_in name (rev sc)).
    - unfold bcs. rewrite rev_app_distr, assoc_app. cbn [rev app assoc].
      destruct (String.eqb name "heat_budget") eqn:E; [|exact Hc]. apply String.eqb_eq in E. exfalso. apply Hi. now left.
    - rewrite map_rev, <- in_rev. unfold sc. rewrite step_calls_names. intros Hs. apply Hi. now right. }
  exists u, t0, tb. cbn [u su_v su_width su_depth su_cover su_temp su_hot su_crust su_vf su_mu].
  split; [auto 10|]. split; [exact Htc|]. split; [exact Hvf|]. split; [exact Hmu|]. split; [exact Ht0|]. split; [exact Htb|].
  split; [exact Ev|]. split.
  - subst x. repeat split; try (apply L1; reflexivity). apply L1. unfold sc. cbn. rewrite Esx, En. reflexivity.
  - split; [exact Hdom|]. intros g Hg. split.
    + apply L2.
      * destruct g; cbn; intuition discriminate.
      * eapply assoc_flat; [exact Hg| |].
        -- unfold flux_calls. rewrite !rev_app_distr. cbn [rev app assoc]. rewrite String.eqb_refl. reflexivity.
        -- intros l1 l2 El. assert (Q := ordpairs_split _ _ _ _ _ Hal El). clear -Q.
           induction Q as [|g' l Hg' _ IH]; constructor; auto. intros Hi. apply Hg'. now apply flux_calls_names in Hi.
    + intros n c Hin Hc. apply L2.
      * intros Hs. destruct g; cbn [own_columns In] in Hin;
          repeat (destruct Hin as [<-|Hin]; [cbn in Hs; intuition discriminate|]); exact Hin.
      * eapply assoc_flat; [exact Hg| |].
        -- unfold flux_calls. rewrite !rev_app_distr. cbn [rev app assoc].
           destruct (String.eqb n (flux_name g)) eqn:E; [exfalso|].
           { apply String.eqb_eq in E. subst n. destruct g; cbn in Hin; intuition discriminate. }
           rewrite assoc_app, Hc. reflexivity.
        -- intros l1 l2 El. assert (Q := ordpairs_split _ _ _ _ _ Hsp El). clear -Q Hin.
           induction Q as [|g' l Hg' _ IH]; constructor; auto. intros Hi. apply (Hg' n Hin). now apply flux_calls_names in Hi.
Qed.
End Step.

(** ** C76 *)
(** Every row of the table a run leaves, with a configuration the factory
    accepts and a rheology that ignores the strain rate: the model functions at
    the state the row shows give its vesicle fraction, viscosity, yield
    strength, crust temperature and crystallization rate; and density, basal
    stress, velocity, strain rate, crust cover, each heat flux and the columns
    that describe the fluxes are these functions of the other columns. *)
Theorem C76_every_column_recomputed : forall (d : json R) profile mo (sm : sim R) fuel s depth w',
  build_models d profile = Ok mo -> s_budget sm = mo_budget mo -> strain_free (s_lava sm) ->
  s_dx sm <> 0 -> simulate fuel sm (initial_world s [] depth) = Some (Ok tt, w') ->
  forall i r, (i < w_iter w')%nat -> nth_error (w_log w') i = Some r ->
  exists (q : state R) vf mu rho v width h slope tc f t0 tb rate,
    (holds r "position" (st_pos q) /\ holds r "core_temperature" (st_temp q) /\ holds r "crystal_fraction" (st_phi q) /\
     holds r "vesicle_fraction" vf /\ holds r "viscosity" mu /\ holds r "density" rho /\ holds r "mean_velocity" v /\
     holds r "channel_width" width /\ holds r "channel_depth" h /\ holds r "slope" slope /\ holds r "crust_temperature" tc /\
     holds r "effective_cover_fraction" f /\ holds r "tho_0" t0 /\ holds r "tho_b" tb /\ holds r "dphi_dtemp" rate) /\
    (lava_vesicle_fraction (s_lava sm) q = Ok vf /\ computes_bulk_viscosity (s_lava sm) q = Ok mu /\
     get_yield_strength (s_lava sm) q = Ok t0 /\ compute_crust_temperature (s_crust sm) q = Ok tc /\
     compute_crystallization_rate (s_cryst sm) q = Ok rate /\ get_channel_slope (s_ter sm) (st_pos q) = Ok slope) /\
    rho = lv_dre (s_lava sm) * (1 - vf) /\
    tb = h * rho * ter_gravity (s_ter sm) * sin slope /\
    v = jeffreys_bingham h t0 tb mu /\
    holds r "strain_rate" (3 * v / h) /\
    f = snd (cover_parameters (s_cover sm) (st_pos q)) * exp (fst (cover_parameters (s_cover sm) (st_pos q)) * v) /\
    let u := {| su_width := width; su_depth := h; su_temp := st_temp q; su_hot := st_temp q - lv_buffer (s_lava sm);
                su_crust := tc; su_cover := f; su_vf := vf; su_mu := mu; su_v := v |} in
    (forall g, In g (s_budget sm) -> holds r (flux_name g) (flux_law (s_air sm) u g)) /\
    (forall k sigma, In (FRadiation k sigma) (s_budget sm) ->
       exists te, holds r "effective_radiation_temperature" te /\ 0 <= te /\
         te ^ 4 = net_fourth_powers f tc (st_temp q - lv_buffer (s_lava sm)) (air_temp (s_air sm)) /\
         holds r "epsilon_effective" (emissivity_of k f tc (st_temp q - lv_buffer (s_lava sm)) te) /\
         holds r "spectral_radiance" (pixel_radiance k width f tc (st_temp q - lv_buffer (s_lava sm)))) /\
    (In FConvection (s_budget sm) -> holds r "characteristic_surface_temperature" (convecting_temperature u)) /\
    (In FSnyder (s_budget sm) -> holds r "effective_temperature_snyder" (mean_temperature u)).
Proof.
  intros d profile mo sm fuel s depth w' Hb Es Hf Hdx H i r Hi Hr.
  assert (Hal := factory_leaves_alone _ _ _ Hb). assert (Hsp := factory_spares _ _ _ Hb). rewrite <- Es in Hal, Hsp.
  destruct (row_step sm fuel s depth w' i r Hdx H Hi Hr) as
    (wi & wj & v & rho & wd & sl & hb & ra & dT & dt & C & SR & E1 & E2 & E3 & Cphi & Ctemp & Hn & _).
  destruct (C62_table_of_a_run sm fuel s depth w' Hdx H) as (_ & done & rest & HL & Hlen & HE & _).
  assert (Hp : assoc "position" r = Some (CNum (st_pos s + INR i * s_dx sm))).
  { rewrite HL, nth_error_app1 in Hr by lia. apply (HE _ _ Hr). }
  assert (Hx : st_pos (w_st wi) = st_pos s + INR i * s_dx sm).
  { assert (Q := Hn "position"). rewrite Hp in Q. unfold logged in Q. destruct (find (row_at (st_pos (w_st wi))) (w_log wj)) as [q|] eqn:F; [|discriminate].
    apply find_some in F as [_ F]. unfold row_at in F. rewrite <- Q in F. now apply R_eqb_true in F. }
  destruct (step_columns sm wi wj v rho wd sl hb ra dT dt Hf Hal Hsp C) as
    (u & t0 & tb & (U1 & U2 & U3 & U4 & U5 & U6) & Htc & Hvf & Hmu & Ht0 & Htb & Ev & (K1 & K2 & K3 & K4 & K5 & K6 & K7) & Hdom & HG).
  destruct SR as [S1 S2 S3 S4 S5 S6 S7 S8 S9 S10 S11].
  assert (Hrho := cs_rho _ _ _ _ _ _ _ _ _ _ _ C). assert (Hsl := cs_slope _ _ _ _ _ _ _ _ _ _ _ C).
  assert (Hra := cs_rate _ _ _ _ _ _ _ _ _ _ _ C).
  assert (Eu : u = {| su_width := wd; su_depth := w_depth wi; su_temp := st_temp (w_st wi);
     su_hot := st_temp (w_st wi) - lv_buffer (s_lava sm); su_crust := su_crust u; su_cover := su_cover u; su_vf := su_vf u;
     su_mu := su_mu u; su_v := v |}) by (destruct u; cbn in *; congruence).
  exists (w_st wi), (su_vf u), (su_mu u), rho, v, wd, (w_depth wi), sl, (su_crust u), (su_cover u), t0, tb, ra.
  unfold holds. cbv zeta. rewrite <- Eu, !Hn.
  split. { rewrite <- Hn, Hp, <- Hx. repeat split; assumption. }
  split; [repeat split; assumption|].
  assert (Er : rho = lv_dre (s_lava sm) * (1 - su_vf u)).
  { unfold get_bulk_density in Hrho. rewrite Hvf in Hrho. cbn [rbind] in Hrho. rnum. injection Hrho as <-. reflexivity. }
  split; [exact Er|]. split.
  { assert (B : basal_body (s_ter sm) (w_depth wi) (s_lava sm) (w_st wi) = Ok tb).
    { unfold get_basal_shear_stress, compute_basal_shear_stress in Htb. destruct (lv_yield (s_lava sm)); exact Htb. }
    unfold basal_body in B. rewrite Hrho, Hsl in B. cbn [rbind] in B. rnum. injection B as <-. reflexivity. }
  split; [exact Ev|]. split; [exact K7|]. split; [exact U6|].
  split; [intros g Hg; rewrite Hn; exact (proj1 (HG g Hg))|].
  assert (T4 : forall k sigma, In (FRadiation k sigma) (s_budget sm) -> 0 <= net_fourth_powers (su_cover u) (su_crust u) (su_hot u) (air_temp (s_air sm))).
  { intros k sigma Hgk. rewrite Forall_forall in Hdom. exact (Hdom _ Hgk). }
  split; [|split].
  - intros k sigma Hg. destruct (HG _ Hg) as [_ G]. specialize (T4 _ _ Hg).
    exists (radiating_temperature (s_air sm) u). rewrite <- U5. split; [|split; [|split; [|split]]].
    + apply G; [cbn; auto|]. destruct k; reflexivity.
    + apply pospow_ge_0.
    + apply root4_4. exact T4.
    + apply G; [cbn; auto|]. destruct k; reflexivity.
    + rewrite <- U1. apply G; [cbn; auto|]. destruct k; reflexivity.
  - intros Hg. destruct (HG _ Hg) as [_ G]. apply G; [cbn; auto|]. reflexivity.
  - intros Hg. destruct (HG _ Hg) as [_ G]. apply G; [cbn; auto|]. reflexivity.
Qed.

(** What the spectral_radiance column means.  Planck's law grows with the
    temperature ... *)
Lemma planck_law_pos t : 0 < t -> 0 < planck_law t.
Proof.
  intros Ht. unfold planck_law. cbv zeta. assert (P := PI_RGT_0).
  assert (Hx : 0 < 6.6256e-34 * 2.9979e8 / (1.38e-23 * 0.8675e-6 * t)).
  { apply Rdiv_lt_0_compat; [lra|]. apply Rmult_lt_0_compat; lra. }
  assert (Q := exp_ineq1 _ (Rgt_not_eq _ _ Hx)).
  apply Rdiv_lt_0_compat; [|lra]. apply Rdiv_lt_0_compat; [|apply pow_lt; lra].
  apply Rmult_lt_0_compat; [|apply pow_lt; lra]. lra.
Qed.
Theorem C76_planck_increasing : forall t1 t2, 0 < t1 < t2 -> 0 < planck_law t1 < planck_law t2.
Proof.
  intros t1 t2 H. split; [apply planck_law_pos; lra|]. unfold planck_law. cbv zeta. assert (P := PI_RGT_0).
  set (a := 6.6256e-34 * 2.9979e8). set (b := 1.38e-23 * 0.8675e-6).
  assert (Ha : 0 < a) by (unfold a; lra). assert (Hb : 0 < b) by (unfold b; lra).
  assert (B1 : 0 < b * t1) by (apply Rmult_lt_0_compat; lra). assert (B2 : 0 < b * t2) by (apply Rmult_lt_0_compat; lra).
  assert (X2 : 0 < a / (b * t2)) by (apply Rdiv_lt_0_compat; lra).
  assert (X : a / (b * t2) < a / (b * t1)).
  { unfold Rdiv. apply Rmult_lt_compat_l; [exact Ha|]. apply Rinv_lt_contravar; [apply Rmult_lt_0_compat; assumption|].
    apply Rmult_lt_compat_l; lra. }
  assert (Q := exp_ineq1 _ (Rgt_not_eq _ _ X2)). apply exp_increasing in X.
  unfold Rdiv at 1. unfold Rdiv at 3. apply Rmult_lt_compat_l.
  - apply Rdiv_lt_0_compat; [|apply pow_lt; lra]. apply Rmult_lt_0_compat; [|apply pow_lt; lra]. lra.
  - apply Rinv_lt_contravar; [apply Rmult_lt_0_compat; lra|lra].
Qed.
(** ... a channel no wider than the pixel gives a value between that of snow
    alone and that of lava alone ... *)
Theorem C76_radiance_between : forall k width f tc th, 0 <= width <= pixel_side k ->
  let snow := 0.8 * (0.1 * planck_law 258) * 1e-6 in let full := 0.8 * lava_radiance k f tc th * 1e-6 in
  Rmin snow full <= pixel_radiance k width f tc th <= Rmax snow full.
Proof.
  intros k width f tc th Hw snow full. assert (Hp : 0 < pixel_side k) by (destruct k; cbn; lra).
  set (x := width / pixel_side k).
  assert (Hx : 0 <= x <= 1).
  { unfold x. split; [apply Rmult_le_pos; [lra|apply Rlt_le, Rinv_0_lt_compat, Hp]|].
    apply (Rmult_le_reg_r (pixel_side k)); [exact Hp|]. unfold Rdiv. rewrite Rmult_assoc, Rinv_l by lra. lra. }
  assert (E : pixel_radiance k width f tc th = x * full + (1 - x) * snow).
  { unfold pixel_radiance, full, snow. fold x. cbv zeta. lra. }
  rewrite E. unfold Rmin, Rmax. destruct (Rle_dec snow full); nra.
Qed.
(** ... but nothing stops the channel from being wider than the pixel, which is
    10 cm for the two temperature-dependent emissivity models: then the row
    shows more than a pixel full of that lava can send. *)
Theorem C76_radiance_at_most_that_of_lava_refuted : forall k width f tc th,
  k = RadCont \/ k = RadLin -> 1 / 10 < width -> 0 <= f <= 1 -> 258 <= tc <= 1700 -> 258 <= th <= 1700 ->
  0.8 * lava_radiance k f tc th * 1e-6 < pixel_radiance k width f tc th.
Proof.
  intros k width f tc th Hk Hw Hf Hc Hh.
  assert (Hp : pixel_side k = 1 / 10) by (destruct Hk as [-> | ->]; reflexivity).
  assert (M : forall t, 258 <= t <= 1700 -> planck_law 258 <= planck_law t /\ 0.4 <= crust_emissivity k t /\ 0.4 <= molten_emissivity k t).
  { intros t Ht. split.
    - destruct (Req_dec t 258) as [->|]; [lra|]. destruct (C76_planck_increasing 258 t ltac:(lra)). lra.
    - destruct Hk as [-> | ->]; cbn; unfold cont_fit, lin_fit; split; nra. }
  destruct (M _ Hc) as (C1 & C2 & _). destruct (M _ Hh) as (H1 & _ & H2).
  assert (S := planck_law_pos 258 ltac:(lra)).
  assert (B : 0.4 * planck_law 258 <= lava_radiance k f tc th).
  { unfold lava_radiance. assert (X1 : 0.4 * planck_law 258 <= molten_emissivity k th * planck_law th) by nra.
    assert (X2 : 0.4 * planck_law 258 <= crust_emissivity k tc * planck_law tc) by nra. nra. }
  unfold pixel_radiance. cbv zeta. rewrite Hp. set (x := width / (1 / 10)).
  assert (Hx : 1 < x) by (unfold x; lra). nra.
Qed.
