(** * WidthScale: two simulations, one of a channel k times as wide *)
From Coq Require Import Reals Lra.
From Verif Require Import Base Num Json Logger World Vesicle MeltVisc RelVisc Bubbles Terrain Lava
  Thermal Flux Integrator Factory Run RNum.
Open Scope R_scope.

(** The same terrain with a channel [k] times as wide and [k] times the
    effusion rate. *)
Definition wider_terrain (k : R) (t : terrain R) : terrain R :=
  {| ter_eff_init := k * ter_eff_init t; ter_width := k * ter_width t; ter_gravity := ter_gravity t;
     ter_maxlen := ter_maxlen t; ter_default_slope := ter_default_slope t; ter_spline := ter_spline t |}.
Definition wider (k : R) (sm : sim R) : sim R :=
  {| s_dx := s_dx sm; s_lava := s_lava sm; s_air := s_air sm; s_ter := wider_terrain k (s_ter sm);
     s_cryst := s_cryst sm; s_crust := s_crust sm; s_cover := s_cover sm; s_budget := s_budget sm; s_mass := s_mass sm |}.

(** The columns that are proportional to the width. *)
Definition scaled_columns : list string :=
  ["channel_width"; "effusion_rate"; "heat_budget"; "flowgofluxradiationheat"; "flowgofluxconductionheat";
   "flowgofluxforcedconvectionheat"; "flowgofluxheatlossrain"; "flowgofluxviscousheating"; "flowgofluxsnyderheat"].

(** The radiance of the ground seen beside the lava (8/10 * 1/10 of the Planck
    term at 258 K, in the unit of the column spectral_radiance). *)
Definition background : R :=
  match planck (n_lit 258 1) with Ok b => 8 / 10 * (1 / 10 * b) * (1 / 1000000) | Err _ => 0 end.

(** How a cell of the second table is obtained from that of the first. *)
Definition scale_cell (k : R) (name : string) (c : cell R) : cell R :=
  if in_strings name scaled_columns then
    match c with CNum x => CNum (k * x) | CStr x => CStr (k * x) end
  else if String.eqb name "spectral_radiance" then
    match c with CNum x => CNum (background + k * (x - background)) | CStr x => CStr x end
  else c.
Definition scale_row (k : R) (r : row R) : row R := map (fun kv => (fst kv, scale_cell k (fst kv) (snd kv))) r.
Definition scale_table (k : R) (t : table R) : table R := map (scale_row k) t.

Definition scale_world (k : R) (w : world R) : world R :=
  {| w_st := w_st w; w_log := scale_table k (w_log w); w_depth := w_depth w; w_eff := k * w_eff w;
     w_flux := option_map (Rmult k) (w_flux w); w_iter := w_iter w; w_fin := w_fin w |}.

Lemma assoc_scale k name r : assoc name (scale_row k r) = option_map (scale_cell k name) (assoc name r).
Proof.
  induction r as [|[n c] r IH]; [reflexivity|]. cbn [scale_row map assoc fst snd] in *.
  destruct (String.eqb_spec name n) as [->|Hn]; [reflexivity|exact IH].
Qed.
Lemma row_at_scale k p r : row_at p (scale_row k r) = row_at p r.
Proof. unfold row_at. rewrite assoc_scale. destruct (assoc "position" r) as [[x|x]|]; reflexivity. Qed.
Lemma assoc_set_scale k name c r :
  scale_row k (assoc_set name c r) = assoc_set name (scale_cell k name c) (scale_row k r).
Proof.
  induction r as [|[n d] r IH]; [reflexivity|]. cbn [scale_row map assoc_set fst snd] in *.
  destruct (String.eqb_spec name n) as [->|Hn]; cbn [map fst snd]; [reflexivity|]. f_equal. exact IH.
Qed.
Lemma add_variable_scale k name p c t :
  scale_table k (add_variable name p c t) = add_variable name p (scale_cell k name c) (scale_table k t).
Proof.
  induction t as [|r t IH].
  - cbn [add_variable scale_table map]. f_equal. rewrite assoc_set_scale. reflexivity.
  - cbn [add_variable scale_table map] in *. rewrite row_at_scale.
    destruct (row_at p r); cbn [map]; [now rewrite assoc_set_scale|f_equal; exact IH].
Qed.

Section Scale.
Context (k : R) (Hk : 0 < k).

(** [m2] does on the scaled world what [m1] does, the result being [g] of that
    of [m1]. *)
Definition mirrors {A B} (g : A -> B) (m1 : M (T:=R) A) (m2 : M (T:=R) B) : Prop :=
  forall w, m2 (scale_world k w) = (rmap g (fst (m1 w)), scale_world k (snd (m1 w))).

Lemma mir_bind {A B A' B'} (g : A -> A') (h : B -> B') m1 m2 (f1 : A -> M B) (f2 : A' -> M B') :
  mirrors g m1 m2 -> (forall a, mirrors h (f1 a) (f2 (g a))) -> mirrors h (bind m1 f1) (bind m2 f2).
Proof.
  intros Hm Hf w. unfold bind. rewrite Hm. destruct (m1 w) as [[a|e] w1]; cbn [fst snd rmap]; [apply Hf|reflexivity].
Qed.
Lemma mir_ret {A B} (g : A -> B) a b : b = g a -> mirrors g (ret a) (ret b).
Proof. intros -> w. reflexivity. Qed.
Lemma mir_lift {A B} (g : A -> B) a b : b = rmap g a -> mirrors g (lift a) (lift b).
Proof. intros -> w. reflexivity. Qed.
Lemma mir_get {A} (f : world R -> A) : (forall w, f (scale_world k w) = f w) -> mirrors (fun x => x) (get f) (get f).
Proof. intros H w. unfold get. rewrite H. reflexivity. Qed.
Lemma rmap_id {A} (r : res A) : rmap (fun x => x) r = r. Proof. destruct r; reflexivity. Qed.
Lemma mir_reads {A} (f g : world R -> res A) : (forall w, g (scale_world k w) = f w) -> mirrors (fun x => x) (reads f) (reads g).
Proof. intros H w. unfold reads. rewrite H. cbn [fst snd]. now rewrite rmap_id. Qed.
Lemma mir_lift_id {A} (a : res A) : mirrors (fun x => x) (lift a) (lift a).
Proof. apply mir_lift. now rewrite rmap_id. Qed.
Lemma mir_known {A B B'} (h : B -> B') (a : res A) (f1 : A -> M B) (f2 : A -> M B') :
  (forall x, a = Ok x -> mirrors h (f1 x) (f2 x)) -> mirrors h (bind (lift a) f1) (bind (lift a) f2).
Proof. intros H w. unfold bind, lift. destruct a as [x|e]; [apply (H x eq_refl)|reflexivity]. Qed.
Lemma mir_modify f g : (forall w, g (scale_world k w) = scale_world k (f w)) -> mirrors (fun x : unit => x) (modify f) (modify g).
Proof. intros H w. unfold modify. rewrite H. reflexivity. Qed.
Lemma mir_log name c c' : c' = scale_cell k name c -> mirrors (fun x : unit => x) (log_var name c) (log_var name c').
Proof.
  intros ->. apply mir_modify. intros w. unfold set_log, scale_world. cbn [w_st w_log w_depth w_eff w_flux w_iter w_fin].
  rewrite add_variable_scale. reflexivity.
Qed.
Lemma div_scale_num a b : R_div (k * a) b = rmap (Rmult k) (R_div a b).
Proof.
  destruct (Req_dec b 0) as [->|Hb]; [rewrite !R_div_0; reflexivity|]. rewrite !R_div_ok by exact Hb. cbn. f_equal. field. exact Hb.
Qed.
Lemma div_scale_both a b : R_div (k * a) (k * b) = R_div a b.
Proof.
  destruct (Req_dec b 0) as [->|Hb]; [rewrite Rmult_0_r, !R_div_0; reflexivity|].
  rewrite !R_div_ok; [f_equal; field; lra|exact Hb|]. apply Rmult_integral_contrapositive. lra.
Qed.

Lemma mir_velocity l t : mirrors (fun x => x) (compute_mean_velocity l t) (compute_mean_velocity l (wider_terrain k t)).
Proof.
  intros w. unfold compute_mean_velocity.
  change (mean_velocity l (wider_terrain k t) (w_depth (scale_world k w)) (w_st (scale_world k w)))
    with (mean_velocity l t (w_depth w) (w_st w)).
  destruct (mean_velocity l t (w_depth w) (w_st w)) as [[v new]|e]; reflexivity.
Qed.
Lemma mir_cover (sm : sim R) : mirrors (fun x => x) (cover sm) (cover (wider k sm)).
Proof.
  unfold cover. cbn [wider s_cover s_lava s_ter]. destruct (s_cover sm); cbn [compute_effective_cover_fraction].
  - eapply mir_bind; [apply mir_velocity|intros v]. eapply mir_bind; [apply mir_lift_id|intros e]. now apply mir_ret.
  - eapply mir_bind; [apply mir_get; reflexivity|intros pos]. eapply mir_bind; [apply mir_velocity|intros v].
    destruct (n_leb pos crit); (eapply mir_bind; [apply mir_lift_id|intros e]; now apply mir_ret).
Qed.
Lemma mir_crust (sm : sim R) : mirrors (fun x => x) (crust_temp sm) (crust_temp (wider k sm)).
Proof. apply mir_reads. reflexivity. Qed.
Lemma mir_molten (sm : sim R) : mirrors (fun x => x) (molten_temp sm) (molten_temp (wider k sm)).
Proof. intros w. reflexivity. Qed.

Ltac mir1 := first
  [ eapply mir_bind; [first [apply mir_cover | apply mir_crust | apply mir_molten | apply mir_velocity | apply mir_lift_id
      | apply mir_get; reflexivity | apply mir_reads; reflexivity | apply mir_log; reflexivity] | intros ? ]
  | apply mir_ret; reflexivity | apply mir_lift_id | apply mir_log; reflexivity | apply mir_cover | apply mir_velocity ].
Ltac mir := cbv zeta; repeat (mir1; cbv beta).

Lemma mir_ert (sm : sim R) : mirrors (fun x => x) (effective_radiation_temperature sm) (effective_radiation_temperature (wider k sm)).
Proof. unfold effective_radiation_temperature. mir. Qed.
Lemma mir_ec kd (sm : sim R) : mirrors (fun x => x) (emissivity_crust kd sm) (emissivity_crust kd (wider k sm)).
Proof. destruct kd; cbn [emissivity_crust]; mir. Qed.
Lemma mir_em kd (sm : sim R) : mirrors (fun x => x) (emissivity_molten kd sm) (emissivity_molten kd (wider k sm)).
Proof. destruct kd; cbn [emissivity_molten]; mir. Qed.
Lemma mir_eps kd (sm : sim R) : mirrors (fun x => x) (epsilon_effective kd sm) (epsilon_effective kd (wider k sm)).
Proof.
  destruct kd; cbn [epsilon_effective]; mir.
  - eapply mir_bind; [apply mir_ec|intros ?]. eapply mir_bind; [apply mir_em|intros ?]. mir.
  - eapply mir_bind; [apply mir_ert|intros ?]. mir.
Qed.
Lemma mir_sr kd (sm : sim R) width :
  mirrors (fun x => background + k * (x - background)) (spectral_radiance kd sm width) (spectral_radiance kd (wider k sm) (k * width)).
Proof.
  unfold spectral_radiance. mir.
  eapply mir_bind; [apply mir_ec|intros ec]. eapply mir_bind; [apply mir_em|intros em].
  eapply mir_bind; [apply (mir_lift (Rmult k))|intros ph].
  { rnum. rewrite <- div_scale_num. f_equal. ring. }
  eapply mir_bind; [apply (mir_lift (Rmult k))|intros pc].
  { rnum. rewrite <- div_scale_num. f_equal. ring. }
  eapply mir_bind; [apply mir_lift_id|intros sc]. eapply mir_bind; [apply mir_lift_id|intros sh].
  apply mir_known. intros sb Hsb.
  assert (Q : background = 8 / 10 * (1 / 10 * sb) * (1 / 1000000)) by (unfold background; now rewrite Hsb).
  eapply mir_bind; [apply mir_log|intros []; apply mir_ret].
  - cbn [scale_cell in_strings scaled_columns existsb String.eqb Ascii.eqb Bool.eqb orb]. f_equal. rnum. rewrite Q. lra.
  - rnum. rewrite Q. lra.
Qed.

Lemma mir_flux f (sm : sim R) width depth :
  mirrors (Rmult k) (compute_flux f sm width depth) (compute_flux f (wider k sm) (k * width) depth).
Proof.
  destruct f; cbn [compute_flux].
  - unfold radiation_flux. eapply mir_bind; [apply mir_ert|intros te]. eapply mir_bind; [apply mir_eps|intros e].
    eapply mir_bind; [apply mir_lift_id|intros te4]. cbv zeta. eapply mir_bind; [apply mir_sr|intros _].
    apply mir_ret. rnum. ring.
  - unfold conduction_flux. mir. apply mir_ret. rnum. ring.
  - unfold convection_flux, characteristic_surface_temperature. cbv zeta. eapply (mir_bind (fun x => x)); [mir|intros r]. cbv beta.
    eapply mir_bind; [apply mir_log; reflexivity|intros _].
    eapply mir_bind; [apply mir_log|intros _; apply mir_ret; cbn [wider s_air]; rnum; ring].
    cbn. f_equal. rnum. ring.
  - apply mir_ret. unfold rain_flux. rnum. ring.
  - unfold viscous_flux. mir. apply mir_ret. rnum. ring.
  - unfold snyder_flux, effective_temperature_snyder. cbv zeta. eapply (mir_bind (fun x => x)); [mir|intros t]. cbv beta.
    eapply mir_bind; [apply mir_lift_id|intros p]. cbv zeta.
    do 4 (eapply mir_bind; [apply mir_log; first [reflexivity | cbn; f_equal; rnum; ring]|intros _]).
    apply mir_ret. rnum. ring.
Qed.

Lemma flux_name_scaled f : in_strings (flux_name (T:=R) f) scaled_columns = true.
Proof. destruct f; reflexivity. Qed.

Lemma mir_budget (sm : sim R) width depth :
  mirrors (Rmult k) (compute_heat_budget sm width depth) (compute_heat_budget (wider k sm) (k * width) depth).
Proof.
  unfold compute_heat_budget. cbn [wider s_budget].
  assert (L : forall fl acc acc', acc' = k * acc ->
    mirrors (Rmult k) (budget_loop fl sm width depth acc) (budget_loop fl (wider k sm) (k * width) depth acc')).
  { induction fl as [|f fl IH]; intros acc acc' ->; cbn [budget_loop].
    - now apply mir_ret.
    - eapply mir_bind; [apply mir_flux|intros q]. cbv zeta. eapply mir_bind; [apply mir_flux|intros q2].
      eapply mir_bind; [apply mir_log; unfold scale_cell; now rewrite flux_name_scaled|intros _]. apply IH. rnum. ring. }
  eapply mir_bind; [apply L; rnum; ring|intros q]. eapply mir_bind; [apply mir_log; reflexivity|intros _]. now apply mir_ret.
Qed.

Definition scale_vals (x : step_vals R) : step_vals R :=
  {| sv_v := sv_v x; sv_depth := sv_depth x; sv_rho := sv_rho x; sv_width := k * sv_width x; sv_slope := sv_slope x;
     sv_rate := sv_rate x; sv_dtemp_dx := sv_dtemp_dx x; sv_dtemp_dt := sv_dtemp_dt x; sv_dphi_dx := sv_dphi_dx x;
     sv_new_phi := sv_new_phi x; sv_new_temp := sv_new_temp x |}.

Lemma mir_width (sm : sim R) v depth rho :
  mirrors (Rmult k) (channel_width sm v depth rho) (channel_width (wider k sm) v depth rho).
Proof.
  unfold channel_width. cbn [wider s_mass]. destruct (s_mass sm).
  - eapply (mir_bind (Rmult k)).
    { intros w. unfold reads. cbn [scale_world w_flux]. destruct (w_flux w); reflexivity. }
    intros fr. eapply (mir_bind (Rmult k)); [apply mir_lift; rnum; apply div_scale_num|intros a]. apply mir_lift. rnum. apply div_scale_num.
  - eapply (mir_bind (Rmult k)); [intros w; reflexivity|intros e]. apply mir_lift. rnum. apply div_scale_num.
Qed.

Lemma mir_compute (sm : sim R) v : mirrors scale_vals (step_compute sm v) (step_compute (wider k sm) v).
Proof.
  unfold step_compute. eapply mir_bind; [apply mir_get; reflexivity|intros depth].
  eapply (mir_bind (fun x : unit => x)).
  { intros w. unfold first_effusion_rate. cbn [scale_world w_iter]. destruct (w_iter w); [|reflexivity].
    unfold set_eff, scale_world. cbn. rnum. do 2 f_equal. ring. }
  intros _. eapply mir_bind; [apply mir_reads; reflexivity|intros rho]. eapply mir_bind; [apply mir_width|intros wd].
  eapply mir_bind; [apply mir_reads; reflexivity|intros slope]. eapply mir_bind; [apply mir_budget|intros hb]. cbv zeta.
  eapply mir_bind; [apply mir_reads; reflexivity|intros rate].
  eapply (mir_bind (Rmult k)); [intros w; reflexivity|intros eff].
  eapply (mir_bind (fun x => x)).
  { apply mir_lift. rewrite rmap_id. cbn [wider s_lava]. rnum. rewrite <- (div_scale_both (- hb)). f_equal; ring. }
  intros dT. cbv beta. mir.
Qed.
Lemma mir_step_log (sm : sim R) x : mirrors (fun u => u) (step_log sm x) (step_log (wider k sm) (scale_vals x)).
Proof.
  unfold step_log. cbn [scale_vals sv_v sv_depth sv_rho sv_width sv_slope sv_rate sv_dtemp_dx sv_dtemp_dt sv_dphi_dx wider s_lava s_crust s_cover s_ter].
  mir.
  eapply (mir_bind (Rmult k)); [intros w; reflexivity|intros eff]. mir.
Qed.
Lemma mir_update (sm : sim R) x : mirrors (fun u => u) (step_update sm x) (step_update (wider k sm) (scale_vals x)).
Proof.
  unfold step_update. cbn [scale_vals sv_v sv_depth sv_new_phi sv_new_temp wider s_dx].
  do 3 (eapply mir_bind; [apply mir_modify; reflexivity|intros _]). mir.
  eapply mir_bind; [apply mir_modify; reflexivity|intros _]. mir.
  eapply mir_bind; [apply mir_modify; reflexivity|intros _]. apply mir_modify. reflexivity.
Qed.
Lemma mir_checks (sm : sim R) x : mirrors (fun u => u) (step_checks sm x) (step_checks (wider k sm) (scale_vals x)).
Proof.
  unfold step_checks. cbn [scale_vals sv_new_temp wider s_cryst s_lava s_ter].
  destruct (n_leb _ _); [apply mir_modify; reflexivity|].
  eapply mir_bind; [apply mir_reads; reflexivity|intros []]; [apply mir_modify; reflexivity|].
  eapply mir_bind; [apply mir_reads; reflexivity|intros []]; [apply mir_modify; reflexivity|].
  eapply mir_bind; [apply mir_get; reflexivity|intros pos]. cbn [wider_terrain ter_maxlen].
  destruct (n_leb _ _); [apply mir_modify; reflexivity|now apply mir_ret].
Qed.
Lemma mir_step (sm : sim R) : mirrors (fun u => u) (single_step sm) (single_step (wider k sm)).
Proof.
  unfold single_step. eapply mir_bind; [apply mir_velocity|intros v].
  destruct (n_leb v zero); [apply mir_modify; reflexivity|].
  eapply mir_bind; [apply mir_compute|intros x]. eapply mir_bind; [apply mir_get; reflexivity|intros phi].
  cbn [scale_vals sv_new_phi]. destruct (n_leb (sv_new_phi x) phi); [apply mir_modify; reflexivity|].
  eapply mir_bind; [apply mir_step_log|intros _]. eapply mir_bind; [apply mir_update|intros _]. apply mir_checks.
Qed.

Lemma mir_try (sm : sim R) d : mirrors (fun b => b) (try_depth sm d) (try_depth (wider k sm) d).
Proof.
  unfold try_depth. eapply mir_bind; [apply mir_modify; reflexivity|intros _].
  eapply mir_bind; [apply mir_velocity|intros v]. cbv zeta. cbn [wider s_ter s_lava wider_terrain ter_width ter_eff_init].
  eapply mir_bind; [apply mir_modify|intros _].
  { intros w. unfold set_eff, scale_world. cbn. rnum. f_equal. ring. }
  eapply mir_bind; [apply mir_reads; reflexivity|intros rho].
  eapply mir_bind; [apply mir_modify|intros _].
  { intros w. unfold set_flux, scale_world. cbn. rnum. f_equal. f_equal. ring. }
  apply mir_ret. rnum. unfold R_leb. destruct (Rle_dec _ _) as [L|L], (Rle_dec _ _) as [L'|L']; try reflexivity; exfalso.
  - apply L'. apply (Rmult_le_reg_l k); [exact Hk|]. lra.
  - apply L. apply (Rmult_le_compat_l k) in L'; lra.
Qed.
Lemma mir_init (sm : sim R) : mirrors (fun u => u) (init_effusion_rate sm) (init_effusion_rate (wider k sm)).
Proof.
  unfold init_effusion_rate. cbn [wider s_ter wider_terrain ter_eff_init].
  replace (n_eqb (k * ter_eff_init (s_ter sm)) zero) with (n_eqb (ter_eff_init (s_ter sm)) zero).
  - destruct (n_eqb _ _); [now apply mir_ret|].
    generalize 0%nat. induction depth_count as [|n IH]; intros i; cbn [search_depth]; [now apply mir_ret|].
    eapply mir_bind; [apply mir_try|intros []]; [now apply mir_ret|apply IH].
  - rnum. unfold R_eqb. destruct (Req_EM_T _ _) as [E|E], (Req_EM_T _ _) as [E'|E']; try reflexivity; exfalso.
    + apply E'. rewrite E. lra.
    + apply E. apply Rmult_integral in E' as [E'|E']; lra.
Qed.
End Scale.
