(** * Frame: what the computations of a step may change (any arithmetic) *)
From Verif Require Import Base Num Json Logger World Vesicle MeltVisc RelVisc Bubbles Terrain Lava
  Thermal Flux Integrator.

Section Frame.
Context {T : Type} {N : Num T}.

(** The world after changing the strain rate and logging [calls] at the
    current position. *)
Definition touched (strain : T) (calls : list (string * cell T)) (w : world T) : world T :=
  set_log (log_many (st_pos (w_st w)) calls (w_log w))
          (set_st (set_strain_rate strain (w_st w)) w).

Lemma touched_nil w : touched (st_strain (w_st w)) [] w = w.
Proof. destruct w as [[] ]; reflexivity. Qed.

Lemma touched_touched s1 c1 s2 c2 w :
  touched s2 c2 (touched s1 c1 w) = touched s2 (c1 ++ c2) w.
Proof. unfold touched, log_many. simpl. rewrite fold_left_app. reflexivity. Qed.

(** A computation that only changes the strain rate and logs, under the given
    sequence of names when it succeeds (a prefix of it when it raises). *)
Definition framed {A} (names : list string) (m : M (T:=T) A) : Prop :=
  forall w r w', m w = (r, w') ->
  exists strain calls rest, w' = touched strain calls w /\
    names = map fst calls ++ rest /\ (is_ok r -> rest = []).

Lemma framed_pure {A} (f : world T -> res A) : framed [] (reads f).
Proof.
  intros w r w' H. injection H as <- <-.
  exists (st_strain (w_st w)), [], []. rewrite touched_nil. auto.
Qed.
Lemma framed_get {A} (f : world T -> A) : framed [] (get f).
Proof.
  intros w r w' H. injection H as <- <-.
  exists (st_strain (w_st w)), [], []. rewrite touched_nil. auto.
Qed.
Lemma framed_lift {A} (a : res A) : framed [] (lift a).
Proof.
  intros w r w' H. injection H as <- <-.
  exists (st_strain (w_st w)), [], []. rewrite touched_nil. auto.
Qed.
Lemma framed_ret {A} (a : A) : framed [] (ret a).
Proof.
  intros w r w' H. injection H as <- <-.
  exists (st_strain (w_st w)), [], []. rewrite touched_nil. auto.
Qed.
Lemma framed_log name v : framed [name] (log_var name v).
Proof.
  intros w r w' H. injection H as <- <-.
  exists (st_strain (w_st w)), [(name, v)], []. split; [|auto].
  destruct w as [[] ]; reflexivity.
Qed.
Lemma framed_bind {A B} n1 n2 (m : M A) (f : A -> M B) :
  framed n1 m -> (forall a, framed n2 (f a)) -> framed (n1 ++ n2) (bind m f).
Proof.
  intros Hm Hf w r w' H. unfold bind in H. destruct (m w) as [[a|e] w1] eqn:E.
  - destruct (Hm _ _ _ E) as (s1 & c1 & r1 & -> & Hn1 & Hr1).
    destruct (Hf a _ _ _ H) as (s2 & c2 & r2 & -> & Hn2 & Hr2).
    exists s2, (c1 ++ c2), r2. rewrite touched_touched. split; auto. split; auto.
    rewrite Hn1, (Hr1 (ex_intro _ a eq_refl)), app_nil_r, Hn2, map_app, app_assoc. reflexivity.
  - injection H as <- <-. destruct (Hm _ _ _ E) as (s1 & c1 & r1 & -> & Hn1 & Hr1).
    exists s1, c1, (r1 ++ n2). split; auto. split; [now rewrite Hn1, app_assoc|].
    intros [a Ha]. discriminate.
Qed.
Lemma framed_bind' {A B} n1 n2 n (m : M A) (f : A -> M B) :
  framed n1 m -> (forall a, framed n2 (f a)) -> n = n1 ++ n2 -> framed n (bind m f).
Proof. intros Hm Hf ->. now apply framed_bind. Qed.

Lemma framed_velocity l t : framed [] (compute_mean_velocity l t).
Proof.
  intros w r w' H. unfold compute_mean_velocity in H.
  destruct (mean_velocity l t (w_depth w) (w_st w)) as [[v new]|e]; injection H as <- <-.
  - exists new, [], []. auto.
  - exists (st_strain (w_st w)), [], []. rewrite touched_nil. auto.
Qed.

Ltac frame :=
  repeat (first
    [ apply framed_pure | apply framed_get | apply framed_lift | apply framed_ret
    | apply framed_log | apply framed_velocity
    | eapply framed_bind'; [ | intros | ] ]).

Lemma framed_cover m l t : framed [] (compute_effective_cover_fraction m l t).
Proof.
  destruct m; simpl.
  - frame; reflexivity.
  - eapply framed_bind' with (n1 := []) (n2 := []); [frame|intros pos|reflexivity].
    eapply framed_bind' with (n1 := []) (n2 := []); [frame|intros v|reflexivity].
    destruct (n_leb pos crit); frame; reflexivity.
Qed.

Lemma framed_cover' (sm : sim T) : framed [] (cover sm).
Proof. apply framed_cover. Qed.
Lemma framed_crust (sm : sim T) : framed [] (crust_temp sm).
Proof. apply framed_pure. Qed.
Lemma framed_molten (sm : sim T) : framed [] (molten_temp sm).
Proof. apply framed_get. Qed.

Ltac frame2 :=
  repeat (first
    [ apply framed_pure | apply framed_get | apply framed_lift | apply framed_ret
    | apply framed_log | apply framed_velocity | apply framed_cover | apply framed_cover'
    | apply framed_crust | apply framed_molten
    | eapply framed_bind'; [ | intros | ] ]).

Lemma framed_ert (sm : sim T) :
  framed ["effective_radiation_temperature"] (effective_radiation_temperature sm).
Proof. unfold effective_radiation_temperature. frame2; reflexivity. Qed.

Lemma framed_ec k (sm : sim T) : framed [] (emissivity_crust k sm).
Proof. destruct k; simpl; frame2; reflexivity. Qed.
Lemma framed_em k (sm : sim T) : framed [] (emissivity_molten k sm).
Proof. destruct k; simpl; frame2; reflexivity. Qed.

Definition epsilon_names (k : rad_kind T) : list string :=
  match k with
  | RadLin => ["effective_radiation_temperature"; "epsilon_effective"]
  | _ => ["epsilon_effective"]
  end.
Lemma framed_eps k (sm : sim T) : framed (epsilon_names k) (epsilon_effective k sm).
Proof.
  destruct k; cbn [epsilon_effective epsilon_names].
  - frame2; reflexivity.
  - frame2; reflexivity.
  - eapply framed_bind'; [apply framed_cover'|intros f|].
    eapply framed_bind'; [apply framed_ec|intros ec|].
    eapply framed_bind'; [apply framed_em|intros em|].
    frame2; reflexivity. all: reflexivity.
  - eapply framed_bind'; [apply framed_ert|intros te|].
    frame2; reflexivity. reflexivity.
Qed.

Lemma framed_sr k (sm : sim T) width : framed ["spectral_radiance"] (spectral_radiance k sm width).
Proof.
  unfold spectral_radiance.
  eapply framed_bind'; [apply framed_cover'|intros f|].
  eapply framed_bind'; [apply framed_crust|intros tc|].
  eapply framed_bind'; [apply framed_molten|intros th|].
  eapply framed_bind'; [apply framed_ec|intros ec|].
  eapply framed_bind'; [apply framed_em|intros em|].
  frame2; reflexivity. all: reflexivity.
Qed.

(** The names a flux logs under when it is computed once. *)
Definition flux_logs (f : flux T) : list string :=
  match f with
  | FRadiation k _ => "effective_radiation_temperature" :: epsilon_names k ++ ["spectral_radiance"]
  | FConduction _ _ => []
  | FConvection => ["characteristic_surface_temperature"; "effective_temperature_snyder";
                    "flowgofluxsnyderheat"]
  | FRain _ _ _ => []
  | FViscous => []
  | FSnyder => ["effective_temperature_snyder"; "characteristic_surface_temperature";
                "effective_radiation_temperature"; "flowgofluxforcedconvectionheat";
                "flowgofluxradiationheat"]
  end.

Lemma framed_flux f (sm : sim T) width depth : framed (flux_logs f) (compute_flux f sm width depth).
Proof.
  destruct f as [k sigma|tb cbd| |r d l| |]; cbn [compute_flux flux_logs].
  - unfold radiation_flux.
    eapply framed_bind' with (n1 := ["effective_radiation_temperature"])
      (n2 := epsilon_names k ++ ["spectral_radiance"]);
      [apply framed_ert|intros te|reflexivity].
    eapply framed_bind'; [apply framed_eps|intros e|].
    eapply framed_bind'; [apply framed_lift|intros te4|].
    eapply framed_bind'; [apply framed_sr|intros sr|].
    frame2. all: reflexivity.
  - unfold conduction_flux. frame2; reflexivity.
  - unfold convection_flux, characteristic_surface_temperature. frame2; reflexivity.
  - apply framed_ret.
  - unfold viscous_flux. frame2; reflexivity.
  - unfold snyder_flux, effective_temperature_snyder. frame2; reflexivity.
Qed.

(** The names under which the heat budget logs, in order. *)
Fixpoint loop_names (fl : list (flux T)) : list string :=
  match fl with
  | [] => []
  | f :: r => flux_logs f ++ flux_logs f ++ [flux_name f] ++ loop_names r
  end.
Definition budget_names (fl : list (flux T)) : list string := loop_names fl ++ ["heat_budget"].

Lemma framed_loop fl (sm : sim T) width depth acc :
  framed (loop_names fl) (budget_loop fl sm width depth acc).
Proof.
  revert acc; induction fl as [|f fl IH]; intros acc; cbn [budget_loop loop_names].
  - apply framed_ret.
  - eapply framed_bind'; [apply framed_flux|intros q|reflexivity].
    eapply framed_bind'; [apply framed_flux|intros q2|reflexivity].
    eapply framed_bind'; [apply framed_log|intros _|reflexivity]. apply IH.
Qed.

Lemma framed_budget (sm : sim T) width depth :
  framed (budget_names (s_budget sm)) (compute_heat_budget sm width depth).
Proof.
  unfold compute_heat_budget, budget_names.
  eapply framed_bind'; [apply framed_loop|intros q|reflexivity].
  frame2; reflexivity.
Qed.

Lemma framed_ok {A} names (m : M (T:=T) A) w a w' :
  framed names m -> m w = (Ok a, w') ->
  exists strain calls, w' = touched strain calls w /\ map fst calls = names.
Proof.
  intros F H. destruct (F _ _ _ H) as (s & c & r & -> & -> & Hr).
  exists s, c. split; auto. rewrite (Hr (ex_intro _ a eq_refl)), app_nil_r. reflexivity.
Qed.

(** ** Functions of the state that ignore the strain rate *)
Lemma ves_strain m x (s : state T) :
  computes_vesicle_fraction m (set_strain_rate x s) = computes_vesicle_fraction m s.
Proof. destruct m; reflexivity. Qed.
Lemma melt_strain m x (s : state T) :
  compute_melt_viscosity m (set_strain_rate x s) = compute_melt_viscosity m s.
Proof. destruct m; reflexivity. Qed.
Lemma density_strain l x (s : state T) :
  get_bulk_density l (set_strain_rate x s) = get_bulk_density l s.
Proof. unfold get_bulk_density, lava_vesicle_fraction. now rewrite ves_strain. Qed.
Lemma yield_strain y x (s : state T) :
  compute_yield_strength y (set_strain_rate x s) = compute_yield_strength y s.
Proof. destruct y; simpl; rewrite ?ves_strain; reflexivity. Qed.
Lemma basal_strain y t d l x (s : state T) :
  compute_basal_shear_stress y t d l (set_strain_rate x s) = compute_basal_shear_stress y t d l s.
Proof. destruct y; simpl; unfold basal_body; rewrite density_strain; reflexivity. Qed.
Lemma cryst_strain m x (s : state T) :
  compute_crystallization_rate m (set_strain_rate x s) = compute_crystallization_rate m s.
Proof. destruct m; reflexivity. Qed.
Lemma crust_strain m x (s : state T) :
  compute_crust_temperature m (set_strain_rate x s) = compute_crust_temperature m s.
Proof. destruct m as [ | | |? [] | ]; reflexivity. Qed.
Lemma notcompat_strain m x (s : state T) :
  rel_is_notcompatible m (set_strain_rate x s) = rel_is_notcompatible m s.
Proof. destruct m; simpl; rewrite ?ves_strain; reflexivity. Qed.
Lemma molten_strain l x (s : state T) :
  computes_molten_material_temperature l (set_strain_rate x s) =
  computes_molten_material_temperature l s.
Proof. reflexivity. Qed.

(** ** The velocity solver, any arithmetic *)
Lemma velocity_loop_spec fuel l (s : state T) depth t0 tb strain v new :
  velocity_loop fuel l s depth t0 tb strain = Ok (v, new) ->
  exists mu, computes_bulk_viscosity l s = Ok mu /\
    velocity_formula depth t0 tb mu = Ok v /\ n_div (n_mul (n_lit 3 1) v) depth = Ok new.
Proof.
  revert strain; induction fuel as [|f IH]; intros strain H; simpl in H; [discriminate|].
  apply rbind_ok in H as (mu & Hmu & H). apply rbind_ok in H as (v' & Hv & H).
  apply rbind_ok in H as (new' & Hnew & H).
  destruct (n_leb _ _); [|eauto].
  injection H as <- <-. eauto.
Qed.

Lemma mean_velocity_spec l t depth (s : state T) v new :
  mean_velocity l t depth s = Ok (v, new) ->
  exists mu t0 tb, computes_bulk_viscosity l s = Ok mu /\
    get_yield_strength l s = Ok t0 /\ get_basal_shear_stress l t depth s = Ok tb /\
    velocity_formula depth t0 tb mu = Ok v /\ n_div (n_mul (n_lit 3 1) v) depth = Ok new.
Proof.
  unfold mean_velocity. intros H.
  apply rbind_ok in H as (t0 & Ht0 & H). apply rbind_ok in H as (tb & Htb & H).
  apply velocity_loop_spec in H as (mu & ? & ? & ?). exists mu, t0, tb. auto.
Qed.

(** Rheology that does not read the strain rate. *)
Definition strain_free (l : lava T) : Prop :=
  forall x s, computes_bulk_viscosity l (set_strain_rate x s) = computes_bulk_viscosity l s.

Lemma mean_velocity_same l t depth s x v new v' new' :
  strain_free l ->
  mean_velocity l t depth s = Ok (v, new) ->
  mean_velocity l t depth (set_strain_rate x s) = Ok (v', new') ->
  v' = v /\ new' = new.
Proof.
  intros Hf H H'.
  apply mean_velocity_spec in H as (mu & t0 & tb & Hmu & H0 & Hb & Hv & Hn).
  apply mean_velocity_spec in H' as (mu' & t0' & tb' & Hmu' & H0' & Hb' & Hv' & Hn').
  rewrite Hf, Hmu in Hmu'. injection Hmu' as <-.
  unfold get_yield_strength, get_basal_shear_stress in *.
  rewrite yield_strain, H0 in H0'. injection H0' as <-.
  rewrite basal_strain, Hb in Hb'. injection Hb' as <-.
  rewrite Hv in Hv'. injection Hv' as <-. rewrite Hn in Hn'. injection Hn' as <-. auto.
Qed.
End Frame.
