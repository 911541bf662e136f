(** * Props_Time: the starting time matters only to crusts that cool with time (C71) *)
From Coq Require Import Reals Lra.
From Verif Require Import Base Num Json Logger World Vesicle MeltVisc RelVisc Bubbles Terrain Lava
  Thermal Flux Integrator Factory Run Props_Budget Props_Factory Props_EffArray Props_Unused Timeless.

Section Time.
Context {T : Type} {N : Num T}.

(** C71.  For the crust models that do not cool with time, the starting time
    changes neither the result, nor the table, nor anything else but the clock. *)
Theorem C71_start_time_is_irrelevant : forall (sm : sim T) fuel st log depth t,
  (forall tc1 tc2, s_crust sm <> CtBimodal tc1 tc2) -> s_crust sm <> CtHon ->
  match simulate fuel sm (initial_world st log depth),
        simulate fuel sm (initial_world (set_current_time t st) log depth) with
  | None, None => True
  | Some (r1, w1), Some (r2, w2) =>
      r1 = r2 /\ w_log w1 = w_log w2 /\ w_iter w1 = w_iter w2 /\ w_fin w1 = w_fin w2 /\ w_depth w1 = w_depth w2 /\
      w_eff w1 = w_eff w2 /\ w_flux w1 = w_flux w2 /\
      st_phi (w_st w1) = st_phi (w_st w2) /\ st_temp (w_st w1) = st_temp (w_st w2) /\
      st_pos (w_st w1) = st_pos (w_st w2) /\ st_strain (w_st w1) = st_strain (w_st w2)
  | _, _ => False
  end.
Proof.
  intros sm fuel st log depth t H1 H2.
  assert (C : clock_free (s_crust sm)) by (destruct (s_crust sm); cbn; try exact Logic.I; [exact (H2 eq_refl)|exact (H1 _ _ eq_refl)]).
  assert (S := tml_simulate sm C fuel (initial_world st log depth) t).
  change (at_time t (initial_world st log depth)) with (initial_world (set_current_time t st) log depth) in S.
  unfold same_ending in S. destruct (simulate fuel sm (initial_world st log depth)) as [[r1 w1]|],
    (simulate fuel sm (initial_world (set_current_time t st) log depth)) as [[r2 w2]|]; auto.
  destruct S as (<- & u & ->). repeat split.
Qed.

Context (sf : T -> string) (sc : json T -> string).

Lemma crust_selected d profile (mo : models T) : build_models d profile = Ok mo ->
  jget2 d "models" "crust_temperature_model" = Ok (JStr "constant") \/
  jget2 d "models" "crust_temperature_model" = Ok (JStr "field") -> clock_free (mo_crust mo).
Proof.
  intros H Hs. destruct (build_models_inv _ _ _ H) as (s & vm & mm & rm & bm & ym & fr & Es & _ & _ & _ & _ & _ & _ & _ & _ & _ & Hct & _).
  apply read_selectors_inv in Es as (_ & _ & _ & _ & _ & S6 & _). unfold build_crust in Hct.
  destruct Hs as [Hs|Hs]; rewrite Hs in S6; injection S6 as E; rewrite <- E in Hct.
  - change (jis (JStr (T:=T) "constant") "constant") with true in Hct. cbv iota in Hct. unfold read_ct_constant in Hct.
    apply rbind_ok in Hct as (x & _ & Hct). injection Hct as <-. exact Logic.I.
  - change (jis (JStr (T:=T) "field") "constant") with false in Hct. change (jis (JStr (T:=T) "field") "hon") with false in Hct.
    change (jis (JStr (T:=T) "field") "bimodal") with false in Hct. change (jis (JStr (T:=T) "field") "field") with true in Hct. cbv iota in Hct.
    destruct profile as [lines|]; [|discriminate]. apply rbind_ok in Hct as (tbl & _ & Hct). unfold read_ct_field in Hct.
    apply rbind_ok in Hct as (x & _ & Hct). apply rbind_ok in Hct as (y & _ & Hct). injection Hct as <-. exact Logic.I.
Qed.

Lemma init_time F1 F2 l cr t1 t2 : same_settings (but_time consulted) top_keys F1 F2 ->
  jfloat2 (JObj F1) "lava_state" "time" = Ok t1 -> jfloat2 (JObj F2) "lava_state" "time" = Ok t2 ->
  match initialize_state l cr (JObj F1), initialize_state l cr (JObj F2) with
  | Err e1, Err e2 => e1 = e2
  | Ok s1, Ok s2 => s2 = set_current_time t2 s1
  | _, _ => False
  end.
Proof.
  intros S E1 E2. unfold initialize_state, jfloat1. rewrite (same_jget_top F1 F2 S) by reflexivity.
  rewrite !(sm_float F1 F2 S) by reflexivity. rewrite E1, E2. cbn [rbind].
  repeat (match goal with |- context [rbind ?r _] => destruct r; cbn [rbind]; [|reflexivity] end). reflexivity.
Qed.

(** C71 for configuration files: two that agree except at lava_state.time,
    both with a number there, and whose crust model is 'constant' or 'field',
    give the same result or exception, the same table and the same files. *)
Theorem C71_configured_time_is_irrelevant : forall F1 F2 t1 t2 fuel (fs : fsys T) log json_file folder,
  same_settings (but_time consulted) top_keys F1 F2 ->
  jfloat2 (JObj F1) "lava_state" "time" = Ok t1 -> jfloat2 (JObj F2) "lava_state" "time" = Ok t2 ->
  jget2 (JObj F1) "models" "crust_temperature_model" = Ok (JStr "constant") \/
  jget2 (JObj F1) "models" "crust_temperature_model" = Ok (JStr "field") ->
  same_outcome json_file
    (run sf sc fuel (fs_write json_file (FJson (JObj F1)) fs) log json_file folder)
    (run sf sc fuel (fs_write json_file (FJson (JObj F2)) fs) log json_file folder).
Proof.
  intros F1 F2 t1 t2 fuel fs log jf folder S E1 E2 Hc.
  assert (O : forall q, q <> jf -> fs_write jf (FJson (JObj F1)) fs q = fs_write jf (FJson (JObj F2)) fs q).
  { intros q Hq. unfold fs_write. apply String.eqb_neq in Hq. now rewrite Hq. }
  unfold run, same_outcome. rewrite !prepare_split. rewrite (same_prepare_models F1 F2 S).
  destruct (prepare_models mass_flag (fs_write jf (FJson (JObj F2)) fs) (JObj F2)) as [[[[eri name] sm] depth]|e] eqn:Ep; cbn [rbind].
  2:{ repeat split; auto. }
  assert (C : clock_free (s_crust sm)).
  { rewrite <- (same_prepare_models F1 F2 S) in Ep. unfold prepare_models in Ep.
    do 7 (apply rbind_ok in Ep as (? & _ & Ep)). destruct x5 as [[ter0 dep] smooth].
    do 2 (apply rbind_ok in Ep as (? & _ & Ep)). apply rbind_ok in Ep as (mo & Hm & Ep). injection Ep as _ _ <- _.
    cbn [s_crust]. eapply crust_selected; eassumption. }
  assert (I := init_time F1 F2 (s_lava sm) (s_cryst sm) t1 t2 S E1 E2).
  destruct (initialize_state (s_lava sm) (s_cryst sm) (JObj F1)) as [s1|e1],
    (initialize_state (s_lava sm) (s_cryst sm) (JObj F2)) as [s2|e2]; try contradiction; cbn [rbind].
  2:{ subst e2. repeat split; auto. }
  subst s2. assert (X := tml_simulate sm C fuel (initial_world s1 log depth) t2).
  change (at_time t2 (initial_world s1 log depth)) with (initial_world (set_current_time t2 s1) log depth) in X.
  unfold same_ending in X.
  destruct (simulate fuel sm (initial_world s1 log depth)) as [[r1 w1]|],
    (simulate fuel sm (initial_world (set_current_time t2 s1) log depth)) as [[r2 w2]|]; try contradiction; auto.
  destruct X as (<- & u & ->). cbn [at_time set_st w_log].
  destruct r1 as [[]|e]; [|repeat split; auto].
  unfold write_table. destruct (w_log w1) as [|first rest]; [repeat split; auto|].
  destruct (write_values_to_file (first :: rest)); (repeat split; auto); intros q Hq; unfold fs_write;
    apply String.eqb_neq in Hq; rewrite Hq; reflexivity.
Qed.

Lemma but_time_not keys s k : In (s, k) (but_time keys) -> s = "lava_state" -> k <> "time".
Proof.
  intros H -> ->. unfold but_time in H. apply filter_In in H as [_ H]. discriminate H.
Qed.
Lemma time_set F g v : assoc "lava_state" F = Some (JObj g) ->
  same_settings (but_time consulted) top_keys F (assoc_set "lava_state" (JObj (assoc_set "time" v g)) F).
Proof.
  intros Eg. set (F2 := assoc_set "lava_state" _ F).
  assert (O : forall s, s <> "lava_state" -> assoc s F2 = assoc s F) by (intros s Hs; unfold F2; apply assoc_set_other; congruence).
  assert (E2 : assoc "lava_state" F2 = Some (JObj (assoc_set "time" v g))) by (unfold F2; apply assoc_set_same).
  constructor.
  - intros s k Hin. destruct (String.eqb_spec s "lava_state") as [->|Hs].
    + assert (Hk := but_time_not _ _ _ Hin eq_refl). unfold same_at. rewrite Eg, E2. symmetry. apply assoc_set_other. congruence.
    + apply same_at_refl, O, Hs.
  - intros k Hk. symmetry. apply O. intros ->. revert Hk. apply listed1_not. reflexivity.
  - rewrite O by discriminate. reflexivity.
  - apply same_at_presence, same_at_refl, O. discriminate.
  - left. apply same_at_refl, O. discriminate.
Qed.

(** C71: editing lava_state.time of a configuration. *)
Theorem C71_editing_the_time_changes_nothing : forall F g v t1 t2 fuel (fs : fsys T) log json_file folder,
  assoc "lava_state" F = Some (JObj g) ->
  jfloat2 (JObj F) "lava_state" "time" = Ok t1 -> py_float v = Ok t2 ->
  jget2 (JObj F) "models" "crust_temperature_model" = Ok (JStr "constant") \/
  jget2 (JObj F) "models" "crust_temperature_model" = Ok (JStr "field") ->
  same_outcome json_file
    (run sf sc fuel (fs_write json_file (FJson (JObj F)) fs) log json_file folder)
    (run sf sc fuel (fs_write json_file (FJson (JObj
       (assoc_set "lava_state" (JObj (assoc_set "time" v g)) F))) fs) log json_file folder).
Proof.
  intros F g v t1 t2 fuel fs log jf folder Eg E1 Hv Hc. eapply C71_configured_time_is_irrelevant; eauto using time_set.
  unfold jfloat2, jget. rewrite assoc_set_same. cbn [rbind]. rewrite assoc_set_same. exact Hv.
Qed.
End Time.
Print Assumptions C71_configured_time_is_irrelevant.
