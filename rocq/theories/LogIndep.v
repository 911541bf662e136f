(** * LogIndep: what is already in the logger does not influence a computation *)
From Verif Require Import Base Num Json Logger World Vesicle MeltVisc RelVisc Bubbles Terrain Lava
  Thermal Flux Integrator Factory Run LoggerProofs.

Section LogIndep.
Context {T : Type} {N : Num T}.

Lemma after_app (t : table T) a b : after t (a ++ b) = after (after t a) b.
Proof. apply fold_left_app. Qed.

(** The code never logs under the name 'position'. *)
Definition named_ok (calls : list (@call T)) : Prop := forall c, In c calls -> fst (fst c) <> "position".
Lemma named_nil : named_ok []. Proof. intros c []. Qed.
Lemma named_app a b : named_ok a -> named_ok b -> named_ok (a ++ b).
Proof. intros Ha Hb c Hc. apply in_app_or in Hc as [Hc|Hc]; auto. Qed.

(** From a given world, whatever the logger holds: the same result, the same
    changes, and the same calls to the logger. *)
Definition oblivious {A} (m : M (T:=T) A) : Prop :=
  forall w, exists calls r w1, named_ok calls /\ forall t, m (set_log t w) = (r, set_log (after t calls) w1).

Lemma obl_pure {A} (f : world T -> res A) : (forall w t, f (set_log t w) = f w) -> oblivious (reads f).
Proof. intros H w. exists [], (f w), w. split; [exact named_nil|]. intros t. unfold reads. rewrite H. reflexivity. Qed.
Lemma obl_get {A} (f : world T -> A) : (forall w t, f (set_log t w) = f w) -> oblivious (get f).
Proof. intros H w. exists [], (Ok (f w)), w. split; [exact named_nil|]. intros t. unfold get. rewrite H. reflexivity. Qed.
Lemma obl_lift {A} (a : res A) : oblivious (lift a).
Proof. intros w. exists [], a, w. split; [exact named_nil|reflexivity]. Qed.
Lemma obl_ret {A} (a : A) : oblivious (ret a).
Proof. intros w. exists [], (Ok a), w. split; [exact named_nil|reflexivity]. Qed.
Lemma obl_modify (f : world T -> world T) : (forall w t, f (set_log t w) = set_log t (f w)) -> oblivious (modify f).
Proof. intros H w. exists [], (Ok tt), (f w). split; [exact named_nil|]. intros t. unfold modify. rewrite H. reflexivity. Qed.
Lemma obl_log name v : name <> "position" -> oblivious (log_var name v).
Proof. intros Hn w. exists [(name, st_pos (w_st w), v)], (Ok tt), w. split; [intros c [<-|[]]; exact Hn|]. intros t. reflexivity. Qed.
Lemma obl_bind {A B} (m : M A) (f : A -> M B) : oblivious m -> (forall a, oblivious (f a)) -> oblivious (bind m f).
Proof.
  intros Hm Hf w. destruct (Hm w) as (c1 & r & w1 & N1 & E). destruct r as [a|e].
  - destruct (Hf a w1) as (c2 & r2 & w2 & N2 & E2). exists (c1 ++ c2), r2, w2. split; [now apply named_app|]. intros t. unfold bind. rewrite E, E2, after_app. reflexivity.
  - exists c1, (Err e), w1. split; [exact N1|]. intros t. unfold bind. rewrite E. reflexivity.
Qed.
Lemma obl_if {A} (b : bool) (m1 m2 : M A) : oblivious m1 -> oblivious m2 -> oblivious (if b then m1 else m2).
Proof. destruct b; auto. Qed.
End LogIndep.

Ltac obl := repeat first
  [ apply obl_bind; [|intros]
  | apply obl_log; discriminate | apply obl_lift | apply obl_ret
  | apply obl_pure; reflexivity | apply obl_get; reflexivity | apply obl_modify; reflexivity
  | apply obl_if ].

Section LogIndep2.
Context {T : Type} {N : Num T}.
Lemma obl_velocity (l : lava T) t : oblivious (compute_mean_velocity l t).
Proof.
  intros w. exists [], (fst (compute_mean_velocity l t w)), (snd (compute_mean_velocity l t w)). split; [exact named_nil|]. intros u.
  unfold compute_mean_velocity. cbn [set_log w_depth w_st].
  destruct (mean_velocity l t (w_depth w) (w_st w)) as [[v new]|e]; reflexivity.
Qed.
Lemma obl_cover m (l : lava T) t : oblivious (compute_effective_cover_fraction m l t).
Proof. destruct m; cbn [compute_effective_cover_fraction]; repeat (obl; try apply obl_velocity). Qed.
Ltac obl2 := repeat (obl; try apply obl_velocity; try apply obl_cover).
Lemma obl_ert (sm : sim T) : oblivious (effective_radiation_temperature sm).
Proof. unfold effective_radiation_temperature, cover, crust_temp, molten_temp. obl2. Qed.
Lemma obl_ec k (sm : sim T) : oblivious (emissivity_crust k sm).
Proof. destruct k; unfold emissivity_crust, crust_temp; obl2. Qed.
Lemma obl_em k (sm : sim T) : oblivious (emissivity_molten k sm).
Proof. destruct k; unfold emissivity_molten, molten_temp; obl2. Qed.
Ltac obl3 := repeat (obl2; try apply obl_ert; try apply obl_ec; try apply obl_em).
Lemma obl_flux f (sm : sim T) width depth : oblivious (compute_flux f sm width depth).
Proof.
  destruct f as [k sigma|tb cbd| |r d l| |]; cbn [compute_flux].
  - unfold radiation_flux, spectral_radiance, cover, crust_temp, molten_temp. obl3.
    destruct k; cbn [epsilon_effective]; unfold cover; obl3.
  - unfold conduction_flux. obl3.
  - unfold convection_flux, characteristic_surface_temperature, cover, crust_temp, molten_temp. obl3.
  - obl3.
  - unfold viscous_flux. obl3.
  - unfold snyder_flux, effective_temperature_snyder, cover, crust_temp, molten_temp. obl3.
Qed.
Lemma obl_budget_loop (sm : sim T) width depth fl : forall acc, oblivious (budget_loop fl sm width depth acc).
Proof.
  induction fl as [|f fl IH]; intros acc; cbn [budget_loop]; [obl|].
  apply obl_bind; [apply obl_flux|intros]. apply obl_bind; [apply obl_flux|intros]. apply obl_bind; [apply obl_log; destruct f; discriminate|intros]. apply IH.
Qed.
Lemma obl_budget (sm : sim T) width depth : oblivious (compute_heat_budget sm width depth).
Proof.
  unfold compute_heat_budget. apply obl_bind; [apply obl_budget_loop|intros; obl].
Qed.
Lemma obl_step (sm : sim T) : oblivious (single_step sm).
Proof.
  unfold single_step. apply obl_bind; [apply obl_velocity|intros v]. apply obl_if; [obl|].
  apply obl_bind; [|intros x].
  - unfold step_compute. obl.
    + intros w. exists [], (Ok tt), (snd (first_effusion_rate sm v a w)). split; [exact named_nil|]. intros t. unfold first_effusion_rate. cbn [set_log w_iter].
      destruct (w_iter w); reflexivity.
    + apply obl_budget_loop.
  - apply obl_bind; [obl|intros phi]. apply obl_if; [obl|]. apply obl_bind; [|intros _; apply obl_bind; [|intros _]].
    + unfold step_log. repeat (obl; try apply obl_cover).
    + unfold step_update. obl.
    + unfold step_checks. obl.
Qed.
Lemma obl_search (sm : sim T) n : forall i, oblivious (search_depth sm i n).
Proof.
  induction n as [|n IH]; intros i; cbn [search_depth]; [obl|]. apply obl_bind; [|intros hit; apply obl_if; [obl|apply IH]].
  unfold try_depth. repeat (obl; try apply obl_velocity).
Qed.
Lemma obl_init (sm : sim T) : oblivious (init_effusion_rate sm).
Proof. unfold init_effusion_rate. apply obl_if; [obl|apply obl_search]. Qed.

Lemma set_log_twice a b (w : world T) : set_log a (set_log b w) = set_log a w.
Proof. reflexivity. Qed.
Lemma set_log_own (w : world T) : set_log (w_log w) w = w.
Proof. destruct w; reflexivity. Qed.

Lemma obl_loop (sm : sim T) fuel : forall w,
  (forall t, run_loop sm fuel (set_log t w) = None) \/
  exists calls r w1, named_ok calls /\ forall t, run_loop sm fuel (set_log t w) = Some (r, set_log (after t calls) w1).
Proof.
  induction fuel as [|f IH]; intros w; cbn [run_loop]; unfold has_finished; cbn [set_log w_fin]; destruct (w_fin w).
  - right. exists [], (Ok tt), w. split; [exact named_nil|reflexivity].
  - left. reflexivity.
  - right. exists [], (Ok tt), w. split; [exact named_nil|reflexivity].
  - destruct (obl_step sm w) as (c & r & w1 & N1 & E). destruct r as [u|e].
    + destruct (IH w1) as [Hn|(c2 & r2 & w2 & N2 & E2)].
      * left. intros t. rewrite E. apply Hn.
      * right. exists (c ++ c2), r2, w2. split; [now apply named_app|]. intros t. rewrite E, E2, after_app. reflexivity.
    + right. exists c, (Err e), w1. split; [exact N1|]. intros t. rewrite E. reflexivity.
Qed.
Lemma obl_simulate (sm : sim T) fuel w :
  (forall t, simulate fuel sm (set_log t w) = None) \/
  exists calls r w1, named_ok calls /\ forall t, simulate fuel sm (set_log t w) = Some (r, set_log (after t calls) w1).
Proof.
  unfold simulate. destruct (obl_init sm w) as (c & r & w1 & N1 & E). destruct r as [u|e].
  - destruct (obl_loop sm fuel w1) as [Hn|(c2 & r2 & w2 & N2 & E2)].
    + left. intros t. rewrite E. apply Hn.
    + right. exists (c ++ c2), r2, w2. split; [now apply named_app|]. intros t. rewrite E, E2, after_app. reflexivity.
  - right. exists c, (Err e), w1. split; [exact N1|]. intros t. rewrite E. reflexivity.
Qed.
End LogIndep2.
