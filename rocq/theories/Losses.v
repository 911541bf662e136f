(** * Losses: the same set-up with other heat losses *)
From Coq Require Import Reals Lra Lia List.
From Verif Require Import Base Num Json Logger World Vesicle MeltVisc RelVisc Bubbles Terrain Lava
  Thermal Flux Integrator Spec RNum RPow Recompute Refine.
Open Scope R_scope.

(** Another value of the configuration's "latent_heat_of_crystallization". *)
Definition with_latent {T} (L : T) (l : lava T) : lava T :=
  {| lv_melt := lv_melt l; lv_rel := lv_rel l; lv_bub := lv_bub l; lv_yield := lv_yield l; lv_ves := lv_ves l;
     lv_terupt := lv_terupt l; lv_buffer := lv_buffer l; lv_latent := L; lv_dre := lv_dre l; lv_maxpack := lv_maxpack l |}.
(** Another air, another list of heat fluxes, another latent heat. *)
Definition with_losses {T} (a : air T) (b : list (flux T)) (L : T) (sm : sim T) : sim T :=
  {| s_dx := s_dx sm; s_lava := with_latent L (s_lava sm); s_air := a; s_ter := s_ter sm; s_cryst := s_cryst sm; s_crust := s_crust sm;
     s_cover := s_cover sm; s_budget := b; s_mass := s_mass sm |}.
Lemma with_losses_same {T} (sm : sim T) : with_losses (s_air sm) (s_budget sm) (lv_latent (s_lava sm)) sm = sm.
Proof. destruct sm as [dx l a t c k o b m]. destruct l. reflexivity. Qed.

(** The heat a surface loses through the fluxes [b], in watts per metre of channel. *)
Definition heat_loss (a : air R) (b : list (flux R)) (u : surface) : R :=
  fold_right Rplus 0 (map (flux_law a u) b).

(** A flowing lava, hotter inside than [ts], whose crust and molten parts are at
    least a quarter of a percent hotter than the air (the convective temperature
    falls short of the surface's by that much, C39) and not above 2600 K. *)
Record warm_surface (ts ta : R) (u : surface) : Prop := {
  ws_width : 0 < su_width u;
  ws_depth : 0 < su_depth u;
  ws_temp : ts < su_temp u;
  ws_hot : 401 / 400 * ta <= su_hot u <= 2600;
  ws_crust : 401 / 400 * ta <= su_crust u <= 2600;
  ws_cover : 0 <= su_cover u <= 1;
  ws_vf : 0 <= su_vf u < 1;
  ws_mu : 0 < su_mu u;
  ws_v : 0 < su_v u
}.

(** The search for the depth reads neither the step nor the losses. *)
Lemma init_losses (sm : sim R) h a b L w : init_effusion_rate (with_step h (with_losses a b L sm)) w = init_effusion_rate sm w.
Proof.
  set (sm' := with_step h (with_losses a b L sm)).
  unfold init_effusion_rate. change (s_ter sm') with (s_ter sm).
  assert (Q : forall n i w, search_depth sm' i n w = search_depth sm i n w).
  { induction n as [|n IH]; intros i w'; [reflexivity|]. cbn [search_depth]. unfold bind.
    change (try_depth sm' (depth_at i) w') with (try_depth sm (depth_at i) w').
    destruct (try_depth sm (depth_at i) w') as [[[]|e] w1]; auto. }
  destruct (n_eqb _ _); [reflexivity|apply Q].
Qed.
