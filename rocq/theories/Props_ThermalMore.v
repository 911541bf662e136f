(** * Props_ThermalMore: the MELTS table, the configured solidus, the HR2001 crust: C34, C35, C59 *)
From Coq Require Import Reals Lra.
From Verif Require Import Base Num RNum Json Logger World Vesicle MeltVisc RelVisc Bubbles Terrain Lava
  Thermal Flux Integrator Factory Props_Budget Props_Factory Props_Terrain.
Open Scope R_scope.

(** C34.  A MELTS table given as (degrees Celsius, fraction) rows: at the temperature of a row, in
    kelvin, the crystal fraction is the row's. *)
Theorem C34_melts_table : forall (rows : list (R * R)) m m' r,
  read_crystal_from_melts rows m = Ok m' -> In r rows ->
  get_crystal_fraction m' (fst r + 27315 / 100) = Ok (snd r).
Proof.
  intros rows m m' r H Hin. unfold read_crystal_from_melts in H.
  destruct m as [| | |p ts te sp0]; try discriminate H.
  apply rbind_ok in H as (sp & Hsp & H). injection H as <-. cbn [get_crystal_fraction].
  apply make_spline_ok in Hsp as (-> & _ & HL & HS).
  set (sp := combine _ _) in *.
  assert (H : In (fst r + 27315 / 100, snd r) sp).
  { unfold sp. clear - Hin. induction rows as [|[x y] rows IH]; [contradiction|].
    cbn [map combine fst snd]. destruct Hin as [<-|Hin]; [left; reflexivity|right; now apply IH]. }
  apply (C48_through_points sp (fst r + 27315 / 100, snd r) HS HL H).
Qed.
(** ... and the solidus and eruption temperature stay those of the configuration. *)
Theorem C34_melts_table_keeps_the_rest : forall {T} {N : Num T} (rows : list (T * T)) m m',
  read_crystal_from_melts rows m = Ok m' ->
  get_solid_temperature m' = get_solid_temperature m /\ cryst_terupt m' = cryst_terupt m.
Proof.
  intros T N rows m m' H. unfold read_crystal_from_melts in H. destruct m; try discriminate H.
  apply rbind_ok in H as (sp & _ & H). injection H as <-. auto.
Qed.

(** C59.  The temperature at which the run stops is the solidus of the configuration, and the crystals
    start from the configured fraction, whatever the crystallization model. *)
Theorem C59_configured_solidus : forall {T} {N : Num T} d profile (mo : models T),
  build_models d profile = Ok mo ->
  jfloat2 d "crystals_parameters" "solid_temperature" = Ok (get_solid_temperature (mo_cryst mo)) /\
  (forall t, get_crystal_fraction (mo_cryst mo) t = jfloat2 d "lava_state" "crystal_fraction").
Proof.
  intros T N d profile mo H.
  destruct (build_models_inv _ _ _ H) as (s & vm & mm & rm & bm & ym & fr & _ & Hcr & _).
  unfold build_cryst in Hcr.
  destruct (jis (sel_cryst s) "basic"); [|destruct (jis (sel_cryst s) "bimodal"); [|destruct (jis (sel_cryst s) "bimodal_f_temp");
    [|destruct (jis (sel_cryst s) "melts"); [|discriminate Hcr]]]].
  - unfold read_cr_basic in Hcr. repeat (apply rbind_ok in Hcr as (? & ? & Hcr)). injection Hcr as <-. cbn. auto.
  - unfold read_cr_bimodal in Hcr. repeat (apply rbind_ok in Hcr as (? & ? & Hcr)). injection Hcr as <-. cbn. auto.
  - unfold read_cr_bimodal_f_temp in Hcr. repeat (apply rbind_ok in Hcr as (? & ? & Hcr)). injection Hcr as <-. cbn. auto.
  - unfold read_cr_melts in Hcr. apply rbind_ok in Hcr as ([] & _ & Hcr); [|discriminate Hcr].
    repeat (apply rbind_ok in Hcr as (? & ? & Hcr)). injection Hcr as <-. cbn. auto.
Qed.

(** C35.  HR2001 (which no configuration selects): 712 degrees below the core. *)
Theorem C35_hr2001 : forall (s : state R), compute_crust_temperature CtHR2001 s = Ok (st_temp s - 712).
Proof. intros s. cbn [compute_crust_temperature]. rnum. reflexivity. Qed.

(** The hypotheses are met by a three-row table. *)
Example C34_melts_table_demo : exists m',
  read_crystal_from_melts [(1100, 4/10); (1150, 2/10); (1200, 0)] (CrMelts (1/10) 1300 1400 None) = Ok m' /\
  get_crystal_fraction m' (1150 + 27315/100) = Ok (2/10).
Proof.
  assert (X : exists m', read_crystal_from_melts [(1100, 4/10); (1150, 2/10); (1200, 0)] (CrMelts (1/10) 1300 1400 None) = Ok m').
  { unfold read_crystal_from_melts, make_spline. cbn [map fst snd length Nat.ltb Nat.leb Nat.eqb negb strictly_increasing]. rnum.
    rewrite !(proj2 (R_ltb_true _ _)) by lra. cbn. eauto. }
  destruct X as (m' & X). exists m'. split; [exact X|].
  apply (C34_melts_table _ _ _ (1150, 2/10) X). cbn. tauto.
Qed.
