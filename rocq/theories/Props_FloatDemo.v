(** * Concrete binary64 runs: the hypotheses of C56 and C58 are met *)
From Coq Require Import ZArith Reals Lra Psatz Sorted.
From Flocq Require Import Core BinarySingleNaN.
From Verif Require Import Base Num Json Logger World Vesicle MeltVisc RelVisc Bubbles Terrain Lava
  Thermal Flux Integrator Factory Run Spec Frame StepLog StepProofs LoggerProofs RowProofs StepProps
  ColumnProofs Props_Step FNum FFacts Props_Float Props_FloatNan.

(** A toy C library (sin = 1/2, exp = 1, x ** y = x, ...): the theorems hold for
    any, so this one will do to exhibit runs. *)
Definition toy : libm := {| m_exp := fun _ => Ok (lit 1 1); m_log10 := fun _ => Ok (lit 1 1);
  m_sin := fun _ => Ok (lit 1 2); m_erf := fun _ => Ok (lit 1 2); m_mpow := fun x _ => Ok x;
  m_pow := fun x _ => Ok x; m_nppow := fun x _ => x; m_pi := lit 355 113 |}.
#[local] Instance TF : Num f64 := FNum toy.
Definition dbl (n : Z) (d : positive) : f64 := n_lit n d.
Definition toy_sim (c : cryst_model f64) : sim f64 :=
  {| s_dx := dbl 10 1;
     s_lava := {| lv_melt := MeltBasic (dbl 1000 1) (dbl 1400 1); lv_rel := RelER;
                  lv_bub := BubNo (VConstant (dbl 1 2)); lv_yield := YRyerson (dbl 1400 1);
                  lv_ves := VConstant (dbl 1 2);
                  lv_terupt := dbl 1400 1; lv_buffer := dbl 0 1; lv_latent := dbl 350000 1;
                  lv_dre := dbl 2970 1; lv_maxpack := dbl 641 1000 |};
     s_air := {| air_temp := dbl 300 1; air_wind := dbl 5 1; air_ch := dbl 36 10000;
                 air_rho := dbl 4 10; air_cp := dbl 1100 1 |};
     s_ter := {| ter_eff_init := dbl 0 1; ter_width := dbl 45 10; ter_gravity := dbl 981 100;
                 ter_maxlen := dbl 100 1; ter_default_slope := dbl 1 2; ter_spline := None |};
     s_cryst := c;
     s_crust := CtConstant (dbl 800 1); s_cover := CvBasic (dbl 0 1) (dbl 1 1);
     s_budget := [FConduction (dbl 800 1) (dbl 19 1); FConvection]; s_mass := false |}.
Definition toy_state : state f64 :=
  {| st_phi := dbl 1 1000; st_temp := dbl 1400 1; st_pos := dbl 0 1; st_time := dbl 1 1; st_strain := dbl 1 1 |}.
Definition toy_basic : cryst_model f64 := CrBasic (dbl 1 1000) (dbl 9 10) (dbl 1200 1) (dbl 1400 1).
Definition toy_melts : cryst_model f64 := CrMelts (dbl 1 1000) (dbl 1200 1) (dbl 1400 1) None.
Definition summary (x : option (res unit * world f64)) :=
  match x with
  | Some (Ok _, w) => Some (Ok (w_iter w), length (w_log w))
  | Some (Err e, w) => Some (Err e, length (w_log w))
  | None => None
  end.

Example toy_run : summary (simulate 20 (toy_sim toy_basic) (initial_world toy_state [] (dbl 14 10))) = Some (Ok 10%nat, 10%nat).
Proof. vm_compute. reflexivity. Qed.
(** "melts": ZeroDivisionError at the first step with Python floats ... *)
Example toy_melts_run : summary (simulate 20 (toy_sim toy_melts) (initial_world toy_state [] (dbl 14 10))) =
  Some (Err ZeroDivisionError, 1%nat).
Proof. vm_compute. reflexivity. Qed.
(** ... and, when the depth is a numpy value (as the depth search leaves it), a
    first step that writes a row and a second one that fails. *)
Example toy_melts_numpy : 
  let w0 := initial_world toy_state [] (n_np (dbl 14 10)) in
  exists w1, single_step (toy_sim toy_melts) w0 = (Ok tt, w1) /\ length (w_log w1) = 1%nat /\ w_fin w1 = false /\
    is_nan (val (st_phi (w_st w1))) = true /\
    exists e w2, single_step (toy_sim toy_melts) w1 = (Err e, w2).
Proof.
  intros w0. destruct (single_step (toy_sim toy_melts) w0) as [r w1] eqn:E.
  assert (R : (match r with Ok _ => true | Err _ => false end, length (w_log w1), w_fin w1,
    is_nan (val (st_phi (w_st w1)))) = (true, 1%nat, false, true)).
  { assert (X : (match fst (single_step (toy_sim toy_melts) w0) with Ok _ => true | Err _ => false end,
      length (w_log (snd (single_step (toy_sim toy_melts) w0))), w_fin (snd (single_step (toy_sim toy_melts) w0)),
      is_nan (val (st_phi (w_st (snd (single_step (toy_sim toy_melts) w0)))))) = (true, 1%nat, false, true))
      by (vm_compute; reflexivity).
    rewrite E in X. exact X. }
  injection R as R1 R2 R3 R4. destruct r as [[]|e]; [|discriminate]. exists w1. repeat (split; [assumption || reflexivity|]).
  destruct (C58_nan_raises toy) with (sm := toy_sim toy_melts) (w := w1) as (e & w2 & H & _); eauto.
  - constructor; intros; try (injection H1 as <-); auto.
  - exact I.
Qed.

(** The hypotheses of the C58 theorems. *)
Example toy_step : positive_step (s_dx (toy_sim toy_basic)).
Proof.
  assert (B := lit_correct 10 1). cbv zeta in B.
  assert (E : round radix2 (FLT_exp emin prec) (round_mode mode_NE) (10 / 1) = 10%R).
  { replace (10 / 1)%R with 10%R by field. apply round_generic; [typeclasses eauto|].
    change 10%R with (F2R (Float radix2 10 0)) || (replace 10%R with (F2R (Float radix2 10 0)) by (unfold F2R; simpl; ring)).
    apply generic_format_F2R. intros _. unfold cexp. 
    replace (mag radix2 (F2R (Float radix2 10 0)) : Z) with 4%Z; [vm_compute; discriminate|].
    symmetry. apply mag_unique. unfold F2R. simpl. rewrite Rabs_pos_eq by lra. lra. }
  rewrite E in B. destruct B as [B1 B2].
  { rewrite Rabs_pos_eq by lra. apply Rlt_le_trans with (bpow radix2 4); [simpl; lra|]. apply bpow_le. unfold emax. lia. }
  split; [exact B2|]. change (0 < B2R (lit 10 1))%R. rewrite B1. lra.
Qed.
Example toy_matters : crystals_matter toy (lv_rel (s_lava (toy_sim toy_basic))) /\ pow_propagates_nan toy.
Proof. split; [exact I|]. constructor; intros; try (injection H1 as <-); auto. Qed.

(** A step of a tenth of a picometre is absorbed ten kilometres down the channel. *)
Example absorbed : Bplus mode_NE (lit 10000 1) (lit 1 10000000000000) = lit 10000 1.
Proof. apply B2SF_inj. vm_compute. reflexivity. Qed.
(** 0.1 ten times is not 1.0: rounding is represented. *)
Example rounding : Beqb (Nat.iter 10 (fun x => Bplus mode_NE x (lit 1 10)) (lit 0 1)) (lit 1 1) = false.
Proof. vm_compute. reflexivity. Qed.
