(** * The hypotheses of C78 are met by a concrete binary64 run *)
From Coq Require Import ZArith Reals Lra Psatz.
From Flocq Require Import Core BinarySingleNaN.
From Verif Require Import Base Num Json Logger World Vesicle MeltVisc RelVisc Bubbles Terrain Lava
  Thermal Flux Integrator Factory Run Spec Frame StepLog StepProofs LoggerProofs RowProofs StepProps
  StepRow ColumnProofs Props_Step FNum FFacts FloatErr Props_Float Props_FloatNan Props_FloatDemo Props_FloatLaws.
Open Scope R_scope.

Definition big : positive := Eval vm_compute in Pos.pow 2 200.
Definition moderateb (x : f64) : bool :=
  is_finite (val x) && Bleb (lit 1 big) (Babs (val x)) && Bleb (Babs (val x)) (lit (Zpos big) 1).

Lemma big_is : IZR (Zpos big) = bpow radix2 200.
Proof. reflexivity. Qed.
Lemma rnd_pow e : (-1022 <= e)%Z -> rnd (bpow radix2 e) = bpow radix2 e.
Proof. intros H. apply round_generic; [typeclasses eauto|apply bpow_in_format; exact H]. Qed.
Lemma lo_is : B2R (lit 1 big) = bpow radix2 (-200) /\ is_finite (lit 1 big) = true.
Proof.
  assert (E : 1 / IZR (Zpos big) = bpow radix2 (-200)) by (rewrite big_is; unfold Rdiv; rewrite Rmult_1_l; reflexivity).
  destruct (lit_correct 1 big) as [A B].
  - rewrite E, rnd_pow by lia. rewrite Rabs_pos_eq by apply bpow_ge_0. apply bpow_lt. unfold emax. lia.
  - split; [|exact B]. rewrite A, E. apply rnd_pow. lia.
Qed.
Lemma hi_is : B2R (lit (Zpos big) 1) = bpow radix2 200 /\ is_finite (lit (Zpos big) 1) = true.
Proof.
  assert (E : IZR (Zpos big) / 1 = bpow radix2 200) by (rewrite big_is; field).
  destruct (lit_correct (Zpos big) 1) as [A B].
  - rewrite E, rnd_pow by lia. rewrite Rabs_pos_eq by apply bpow_ge_0. apply bpow_lt. unfold emax. lia.
  - split; [|exact B]. rewrite A, E. apply rnd_pow. lia.
Qed.
Lemma moderateb_ok x : moderateb x = true -> moderate x.
Proof.
  unfold moderateb. intros H. apply andb_prop in H as [H H3]. apply andb_prop in H as [H1 H2].
  destruct lo_is as [L1 L2], hi_is as [U1 U2].
  assert (Fa : is_finite (Babs (val x)) = true) by (rewrite is_finite_Babs; exact H1).
  rewrite Bleb_correct in H2, H3 by assumption. revert H2 H3.
  case Rle_bool_spec; [intros H2 _|discriminate]. case Rle_bool_spec; [intros H3 _|discriminate].
  rewrite L1, B2R_Babs in H2. rewrite U1, B2R_Babs in H3. split; [exact H1|]. unfold real. lra.
Qed.

#[local] Instance TF : Num f64 := FNum toy.
Definition tw0 : world f64 := initial_world toy_state [] (dbl 14 10).
Definition tsm : sim f64 := toy_sim toy_basic.
Definition after1 : world f64 := snd (single_step tsm tw0).
Definition got (name : string) : f64 :=
  match logged (w_log after1) (st_pos (w_st tw0)) name with
  | Some (CNum x) => x | Some (CStr x) => x | _ => mkf false B754_nan end.

(** All the cells that C78 speaks of are moderate in the first row. *)
Example C78_moderate_cells :
  forallb (fun n => moderateb (got n))
    ["mean_velocity"; "channel_width"; "density"; "channel_depth"; "heat_budget"; "dphi_dtemp"; "dtemp_dx"; "effusion_rate"]
  = true /\ moderateb (lv_latent (s_lava tsm)) = true /\
  is_nan (val (st_pos (w_st tw0))) = false /\ w_iter after1 = 1%nat /\
  match fst (single_step tsm tw0) with Ok _ => true | Err _ => false end = true.
Proof. vm_compute. repeat split. Qed.

(** So this row balances: a concrete instance of the theorem. *)
Example C78_toy_row :
  Rabs (real (got "mean_velocity") * real (got "channel_width") * real (got "channel_depth") - real (got "effusion_rate"))
    <= bpow radix2 (-51) * Rabs (real (got "effusion_rate")) /\
  Rabs (real (got "heat_budget") + real (got "effusion_rate") * real (got "density") * real (lv_latent (s_lava tsm))
        * real (got "dphi_dtemp") * real (got "dtemp_dx")) <= bpow radix2 (-50) * Rabs (real (got "heat_budget")).
Proof.
  destruct C78_moderate_cells as (HM & HL & Hn & Hi & Hok).
  assert (Hs : single_step tsm tw0 = (Ok tt, after1)).
  { unfold after1. destruct (single_step tsm tw0) as [[[]|e] w] eqn:E; [reflexivity|discriminate Hok]. }
  assert (Hne : w_iter after1 <> w_iter tw0) by (rewrite Hi; discriminate).
  destruct (C78_row_balances toy tsm tw0 after1 Hs Hne Hn) as
    (v & wd & rho & h & eff & hb & ra & dT & C1 & C2 & C3 & C4 & C5 & C6 & C7 & C8 & B1 & _ & B2).
  assert (G : forall n x, logged (w_log after1) (st_pos (w_st tw0)) n = Some (CNum x) -> got n = x).
  { intros n x E. unfold got. rewrite E. reflexivity. }
  assert (G' : forall n x, logged (w_log after1) (st_pos (w_st tw0)) n = Some (CStr x) -> got n = x).
  { intros n x E. unfold got. rewrite E. reflexivity. }
  assert (G8 : got "effusion_rate" = eff) by exact (G' _ _ C8).
  rewrite (G _ _ C1), (G _ _ C2), (G _ _ C3), (G _ _ C4), (G _ _ C5), (G _ _ C6), (G _ _ C7), G8.
  cbn [forallb] in HM. rewrite (G _ _ C1), (G _ _ C2), (G _ _ C3), (G _ _ C4), (G _ _ C5), (G _ _ C6), (G _ _ C7), G8 in HM.
  repeat (apply andb_prop in HM as [? HM]).
  split; [apply B1; try reflexivity; apply moderateb_ok; assumption|].
  apply B2; apply moderateb_ok; assumption.
Qed.

(** A ten-metre step from the vent: positions are exact for the next 9e14 steps. *)
Example C78_ten_metres : forall n w', (Z.of_nat n <= 900719925474099)%Z ->
  steps tsm n tw0 = (Ok tt, w') -> w_iter w' = n ->
  real (st_pos (w_st w')) = INR n * 10.
Proof.
  intros n w' Hn H Hi.
  assert (E10 : rnd (10 / 1) = 10).
  { replace (10 / 1) with 10 by field. apply round_generic; [typeclasses eauto|].
    apply generic_format_FLT. exists (Float radix2 10 0); [unfold F2R; simpl; ring|vm_compute; reflexivity|unfold emin; simpl; lia]. }
  destruct (lit_correct 10 1) as [A B].
  { rewrite E10, Rabs_pos_eq by lra. apply Rlt_trans with (bpow radix2 4); [simpl; lra|]. apply bpow_lt. unfold emax. lia. }
  rewrite E10 in A.
  destruct (C78_positions_exact toy tsm n tw0 w' 0 10 0) as [_ P]; try reflexivity; try assumption; try lia.
  - unfold real. simpl. ring.
  - change (real (s_dx tsm)) with (B2R (lit 10 1)). rewrite A. simpl. ring.
  - rewrite P. change (real (s_dx tsm)) with (B2R (lit 10 1)). rewrite A. unfold real. simpl. ring.
Qed.
