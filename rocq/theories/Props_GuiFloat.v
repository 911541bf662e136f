(** * Props_GuiFloat: C69 in binary64 — an entry too large for a float *)
From Flocq Require Import Core BinarySingleNaN.
From Verif Require Import Base Num Json Logger World Vesicle MeltVisc RelVisc Bubbles Terrain Lava
  Thermal Flux Integrator Factory Run EffArray Plot Gui FNum.

(** The message box is only shown for ValueError; int(inf) raises
    OverflowError, which nobody catches. *)
Theorem C69_overflowing_entry_not_reported_refuted : forall (L : libm) sf sc rt fuel (fs : fsys f64) log json_file folder t1 t2 t3 b s,
  json_file <> "" -> folder <> "" -> @parse_float f64 (FNum L) t1 = Ok (mkf b (B754_infinity s)) ->
  @sweep_button f64 (FNum L) sf sc rt fuel fs log json_file folder t1 t2 t3 = Some (NoBox OverflowError, fs, log).
Proof.
  intros L sf sc rt fuel fs log jf folder t1 t2 t3 b s Hj Hf H. unfold sweep_button.
  apply String.eqb_neq in Hj, Hf. rewrite Hj, Hf. cbn [orb]. unfold entry_rates, entry_rate. rewrite H. reflexivity.
Qed.
Example entry_1e400 : forall L, @parse_float f64 (FNum L) "1e400" = Ok (mkf false (B754_infinity false)).
Proof. intros L. vm_compute. reflexivity. Qed.
