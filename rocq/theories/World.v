(** * World: the mutable objects of a run and the effect monad. *)
From Verif Require Import Base Num Json Logger.

(** flowgo_state.py:40-78 — FlowGoState.  [_current_slope] (line 47) is never
    read or written after construction and is omitted. *)
Record state (T : Type) : Type := {
  st_phi    : T;   (* _crystal_fraction *)
  st_temp   : T;   (* _core_temperature *)
  st_pos    : T;   (* _current_position *)
  st_time   : T;   (* _current_time *)
  st_strain : T    (* _strain_rate *)
}.
Arguments st_phi {T}. Arguments st_temp {T}. Arguments st_pos {T}.
Arguments st_time {T}. Arguments st_strain {T}.

(** Everything a step may mutate: the state object, the process-wide logger
    table (flowgo_logger.py:19-30), the terrain's channel depth
    (flowgo_terrain_condition.py:135-136) and the integrator attributes
    effusion_rate, flux_rate, iteration, _has_finished
    (flowgo_integrator.py:35-37,60).  [w_flux = None] means that the attribute
    [flux_rate] does not exist yet.  [w_iter] is a nat instead of the float
    counter 0., 1., ... (only compared with 0.). *)
Record world (T : Type) : Type := {
  w_st    : state T;
  w_log   : table T;
  w_depth : T;
  w_eff   : T;
  w_flux  : option T;
  w_iter  : nat;
  w_fin   : bool
}.
Arguments w_st {T}. Arguments w_log {T}. Arguments w_depth {T}. Arguments w_eff {T}.
Arguments w_flux {T}. Arguments w_iter {T}. Arguments w_fin {T}.

Section World.
Context {T : Type} {N : Num T}.

(** flowgo_state.py:53-78 — the setters. *)
Definition set_crystal_fraction (x : T) (s : state T) : state T :=
  {| st_phi := x; st_temp := st_temp s; st_pos := st_pos s; st_time := st_time s; st_strain := st_strain s |}.
Definition set_core_temperature (x : T) (s : state T) : state T :=
  {| st_phi := st_phi s; st_temp := x; st_pos := st_pos s; st_time := st_time s; st_strain := st_strain s |}.
Definition set_current_position (x : T) (s : state T) : state T :=
  {| st_phi := st_phi s; st_temp := st_temp s; st_pos := x; st_time := st_time s; st_strain := st_strain s |}.
Definition set_current_time (x : T) (s : state T) : state T :=
  {| st_phi := st_phi s; st_temp := st_temp s; st_pos := st_pos s; st_time := x; st_strain := st_strain s |}.
Definition set_strain_rate (x : T) (s : state T) : state T :=
  {| st_phi := st_phi s; st_temp := st_temp s; st_pos := st_pos s; st_time := st_time s; st_strain := x |}.

Definition set_st (s : state T) (w : world T) : world T :=
  {| w_st := s; w_log := w_log w; w_depth := w_depth w; w_eff := w_eff w;
     w_flux := w_flux w; w_iter := w_iter w; w_fin := w_fin w |}.
Definition set_log (l : table T) (w : world T) : world T :=
  {| w_st := w_st w; w_log := l; w_depth := w_depth w; w_eff := w_eff w;
     w_flux := w_flux w; w_iter := w_iter w; w_fin := w_fin w |}.
Definition set_depth (d : T) (w : world T) : world T :=
  {| w_st := w_st w; w_log := w_log w; w_depth := d; w_eff := w_eff w;
     w_flux := w_flux w; w_iter := w_iter w; w_fin := w_fin w |}.
Definition set_eff (e : T) (w : world T) : world T :=
  {| w_st := w_st w; w_log := w_log w; w_depth := w_depth w; w_eff := e;
     w_flux := w_flux w; w_iter := w_iter w; w_fin := w_fin w |}.
Definition set_flux (f : T) (w : world T) : world T :=
  {| w_st := w_st w; w_log := w_log w; w_depth := w_depth w; w_eff := w_eff w;
     w_flux := Some f; w_iter := w_iter w; w_fin := w_fin w |}.
Definition incr_iter (w : world T) : world T :=
  {| w_st := w_st w; w_log := w_log w; w_depth := w_depth w; w_eff := w_eff w;
     w_flux := w_flux w; w_iter := S (w_iter w); w_fin := w_fin w |}.
Definition set_finished (w : world T) : world T :=
  {| w_st := w_st w; w_log := w_log w; w_depth := w_depth w; w_eff := w_eff w;
     w_flux := w_flux w; w_iter := w_iter w; w_fin := true |}.

(** Effectful Python code: the world it leaves behind is kept also when it
    raises. *)
Definition M (A : Type) : Type := world T -> res A * world T.

Definition ret {A} (a : A) : M A := fun w => (Ok a, w).
Definition raise {A} (e : exn) : M A := fun w => (Err e, w).
Definition bind {A B} (m : M A) (f : A -> M B) : M B :=
  fun w => match m w with
           | (Ok a, w1) => f a w1
           | (Err e, w1) => (Err e, w1)
           end.
(** Run a computation that only reads the world. *)
Definition reads {A} (f : world T -> res A) : M A := fun w => (f w, w).
Definition lift {A} (r : res A) : M A := fun w => (r, w).
Definition modify (f : world T -> world T) : M unit := fun w => (Ok tt, f w).
Definition get {A} (f : world T -> A) : M A := fun w => (Ok (f w), w).

(** self.logger.add_variable(name, state.get_current_position(), value) *)
Definition log_var (name : string) (value : cell T) : M unit :=
  modify (fun w => set_log (add_variable name (st_pos (w_st w)) value (w_log w)) w).

Lemma bind_ok {A B} (m : M A) (f : A -> M B) w b w' :
  bind m f w = (Ok b, w') -> exists a w1, m w = (Ok a, w1) /\ f a w1 = (Ok b, w').
Proof.
  unfold bind. destruct (m w) as [[a|e] w1]; intros H; [eauto | discriminate].
Qed.

Lemma bind_err {A B} (m : M A) (f : A -> M B) w e w' :
  bind m f w = (Err e, w') ->
  m w = (Err e, w') \/ exists a w1, m w = (Ok a, w1) /\ f a w1 = (Err e, w').
Proof.
  unfold bind. destruct (m w) as [[a|e'] w1]; intros H; [eauto|].
  left. congruence.
Qed.
End World.

Notation "'let!' x ':=' m 'in' f" := (bind m (fun x => f))
  (at level 200, x name, m at level 100, f at level 200, right associativity).
Notation "'do!' m ';' f" := (bind m (fun _ : unit => f))
  (at level 200, m at level 100, f at level 200, right associativity).
