(** * Crash: runs as processes that share a disk and may be interrupted *)
From Verif Require Import Base Num Json Logger World Vesicle MeltVisc RelVisc Bubbles Terrain Lava
  Thermal Flux Integrator Factory Run EffArray EditJson.

(** What a path holds: a whole file, or one that is being written or whose
    writer was killed: the first [k] characters of the text of [f].
    (open(p, 'w') empties the file, the text arrives in pieces as Python's
    buffer is flushed, leaving the with block completes it.) *)
Inductive content (T : Type) : Type :=
| Whole (f : file T)
| Part (f : file T) (k : nat).
Arguments Whole {T}. Arguments Part {T}.
Definition disk (T : Type) : Type := string -> option (content T).
Definition put {T} (p : string) (c : content T) (d : disk T) : disk T :=
  fun q => if String.eqb q p then Some c else d q.

(** A process: it reads files, overwrites files, and ends with a result. *)
Inductive proc (T A : Type) : Type :=
| Done (a : A)
| Read (p : string) (k : option (file T) -> proc T A)
| Write (p : string) (f : file T) (next : proc T A)
| Writing (p : string) (f : file T) (next : proc T A).    (* inside the with block *)
Arguments Done {T A}. Arguments Read {T A}. Arguments Write {T A}. Arguments Writing {T A}.

Section Machine.
Context {T : Type}.
(** What a reader makes of the first [k] characters of a file: anything. *)
Context (garbled : file T -> nat -> file T).
Definition view (c : content T) : file T := match c with Whole f => f | Part f k => garbled f k end.
Definition seen (d : disk T) : fsys T := fun p => match d p with Some c => Some (view c) | None => None end.

(** One move of a process: [None] is its next operation, [Some k] a flush of
    the buffer up to [k] characters (nothing unless a file is being written). *)
Definition move {A} (m : option nat) (d : disk T) (x : proc T A) : disk T * proc T A :=
  match x, m with
  | Read p k, None => (d, k (seen d p))
  | Write p f next, None => (put p (Part f 0) d, Writing p f next)
  | Writing p f next, None => (put p (Whole f) d, next)
  | Writing p f next, Some k => (put p (Part f k) d, x)
  | _, _ => (d, x)
  end.

(** A process on its own, up to any moment: if it is killed then, this is what
    the disk holds. *)
Fixpoint goes {A} (ms : list (option nat)) (d : disk T) (x : proc T A) : disk T * proc T A :=
  match ms with
  | [] => (d, x)
  | m :: r => let '(d', x') := move m d x in goes r d' x'
  end.
(** ... and to its end, undisturbed. *)
Fixpoint alone {A} (d : disk T) (x : proc T A) : A * disk T :=
  match x with
  | Done a => (a, d)
  | Read p k => alone d (k (seen d p))
  | Write p f next | Writing p f next => alone (put p (Whole f) d) next
  end.
(** The paths it reads and those it writes, when undisturbed. *)
Fixpoint reads {A} (d : disk T) (x : proc T A) : list string :=
  match x with
  | Done _ => []
  | Read p k => p :: reads d (k (seen d p))
  | Write p f next | Writing p f next => reads (put p (Whole f) d) next
  end.
Fixpoint writes {A} (d : disk T) (x : proc T A) : list string :=
  match x with
  | Done _ => []
  | Read p k => writes d (k (seen d p))
  | Write p f next | Writing p f next => p :: writes (put p (Whole f) d) next
  end.

(** Several processes on one disk: the schedule says who moves. *)
Definition upd {A} (i : nat) (x : A) (ps : nat -> A) : nat -> A := fun j => if Nat.eqb j i then x else ps j.
Fixpoint together {A} (sch : list (nat * option nat)) (d : disk T) (ps : nat -> proc T A) : disk T * (nat -> proc T A) :=
  match sch with
  | [] => (d, ps)
  | (i, m) :: r => let '(d', x) := move m d (ps i) in together r d' (upd i x ps)
  end.
End Machine.

Fixpoint andthen {T A B} (x : proc T A) (k : A -> proc T B) : proc T B :=
  match x with
  | Done a => k a
  | Read p c => Read p (fun o => andthen (c o) k)
  | Write p f next => Write p f (andthen next k)
  | Writing p f next => Writing p f (andthen next k)
  end.

Section Runs.
Context {T : Type} {N : Num T}.
Context (str_float : T -> string) (str_container : json T -> string).

(** json.load of what was read *)
Definition json_of (path : string) (o : option (file T)) : res (json T) :=
  match o with
  | None => Err (FileNotFoundError path)
  | Some (FJson j) => Ok j
  | Some _ => Err (ValueError "JSONDecodeError")
  end.
Definition lines_of (path : string) (o : option (file T)) : res (list string) :=
  match o with
  | None => Err (FileNotFoundError path)
  | Some (FText lines) => Ok lines
  | Some _ => Err (ValueError "not a slope file")
  end.
Definition slope_path (slope_file : json T) : res string :=
  match slope_file with
  | JStr s => Ok s
  | JNull => Ok "../MaunaUlu74/DEM_maunaulu74.txt"
  | _ => Err TypeError
  end.
Definition fails {A} (e : exn) : proc T (option (res A)) := Done (Some (Err e)).
Definition rdo {A B} (r : res A) (k : A -> proc T (option (res B))) : proc T (option (res B)) :=
  match r with Ok a => k a | Err e => fails e end.

(** run_flowgo.py:30-109 — RunFlowgo() and run(), in a process of its own.  The
    configuration file is opened again by the terrain (terrain_condition.py:59),
    by the model factory and the models (model_factory.py:472 and others; one
    read here), and by the initial state (integrator.py:220).  The crust profile
    is read here whatever the crust model. *)
Definition run_proc (fuel : nat) (json_file folder : string) : proc T (option (res unit)) :=
  Read json_file (fun o1 =>                                                 (* run_flowgo.py:40-61 *)
  rdo (let? d := json_of json_file o1 in
       let? eri := jget d "effusion_rate_init" in
       let? name := require1 d "lava_name" in
       let? slope_file := require1 d "slope_file" in
       let? step := require1 d "step_size" in
       let? dx := py_float step in
       let? raw := mass_raw d in
       Ok (eri, name, slope_file, dx, raw)) (fun '(eri, name, slope_file, dx, raw) =>
  Read json_file (fun o2 =>                                                 (* terrain_condition.py:59-60 *)
  rdo (let? d := json_of json_file o2 in read_terrain d) (fun '(ter0, depth, smooth) =>
  rdo (slope_path slope_file) (fun sp =>
  Read sp (fun o3 =>                                                        (* terrain_condition.py:83 *)
  rdo (let? lines := lines_of sp o3 in read_slope_from_file lines smooth ter0) (fun ter =>
  Read json_file (fun o4 =>                                                 (* model_factory.py:472 *)
  Read "resources/crust_temperature_profile.txt" (fun o5 =>                 (* crust_temperature_model_field.py:64-72 *)
  rdo (let? d := json_of json_file o4 in
       build_models d (match o5 with Some (FText lines) => Some lines | _ => None end)) (fun m =>
  Read json_file (fun o6 =>                                                 (* integrator.py:220 *)
  rdo (let? d := json_of json_file o6 in initialize_state (mo_lava m) (mo_cryst m) d) (fun st =>
  let sm := {| s_dx := dx; s_lava := mo_lava m; s_air := mo_air m; s_ter := ter;
               s_cryst := mo_cryst m; s_crust := mo_crust m; s_cover := mo_cover m;
               s_budget := mo_budget m; s_mass := mass_flag raw |} in
  match simulate fuel sm (initial_world st [] depth) with
  | None => Done None
  | Some (Err e, _) => fails e
  | Some (Ok _, w) =>
      match w_log w with                                                    (* flowgo_logger.py:47-59 *)
      | [] => Done (Some (Ok tt))
      | first :: _ =>
          let fields := map fst first in
          Write (result_path str_float str_container folder name eri)
            (FCsv {| csv_header := fields; csv_rows := csv_rows_until fields (w_log w) |})
            (match write_values_to_file (w_log w) with
             | Ok _ => Done (Some (Ok tt))
             | Err e => fails e
             end)
      end
  end)))))))))))).

(** run_flowgo_effusion_rate_array.py:44-72, the part before the plots. *)
Fixpoint sweep_proc (fuel : nat) (working folder : string) (base : json T) (rates : list Z) (names : list string)
  : proc T (option (res (list string))) :=
  match rates with
  | [] => Done (Some (Ok names))
  | r :: rest =>
      rdo (jset base "effusion_rate_init" (JInt r)) (fun data =>
      Write working (FJson data)                                            (* lines 59-60 *)
      (andthen (run_proc fuel working folder) (fun o =>
       match o with
       | None => Done None
       | Some (Err e) => fails e
       | Some (Ok _) =>
           rdo (jget data "lava_name") (fun name =>
           sweep_proc fuel working folder base rest
             (names ++ [result_path str_float str_container folder name (JInt r)]))
       end)))
  end.
Definition effusion_rates_proc (fuel : nat) (json_file folder : string) (first last step : Z) : proc T (option (res (list string))) :=
  Read json_file (fun o =>
  rdo (json_of json_file o) (fun base =>
  rdo (py_range first (last + step) step) (fun rates =>
  sweep_proc fuel (working_path folder json_file) folder base rates []))).

(** edit_json.py:164-172 (and the loading before it) — an editor session: the
    file is read once when it is opened and overwritten in place on save. *)
Definition session_proc (constant : string -> T) (repr_float : T -> string) (path : string) (l : list action) : proc T (option (res bool)) :=
  Read path (fun o =>
  rdo (let? j := json_of path o in
       let? e := open_editor repr_float j in
       let? e1 := acts l e in
       Ok (j, e1)) (fun '(j, e1) =>
  match rebuild constant (ed_labels e1) j "" with
  | Ok d => Write path (FJson d) (Done (Some (Ok true)))
  | Err _ => Done (Some (Ok false))
  end)).
End Runs.
