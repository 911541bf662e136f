(** * Run: pyflowgo/run_flowgo.py and main_flowgo.py *)
From Verif Require Import Base Num Json Logger World Vesicle MeltVisc RelVisc Bubbles Terrain Lava
  Thermal Flux Integrator Factory.

(** The file system: paths to contents.  JSON and CSV files are kept parsed.
    [FOuts]: run_outs_<name>.csv of run_outs.py:12-93, the flow id and the ten
    numbers of each line under a fixed header. *)
Inductive file (T : Type) : Type :=
| FJson (j : json T)
| FText (lines : list string)
| FCsv (c : csv_file T)
| FOuts (rows : list (json T * list T)).
Arguments FJson {T}. Arguments FText {T}. Arguments FCsv {T}. Arguments FOuts {T}.

Definition fsys (T : Type) : Type := string -> option (file T).
Definition fs_write {T} (p : string) (f : file T) (fs : fsys T) : fsys T :=
  fun q => if String.eqb q p then Some f else fs q.

(** os.path.join(a, b), POSIX. *)
Fixpoint last_char (s : string) : option ascii :=
  match s with
  | EmptyString => None
  | String c EmptyString => Some c
  | String _ r => last_char r
  end.
Definition path_join (a b : string) : string :=
  match b with
  | String "/" _ => b
  | _ => match last_char a with
         | None => b
         | Some "/"%char => (a ++ b)%string
         | Some _ => (a ++ "/" ++ b)%string
         end
  end.

Section Run.
Context {T : Type} {N : Num T}.
(** [str(x)] of floats and containers, left abstract. *)
Context (str_float : T -> string) (str_container : json T -> string).

(** str(v) as used by the f-strings at run_flowgo.py:107,120 *)
Definition py_str (j : json T) : string :=
  match j with
  | JNull => "None"
  | JBool true => "True"
  | JBool false => "False"
  | JInt z => Z_to_string z
  | JFloat x => str_float x
  | JStr s => s
  | _ => str_container j
  end.

(** json.load(open(path)) *)
Definition load_json (fs : fsys T) (path : string) : res (json T) :=
  match fs path with
  | None => Err (FileNotFoundError path)
  | Some (FJson j) => Ok j
  | Some _ => Err (ValueError "JSONDecodeError")
  end.

(** bool(v) *)
Definition py_bool (j : json T) : bool :=
  match j with
  | JNull => false
  | JBool b => b
  | JInt z => negb (Z.eqb z 0)
  | JFloat x => negb (n_eqb x zero)
  | JStr s => negb (String.eqb s "")
  | JArr l => negb (Nat.eqb (length l) 0)
  | JObj f => negb (Nat.eqb (length f) 0)
  end.

(** run_flowgo.py:56-61 — interpretation of mass_conservation *)
Definition mass_flag (raw : json T) : bool :=
  match raw with
  | JStr s => String.eqb (lower (strip s)) "true"
  | _ => py_bool raw
  end.
(** main_flowgo.py:57-61 with integrator.py:97: the raw value compared by
    [== True] *)
Definition main_mass_flag (raw : json T) : bool :=
  match raw with
  | JBool b => b
  | JInt z => Z.eqb z 1
  | JFloat x => n_eqb x one
  | _ => false
  end.
(** run_flowgo.py:56 — data['terrain_conditions'].get('mass_conservation', False) *)
Definition mass_raw (d : json T) : res (json T) :=
  let? tc := jget d "terrain_conditions" in
  match tc with
  | JObj f => Ok (match assoc "mass_conservation" f with Some v => v | None => JBool false end)
  | _ => Err (AttributeError "get")
  end.

(** run_flowgo.py:44-46, 48-50, 52-53: [if key not in data: raise ValueError] *)
Definition require1 (d : json T) (key : string) : res (json T) :=
  let? b := jmem d key in
  if b then jget d key else Err (ValueError key).

(** terrain_condition.read_slope_from_file(slope_file): a None value selects a
    default path (terrain_condition.py:74-75); any value that is not a string
    is rejected by open() (simplification for integers). *)
Definition read_slope_lines (fs : fsys T) (slope_file : json T) : res (list string) :=
  let? path := match slope_file with
               | JStr s => Ok s
               | JNull => Ok "../MaunaUlu74/DEM_maunaulu74.txt"
               | _ => Err TypeError
               end in
  match fs path with
  | None => Err (FileNotFoundError path)
  | Some (FText lines) => Ok lines
  | Some _ => Err (ValueError "not a slope file")
  end.

Definition crust_profile (fs : fsys T) : option (list string) :=
  match fs "resources/crust_temperature_profile.txt" with
  | Some (FText lines) => Some lines
  | _ => None
  end.

(** run_flowgo.py:39-101 — everything before init_effusion_rate: the
    configuration is read and checked, the models are built, the state
    initialised.  Result: effusion_rate_init and lava_name as found, the
    simulation, the initial state and the initial channel depth. *)
Definition prepare (flag : json T -> bool) (fs : fsys T) (json_file : string)
  : res (json T * json T * sim T * state T * T) :=
  let? d := load_json fs json_file in
  let? eri := jget d "effusion_rate_init" in
  let? name := require1 d "lava_name" in
  let? slope_file := require1 d "slope_file" in
  let? step := require1 d "step_size" in
  let? dx := py_float step in
  let? raw := mass_raw d in
  let? tds := read_terrain d in
  let '(ter0, depth, smooth) := tds in
  let? lines := read_slope_lines fs slope_file in
  let? ter := read_slope_from_file lines smooth ter0 in
  let? m := build_models d (crust_profile fs) in
  let sm := {| s_dx := dx; s_lava := mo_lava m; s_air := mo_air m; s_ter := ter;
               s_cryst := mo_cryst m; s_crust := mo_crust m; s_cover := mo_cover m;
               s_budget := mo_budget m; s_mass := flag raw |} in
  let? st := initialize_state (mo_lava m) (mo_cryst m) d in
  Ok (eri, name, sm, st, depth).

(** run_flowgo.py:107 *)
Definition result_path (folder : string) (name eri : json T) : string :=
  path_join folder ("results_flowgo_" ++ py_str name ++ "_" ++ py_str eri ++ "m3s.csv")%string.

(** flowgo_logger.py:47-59 with its effect on the file system: the file is
    opened (hence created) before the rows are written, so a refused row leaves
    a file with the rows written so far. *)
Fixpoint csv_rows_until (fields : list string) (t : table T) : list (list (option (cell T))) :=
  match t with
  | [] => []
  | r :: rest => match csv_of_row fields r with
                 | Ok line => line :: csv_rows_until fields rest
                 | Err _ => []
                 end
  end.
Definition write_table (path : string) (t : table T) (fs : fsys T) : res unit * fsys T :=
  match t with
  | [] => (Ok tt, fs)
  | first :: _ =>
      let fields := map fst first in
      let fs' := fs_write path (FCsv {| csv_header := fields; csv_rows := csv_rows_until fields t |}) fs in
      match write_values_to_file t with
      | Ok _ => (Ok tt, fs')
      | Err e => (Err e, fs')
      end
  end.

(** run_flowgo.py:103-106: init_effusion_rate and the loop.  [None]: the loop
    has not ended within [fuel] steps. *)
Definition simulate (fuel : nat) (sm : sim T) (w : world T) : option (res unit * world T) :=
  match init_effusion_rate sm w with
  | (Err e, w') => Some (Err e, w')
  | (Ok _, w') => run_loop sm fuel w'
  end.

(** run_flowgo.py:37-109 — RunFlowgo.run, on the logger table left by previous
    activity of the process. *)
Definition run (fuel : nat) (fs : fsys T) (log : table T) (json_file folder : string)
  : option (res unit * fsys T * table T) :=
  match prepare mass_flag fs json_file with
  | Err e => Some (Err e, fs, log)
  | Ok (eri, name, sm, st, depth) =>
      match simulate fuel sm (initial_world st log depth) with
      | None => None
      | Some (Err e, w) => Some (Err e, fs, w_log w)
      | Some (Ok _, w) =>
          let '(r, fs') := write_table (result_path folder name eri) (w_log w) fs in
          Some (r, fs', w_log w)
      end
  end.

(** run_flowgo.py:30-35 — RunFlowgo.__init__: clears the logger. *)
Definition new_runner (log : table T) : table T := clear.

(** main_flowgo.py:37-103 — the command-line entry point: same as run(), in a
    fresh process (empty logger), with the raw mass_conservation value and a
    fixed results folder (lines 100-103).  Simplification: opening the result
    file is assumed to succeed (the folder exists), here and in [run]. *)
Definition main_result_path (name eri : json T) : string :=
  path_join (path_join "." "results_flowgo")
    ("results_main_flowgo_" ++ py_str name ++ "_" ++ py_str eri ++ "m3s.csv")%string.
Definition main_flowgo (fuel : nat) (fs : fsys T) (json_file : string)
  : option (res unit * fsys T * table T) :=
  match prepare main_mass_flag fs json_file with
  | Err e => Some (Err e, fs, [])
  | Ok (eri, name, sm, st, depth) =>
      match simulate fuel sm (initial_world st [] depth) with
      | None => None
      | Some (Err e, w) => Some (Err e, fs, w_log w)
      | Some (Ok _, w) =>
          let '(r, fs') := write_table (main_result_path name eri) (w_log w) fs in
          Some (r, fs', w_log w)
      end
  end.

(** run_flowgo.py:111-123 — get_file_name_results *)
Definition get_file_name_results (fs : fsys T) (folder json_file : string) : res string :=
  let? d := load_json fs json_file in
  let? eri := jget d "effusion_rate_init" in
  let? name := require1 d "lava_name" in
  Ok (result_path folder name eri).
End Run.
