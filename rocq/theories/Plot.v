(** * Plot: pyflowgo/plot_flowgo_results.py, the whole effusion-rate sweep, and
    the two buttons of main_run_and_plot_flowgo_GUI.py

    What is drawn is data: the labelled series handed to matplotlib.  Drawing,
    styling and saving are assumed to succeed, except that Axes.plot(x, y)
    raises ValueError when x and y have different lengths. *)
From Verif Require Import Base Num Json Logger World Vesicle MeltVisc RelVisc Bubbles Terrain Lava
  Thermal Flux Integrator Factory Run EffArray.

(** str.replace(old, new): every non-overlapping occurrence, from the left; an
    empty [old] does not occur here. *)
Fixpoint replace_all (fuel : nat) (old s : string) : string :=
  match fuel with
  | O => s
  | S f => if String.eqb old "" then s else
           if String.prefix old s then replace_all f old (substring (String.length old) (String.length s) s)
           else match s with EmptyString => EmptyString | String c r => String c (replace_all f old r) end
  end.
Definition py_remove (old s : string) : string := replace_all (S (String.length s)) old s.
(** label.endswith(".csv") and label[:-4] *)
Definition drop_csv (s : string) : string :=
  let n := String.length s in
  if (4 <=? n)%nat && String.eqb (substring (n - 4) 4 s) ".csv" then substring 0 (n - 4) s else s.
(** plot_flowgo_results.py:88-90 *)
Definition plot_label (folder file : string) : string :=
  drop_csv (py_remove (path_join folder "results_flowgo_") file).

Section Plot.
Context {T : Type} {N : Num T}.
Context (str_float : T -> string) (str_container : json T -> string) (round_to : nat -> T -> T).
Open Scope num_scope.

(** Lines 125-144: the columns every row must have, in the order in which they
    are read. *)
Definition plot_columns : list string :=
  ["position"; "slope"; "core_temperature"; "mean_velocity"; "viscosity"; "tho_0"; "tho_b"; "crystal_fraction";
   "vesicle_fraction"; "channel_width"; "channel_depth"; "effusion_rate"; "crust_temperature";
   "effective_cover_fraction"; "dphi_dtemp"; "dphi_dx"; "characteristic_surface_temperature"].
(** Lines 146-168: columns replaced by 0.0 when absent or empty. *)
Definition optional_columns : list string :=
  ["effective_radiation_temperature"; "flowgofluxradiationheat"; "flowgofluxconductionheat";
   "flowgofluxforcedconvectionheat"].
Definition snyder_column : string := "flowgofluxsnyderheat".

(** ['x' in row and row['x'] != ''] then float(row['x']) *)
Fixpoint opt_field (name : string) (header : list string) (line : list (option (cell T))) : option T :=
  match header, line with
  | h :: hs, c :: cs =>
      if String.eqb name h then
        match c with Some (CNum x) => Some x | Some (CStr x) => Some x | None => None end
      else opt_field name hs cs
  | _, _ => None
  end.

(** One row of the loop, lines 124-173: the mandatory columns, the optional
    columns with their default, the Snyder flux if there is one. *)
Record plot_row : Type := { pr_cols : list T; pr_opts : list T; pr_snyder : option T }.
Definition read_plot_row (header : list string) (line : list (option (cell T))) : res plot_row :=
  let? cols := rmapM (fun n => field n header line) plot_columns in
  Ok {| pr_cols := cols;
        pr_opts := map (fun n => match opt_field n header line with Some x => x | None => zero end) optional_columns;
        pr_snyder := opt_field snyder_column header line |}.
Definition pr_position (r : plot_row) : T := hd zero (pr_cols r).

(** The series drawn for one result file. *)
Record drawn : Type := { dr_label : string; dr_rows : list plot_row; dr_snyder : list T }.

(** Lines 86-338, one result file.  [bound]: the local variable [qsnyder] has
    been assigned (line 173), by this file or by an earlier one; line 292 reads
    it.  round() of the first effusion rate (line 121) is only computed; it
    fails for an infinite or undefined number exactly as int() does. *)
Definition plot_file (fs : fsys T) (folder : string) (bound : bool) (path : string) : res (drawn * bool) :=
  match fs path with
  | None => Err (FileNotFoundError path)
  | Some (FCsv c) =>
      match csv_rows c with
      | [] => Err StopIteration                                             (* line 120: next(csvreader) *)
      | first :: others =>
          let? e := field "effusion_rate" (csv_header c) first in           (* line 121 *)
          let? _ := n_trunc e in
          let? rows := rmapM (read_plot_row (csv_header c)) others in       (* lines 124-175 *)
          let? _ := py_max_list (map pr_position rows) in                   (* line 177 *)
          let? _ := nth_err rows 1 in                                       (* line 178 *)
          let snyder := keep_some (map pr_snyder rows) in
          let bound' := bound || negb (Nat.eqb (length snyder) 0) in
          if bound' then                                                    (* line 292 *)
            if Nat.eqb (length snyder) (length rows)                        (* line 293 *)
            then Ok ({| dr_label := plot_label folder path; dr_rows := rows; dr_snyder := snyder |}, true)
            else Err (ValueError "x and y must have same first dimension")
          else Err (NameError "qsnyder")                                    (* UnboundLocalError *)
      end
  | Some _ => Err (KeyError "effusion_rate")
  end.
Fixpoint plot_files (fs : fsys T) (folder : string) (bound : bool) (files : list string) : res (list drawn) :=
  match files with
  | [] => Ok []
  | p :: rest =>
      let? r := plot_file fs folder bound p in
      let? ds := plot_files fs folder (snd r) rest in
      Ok (fst r :: ds)
  end.

(** Lines 27-50: json_data.get('slope_file') and the reading of that file:
    distance, slope and altitude of every line but the first. *)
Definition plot_slope_line (text : string) : res (T * T) :=
  let line := split_on tab_char text in
  let? d := column line 3 in
  let? s := column line 4 in
  let? _ := column line 2 in
  Ok (d, s).
Definition plot_slope_file (fs : fsys T) (json_file : string) : res (list (T * T)) :=
  let? data := load_json fs json_file in
  let? v := match data with
            | JObj f => Ok (match assoc "slope_file" f with Some v => v | None => JNull end)
            | _ => Err (AttributeError "get")
            end in
  match v with
  | JStr path => match fs path with
                 | None => Err (FileNotFoundError path)
                 | Some (FText lines) => rmapM plot_slope_line (tl lines)
                 | Some _ => Err (ValueError "not a slope file")
                 end
  | _ => Err TypeError                                                      (* open(None) *)
  end.

(** Lines 25-356 — plot_all_results: the original profile and the series of
    each file; the four pictures are saved after the last file has been drawn
    (lines 340-356), so an exception leaves none. *)
Definition pictures (folder : string) : list string :=
  [folder ++ "/lava_properties.png"; folder ++ "/heat_fluxes.png"; folder ++ "/crustal_conditions.png";
   folder ++ "/slope.png"]%string.
Record plots : Type := { pl_profile : list (T * T); pl_drawn : list drawn; pl_saved : list string }.
Definition plot_all_results (fs : fsys T) (folder : string) (files : list string) (json_file : string) : res plots :=
  let? profile := plot_slope_file fs json_file in
  let? ds := plot_files fs folder false files in
  Ok {| pl_profile := profile; pl_drawn := ds; pl_saved := pictures folder |}.

(** run_flowgo_effusion_rate_array.py:34-82 — the sweep, then the plots, then
    the run-out table. *)
Definition effusion_rate_array (fuel : nat) (fs : fsys T) (log : table T) (json_file folder slope_file : string)
    (first last step : Z) : option (res (plots * list (T * T)) * fsys T * table T) :=
  match run_effusion_rates str_float str_container fuel fs log json_file folder first last step with
  | None => None
  | Some (Err e, fs1, log1) => Some (Err e, fs1, log1)
  | Some (Ok names, fs1, log1) =>
      match (let? p := plot_all_results fs1 folder names json_file in
             let? data := load_json fs1 json_file in
             let? name := jget data "lava_name" in
             Ok (p, name)) with
      | Err e => Some (Err e, fs1, log1)
      | Ok (p, name) =>
          let '(r, fs2) := get_run_outs str_float str_container round_to fs1 folder names slope_file name in
          Some (rmap (fun series => (p, series)) r, fs2, log1)
      end
  end.

(** main_run_and_plot_flowgo_GUI.py:21-42 and main_run_and_plot_flowgo.py:44-54
    — one run and its plots.  The success message is shown exactly when this
    returns. *)
Definition run_and_plot (fuel : nat) (fs : fsys T) (log : table T) (json_file folder : string) (others : list string)
  : option (res plots * fsys T * table T) :=
  match run str_float str_container fuel fs (new_runner log) json_file folder with
  | None => None
  | Some (Err e, fs1, log1) => Some (Err e, fs1, log1)
  | Some (Ok _, fs1, log1) =>
      Some (let? p := get_file_name_results str_float str_container fs1 folder json_file in
            plot_all_results fs1 folder (p :: others) json_file, fs1, log1)
  end.
End Plot.
Arguments plot_row : clear implicits.
Arguments drawn : clear implicits.
Arguments plots : clear implicits.
