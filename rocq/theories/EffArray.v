(** * EffArray: pyflowgo/run_flowgo_effusion_rate_array.py and run_outs.py *)
From Verif Require Import Base Num Json Logger World Vesicle MeltVisc RelVisc Bubbles Terrain Lava
  Thermal Flux Integrator Factory Run.

(** Python's range(a, b, s) (ValueError when s = 0). *)
Fixpoint range_from (n : nat) (a s : Z) : list Z :=
  match n with O => [] | S n' => a :: range_from n' (a + s) s end%Z.
(** Number of elements, as CPython computes it. *)
Definition range_len (a b s : Z) : Z :=
  if (0 <? s)%Z then (if (a <? b)%Z then (b - a - 1) / s + 1 else 0)%Z
  else (if (b <? a)%Z then (a - b - 1) / (- s) + 1 else 0)%Z.
Definition py_range (a b s : Z) : res (list Z) :=
  if (s =? 0)%Z then Err (ValueError "range() arg 3 must not be zero")
  else Ok (range_from (Z.to_nat (range_len a b s)) a s).

(** os.path.basename, POSIX: what follows the last slash. *)
Definition basename (p : string) : string := last (split_on "/" p) "".

Section EffArray.
Context {T : Type} {N : Num T}.
Context (str_float : T -> string) (str_container : json T -> string).

(** run_flowgo_effusion_rate_array.py:24-32 — make_new_json: the template with
    lava_name and slope_file replaced, written to output_file.  Item assignment
    on a JSON value that is not an object raises TypeError. *)
Definition jset (j : json T) (k : string) (v : json T) : res (json T) :=
  match j with JObj f => Ok (JObj (assoc_set k v f)) | _ => Err TypeError end.
Definition make_new_json (fs : fsys T) (template eruption_name slope_file output : string)
  : res (fsys T) :=
  let? d := load_json fs template in
  let? d1 := jset d "lava_name" (JStr eruption_name) in
  let? d2 := jset d1 "slope_file" (JStr slope_file) in
  Ok (fs_write output (FJson d2) fs).

(** lines 48-51.  splitext followed by concatenation of the two parts is the
    base name again. *)
Definition working_path (folder json_file : string) : string := path_join folder (basename json_file).

(** lines 53-72 — the loop over effusion rates: write the working file, clear
    the logger (RunFlowgo()), run, remember the file name.
    [None]: some run has not ended within [fuel] steps.  base_data.copy() is a
    copy of the top-level dict and only a top-level key is assigned, so the
    template data is never modified. *)
Fixpoint sweep (fuel : nat) (fs : fsys T) (log : table T) (working folder : string) (base : json T)
    (rates : list Z) (names : list string) : option (res (list string) * fsys T * table T) :=
  match rates with
  | [] => Some (Ok names, fs, log)
  | r :: rest =>
      match jset base "effusion_rate_init" (JInt r) with
      | Err e => Some (Err e, fs, log)
      | Ok data =>
          let fs1 := fs_write working (FJson data) fs in
          match run str_float str_container fuel fs1 (new_runner log) working folder with
          | None => None
          | Some (Err e, fs2, log2) => Some (Err e, fs2, log2)
          | Some (Ok _, fs2, log2) =>
              match jget data "lava_name" with                            (* line 67 *)
              | Err e => Some (Err e, fs2, log2)
              | Ok name =>
                  sweep fuel fs2 log2 working folder base rest
                    (names ++ [result_path str_float str_container folder name (JInt r)])
              end
          end
      end
  end.

(** lines 34-72: everything before plotting. *)
Definition run_effusion_rates (fuel : nat) (fs : fsys T) (log : table T) (json_file folder : string)
    (first last step : Z) : option (res (list string) * fsys T * table T) :=
  match load_json fs json_file with
  | Err e => Some (Err e, fs, log)
  | Ok base =>
      match py_range first (last + step) step with
      | Err e => Some (Err e, fs, log)
      | Ok rates => sweep fuel fs log (working_path folder json_file) folder base rates []
      end
  end.

(** ** run_outs.py *)
(** float(row[name]) for a cell of a CSV line read back by csv.DictReader:
    reading a number that csv.writer or str() printed gives that number
    (trusted); an empty field raises ValueError; a missing column KeyError. *)
Fixpoint field (name : string) (header : list string) (line : list (option (cell T))) : res T :=
  match header, line with
  | h :: hs, c :: cs =>
      if String.eqb name h then
        match c with
        | Some (CNum x) => Ok x
        | Some (CStr x) => Ok x
        | None => Err (ValueError "could not convert string to float")
        end
      else field name hs cs
  | _, _ => Err (KeyError name)
  end.

(** lines 31-43: the columns of one result file, row by row. *)
Record outs_row : Type := { o_pos : T; o_width : T; o_depth : T; o_eff : T }.
Definition read_result_row (header : list string) (line : list (option (cell T))) : res outs_row :=
  let? p := field "position" header line in
  let? _ := field "slope" header line in
  let? _ := field "core_temperature" header line in
  let? _ := field "mean_velocity" header line in
  let? _ := field "viscosity" header line in
  let? _ := field "crystal_fraction" header line in
  let? w := field "channel_width" header line in
  let? d := field "channel_depth" header line in
  let? e := field "effusion_rate" header line in
  let? _ := field "tho_0" header line in
  Ok {| o_pos := p; o_width := w; o_depth := d; o_eff := e |}.

(** Python's max(list): ValueError on an empty list, else the first largest. *)
Definition py_max_list (l : list T) : res T :=
  match l with
  | [] => Err (ValueError "max() arg is an empty sequence")
  | x :: r => Ok (fold_left py_max r x)
  end.
Definition nth_err {A} (l : list A) (i : nat) : res A :=
  match nth_error l i with Some a => Ok a | None => Err IndexError end.

(** lines 74-84: the rows of the slope file up to a distance, (x, y, z, d). *)
Definition read_xyz (limit : T) (text : string) : res (option (T * T * T * T)) :=
  let line := split_on tab_char text in
  let? d := column line 3 in
  if n_leb d limit then
    let? x := column line 0 in
    let? y := column line 1 in
    let? z := column line 2 in
    Ok (Some (x, y, z, d))
  else Ok None.

(** lines 16-93 for one result file: the run-out line
    (effusion rate, depth, width, first point, last point, run-out distance).
    The numbers are rounded when they are written (lines 46, 85-91, see
    [outs_numbers]). *)
Record run_out : Type := {
  ro_eff : T; ro_depth : T; ro_width : T;
  ro_start : T * T * T; ro_end : T * T * T; ro_distance : T }.
Definition run_out_of (c : csv_file T) (slope_lines : list string) : res run_out :=
  let? rows := rmapM (read_result_row (csv_header c)) (csv_rows c) in
  let? first := nth_err rows 0 in                                           (* line 46 *)
  let? far := py_max_list (map o_pos rows) in                               (* line 49 *)
  let? second := nth_err rows 1 in                                          (* lines 51-52 *)
  let limit := n_add far (o_pos second) in                                  (* line 77 *)
  let? pts := rmapM (read_xyz limit) (tl slope_lines) in
  let kept := keep_some pts in
  let? p0 := nth_err kept 0 in
  let? p1 := nth_err kept (length kept - 1) in
  let '(x0, y0, z0, _) := p0 in
  let '(x1, y1, z1, d1) := p1 in
  Ok {| ro_eff := o_eff first; ro_depth := o_depth second; ro_width := o_width second;
        ro_start := (x0, y0, z0); ro_end := (x1, y1, z1); ro_distance := d1 |}.

(** The run-out line of one result file of the disk.  Simplification: a result
    path or a slope path that names a file of another kind is reported as a
    KeyError or a ValueError. *)
Definition run_out_file (fs : fsys T) (slope_file p : string) : res run_out :=
  match fs p with
  | Some (FCsv c) =>
      match fs slope_file with
      | Some (FText lines) => run_out_of c lines
      | Some _ => Err (ValueError "not a slope file")
      | None => Err (FileNotFoundError slope_file)
      end
  | Some _ => Err (KeyError "position")
  | None => Err (FileNotFoundError p)
  end.
(** run_outs.py:9 *)
Definition run_outs_path (folder : string) (name : json T) : string :=
  path_join folder ("run_outs_" ++ py_str str_float str_container name ++ ".csv")%string.
(** [round(x, n)], abstract. *)
Context (round_to : nat -> T -> T).
(** run_outs.py:46, 85-92: the numbers of one line, in the order of the header
    Effusion_rate, Depth, Width_init, X_init, Y_init, Elevation_init, X_run_out,
    Y_run_out, Elevation_run_out, Distance_run_out. *)
Definition outs_numbers (ro : run_out) : list T :=
  let '(x0, y0, z0) := ro_start ro in
  let '(x1, y1, z1) := ro_end ro in
  [round_to 0 (ro_eff ro); ro_depth ro; ro_width ro; round_to 2 x0; round_to 2 y0; round_to 1 z0;
   round_to 2 x1; round_to 2 y1; round_to 1 z1; round_to 0 (ro_distance ro)].
(** run_outs.py:17-93 — the loop over the result files: the lines written
    before the loop ends or raises. *)
Fixpoint outs_rows (fs : fsys T) (slope_file : string) (name : json T) (files : list string)
  : list (json T * list T) * res unit :=
  match files with
  | [] => ([], Ok tt)
  | p :: rest =>
      match run_out_file fs slope_file p with
      | Err e => ([], Err e)
      | Ok ro => let '(rows, r) := outs_rows fs slope_file name rest in ((name, outs_numbers ro) :: rows, r)
      end
  end.
(** run_outs.py:101-110 — what the figure effusion_rate_vs_distance.png shows,
    read back from the file: (Distance_run_out, Effusion_rate) of each line. *)
Definition outs_series (rows : list (json T * list T)) : list (T * T) :=
  map (fun r => (nth 9 (snd r) zero, nth 0 (snd r) zero)) rows.
(** run_outs.py:7-117 — get_run_outs.  The file is opened (and emptied) before
    the result files are read; the lines written so far are kept when an
    exception closes it.  The title of the figure (line 107) uses the flow id of
    the last line: a file without lines raises UnboundLocalError.  Result: the
    series drawn, or the exception. *)
Definition get_run_outs (fs : fsys T) (folder : string) (files : list string) (slope_file : string) (name : json T)
  : res (list (T * T)) * fsys T :=
  let path := run_outs_path folder name in
  let '(rows, r) := outs_rows (fs_write path (FOuts []) fs) slope_file name files in
  let fs' := fs_write path (FOuts rows) fs in
  match r with
  | Err e => (Err e, fs')
  | Ok _ => match rows with
            | [] => (Err (NameError "flow_id"), fs')
            | _ => (Ok (outs_series rows), fs')
            end
  end.
End EffArray.
Arguments outs_row : clear implicits.
Arguments run_out : clear implicits.
