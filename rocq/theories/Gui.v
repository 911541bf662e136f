(** * Gui: the two buttons of main_run_and_plot_flowgo_GUI.py

    The entry fields are the arguments.  What the user sees is an error box, the
    success box, or neither (the exception is printed by tkinter and the button
    does nothing more).  Creating the results folder and showing the figures are
    not modelled. *)
From Verif Require Import Base Num Json Logger World Vesicle MeltVisc RelVisc Bubbles Terrain Lava
  Thermal Flux Integrator Factory Run EffArray Plot.

Inductive answer : Type :=
| ErrorBox (msg : string)
| SuccessBox (msg : string)
| NoBox (e : exn).

Section Gui.
Context {T : Type} {N : Num T}.
Context (str_float : T -> string) (str_container : json T -> string) (round_to : nat -> T -> T).

(** main_run_and_plot_flowgo_GUI.py:21-42 — run_flowgo_single *)
Definition single_button (fuel : nat) (fs : fsys T) (log : table T) (json_file folder : string)
  : option (answer * fsys T * table T) :=
  if String.eqb json_file "" || String.eqb folder "" then
    Some (ErrorBox "Please select a JSON file and results folder", fs, log)
  else
    match run_and_plot str_float str_container fuel fs log json_file folder [] with
    | None => None
    | Some (Ok _, fs', log') => Some (SuccessBox "FLOWGO simulation completed successfully!", fs', log')
    | Some (Err e, fs', log') => Some (NoBox e, fs', log')
    end.

(** lines 53-58: int(float(text)) *)
Definition entry_rate (text : string) : res Z :=
  let? x := parse_float text in n_trunc x.
Definition entry_rates (t1 t2 t3 : string) : res (Z * Z * Z) :=
  let? a := entry_rate t1 in
  let? b := entry_rate t2 in
  let? c := entry_rate t3 in
  Ok (a, b, c).

(** lines 66-68: the slope file of the configuration.  A value that is not a
    string makes run() fail at the first rate, and the plots fail when there is
    no rate, so what is passed on then does not matter. *)
Definition entry_slope_file (fs : fsys T) (json_file : string) : res string :=
  let? d := load_json fs json_file in
  match d with
  | JObj f => Ok (match assoc "slope_file" f with Some (JStr p) => p | _ => "" end)
  | _ => Err (AttributeError "get")
  end.

(** lines 45-84 — run_flowgo_effusion.  Only ValueError is caught (line 59). *)
Definition sweep_button (fuel : nat) (fs : fsys T) (log : table T) (json_file folder t1 t2 t3 : string)
  : option (answer * fsys T * table T) :=
  if String.eqb json_file "" || String.eqb folder "" then
    Some (ErrorBox "Please select a JSON file and results folder", fs, log)
  else
    match entry_rates t1 t2 t3 with
    | Err (ValueError _) => Some (ErrorBox "Effusion rates must be numeric values.", fs, log)
    | Err e => Some (NoBox e, fs, log)
    | Ok (a, b, c) =>
        match entry_slope_file fs json_file with
        | Err e => Some (NoBox e, fs, log)
        | Ok slope_file =>
            match effusion_rate_array str_float str_container round_to fuel fs log json_file folder slope_file a b c with
            | None => None
            | Some (Ok _, fs', log') =>
                Some (SuccessBox "Effusion rate simulation completed successfully!", fs', log')
            | Some (Err e, fs', log') => Some (NoBox e, fs', log')
            end
        end
    end.
End Gui.
