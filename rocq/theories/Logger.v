(** * Logger: pyflowgo/flowgo_logger.py *)
From Verif Require Import Base Num Json.

Section Logger.
Context {T : Type} {N : Num T}.

(** What the code logs: numbers, and (for effusion_rate only,
    flowgo_integrator.py:176) the [str] of a number, kept symbolic. *)
Inductive cell : Type :=
| CNum (x : T)
| CStr (x : T).

(** flowgo_logger.py:44 — one entry of [self._variables] is a dict whose first
    key is 'position'. *)
Definition row : Type := list (string * cell).
Definition table : Type := list row.

(** flowgo_logger.py:36 — [position == current_entry.get('position', None)];
    comparing a float with None or with a str is False. *)
Definition row_at (position : T) (r : row) : bool :=
  match assoc "position" r with
  | Some (CNum p) => n_eqb position p
  | _ => false
  end.

(** flowgo_logger.py:32-45 — add_variable: update the first row at that
    position, else append a new row {'position': position, name: value}
    (a dict display: the later key wins when name is 'position'). *)
Fixpoint add_variable (name : string) (position : T) (value : cell) (t : table) : table :=
  match t with
  | [] => [assoc_set name value [("position", CNum position)]]
  | r :: rest =>
      if row_at position r then assoc_set name value r :: rest
      else r :: add_variable name position value rest
  end.

(** flowgo_logger.py:61-67 — get_values *)
Definition get_values (name : string) (t : table) : list (option cell) :=
  map (assoc name) t.

(** flowgo_logger.py:69-70 — clear *)
Definition clear : table := [].

(** flowgo_logger.py:47-59 — write_values_to_file.  [None] means that no file
    is opened (empty table).  A data line is the list of fields of
    csv.DictWriter.writerow: for each header column the row's value or the
    empty field ([None], restval=''); csv.DictWriter raises ValueError when the
    row has a key that is not a field name (extrasaction='raise').  CSV quoting
    and float formatting are left to the csv module (symbolic cells). *)
Record csv_file : Type := { csv_header : list string; csv_rows : list (list (option cell)) }.

Definition in_strings (s : string) (l : list string) : bool := existsb (String.eqb s) l.
Definition has_extra (fields : list string) (r : row) : bool :=
  existsb (fun kv => negb (in_strings (fst kv) fields)) r.
Definition csv_line (fields : list string) (r : row) : list (option cell) :=
  map (fun f => assoc f r) fields.

Definition csv_of_row (fields : list string) (r : row) : res (list (option cell)) :=
  if has_extra fields r
  then Err (ValueError "dict contains fields not in fieldnames")
  else Ok (csv_line fields r).

Definition write_values_to_file (t : table) : res (option csv_file) :=
  match t with
  | [] => Ok None
  | first :: _ =>
      let fields := map fst first in
      let? rows := rmapM (csv_of_row fields) t in
      Ok (Some {| csv_header := fields; csv_rows := rows |})
  end.

(** A batch of writes at one position (used to describe what a step logs). *)
Definition log_many (position : T) (calls : list (string * cell)) (t : table) : table :=
  fold_left (fun t c => add_variable (fst c) position (snd c) t) calls t.
End Logger.
Arguments cell : clear implicits.
Arguments row : clear implicits.
Arguments table : clear implicits.
Arguments csv_file : clear implicits.
