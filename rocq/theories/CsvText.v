(** * CsvText: the text of the CSV files

    What csv.writer / csv.DictWriter write and csv.DictReader reads, with the
    default "excel" dialect, as pyflowgo uses them (flowgo_logger.py:52-59,
    run_outs.py:11-15, 33-36, 94, 103-107, plot_flowgo_results.py:118-124).
    The csv module is part of Python's standard library; its writer
    (join_append_data, QUOTE_MINIMAL) and its reader (parse_process_char) are
    written out here so that "what was written is what is read" is a theorem and
    not an assumption.  Strings are ASCII. *)
From Verif Require Import Base Num Json Logger JsonText Factory Run.

Definition cr : ascii := Ascii.ascii_of_nat 13.
Definition lf : ascii := Ascii.ascii_of_nat 10.
Definition comma : ascii := ","%char.
Definition dquote : ascii := Ascii.ascii_of_nat 34.

(** ** Writing *)
(** QUOTE_MINIMAL: a field is quoted when it has the delimiter, the quote
    character or a character of the line terminator. *)
Definition special (c : ascii) : bool :=
  Ascii.eqb c comma || Ascii.eqb c dquote || Ascii.eqb c cr || Ascii.eqb c lf.
Fixpoint needs_quotes (s : string) : bool :=
  match s with EmptyString => false | String c r => special c || needs_quotes r end.
Fixpoint double_quotes (s : string) : string :=
  match s with
  | EmptyString => EmptyString
  | String c r => if Ascii.eqb c dquote then String dquote (String dquote (double_quotes r)) else String c (double_quotes r)
  end.
Definition csv_field (s : string) : string :=
  if needs_quotes s then String dquote (double_quotes s ++ String dquote EmptyString)%string else s.
(** writerow: a record made of one empty field is written "" so that it is not
    a blank line. *)
Definition csv_record (fields : list string) : string :=
  ((match fields with
    | [EmptyString] => String dquote (String dquote EmptyString)
    | _ => join (String comma EmptyString) (map csv_field fields)
    end) ++ String cr (String lf EmptyString))%string.
Fixpoint csv_text (rows : list (list string)) : string :=
  match rows with [] => EmptyString | r :: rest => (csv_record r ++ csv_text rest)%string end.

(** ** Reading *)
(** open(filename, 'r'): universal newlines. *)
Fixpoint universal (s : string) : string :=
  match s with
  | EmptyString => EmptyString
  | String c r =>
      if Ascii.eqb c cr then
        String lf (match r with
                   | String d r' => if Ascii.eqb d lf then universal r' else universal r
                   | EmptyString => EmptyString
                   end)
      else String c (universal r)
  end.
(** The states of the reader.  After [universal] a line ends with a line feed
    (or the end of the file), so the state EAT_CRNL is left at once and is not
    represented. *)
Inductive reader_state : Type := StartRecord | StartField | InField | InQuotedField | QuoteInQuotedField.
(** parse_process_char for each character; [fields]: the fields of the current
    record saved so far; [cur]: the current field.  At the end of the file the
    current record is returned as it is (strict=False). *)
Fixpoint csv_read (st : reader_state) (fields : list string) (cur : string) (s : string) : list (list string) :=
  let saved := fields ++ [cur] in
  match s with
  | EmptyString => match st with StartRecord => [] | _ => [saved] end
  | String c r =>
      let start :=                                                          (* START_FIELD *)
        if Ascii.eqb c lf then saved :: csv_read StartRecord [] EmptyString r
        else if Ascii.eqb c dquote then csv_read InQuotedField fields cur r
        else if Ascii.eqb c comma then csv_read StartField saved EmptyString r
        else csv_read InField fields (cur ++ String c EmptyString)%string r in
      match st with
      | StartRecord => if Ascii.eqb c lf then [] :: csv_read StartRecord [] EmptyString r else start
      | StartField => start
      | InField =>
          if Ascii.eqb c lf then saved :: csv_read StartRecord [] EmptyString r
          else if Ascii.eqb c comma then csv_read StartField saved EmptyString r
          else csv_read InField fields (cur ++ String c EmptyString)%string r
      | InQuotedField =>
          if Ascii.eqb c dquote then csv_read QuoteInQuotedField fields cur r
          else csv_read InQuotedField fields (cur ++ String c EmptyString)%string r
      | QuoteInQuotedField =>
          if Ascii.eqb c dquote then csv_read InQuotedField fields (cur ++ String c EmptyString)%string r
          else if Ascii.eqb c comma then csv_read StartField saved EmptyString r
          else if Ascii.eqb c lf then saved :: csv_read StartRecord [] EmptyString r
          else csv_read InField fields (cur ++ String c EmptyString)%string r
      end
  end.
(** csv.reader(open(filename)) *)
Definition csv_reader (text : string) : list (list string) := csv_read StartRecord [] EmptyString (universal text).
(** csv.DictReader: the first record is the header, blank lines are skipped. *)
Definition dict_reader (text : string) : list string * list (list string) :=
  match csv_reader text with
  | [] => ([], [])
  | header :: rows => (header, filter (fun r => match r with [] => false | _ => true end) rows)
  end.
(** row[name]: [None] is a KeyError, [Some None] the value None of a column the
    record is too short for; with a repeated column the last one counts
    (dict(zip(fieldnames, row))). *)
Fixpoint dict_get (name : string) (header record : list string) : option (option string) :=
  match header with
  | [] => None
  | h :: hs => match dict_get name hs (tl record) with
               | Some v => Some v
               | None => if String.eqb name h then Some (hd_error record) else None
               end
  end.

Section Text.
Context {T : Type} {N : Num T}.
(** float(row[name]) *)
Definition read_number (name : string) (header record : list string) : res T :=
  match dict_get name header record with
  | None => Err (KeyError name)
  | Some None => Err TypeError
  | Some (Some s) => parse_float s
  end.

(** flowgo_logger.py:52-59 — the text of the result file; csv.writer prints a
    number with repr() (= str()), a missing key as restval = ''. *)
Context (str_float : T -> string).
Definition cell_text (c : option (cell T)) : string :=
  match c with
  | Some (CNum x) => str_float x
  | Some (CStr x) => str_float x
  | None => EmptyString
  end.
Definition result_text (f : csv_file T) : string :=
  csv_text (csv_header f :: map (map cell_text) (csv_rows f)).
(** run_outs.py:11-15, 93-94 — the text of the run-out file. *)
Context (str_container : json T -> string).
Definition outs_header : list string :=
  ["flow_id"; "Effusion_rate"; "Depth"; "Width_init"; "X_init"; "Y_init"; "Elevation_init";
   "X_run_out"; "Y_run_out"; "Elevation_run_out"; "Distance_run_out"].
Definition name_text (name : json T) : string :=
  match name with JNull => EmptyString | _ => py_str str_float str_container name end.   (* csv.writer writes None as '' *)
Definition outs_text (rows : list (json T * list T)) : string :=
  csv_text (outs_header :: map (fun r => name_text (fst r) :: map str_float (snd r)) rows).
(** run_outs.py:103-107 — what is read back from it: the flow id of the last
    line, and (Distance_run_out, Effusion_rate) of each line. *)
Definition read_outs (text : string) : res (list (string * (T * T))) :=
  let '(header, rows) := dict_reader text in
  rmapM (fun r => let? id := match dict_get "flow_id" header r with
                             | Some (Some s) => Ok s
                             | Some None => Ok "None"
                             | None => Err (KeyError "flow_id")
                             end in
                  let? e := read_number "Effusion_rate" header r in
                  let? d := read_number "Distance_run_out" header r in
                  Ok (id, (d, e))) rows.
End Text.
