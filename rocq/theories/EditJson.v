(** * EditJson: edit_json.py, the JSON editor of the GUI.

    Modelled: the data the editor keeps (the text in every entry widget, the
    sections and their rows) and the document it saves.  Not modelled: the
    widgets' geometry, scrolling, fonts. An entry widget returns the text that
    was put in it. *)
From Verif Require Import Base Num Json Logger World Vesicle MeltVisc RelVisc Bubbles Terrain Lava
  Thermal Flux Integrator Factory Run JsonText.

(** A value of the [labels] dictionary: the entry of an existing field
    (edit_json.py:60-64) or the (key, value) pair of entries of a new one
    (edit_json.py:100-106). *)
Inductive widget : Type :=
| Entry (text : string)
| Pair (key_text value_text : string).

(** The variables [labels], [sections] (the row_end of each; row_start and
    dict_ref are never read) and [row], edit_json.py:34-36. *)
Record editor : Type := Editor {
  ed_labels : list (string * widget);
  ed_sections : list (string * nat);
  ed_row : nat }.

(** f"{parent_key}.{key}" if parent_key else key — edit_json.py:42, 122.  None
    and the empty string are both falsy; the model writes "" for None. *)
Definition display (parent key : string) : string :=
  match parent with EmptyString => key | _ => (parent ++ "." ++ key)%string end.

Section Editor.
Context {T : Type} {N : Num T}.
Context (constant : string -> T) (repr_float : T -> string).

(** edit_json.py:39-71 — render_json *)
Fixpoint render (j : json T) (parent : string) (e : editor) {struct j} : editor :=
  match j with
  | JObj fields =>
      (fix go (fs : list (string * json T)) (e : editor) : editor :=
         match fs with
         | [] => e
         | (k, v) :: r =>
             let dk := display parent k in
             go r
               match v with
               | JObj _ =>
                   let e1 := Editor (ed_labels e) (assoc_set dk (ed_row e) (ed_sections e)) (S (ed_row e)) in
                   let e2 := render v dk e1 in
                   Editor (ed_labels e2) (assoc_set dk (ed_row e2 - 1)%nat (ed_sections e2)) (ed_row e2)
               | _ =>
                   let secs := match parent with
                               | EmptyString => ed_sections e
                               | _ => match assoc parent (ed_sections e) with
                                      | Some _ => assoc_set parent (ed_row e) (ed_sections e)
                                      | None => ed_sections e
                                      end
                               end in
                   Editor (assoc_set dk (Entry (str_of repr_float v)) (ed_labels e)) secs (S (ed_row e))
               end
         end) fields e
  | _ => e
  end.

(** edit_json.py:7-82 — open_editor up to the section menu.  A document that
    is not an object has no [items]; tk.OptionMenu needs at least one value, so
    a document without sections raises TypeError before the Save buttons of
    lines 186-187 exist. *)
Definition open_editor (j : json T) : res editor :=
  match j with
  | JObj _ =>
      let e := render j "" (Editor [] [] 0) in
      match ed_sections e with [] => Err TypeError | _ => Ok e end
  | _ => Err (AttributeError "items")
  end.

(** What the user can do before saving. *)
Inductive action : Type :=
| SetField (label text : string)            (* type in the entry of a field *)
| AddEntry (section : string)               (* the Add Entry button *)
| FillEntry (label key_text value_text : string).   (* type in the entries of a new field *)

(** edit_json.py:85-116 — add_new_entry_to_section *)
Definition temp_key (section : string) (insert_row : nat) : string :=
  (section ++ ".new_entry_" ++ Z_to_string (Z.of_nat insert_row))%string.
Definition add_entry (section : string) (e : editor) : res editor :=
  match section with
  | EmptyString => Ok e
  | _ =>
      match assoc section (ed_sections e) with
      | None => Err (KeyError section)
      | Some row_end =>
          let insert_row := S row_end in
          Ok (Editor (assoc_set (temp_key section insert_row) (Pair "" "") (ed_labels e))
                     (assoc_set section (S row_end) (ed_sections e)) (S (ed_row e)))
      end
  end.
Definition act (a : action) (e : editor) : res editor :=
  match a with
  | SetField l t =>
      match assoc l (ed_labels e) with
      | Some (Entry _) => Ok (Editor (assoc_set l (Entry t) (ed_labels e)) (ed_sections e) (ed_row e))
      | _ => Ok e
      end
  | AddEntry s => add_entry s e
  | FillEntry l k v =>
      match assoc l (ed_labels e) with
      | Some (Pair _ _) => Ok (Editor (assoc_set l (Pair k v) (ed_labels e)) (ed_sections e) (ed_row e))
      | _ => Ok e
      end
  end.
Fixpoint acts (l : list action) (e : editor) : res editor :=
  match l with [] => Ok e | a :: r => let? e1 := act a e in acts r e1 end.

(** edit_json.py:128-132, 142-145: json.loads(text), or the text itself *)
Definition value_of (text : string) : json T :=
  match loads constant text with Some v => v | None => JStr text end.

(** s.rsplit(sep, 1)[0] *)
Fixpoint cut_last (sep s : string) : option string :=
  match s with
  | EmptyString => None
  | String c r => match cut_last sep r with
                  | Some h => Some (String c h)
                  | None => if prefix sep s then Some EmptyString else None
                  end
  end.
Definition before_last (sep s : string) : string :=
  match cut_last sep s with Some h => h | None => s end.

Fixpoint contains (p s : string) : bool :=
  prefix p s || match s with EmptyString => false | String _ r => contains p r end.

(** edit_json.py:148-160: walk from [parent_dict = new_data] along the parts
    and assign there.  [part in x] is a key test on a dict, a membership test on a
    list, a substring test on a str and a TypeError on anything else; x[part]
    is a TypeError on a list and on a str. *)
Fixpoint put_at (path : list string) (k : string) (v : json T) (j : json T) : res (json T) :=
  match path with
  | [] => match j with JObj f => Ok (JObj (assoc_set k v f)) | _ => Ok j end
  | p :: ps =>
      match j with
      | JObj f => match assoc p f with
                  | Some c => let? c' := put_at ps k v c in Ok (JObj (assoc_set p c' f))
                  | None => Ok j
                  end
      | JArr l => if existsb (fun x => jis x p) l then Err TypeError else Ok j
      | JStr s => if contains p s then Err TypeError else Ok j
      | _ => Err TypeError
      end
  end.

(** edit_json.py:135-161 — the new entries *)
Definition parts_of (section : string) : list string :=
  match section with EmptyString => [] | _ => split_on "." section end.
Fixpoint place_entries (labels : list (string * widget)) (j : json T) : res (json T) :=
  match labels with
  | [] => Ok j
  | (_, Entry _) :: r => place_entries r j
  | (tk, Pair kt vt) :: r =>
      match strip kt with
      | EmptyString => place_entries r j
      | k => let? j1 := put_at (parts_of (before_last ".new_entry_" tk)) k (value_of (strip vt)) j in
             place_entries r j1
      end
  end.

(** edit_json.py:119-162 — rebuild_dict *)
Fixpoint rebuild (labels : list (string * widget)) (j : json T) (parent : string) {struct j} : res (json T) :=
  match j with
  | JObj fields =>
      let? f :=
        (fix go (fs : list (string * json T)) (new : list (string * json T)) : res (list (string * json T)) :=
           match fs with
           | [] => Ok new
           | (k, v) :: r =>
               let dk := display parent k in
               match v with
               | JObj _ => let? v' := rebuild labels v dk in go r (assoc_set k v' new)
               | _ => match assoc dk labels with
                      | None => go r new
                      | Some (Entry text) => go r (assoc_set k (value_of text) new)
                      | Some (Pair _ _) => Err (AttributeError "get")
                      end
               end
           end) fields [] in
      place_entries labels (JObj f)
  | _ => Err (AttributeError "items")
  end.

(** edit_json.py:164-172 — save_changes: on an exception an error box is shown
    and nothing has been opened for writing yet.  save_as (174-186) is the same with
    the new path. *)
Definition save (path : string) (j : json T) (e : editor) (fs : fsys T) : fsys T * bool :=
  match rebuild (ed_labels e) j "" with
  | Ok d => (fs_write path (FJson d) fs, true)
  | Err _ => (fs, false)
  end.

(** A whole session: open the file, act, save. *)
Definition session (path : string) (l : list action) (fs : fsys T) : res (fsys T * bool) :=
  let? j := load_json fs path in
  let? e := open_editor j in
  let? e1 := acts l e in
  Ok (save path j e1 fs).
End Editor.
