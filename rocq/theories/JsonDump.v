(** * JsonDump: the text [json.dump(v, f, indent=4)] writes (edit_json.py:168, 181,
    run_flowgo_effusion_rate_array.py:32, 60).

    A library function (json/encoder.py: _make_iterencode with indent=4 and
    ensure_ascii=True, py_encode_basestring_ascii), written out because a configuration
    saved by the editor or a sweep is read again by the next run.  A text is its
    UTF-8 bytes; keys are strings, as in everything [json.load] returns. *)
From Verif Require Import Base Num Json JsonText.

Section Dump.
Context {T : Type}.
(** float.__repr__, or NaN, Infinity, -Infinity: abstract. *)
Context (float_text : T -> string).

(** The code points of a text; bytes that no text has are dropped. *)
Fixpoint code_points (s : string) : list BinNums.N :=
  match s with
  | EmptyString => []
  | String a r =>
      let n := N_of_ascii a in
      if (n <? 128)%N then n :: code_points r
      else if (n <? 224)%N then
        match r with
        | String b r2 => ((n - 192) * 64 + (N_of_ascii b - 128))%N :: code_points r2
        | EmptyString => []
        end
      else if (n <? 240)%N then
        match r with
        | String b (String c r3) => ((n - 224) * 4096 + (N_of_ascii b - 128) * 64 + (N_of_ascii c - 128))%N :: code_points r3
        | _ => []
        end
      else
        match r with
        | String b (String c (String d r4)) =>
            ((n - 240) * 262144 + (N_of_ascii b - 128) * 4096 + (N_of_ascii c - 128) * 64 + (N_of_ascii d - 128))%N :: code_points r4
        | _ => []
        end
  end.

(** '\\u{0:04x}' *)
Definition unit_escape (n : BinNums.N) : string :=
  let h := fun m => hex_digit (N.to_nat (m mod 16)%N) in
  String backslash (String "u" (String (h (n / 4096)%N) (String (h (n / 256)%N) (String (h (n / 16)%N) (String (h n) EmptyString))))).
(** py_encode_basestring_ascii: ESCAPE_DCT, printable ASCII as it is, the rest escaped,
    beyond the basic plane as a surrogate pair. *)
Definition dump_char (n : BinNums.N) : string :=
  (if n =? 34 then String backslash (String dquote EmptyString)
   else if n =? 92 then String backslash (String backslash EmptyString)
   else if n =? 10 then String backslash "n"
   else if n =? 13 then String backslash "r"
   else if n =? 9 then String backslash "t"
   else if n =? 12 then String backslash "f"
   else if n =? 8 then String backslash "b"
   else if (32 <=? n) && (n <=? 126) then byte n
   else if n <? 65536 then unit_escape n
   else unit_escape (55296 + (n - 65536) / 1024) ++ unit_escape (56320 + (n - 65536) mod 1024))%N%string.
Fixpoint dump_chars (l : list BinNums.N) : string :=
  match l with [] => EmptyString | n :: r => (dump_char n ++ dump_chars r)%string end.
Definition dump_string (s : string) : string := String dquote (dump_chars (code_points s) ++ String dquote EmptyString).

Fixpoint spaces (n : nat) : string := match n with O => EmptyString | S m => String " " (spaces m) end.
(** '\n' + ' ' * (4 * level) *)
Definition newline_indent (level : nat) : string := String "010" (spaces (4 * level)).
(** encoder.py _iterencode, _iterencode_list, _iterencode_dict.  [level] is
    _current_indent_level. *)
Fixpoint dump (level : nat) (j : json T) : string :=
  match j with
  | JNull => "null"
  | JBool true => "true"
  | JBool false => "false"
  | JInt z => Z_to_string z
  | JFloat x => float_text x
  | JStr s => dump_string s
  | JArr [] => "[]"
  | JArr (v :: l) =>
      (String "[" (newline_indent (S level) ++ dump (S level) v ++
        (fix more (l : list (json T)) : string :=
           match l with [] => newline_indent level ++ "]" | w :: r => String "," (newline_indent (S level) ++ dump (S level) w ++ more r) end) l))%string
  | JObj [] => "{}"
  | JObj ((k, v) :: f) =>
      (String "{" (newline_indent (S level) ++ dump_string k ++ ": " ++ dump (S level) v ++
        (fix more (f : list (string * json T)) : string :=
           match f with
           | [] => newline_indent level ++ "}"
           | (k, w) :: r => String "," (newline_indent (S level) ++ dump_string k ++ ": " ++ dump (S level) w ++ more r)
           end) f))%string
  end.
(** json.dump(v, f, indent=4): the whole file *)
Definition dumps (j : json T) : string := dump 0 j.
End Dump.
