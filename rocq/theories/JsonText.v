(** * JsonText: [json.loads] of a text and [str] of a value, as edit_json.py uses them.

    Both are library functions (CPython's json scanner and built-in [str]);
    they are written out because what the editor does to a field depends on
    which texts are JSON.  Characters above 127 are UTF-8 bytes.
    Simplifications: RecursionError on deep nesting and the 4300 digit limit on
    integers are not modelled; a lone surrogate escape is kept as three bytes. *)
From Verif Require Import Base Num Json.

Section Loads.
Context {T : Type} {N : Num T}.
(** The values of the tokens [NaN], [Infinity] and [-Infinity]. *)
Context (constant : string -> T).

(** json/decoder.py WHITESPACE: space, tab, newline, carriage return *)
Definition is_ws (c : ascii) : bool :=
  let n := nat_of_ascii c in (n =? 32)%nat || (n =? 9)%nat || (n =? 10)%nat || (n =? 13)%nat.
Fixpoint skip_ws (s : string) : string :=
  match s with String c r => if is_ws c then skip_ws r else s | EmptyString => s end.

Fixpoint drop_prefix (p s : string) : option string :=
  match p, s with
  | EmptyString, _ => Some s
  | String a p', String b s' => if Ascii.eqb a b then drop_prefix p' s' else None
  | _, _ => None
  end.

Definition eat (c : ascii) (s : string) : option string :=
  match s with String x r => if Ascii.eqb x c then Some r else None | EmptyString => None end.

(** *** Numbers: optional minus, 0 or digits not starting with 0, optional
    fraction, optional exponent (json/scanner.py NUMBER_RE) *)
Fixpoint span_digits (s : string) : string * string :=
  match s with
  | String c r => if is_digit c then let '(a, b) := span_digits r in (String c a, b) else (EmptyString, s)
  | EmptyString => (EmptyString, s)
  end.
Definition scan_int (s : string) : option (string * string) :=
  match s with
  | String c r => if Ascii.eqb c "0" then Some ("0"%string, r)
                  else if is_digit c then Some (span_digits s) else None
  | EmptyString => None
  end.
Definition scan_frac (s : string) : string * string :=
  match s with
  | String c r => if Ascii.eqb c "." then
                    match span_digits r with
                    | (EmptyString, _) => (EmptyString, s)
                    | (d, rest) => (String c d, rest)
                    end
                  else (EmptyString, s)
  | EmptyString => (EmptyString, s)
  end.
Definition scan_exp (s : string) : string * string :=
  match s with
  | String c r =>
      if Ascii.eqb c "e" || Ascii.eqb c "E" then
        let '(sg, r1) := match r with
                         | String x r' => if Ascii.eqb x "-" || Ascii.eqb x "+" then (String x EmptyString, r')
                                          else (EmptyString, r)
                         | EmptyString => (EmptyString, r)
                         end in
        match span_digits r1 with
        | (EmptyString, _) => (EmptyString, s)
        | (d, rest) => (String c (sg ++ d), rest)
        end
      else (EmptyString, s)
  | EmptyString => (EmptyString, s)
  end.
Definition int_of_digits (s : string) : Z := fst (fst (read_digits s 0 0)).
Definition scan_number (s : string) : option (json T * string) :=
  let '(sg, s1) := match s with
                   | String c r => if Ascii.eqb c "-" then ("-"%string, r) else (EmptyString, s)
                   | EmptyString => (EmptyString, s)
                   end in
  match scan_int s1 with
  | None => None
  | Some (ip, s2) =>
      let '(fr, s3) := scan_frac s2 in
      let '(ex, s4) := scan_exp s3 in
      match fr, ex with
      | EmptyString, EmptyString =>
          let z := int_of_digits ip in
          Some (JInt (match sg with EmptyString => z | _ => (- z)%Z end), s4)
      | _, _ =>
          match parse_float (sg ++ ip ++ fr ++ ex) with
          | Ok x => Some (JFloat x, s4)
          | Err _ => None
          end
      end
  end.

(** *** Strings *)
Definition hex_val (c : ascii) : option BinNums.N :=
  let n := nat_of_ascii c in
  if (48 <=? n)%nat && (n <=? 57)%nat then Some (N.of_nat (n - 48))
  else if (65 <=? n)%nat && (n <=? 70)%nat then Some (N.of_nat (n - 55))
  else if (97 <=? n)%nat && (n <=? 102)%nat then Some (N.of_nat (n - 87))
  else None.
Definition hex4 (a b c d : ascii) : option BinNums.N :=
  match hex_val a, hex_val b, hex_val c, hex_val d with
  | Some a, Some b, Some c, Some d => Some (((a * 16 + b) * 16 + c) * 16 + d)%N
  | _, _, _, _ => None
  end.
Definition byte (n : BinNums.N) : string := String (ascii_of_N n) EmptyString.
Definition utf8 (n : BinNums.N) : string :=
  (if n <? 128 then byte n
   else if n <? 2048 then byte (192 + n / 64) ++ byte (128 + n mod 64)
   else if n <? 65536 then byte (224 + n / 4096) ++ byte (128 + (n / 64) mod 64) ++ byte (128 + n mod 64)
   else byte (240 + n / 262144) ++ byte (128 + (n / 4096) mod 64) ++ byte (128 + (n / 64) mod 64) ++ byte (128 + n mod 64))%N%string.
Definition dquote : ascii := ascii_of_nat 34.
Definition backslash : ascii := ascii_of_nat 92.
Definition simple_escape (c : ascii) : option ascii :=
  if Ascii.eqb c dquote then Some dquote
  else if Ascii.eqb c backslash then Some backslash
  else if Ascii.eqb c "/" then Some "/"%char
  else if Ascii.eqb c "b" then Some (ascii_of_nat 8)
  else if Ascii.eqb c "f" then Some (ascii_of_nat 12)
  else if Ascii.eqb c "n" then Some (ascii_of_nat 10)
  else if Ascii.eqb c "r" then Some (ascii_of_nat 13)
  else if Ascii.eqb c "t" then Some (ascii_of_nat 9)
  else None.
(** json/decoder.py py_scanstring with strict=True, after the opening quote:
    control characters are refused. *)
Fixpoint scan_string (s : string) : option (string * string) :=
  match s with
  | EmptyString => None
  | String c r =>
      if Ascii.eqb c dquote then Some (EmptyString, r)
      else if Ascii.eqb c backslash then
        match r with
        | EmptyString => None
        | String e r1 =>
            if Ascii.eqb e "u" then
              match r1 with
              | String a (String b (String c' (String d r2))) =>
                  match hex4 a b c' d with
                  | None => None
                  | Some hi =>
                      let plain := match scan_string r2 with
                                   | Some (t, rest) => Some ((utf8 hi ++ t)%string, rest)
                                   | None => None
                                   end in
                      match r2 with
                      | String x (String y (String a2 (String b2 (String c2 (String d2 r3))))) =>
                          if ((55296 <=? hi) && (hi <=? 56319))%N && Ascii.eqb x backslash && Ascii.eqb y "u" then
                            match hex4 a2 b2 c2 d2 with
                            | Some lo =>
                                if ((56320 <=? lo) && (lo <=? 57343))%N then
                                  match scan_string r3 with
                                  | Some (t, rest) =>
                                      Some ((utf8 (65536 + (hi - 55296) * 1024 + (lo - 56320))%N ++ t)%string, rest)
                                  | None => None
                                  end
                                else plain
                            | None => plain
                            end
                          else plain
                      | _ => plain
                      end
                  end
              | _ => None
              end
            else match simple_escape e with
                 | Some x => match scan_string r1 with Some (t, rest) => Some (String x t, rest) | None => None end
                 | None => None
                 end
        end
      else if (nat_of_ascii c <? 32)%nat then None
      else match scan_string r with Some (t, rest) => Some (String c t, rest) | None => None end
  end.

(** *** Values *)
Definition literal (s : string) : option (json T * string) :=
  match drop_prefix "null" s with
  | Some r => Some (JNull, r)
  | None =>
  match drop_prefix "true" s with
  | Some r => Some (JBool true, r)
  | None =>
  match drop_prefix "false" s with
  | Some r => Some (JBool false, r)
  | None =>
  match scan_number s with
  | Some x => Some x
  | None =>
  match drop_prefix "NaN" s with
  | Some r => Some (JFloat (constant "NaN"), r)
  | None =>
  match drop_prefix "Infinity" s with
  | Some r => Some (JFloat (constant "Infinity"), r)
  | None =>
  match drop_prefix "-Infinity" s with
  | Some r => Some (JFloat (constant "-Infinity"), r)
  | None => None
  end end end end end end end.

(** json/scanner.py py_make_scanner, json/decoder.py JSONObject, JSONArray.
    The fuel bounds the number of nested calls. *)
Fixpoint scan (fuel : nat) (s : string) : option (json T * string) :=
  match fuel with
  | O => None
  | S f =>
      match s with
      | EmptyString => None
      | String c r =>
          if Ascii.eqb c dquote then
            match scan_string r with Some (t, rest) => Some (JStr t, rest) | None => None end
          else if Ascii.eqb c "{" then
            match eat "}" (skip_ws r) with
            | Some rest => Some (JObj [], rest)
            | None => match scan_members f [] (skip_ws r) with Some (m, rest) => Some (JObj m, rest) | None => None end
            end
          else if Ascii.eqb c "[" then
            match eat "]" (skip_ws r) with
            | Some rest => Some (JArr [], rest)
            | None => match scan_elems f (skip_ws r) with Some (l, rest) => Some (JArr l, rest) | None => None end
            end
          else literal s
      end
  end
with scan_elems (fuel : nat) (s : string) : option (list (json T) * string) :=
  match fuel with
  | O => None
  | S f =>
      match scan f s with
      | None => None
      | Some (v, r) =>
          match eat "]" (skip_ws r) with
          | Some rest => Some ([v], rest)
          | None =>
              match eat "," (skip_ws r) with
              | Some rest => match scan_elems f (skip_ws rest) with Some (l, rest') => Some (v :: l, rest') | None => None end
              | None => None
              end
          end
      end
  end
with scan_members (fuel : nat) (acc : list (string * json T)) (s : string) : option (list (string * json T) * string) :=
  match fuel with
  | O => None
  | S f =>
      match eat dquote s with
      | None => None
      | Some r =>
          match scan_string r with
          | None => None
          | Some (k, r1) =>
              match eat ":" (skip_ws r1) with
              | None => None
              | Some r2 =>
                  match scan f (skip_ws r2) with
                  | None => None
                  | Some (v, r3) =>
                      let acc' := assoc_set k v acc in
                      match eat "}" (skip_ws r3) with
                      | Some rest => Some (acc', rest)
                      | None => match eat "," (skip_ws r3) with
                                | Some rest => scan_members f acc' (skip_ws rest)
                                | None => None
                                end
                      end
                  end
              end
          end
      end
  end.

(** json.loads(s): None for JSONDecodeError *)
Definition loads (s : string) : option (json T) :=
  match scan (S (2 * String.length s)) (skip_ws s) with
  | Some (v, r) => match skip_ws r with EmptyString => Some v | _ => None end
  | None => None
  end.
End Loads.

Section Str.
Context {T : Type}.
(** [repr(x)] of a float, abstract. *)
Context (repr_float : T -> string).

Definition squote : ascii := ascii_of_nat 39.
Fixpoint has_char (c : ascii) (s : string) : bool :=
  match s with EmptyString => false | String x r => Ascii.eqb x c || has_char c r end.
Definition hex_digit (n : nat) : ascii := ascii_of_nat (if (n <? 10)%nat then 48 + n else 87 + n).
(** [repr(s)] of a str: single quotes unless the text has a single quote and no
    double quote. *)
Definition repr_char (q c : ascii) : string :=
  let n := nat_of_ascii c in
  if Ascii.eqb c q || Ascii.eqb c backslash then String backslash (String c EmptyString)
  else if (n =? 9)%nat then String backslash "t"
  else if (n =? 10)%nat then String backslash "n"
  else if (n =? 13)%nat then String backslash "r"
  else if (n <? 32)%nat || (n =? 127)%nat then
    String backslash (String "x" (String (hex_digit (n / 16)) (String (hex_digit (n mod 16)) EmptyString)))
  else String c EmptyString.
Fixpoint repr_chars (q : ascii) (s : string) : string :=
  match s with EmptyString => EmptyString | String c r => (repr_char q c ++ repr_chars q r)%string end.
Definition repr_str (s : string) : string :=
  let q := if has_char squote s && negb (has_char dquote s) then dquote else squote in
  String q (repr_chars q s ++ String q EmptyString).

Fixpoint join (sep : string) (l : list string) : string :=
  match l with
  | [] => EmptyString
  | [x] => x
  | x :: r => (x ++ sep ++ join sep r)%string
  end.
(** [repr(v)] of a value loaded with object_pairs_hook=OrderedDict (the text of
    an OrderedDict is that of Python < 3.12). *)
Fixpoint py_repr (j : json T) : string :=
  match j with
  | JNull => "None"
  | JBool true => "True"
  | JBool false => "False"
  | JInt z => Z_to_string z
  | JFloat x => repr_float x
  | JStr s => repr_str s
  | JArr l => ("[" ++ join ", " (map py_repr l) ++ "]")%string
  | JObj [] => "OrderedDict()"
  | JObj f => ("OrderedDict([" ++ join ", " (map (fun p => "(" ++ repr_str (fst p) ++ ", " ++ py_repr (snd p) ++ ")")%string f) ++ "])")%string
  end.
(** [str(v)] *)
Definition str_of (j : json T) : string := match j with JStr s => s | _ => py_repr j end.
End Str.
