(** * JsonGrammar: which texts are JSON and what they mean, written as a grammar (C92).

    A specification, independent of the scanner in JsonText.v: RFC 8259 plus the three
    constants [NaN], [Infinity] and [-Infinity] that CPython's json module accepts.
    Texts are bytes (UTF-8 above 127). *)
From Verif Require Import Base Num Json Props_RunFile JsonRead.

Section Grammar.
Context {T : Type} {N : Num T}.
Context (constant : string -> T).
Notation code := nat_of_ascii.

(** Space, tab, newline, carriage return. *)
Definition blank (w : string) : Prop := all_chars (fun c => code c = 32 \/ code c = 9 \/ code c = 10 \/ code c = 13)%nat w.

(** ** Strings *)
Definition quote_char : ascii := "034"%char.
Definition escape_char : ascii := "092"%char.
(** The letter after a backslash and the character it stands for. *)
Inductive escape : ascii -> ascii -> Prop :=
| escape_quote : escape "034" "034"
| escape_backslash : escape "092" "092"
| escape_slash : escape "/" "/"
| escape_b : escape "b" "008"
| escape_f : escape "f" "012"
| escape_n : escape "n" "010"
| escape_r : escape "r" "013"
| escape_t : escape "t" "009".
Definition hex (c : ascii) (n : BinNums.N) : Prop :=
  let m := N_of_ascii c in
  ((48 <= m <= 57 /\ n = m - 48) \/ (65 <= m <= 70 /\ n = m - 55) \/ (97 <= m <= 102 /\ n = m - 87))%N.
(** [\uabcd] names the code unit [n]. *)
Definition unit_text (s : string) (n : BinNums.N) : Prop :=
  exists a b c d x y z w, s = String "092" (String "u" (String a (String b (String c (String d EmptyString))))) /\
    hex a x /\ hex b y /\ hex c z /\ hex d w /\ (n = 4096 * x + 256 * y + 16 * z + w)%N.
Definition high (n : BinNums.N) : Prop := (55296 <= n < 56320)%N.
Definition low (n : BinNums.N) : Prop := (56320 <= n < 57344)%N.
(** The bytes [s] are the UTF-8 code of [n] (a lone surrogate is coded like any other
    code point). *)
Definition coded (n : BinNums.N) (s : string) : Prop :=
  (exists a, s = String a EmptyString /\ N_of_ascii a = n /\ n < 128)%N \/
  (exists a b x y, s = String a (String b EmptyString) /\ 128 <= n < 2048 /\ y < 64 /\ n = 64 * x + y /\
     N_of_ascii a = 192 + x /\ N_of_ascii b = 128 + y)%N \/
  (exists a b c x y z, s = String a (String b (String c EmptyString)) /\ 2048 <= n < 65536 /\ y < 64 /\ z < 64 /\
     n = 4096 * x + 64 * y + z /\ N_of_ascii a = 224 + x /\ N_of_ascii b = 128 + y /\ N_of_ascii c = 128 + z)%N \/
  (exists a b c d x y z w, s = String a (String b (String c (String d EmptyString))) /\ 65536 <= n < 1114112 /\
     y < 64 /\ z < 64 /\ w < 64 /\ n = 262144 * x + 4096 * y + 64 * z + w /\
     N_of_ascii a = 240 + x /\ N_of_ascii b = 128 + y /\ N_of_ascii c = 128 + z /\ N_of_ascii d = 128 + w)%N.
(** What may stand between two quotes, and the text it stands for.  A high surrogate
    followed by a low one is one character. *)
Inductive body : string -> string -> Prop :=
| body_end : body EmptyString EmptyString
| body_char c s t : (32 <= code c)%nat -> c <> quote_char -> c <> escape_char -> body s t -> body (String c s) (String c t)
| body_escape e x s t : escape e x -> body s t -> body (String escape_char (String e s)) (String x t)
| body_unit u n k s t : unit_text u n -> coded n k -> body s t ->
    ~ (high n /\ exists u' n' r, s = (u' ++ r)%string /\ unit_text u' n' /\ low n') -> body (u ++ s) (k ++ t)
| body_pair u n u' n' k s t : unit_text u n -> high n -> unit_text u' n' -> low n' ->
    coded (65536 + 1024 * (n - 55296) + (n' - 56320)) k -> body s t -> body (u ++ u' ++ s) (k ++ t).
Definition quoted (s : string) : string := String quote_char (s ++ String quote_char EmptyString).

(** ** Values *)
(** An object: each key where it first stood, with the value that stood last. *)
Fixpoint first_keys (seen : list string) (ps : list (string * json T)) : list string :=
  match ps with
  | [] => []
  | (k, _) :: r => if in_dec string_dec k seen then first_keys seen r else k :: first_keys (k :: seen) r
  end.
Definition dict (ps : list (string * json T)) (m : list (string * json T)) : Prop :=
  map fst m = first_keys [] ps /\ forall k, assoc k m = assoc k (rev ps).

Inductive value : string -> json T -> Prop :=
| value_null : value "null" JNull
| value_true : value "true" (JBool true)
| value_false : value "false" (JBool false)
| value_int s : int_part s -> value s (JInt (decimal_value 0 s))
| value_minus s : int_part s -> value (String "-" s) (JInt (- decimal_value 0 s))
| value_float s x : number_text s -> parse_float s = Ok x -> value s (JFloat x)
| value_nan : value "NaN" (JFloat (constant "NaN"))
| value_infinity : value "Infinity" (JFloat (constant "Infinity"))
| value_minus_infinity : value "-Infinity" (JFloat (constant "-Infinity"))
| value_string s t : body s t -> value (quoted s) (JStr t)
| value_no_array w : blank w -> value (String "[" (w ++ "]")) (JArr [])
| value_array w s l : blank w -> elements s l -> value (String "[" (w ++ s ++ "]")) (JArr l)
| value_no_object w : blank w -> value (String "{" (w ++ "}")) (JObj [])
| value_object w s ps m : blank w -> members s ps -> dict ps m -> value (String "{" (w ++ s ++ "}")) (JObj m)
with elements : string -> list (json T) -> Prop :=
| elements_one s v w : value s v -> blank w -> elements (s ++ w) [v]
| elements_more s v w1 w2 r l : value s v -> blank w1 -> blank w2 -> elements r l ->
    elements (s ++ w1 ++ String "," (w2 ++ r)) (v :: l)
with members : string -> list (string * json T) -> Prop :=
| members_one k key w1 w2 s v w3 : body k key -> blank w1 -> blank w2 -> value s v -> blank w3 ->
    members (quoted k ++ w1 ++ String ":" (w2 ++ s ++ w3)) [(key, v)]
| members_more k key w1 w2 s v w3 w4 r ps : body k key -> blank w1 -> blank w2 -> value s v -> blank w3 -> blank w4 -> members r ps ->
    members (quoted k ++ w1 ++ String ":" (w2 ++ s ++ w3 ++ String "," (w4 ++ r))) ((key, v) :: ps).

(** A JSON text: one value with blanks around it. *)
Definition document (s : string) (v : json T) : Prop :=
  exists w1 t w2, blank w1 /\ blank w2 /\ s = (w1 ++ t ++ w2)%string /\ value t v.

Scheme value_mut := Minimality for value Sort Prop
with elements_mut := Minimality for elements Sort Prop
with members_mut := Minimality for members Sort Prop.
Combined Scheme grammar_ind from value_mut, elements_mut, members_mut.
End Grammar.
