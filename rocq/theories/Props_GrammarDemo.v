(** * Props_GrammarDemo: C92 on concrete texts *)
From Verif Require Import Base Num Json JsonText Props_RunFile JsonFacts JsonRead JsonGrammar EditJson Props_Grammar.

Section Demo.
Context {T : Type} {N : Num T}.
Context (constant : string -> T).
Ltac reads := apply C92_reads_exactly_json; reflexivity.
Ltac refused := intros v H; apply C92_reads_exactly_json in H; discriminate.

(** Blanks, nesting, a repeated key, escapes, a surrogate pair and a constant:
    { "a" : [1, -20 ,{}],"b":null , "a":"x\n\u00e9\ud83c\udf0b" } and NaN. *)
Example a_document : document constant
  " { ""a"" : [1, -20 ,{}],""b"":null , ""a"":""x\n\u00e9\ud83c\udf0b"" } "
  (JObj [("a", JStr (String "x" (String "010" (String "195" (String "169" (String "240" (String "159" (String "140" (String "139" EmptyString)))))))));
         ("b", JNull)]).
Proof. reads. Qed.
Example nan_is_a_document : document constant "NaN" (JFloat (constant "NaN")).
Proof. reads. Qed.
(** Python's spellings, a bare point, a leading zero or plus, a trailing comma, a raw
    tab in a string and a form feed are not JSON: the editor keeps such texts as text. *)
Example not_documents : Forall (fun s => value_of constant s = JStr s)
  ["True"; "None"; "1."; ".5"; "01"; "+1"; "[1,]"; "{""a"":1,}"; "'a'"; ""; "1 2"; "nan";
   String quote_char (String "009" (String quote_char EmptyString)); String "012" "1"].
Proof. repeat constructor. Qed.
Example true_is_a_value : value_of constant " true" = JBool true /\ value_of constant "[1 ,2]" = JArr [JInt 1; JInt 2].
Proof. split; reflexivity. Qed.
Example point_is_no_document : forall v, ~ document constant "1." v.
Proof. refused. Qed.
End Demo.
