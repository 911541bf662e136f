(** * Props_DumpDemo: C93 on concrete configurations *)
From Verif Require Import Base Num Json JsonText Props_RunFile JsonFacts JsonRead JsonGrammar Props_Grammar EditJson JsonDump Props_Dump Props_EditDemo.

Section Demo.
Context {T : Type} {N : Num T}.
Context (constant : string -> T).

(** A template as it stands on disk (an escaped quote and e acute in the name), and the
    text a sweep writes after setting the rate. *)
Definition template : string :=
  "{""lava_name"": ""Piton \""\u00e9\"""", ""slope_file"": ""a/b.txt"",
    ""lava_state"": {""phi"": 2.5, ""list"": [1, [], {}]}}".
Definition members_of : list (string * json T) :=
  [("lava_name", JStr ("Piton " ++ String "034" (String "195" (String "169" (String "034" ""))))); ("slope_file", JStr "a/b.txt");
   ("lava_state", JObj [("phi", JFloat (n_lit 25 10)); ("list", JArr [JInt 1; JArr []; JObj []])])].
Example template_read : loads constant template = Some (JObj members_of).
Proof. reflexivity. Qed.
Example template_saved : dumps demo_repr (JObj (assoc_set "effusion_rate_init" (JInt 12) members_of)) =
"{
    ""lava_name"": ""Piton \""\u00e9\"""",
    ""slope_file"": ""a/b.txt"",
    ""lava_state"": {
        ""phi"": 2.5,
        ""list"": [
            1,
            [],
            {}
        ]
    },
    ""effusion_rate_init"": 12
}".
Proof. reflexivity. Qed.
Lemma key_text : python_text "effusion_rate_init".
Proof.
  apply (ascii_python_text "effusion_rate_init"); [|repeat split; reflexivity].
  repeat (apply body_char; [vm_compute; lia|discriminate|discriminate|]). constructor.
Qed.
(** The hypotheses of the template theorem hold here. *)
Example template_reads_back : loads constant (dumps demo_repr (JObj (assoc_set "effusion_rate_init" (JInt 12) members_of))) =
  Some (JObj (assoc_set "effusion_rate_init" (JInt 12) members_of)).
Proof.
  apply (C93_template_with_entries_reads_back constant demo_repr template members_of [("effusion_rate_init", JInt 12)]).
  - repeat split; reflexivity.
  - exact template_read.
  - repeat constructor. exact (proj1 demo_reads_back).
  - constructor; [|constructor]. split; [exact key_text|constructor].
Qed.
(** The exclusion of split pairs is needed: the two-character text U+D83C U+DF0B (which
    Python allows) is read back as the one character U+1F30B. *)
Example split_pair_refuted :
  let two := (utf8 55356 ++ utf8 57099)%string in
  loads constant (dumps demo_repr (@JStr T two)) = Some (JStr (utf8 127755)) /\ two <> utf8 127755.
Proof. split; [reflexivity|discriminate]. Qed.
End Demo.
