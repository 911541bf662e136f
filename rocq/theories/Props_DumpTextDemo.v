(** * Props_DumpTextDemo: C93 on an editor session over a UTF-8 file *)
From Verif Require Import Base Num Json Logger World Vesicle MeltVisc RelVisc Bubbles Terrain Lava Thermal Flux Integrator Factory Run.
From Verif Require Import JsonText Props_RunFile JsonFacts JsonRead JsonGrammar Props_Grammar EditJson JsonDump Props_Dump Props_DumpText.

Section Demo.
Context {T : Type} {N : Num T}.
Context (constant : string -> T) (float_text : T -> string).

(** The file holds e acute and a volcano sign as raw UTF-8 bytes; the user renames the
    lava and adds an entry. *)
Definition file_start : string := "{""lava_name"": ""Piton ".
Definition file_end : string := """, ""lava_state"": {""phi"": 2}}".
Definition accent : string := (utf8 233 ++ utf8 127755)%string.
Definition file : string := (file_start ++ accent ++ file_end)%string.
Definition doc : json T := JObj [("lava_name", JStr ("Piton " ++ accent)); ("lava_state", JObj [("phi", JInt 2)])].
Example file_read : loads constant file = Some doc.
Proof. reflexivity. Qed.
Lemma plain s : forallb (fun c => N.ltb (N_of_ascii c) 128) (list_ascii_of_string s) = true -> plain_ascii s.
Proof.
  unfold plain_ascii. induction s as [|c s IH]; cbn [list_ascii_of_string forallb all_chars]; [trivial|]. intros H. apply andb_prop in H as [H1 H2].
  split; [apply N.ltb_lt in H1; exact H1|exact (IH H2)].
Qed.
Lemma unicode_append a b : unicode a -> unicode b -> unicode (a ++ b).
Proof. intros (l & -> & F) (m & -> & G). exists (l ++ m). split; [symmetry; apply text_of_app|]. now apply Forall_app. Qed.
Lemma accent_unicode : unicode accent.
Proof. exists [233; 127755]%N. split; [reflexivity|]. repeat constructor; unfold scalar; lia. Qed.
Lemma file_unicode : unicode file.
Proof. apply unicode_append; [|apply unicode_append]; [| exact accent_unicode |]; apply ascii_unicode, plain; reflexivity. Qed.
Definition fs0 : fsys T := fun p => if String.eqb p "f.json" then Some (FJson doc) else None.
Definition acts0 : list action := [SetField "lava_name" ("Etna " ++ accent)%string].
Definition saved : json T := JObj [("lava_name", JStr ("Etna " ++ accent)); ("lava_state", JObj [("phi", JInt 2)])].
(** The session of the theorem: its hypotheses hold, it saves [saved], and the file
    written is read back as [saved]. *)
Example session_reads_back :
  session constant float_text "f.json" acts0 fs0 = Ok (fs_write "f.json" (FJson saved) fs0, true) /\ loads constant (dumps float_text saved) = Some saved.
Proof.
  assert (O : exists e e1, open_editor float_text doc = Ok e /\ acts acts0 e = Ok e1 /\ window_texts (ed_labels e1) /\ rebuild constant (ed_labels e1) doc "" = Ok saved).
  { do 2 eexists. split; [reflexivity|]. split; [reflexivity|]. split; [|reflexivity].
    repeat constructor; cbn [window_text snd].
    all: first [apply unicode_append; [|exact accent_unicode]; apply ascii_unicode, plain; reflexivity | apply ascii_unicode, plain; reflexivity]. }
  destruct O as (e & e1 & O & A & W & R).
  assert (Ss : session constant float_text "f.json" acts0 fs0 = Ok (fs_write "f.json" (FJson saved) fs0, true)).
  { unfold session. change (load_json fs0 "f.json") with (Ok doc). cbn [rbind]. rewrite O. cbn [rbind]. rewrite A. cbn [rbind]. unfold save. rewrite R. reflexivity. }
  split; [exact Ss|].
  destruct (C93_edited_file_reads_back constant float_text file doc "f.json" acts0 fs0 e e1 _ file_unicode file_read eq_refl O A W Ss) as (out & E & B).
  assert (Eo : out = saved).
  { apply (f_equal (fun fs => fs "f.json")) in E. cbv [fs_write] in E. cbn in E. injection E as E. now symmetry. }
  subst out. apply B. repeat (constructor; cbn [map snd fst]).
Qed.
End Demo.
