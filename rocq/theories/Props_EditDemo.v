(** * Props_EditDemo: documents that meet the hypotheses of the C55 theorems. *)
From Verif Require Import Base Num Json Logger World Vesicle MeltVisc RelVisc Bubbles Terrain Lava
  Thermal Flux Integrator Factory Run JsonText Props_RunFile JsonFacts JsonRead EditJson Props_EditJson Props_EditNew.

Section Demo.
Context {T : Type} {N : Num T} (constant : string -> T).
(** The only float of the documents below is 2.5. *)
Definition demo_repr (x : T) : string := "2.5".
Lemma demo_reads_back : reads_back demo_repr (n_lit 25 10).
Proof.
  split; [|reflexivity]. exists "", "2", ".5", "". split; [reflexivity|]. split; [auto|]. split; [|split; [|split]].
  - split; [|discriminate]. cbn. unfold Props_RunFile.is_digit. cbn. lia.
  - right. exists "5". split; [reflexivity|]. split; [|discriminate]. cbn. unfold Props_RunFile.is_digit. cbn. lia.
  - auto.
  - intros [H _]. discriminate.
Qed.

Definition demo_doc : json T :=
  JObj [("lava_name", JStr "etna"); ("step_size", JInt 10); ("rows", JArr [JInt 1; JArr [JFloat (n_lit 25 10); JInt (-3)]]);
        ("terrain_conditions", JObj [("width", JFloat (n_lit 25 10)); ("inner", JObj [("n", JInt 0)])])].
Definition demo_fs : fsys T := fun p => if String.eqb p "f.json" then Some (FJson demo_doc) else None.
Lemma demo_clean : clean demo_doc.
Proof. cbn. repeat split; try discriminate; repeat constructor; cbn; intuition discriminate. Qed.
Lemma demo_fields : forall q v, at_path q demo_doc = Some v -> field v ->
  plain demo_repr v \/ exists s, v = JStr s /\ loads constant s = None.
Proof.
  intros q v H Hv. pose proof demo_reads_back as RB.
  assert (P : plain demo_repr (JArr [JInt 1; JArr [JFloat (n_lit 25 10); JInt (-3)]])).
  { constructor. constructor; [constructor|]. constructor; [|constructor]. constructor.
    constructor; [constructor; exact RB|]. constructor; [constructor|constructor]. }
  destruct q as [|k q]; [injection H as <-; contradiction|]. cbn in H.
  destruct (String.eqb k "lava_name").
  { destruct q; [|discriminate]. injection H as <-. right. exists "etna". split; reflexivity. }
  destruct (String.eqb k "step_size"); [destruct q; [|discriminate]; injection H as <-; left; constructor|].
  destruct (String.eqb k "rows"); [destruct q; [|discriminate]; injection H as <-; left; exact P|].
  destruct (String.eqb k "terrain_conditions"); [|discriminate].
  destruct q as [|k2 q]; [injection H as <-; contradiction|]. cbn in H.
  destruct (String.eqb k2 "width"); [destruct q; [|discriminate]; injection H as <-; left; constructor; exact RB|].
  destruct (String.eqb k2 "inner"); [|discriminate].
  destruct q as [|k3 q]; [injection H as <-; contradiction|]. cbn in H.
  destruct (String.eqb k3 "n"); [|discriminate]. destruct q; [|discriminate]. injection H as <-. left. constructor.
Qed.
(** It is saved unchanged. *)
Example demo_preserved : exists out, session constant demo_repr "f.json" [] demo_fs = Ok out /\
  load_json (fst out) "f.json" = Ok demo_doc.
Proof.
  assert (E : exists out, session constant demo_repr "f.json" [] demo_fs = Ok out).
  { unfold session. change (load_json demo_fs "f.json") with (Ok demo_doc). eexists. lazy -[save]. reflexivity. }
  destruct E as (out & E). exists out. split; [exact E|].
  exact (proj1 (C55_unedited_save_preserves constant demo_repr "f.json" demo_fs demo_doc out eq_refl demo_clean E demo_fields)).
Qed.
(** Adding an entry to its inner section, with an edit of the width. *)
Example demo_new_entry : exists e row out,
  open_editor demo_repr demo_doc = Ok e /\ assoc (dot ["terrain_conditions"; "inner"]) (ed_sections e) = Some row /\
  no_temp demo_doc /\ no_echo "terrain_conditions" demo_doc /\
  session constant demo_repr "f.json" ([SetField "terrain_conditions.width" "4"] ++
     AddEntry "terrain_conditions.inner" :: [] ++ FillEntry (temp_key "terrain_conditions.inner" (S row)) " flag " "true" :: []) demo_fs = Ok out /\
  load_json (fst out) "f.json" = Ok (JObj [("lava_name", JStr "etna"); ("step_size", JInt 10);
    ("rows", JArr [JInt 1; JArr [JFloat (n_lit 25 10); JInt (-3)]]);
    ("terrain_conditions", JObj [("width", JInt 4); ("inner", JObj [("n", JInt 0); ("flag", JBool true)])])]).
Proof.
  eexists. eexists. eexists. split; [vm_compute; reflexivity|]. split; [vm_compute; reflexivity|]. split; [|split; [|split]].
  - intros q k n v H E. assert (G : In k ["lava_name"; "step_size"; "rows"; "terrain_conditions"; "width"; "inner"; "n"]).
    { clear E. destruct q as [|k1 q]; cbn in H.
      - repeat (destruct (String.eqb k _) eqn:E in H; [apply String.eqb_eq in E; subst; cbn; tauto|clear E]). discriminate.
      - destruct (String.eqb k1 "lava_name"); [destruct q; discriminate|].
        destruct (String.eqb k1 "step_size"); [destruct q; discriminate|].
        destruct (String.eqb k1 "rows"); [destruct q; discriminate|].
        destruct (String.eqb k1 "terrain_conditions"); [|discriminate].
        destruct q as [|k2 q]; cbn in H.
        + repeat (destruct (String.eqb k _) eqn:E in H; [apply String.eqb_eq in E; subst; cbn; tauto|clear E]). discriminate.
        + destruct (String.eqb k2 "width"); [destruct q; discriminate|].
          destruct (String.eqb k2 "inner"); [|discriminate]. destruct q as [|k3 q]; cbn in H.
          * destruct (String.eqb k "n") eqn:E; [apply String.eqb_eq in E; subst; cbn; tauto|discriminate].
          * destruct (String.eqb k3 "n"); [destruct q; discriminate|discriminate]. }
    cbn in G. intuition (subst; discriminate).
  - intros q f Hq H. destruct q as [|k1 q]; [congruence|]. cbn in H.
    destruct (String.eqb k1 "lava_name"); [destruct q; discriminate|].
    destruct (String.eqb k1 "step_size"); [destruct q; discriminate|].
    destruct (String.eqb k1 "rows"); [destruct q; discriminate|].
    destruct (String.eqb k1 "terrain_conditions"); [|discriminate].
    destruct q as [|k2 q]; [injection H as <-; reflexivity|]. cbn in H.
    destruct (String.eqb k2 "width"); [destruct q; discriminate|]. destruct (String.eqb k2 "inner"); [|discriminate].
    destruct q as [|k3 q]; [injection H as <-; reflexivity|]. cbn in H.
    destruct (String.eqb k3 "n"); [destruct q; discriminate|discriminate].
  - vm_compute. reflexivity.
  - vm_compute. reflexivity.
Qed.
(** Texts that look like other values. *)
Example demo_texts :
  resaved constant demo_repr (JStr "12") = JInt 12 /\ resaved constant demo_repr (JStr "true") = JBool true /\
  resaved constant demo_repr (JStr "./resource/DEM.txt") = JStr "./resource/DEM.txt" /\
  resaved constant demo_repr (JArr [JInt 1; JStr "a"]) = JStr "[1, 'a']" /\
  resaved constant demo_repr (JArr [JStr "it's"]) = JArr [JStr "it's"] /\
  resaved constant demo_repr (JArr [JBool true]) = JStr "[True]".
Proof. repeat split; vm_compute; reflexivity. Qed.

(** A configuration that smooths, for [C55_saving_switches_smoothing_off]. *)
Definition smooth_doc : json T :=
  JObj [("effusion_rate_init", JInt 0);
        ("terrain_conditions", JObj [("depth", JInt 2); ("width", JInt 5); ("gravity", JInt 9); ("max_channel_length", JInt 1000);
          ("slope_smoothing_active", JBool true); ("slope_smoothing_number_of_points", JInt 5)])].
Definition smooth_fs : fsys T := fun p => if String.eqb p "f.json" then Some (FJson smooth_doc) else None.
Example smooth_meets : load_json smooth_fs "f.json" = Ok smooth_doc /\ clean smooth_doc /\
  (forall ds, radians (n_lit 2657414 1000000) = Ok ds -> exists ter depth n, read_terrain smooth_doc = Ok (ter, depth, Some n)) /\
  exists out d', session constant demo_repr "f.json" [] smooth_fs = Ok out /\ load_json (fst out) "f.json" = Ok d'.
Proof.
  split; [reflexivity|]. split; [cbn; repeat split; try discriminate; repeat constructor; cbn; intuition discriminate|]. split.
  - intros ds E. unfold read_terrain. cbn. rewrite E. cbn. eauto.
  - eexists. eexists. split; vm_compute; reflexivity.
Qed.
End Demo.
