(** * Props_EditTwice: saving a second time (C55) *)
From Verif Require Import Base Num Json Logger World Vesicle MeltVisc RelVisc Bubbles Terrain Lava
  Thermal Flux Integrator Factory Run JsonText Props_RunFile JsonFacts JsonRead EditJson Props_EditJson.

Section Twice.
Context {T : Type} {N : Num T}.
Context (constant : string -> T) (repr_float : T -> string).
Notation session := (session constant repr_float).
Notation loads := (loads constant).
Notation resaved := (resaved constant repr_float).
Notation value_of := (value_of constant).
Notation fill := (fill constant).

(** What is in most configurations: numbers and lists of numbers; true, false, null and
    lists holding them; texts that are not JSON; texts denoting a number or such a list. *)
Definition usual (v : json T) : Prop :=
  plain repr_float v \/
  (unreadable repr_float v /\ (forall s, v <> JStr s) /\ field v) \/
  exists s, v = JStr s /\ (loads s = None \/ exists w, loads s = Some w /\ plain repr_float w).

Lemma plain_field v : plain repr_float v -> field v.
Proof. destruct 1; exact I. Qed.
Lemma usual_stable v : usual v -> field (resaved v) /\ resaved (resaved v) = resaved v.
Proof.
  intros [P|[(U & Hs & F)|(s & -> & [E|(w & E & P)])]].
  - rewrite !(C55_numbers_survive constant repr_float v P). split; [apply plain_field, P|reflexivity].
  - destruct (C55_others_become_text constant repr_float v U Hs) as [E _]. rewrite E. split; [exact I|].
    apply C55_string_survives_iff. exact (loads_unreadable constant repr_float v U).
  - rewrite !(proj2 (C55_string_survives_iff constant repr_float s) E). split; [exact I|reflexivity].
  - assert (R : resaved (JStr s) = w) by (unfold Props_EditJson.resaved; cbn [JsonText.str_of]; rewrite E; reflexivity).
    rewrite R. split; [apply plain_field, P|apply C55_numbers_survive, P].
Qed.

Lemma fill_at_inv t : forall q pp j v', (forall r v, at_path r j = Some v -> field v -> field (value_of (t (pp ++ r)))) ->
  at_path q (fill t pp j) = Some v' -> field v' -> exists v, at_path q j = Some v /\ field v /\ v' = value_of (t (pp ++ q)).
Proof.
  assert (NF : forall j : json T, field j -> forall k q, at_path (k :: q) j = None) by (intros [] F k q; [reflexivity..|destruct F]).
  induction q as [|k q IH]; intros pp j v' Hf E F.
  - injection E as E. destruct (field_or j) as [Fj|(f & ->)]; [|subst v'; destruct F].
    exists j. rewrite app_nil_r. split; [reflexivity|]. split; [exact Fj|]. subst v'. destruct j; [reflexivity..|destruct Fj].
  - destruct (field_or j) as [Fj|(f & ->)].
    + assert (X : fill t pp j = value_of (t pp)) by (destruct j; [reflexivity..|destruct Fj]). rewrite X in E.
      assert (Y := Hf [] j eq_refl Fj). rewrite app_nil_r in Y. rewrite (NF _ Y) in E. discriminate.
    + cbn [Props_EditJson.fill at_path] in E. rewrite fill_assoc in E. destruct (assoc k f) as [c|] eqn:A; [|discriminate].
      destruct (IH (pp ++ [k]) c v') as (v & Hv & Fv & Ev).
      * intros r v Hr Fr. rewrite <- app_assoc. apply (Hf (k :: r) v); [cbn [at_path]; rewrite A; exact Hr|exact Fr].
      * exact E.
      * exact F.
      * exists v. cbn [at_path]. rewrite A. rewrite <- app_assoc in Ev. auto.
Qed.
Lemma clean_field (v : json T) : field v -> clean v.
Proof. destruct v; [exact (fun _ => I)..|intros []]. Qed.
Lemma clean_obj (f : list (string * json T)) : clean (JObj f) <-> NoDup (map fst f) /\ Forall (fun p => good_key (fst p) /\ clean (snd p)) f.
Proof.
  cbn [clean]. match goal with |- _ /\ ?a f <-> _ => set (all := a) end.
  assert (E : forall l, all l <-> Forall (fun p => good_key (fst p) /\ clean (snd p)) l).
  { induction l as [|[k v] l IHl]; [split; [constructor|exact (fun _ => I)]|].
    change (all ((k, v) :: l)) with (good_key k /\ clean v /\ all l). split.
    - intros (G & C & R). constructor; [auto|now apply IHl].
    - intros F. inversion F as [|? ? [G C] R]; subst. split; [exact G|]. split; [exact C|now apply IHl]. }
  rewrite (E f). reflexivity.
Qed.
Lemma fill_clean t : forall j pp, (forall r v, at_path r j = Some v -> field v -> field (value_of (t (pp ++ r)))) -> clean j -> clean (fill t pp j).
Proof.
  assert (L : forall j pp, field j -> (forall r v, at_path r j = Some v -> field v -> field (value_of (t (pp ++ r)))) -> clean (fill t pp j)).
  { intros j pp Fj Hf. assert (X : fill t pp j = value_of (t pp)) by (destruct j; [reflexivity..|destruct Fj]). rewrite X.
    apply clean_field. generalize (Hf [] j eq_refl Fj). rewrite app_nil_r. trivial. }
  induction j as [|b|z|x|s|l IH|f IH] using json_size_ind; intros pp Hf Hc; try (apply L; [exact I|exact Hf]).
  apply clean_obj in Hc as [ND Hc]. cbn [Props_EditJson.fill]. apply clean_obj. split; [rewrite fill_keys; exact ND|].
  assert (Ha : forall k v, In (k, v) f -> assoc k f = Some v).
  { clear - ND. induction f as [|[k0 v0] f IHf]; intros k v H; [destruct H|]. cbn [map fst] in ND. inversion ND as [|? ? Hn Nd]; subst. cbn [assoc].
    destruct H as [H|H]; [injection H as -> ->; rewrite String.eqb_refl; reflexivity|].
    destruct (String.eqb k k0) eqn:E; [|exact (IHf Nd k v H)]. apply String.eqb_eq in E. subst k0. exfalso. apply Hn. exact (in_map fst f (k, v) H). }
  rewrite Forall_map, Forall_forall in *. intros [k v] Hin. destruct (Hc _ Hin) as [G C]. cbn [fst snd] in *. split; [exact G|].
  apply (IH _ Hin); [|exact C]. intros r w Hr Fw. rewrite <- app_assoc. apply (Hf (k :: r) w); [|exact Fw]. cbn [at_path]. rewrite (Ha k v Hin). exact Hr.
Qed.

(** C55.  When every field of the configuration is one of the usual ones, a second
    unedited save changes nothing any more. *)
Theorem C55_second_save_changes_nothing : forall path fs d out out2,
  load_json fs path = Ok d -> clean d -> (forall q v, at_path q d = Some v -> field v -> usual v) ->
  session path [] fs = Ok out -> session path [] (fst out) = Ok out2 ->
  exists d', load_json (fst out) path = Ok d' /\ load_json (fst out2) path = Ok d' /\
    forall p, fst out2 p = fst out p.
Proof.
  intros path fs d out out2 Hd Hc Hu H H2. destruct (session_fields constant repr_float path [] fs d out Hd Hc (Forall_nil _) H) as [-> Hf].
  set (t := text_in repr_float d []) in *. cbn [fst] in *.
  assert (Ht : forall q v, at_path q d = Some v -> value_of (t q) = resaved v).
  { intros q v Hq. unfold t, text_in. rewrite Hq. reflexivity. }
  assert (Hfd : forall r v, at_path r d = Some v -> field v -> field (value_of (t ([] ++ r)))).
  { intros r v Hr Fv. cbn [List.app]. rewrite (Ht r v Hr). exact (proj1 (usual_stable v (Hu r v Hr Fv))). }
  assert (L : load_json (fs_write path (FJson (fill t [] d)) fs) path = Ok (fill t [] d)) by (unfold load_json, fs_write; rewrite String.eqb_refl; reflexivity).
  assert (C : clean (fill t [] d)) by (apply fill_clean; assumption).
  assert (L2 := proj2 (C55_unedited_save_preserves_iff constant repr_float path _ _ out2 L C H2)).
  exists (fill t [] d). split; [exact L|]. split.
  - apply L2. intros q v Hq Fv. destruct (fill_at_inv t q [] d v Hfd Hq Fv) as (v0 & Hq0 & F0 & ->). cbn [List.app]. rewrite (Ht q v0 Hq0).
    exact (proj2 (usual_stable v0 (Hu q v0 Hq0 F0))).
  - assert (L3 : load_json (fst out2) path = Ok (fill t [] d)).
    { apply L2. intros q v Hq Fv. destruct (fill_at_inv t q [] d v Hfd Hq Fv) as (v0 & Hq0 & F0 & ->). cbn [List.app]. rewrite (Ht q v0 Hq0).
      exact (proj2 (usual_stable v0 (Hu q v0 Hq0 F0))). }
    destruct (session_fields constant repr_float path [] _ _ out2 L C (Forall_nil _) H2) as [-> _]. cbn [fst] in *. intros p.
    unfold load_json, fs_write in *. rewrite String.eqb_refl in L3. destruct (String.eqb p path); [|reflexivity]. injection L3 as ->. reflexivity.
Qed.
End Twice.

(** A text that is itself the text of a JSON string loses one pair of quotes at each
    save, so the second save still changes it. *)
Section Quoted.
Context {T : Type} {N : Num T} (constant : string -> T) (repr_float : T -> string).
Definition quoted : string := String "034" (String "049" (String "034" EmptyString)).
Example C55_second_save_refuted :
  resaved constant repr_float (JStr quoted) = JStr "1" /\ resaved constant repr_float (JStr "1") = JInt 1.
Proof. split; reflexivity. Qed.
(** A configuration with every usual kind of field: the first save changes it, the second does not. *)
Definition twice_doc : json T := JObj [("lava_name", JStr "etna"); ("terrain_conditions", JObj [("slope_smoothing_active", JBool true); ("width", JStr "12"); ("depth", JInt 3); ("list", JArr [JInt 1; JNull])])].
Definition twice_saved : json T := JObj [("lava_name", JStr "etna"); ("terrain_conditions", JObj [("slope_smoothing_active", JStr "True"); ("width", JInt 12); ("depth", JInt 3); ("list", JStr "[1, None]")])].
Definition twice_fs : fsys T := fun p => if String.eqb p "f.json" then Some (FJson twice_doc) else None.
Lemma twice_usual : forall q v, at_path q twice_doc = Some v -> field v -> usual constant repr_float v.
Proof.
  intros q v H F. destruct q as [|k [|k2 q]]; cbn [at_path twice_doc assoc] in H.
  - injection H as <-. destruct F.
  - destruct (String.eqb k _); [injection H as <-; right; right; eexists; split; [reflexivity|left; reflexivity]|].
    destruct (String.eqb k _); [injection H as <-; destruct F|discriminate].
  - destruct (String.eqb k _); [discriminate|]. destruct (String.eqb k _); [|discriminate]. cbn [assoc] in H.
    destruct (String.eqb k2 _); [|destruct (String.eqb k2 _); [|destruct (String.eqb k2 _); [|destruct (String.eqb k2 _); [|discriminate]]]];
      (destruct q; [injection H as <-|discriminate]).
    + right. left. split; [constructor|]. split; [discriminate|exact I].
    + right. right. eexists. split; [reflexivity|]. right. exists (JInt 12). split; [reflexivity|constructor].
    + left. constructor.
    + right. left. split; [|split; [discriminate|exact I]]. apply (unreadable_arr repr_float [JInt 1] JNull []); repeat constructor.
Qed.
Example twice_demo :
  session constant repr_float "f.json" [] twice_fs = Ok (fs_write "f.json" (FJson twice_saved) twice_fs, true) /\
  exists out2, session constant repr_float "f.json" [] (fs_write "f.json" (FJson twice_saved) twice_fs) = Ok out2 /\
    load_json (fst out2) "f.json" = Ok twice_saved /\ twice_saved <> twice_doc.
Proof.
  assert (O : exists e, open_editor repr_float twice_doc = Ok e /\ rebuild constant (ed_labels e) twice_doc "" = Ok twice_saved).
  { eexists. split; [lazy; reflexivity|lazy; reflexivity]. }
  destruct O as (e & O & R).
  assert (E : session constant repr_float "f.json" [] twice_fs = Ok (fs_write "f.json" (FJson twice_saved) twice_fs, true)).
  { unfold EditJson.session. change (load_json twice_fs "f.json") with (Ok twice_doc). cbn [rbind]. rewrite O. cbn [rbind acts]. unfold save. rewrite R. reflexivity. }
  split; [exact E|].
  assert (ND2 : forall a b : string, a <> b -> NoDup [a; b]).
  { intros a b H. constructor; [intros [X|[]]; congruence|]. constructor; [intros []|constructor]. }
  assert (C : clean twice_doc).
  { apply clean_obj. split; [apply ND2; discriminate|]. repeat (constructor; [split; [split; [discriminate|reflexivity]|]|]); [exact I| |constructor].
    apply clean_obj. split; [|repeat (constructor; [split; [split; [discriminate|reflexivity]|exact I]|]); constructor].
    cbn [map fst]. repeat (constructor; [intros [H|H]; [discriminate|repeat (destruct H as [H|H]; [discriminate|]); destruct H] || (intros [])|]). constructor. }
  assert (E2 : exists out2, session constant repr_float "f.json" [] (fs_write "f.json" (FJson twice_saved) twice_fs) = Ok out2).
  { unfold EditJson.session. change (load_json (fs_write "f.json" (FJson twice_saved) twice_fs) "f.json") with (Ok twice_saved). cbn [rbind].
    assert (O2 : exists e2, open_editor repr_float twice_saved = Ok e2) by (eexists; lazy; reflexivity).
    destruct O2 as (e2 & O2). rewrite O2. cbn [rbind acts]. eexists. reflexivity. }
  destruct E2 as (out2 & E2). exists out2. split; [exact E2|]. split; [|discriminate].
  destruct (C55_second_save_changes_nothing constant repr_float "f.json" twice_fs twice_doc _ out2 eq_refl C twice_usual E E2) as (d' & L & L2 & _).
  rewrite L2. exact (eq_sym L).
Qed.
End Quoted.
Print Assumptions C55_second_save_changes_nothing.
