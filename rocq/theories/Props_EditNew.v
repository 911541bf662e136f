(** * Props_EditNew: adding entries in the JSON editor: C55 *)
From Verif Require Import Base Num Json Logger World Vesicle MeltVisc RelVisc Bubbles Terrain Lava
  Thermal Flux Integrator Factory Run JsonText Props_RunFile JsonFacts JsonRead EditJson Props_EditJson.

(** ** Names of new entries *)
Lemma cut_none sep s : match sep with String c _ => has_char c s = false | EmptyString => False end -> cut_last sep s = None.
Proof.
  destruct sep as [|c sep]; [contradiction|]. induction s as [|x s IH]; [reflexivity|].
  cbn [has_char cut_last]. intros H. apply orb_false_elim in H as [H1 H2]. rewrite (IH H2). cbn [prefix].
  destruct (ascii_dec c x) as [->|]; [rewrite Ascii.eqb_refl in H1; discriminate|reflexivity].
Qed.
Lemma prefix_app p s : prefix p (p ++ s) = true.
Proof. induction p as [|c p IH]; [destruct s; reflexivity|]. cbn. destruct (ascii_dec c c); [exact IH|congruence]. Qed.
Lemma cut_last_app s sep c tl : sep = String c tl -> forall r, has_char c (tl ++ r) = false ->
  cut_last sep (s ++ sep ++ r) = Some s.
Proof.
  intros -> r Hr. induction s as [|x s IH].
  - change ("" ++ String c tl ++ r)%string with (String c (tl ++ r)). cbn [cut_last].
    rewrite (cut_none (String c tl) (tl ++ r) Hr). change (String c (tl ++ r)) with (String c tl ++ r)%string.
    rewrite prefix_app. reflexivity.
  - change (String x s ++ String c tl ++ r)%string with (String x (s ++ String c tl ++ r)). cbn [cut_last]. rewrite IH. reflexivity.
Qed.
Lemma digits_no_dot s : all_chars Props_RunFile.is_digit s -> has_char "." s = false.
Proof.
  induction s as [|c s IH]; [reflexivity|]. intros [H1 H2]. cbn. rewrite (IH H2), orb_false_r.
  apply Ascii.eqb_neq. intros ->. unfold Props_RunFile.is_digit in H1. cbn in H1. lia.
Qed.
Lemma has_char_app c a b : has_char c (a ++ b) = has_char c a || has_char c b.
Proof. induction a as [|x a IH]; [reflexivity|]. cbn. rewrite IH, orb_assoc. reflexivity. Qed.
Lemma nat_text n : exists s, Z_to_string (Z.of_nat n) = s /\ all_chars Props_RunFile.is_digit s.
Proof.
  eexists. split; [reflexivity|]. unfold Z_to_string. destruct (Z.ltb_spec (Z.of_nat n) 0); [lia|]. apply pos_digits_chars. lia.
Qed.
(** The section is recovered from the name. *)
Lemma section_of_temp_key s n : before_last ".new_entry_" (temp_key s n) = s.
Proof.
  unfold before_last, temp_key. destruct (nat_text n) as (d & -> & Hd).
  rewrite (cut_last_app s ".new_entry_" "." "new_entry_" eq_refl d); [reflexivity|].
  rewrite has_char_app, (digits_no_dot d Hd). reflexivity.
Qed.
Lemma temp_key_dot (q : list string) n : q <> [] -> temp_key (dot q) n = dot (q ++ [("new_entry_" ++ Z_to_string (Z.of_nat n))%string]).
Proof. intros Hq. rewrite (dot_snoc q _ Hq). reflexivity. Qed.
Lemma new_key_good n : good_key ("new_entry_" ++ Z_to_string (Z.of_nat n)).
Proof.
  split; [discriminate|]. rewrite has_char_app. destruct (nat_text n) as (d & -> & Hd). rewrite (digits_no_dot d Hd). reflexivity.
Qed.

Section New.
Context {T : Type} {N : Num T}.
Context (constant : string -> T) (repr_float : T -> string).
Notation str_of := (str_of repr_float).
Notation render := (render repr_float).
Notation value_of := (value_of constant).
Notation session := (session constant repr_float).

(** [d[q][k] = v] on a document *)
Fixpoint with_field (q : list string) (k : string) (v : json T) (d : json T) : json T :=
  match d with
  | JObj f => match q with
              | [] => JObj (assoc_set k v f)
              | p :: r => match assoc p f with Some c => JObj (assoc_set p (with_field r k v c) f) | None => d end
              end
  | _ => d
  end.

Lemma put_at_section q k v : forall j f, at_path q j = Some (JObj f) -> put_at q k v j = Ok (with_field q k v j).
Proof.
  induction q as [|p q IH]; intros j f H.
  - injection H as ->. reflexivity.
  - cbn in H. destruct j; try discriminate. cbn. destruct (assoc p fields) as [c|]; [|discriminate].
    rewrite (IH _ _ H). reflexivity.
Qed.

(** The sections the editor knows: those of the document. *)
Lemma render_keeps_section j : forall parent (e : editor) s n, assoc s (ed_sections e) = Some n ->
  exists n', assoc s (ed_sections (render j parent e)) = Some n'.
Proof.
  assert (Set1 : forall (s k : string) (m : nat) l n, assoc s l = Some n -> exists n', assoc s (assoc_set k m l) = Some n').
  { intros s k m l n H. destruct (String.eqb s k) eqn:E.
    - apply String.eqb_eq in E. subst k. rewrite assoc_set_same. eauto.
    - rewrite assoc_set_other; [eauto|]. intros ->. rewrite String.eqb_refl in E. discriminate. }
  induction j as [|b|z|x|s0|l IH|f IH] using json_size_ind; intros parent e s n H; try (cbn; eauto; fail).
  revert e n H. induction f as [|[k v] r IHr]; intros e n H; [cbn; eauto|]. inversion IH as [|? ? IHv IHrest]; subst.
  rewrite render_cons.
  assert (G : exists n', assoc s (ed_sections (render_one repr_float parent k v e)) = Some n').
  { destruct (field_or v) as [Fv|(fv & ->)].
    - assert (G : exists n', assoc s (match parent with
                  | EmptyString => ed_sections e
                  | _ => match assoc parent (ed_sections e) with
                         | Some _ => assoc_set parent (ed_row e) (ed_sections e)
                         | None => ed_sections e
                         end end) = Some n').
      { destruct parent as [|a pr]; [eauto|]. destruct (assoc (String a pr) (ed_sections e)); [apply (Set1 _ _ _ _ _ H)|eauto]. }
      destruct v; try contradiction; exact G.
    - unfold render_one. cbn [ed_sections].
      destruct (Set1 s (display parent k) (ed_row e) _ n H) as (n1 & H1).
      destruct (IHv (display parent k) (Editor (ed_labels e) (assoc_set (display parent k) (ed_row e) (ed_sections e)) (S (ed_row e))) s n1 H1) as (n2 & H2).
      eapply Set1. exact H2. }
  destruct G as (n' & G). exact (IHr IHrest _ n' G).
Qed.
Lemma render_sections : forall j pp (e : editor), clean j -> Forall good_key pp ->
  forall q f, q <> [] -> at_path q j = Some (JObj f) -> exists n, assoc (dot (pp ++ q)) (ed_sections (render j (dot pp) e)) = Some n.
Proof.
  induction j as [|b|z|x|s0|l IH|fl IH] using json_size_ind; intros pp e Hc Hp q f Hq H;
    try (destruct q; [congruence|discriminate]).
  revert e. induction fl as [|[k v] r IHr]; intros e; [destruct q; [congruence|discriminate]|].
  destruct (clean_tail _ _ _ Hc) as (Hcr & Hk & Hcv & Hnk). inversion IH as [|? ? IHv IHrest]; subst. cbn [snd] in IHv.
  rewrite render_cons. destruct q as [|k2 q]; [congruence|]. cbn in H. destruct (String.eqb k2 k) eqn:Ek.
  - apply String.eqb_eq in Ek. subst k2.
    assert (G : exists n, assoc (dot (pp ++ k :: q)) (ed_sections (render_one repr_float (dot pp) k v e)) = Some n).
    { destruct (field_or v) as [Fv|(fv & ->)].
      { exfalso. destruct q; [injection H as ->; contradiction|]. destruct v; try discriminate. contradiction. }
      unfold render_one. cbn [ed_sections]. rewrite (display_dot pp k Hp). destruct q as [|k3 q].
      - exists (ed_row (render (JObj fv) (dot (pp ++ [k])) (Editor (ed_labels e) (assoc_set (dot (pp ++ [k])) (ed_row e) (ed_sections e)) (S (ed_row e)))) - 1)%nat.
        apply assoc_set_same.
      - destruct (IHv (pp ++ [k]) (Editor (ed_labels e) (assoc_set (dot (pp ++ [k])) (ed_row e) (ed_sections e)) (S (ed_row e))) Hcv
           ltac:(apply Forall_app; split; [exact Hp|constructor; [exact Hk|constructor]]) (k3 :: q) f ltac:(discriminate) H) as (n & Hn).
        replace (pp ++ k :: k3 :: q) with ((pp ++ [k]) ++ k3 :: q) by (rewrite <- app_assoc; reflexivity).
        destruct (String.eqb (dot ((pp ++ [k]) ++ k3 :: q)) (dot (pp ++ [k]))) eqn:E.
        + apply String.eqb_eq in E. rewrite E, assoc_set_same. eauto.
        + rewrite assoc_set_other; [eauto|]. intros X. rewrite X, String.eqb_refl in E. discriminate. }
    destruct G as (n & G). exact (render_keeps_section (JObj r) (dot pp) _ _ n G).
  - apply IHr; [exact IHrest|exact Hcr|exact H].
Qed.

(** No key looks like the name of a new entry. *)
Definition no_temp (d : json T) : Prop :=
  forall q k n v, at_path (q ++ [k]) d = Some v -> k <> ("new_entry_" ++ Z_to_string (Z.of_nat n))%string.
(** No section below the top has an entry named [k]. *)
Definition no_echo (k : string) (d : json T) : Prop :=
  forall q f, q <> [] -> at_path q d = Some (JObj f) -> assoc k f = None.

Lemma place_one labels tk kt vt j : new_ones labels = [(tk, Pair kt vt)] ->
  place_entries constant labels j =
  match strip kt with
  | EmptyString => Ok j
  | k => put_at (parts_of (before_last ".new_entry_" tk)) k (value_of (strip vt)) j
  end.
Proof.
  induction labels as [|[l [t|a b]] r IH]; unfold new_ones; cbn; intros H; [discriminate|apply IH, H|].
  injection H as -> -> -> H. fold (new_ones r) in H. destruct (strip kt) as [|c s]; [apply place_none, H|].
  set (k := String c s). destruct (put_at _ k _ j) as [j1|e]; cbn [rbind]; [apply place_none, H|reflexivity].
Qed.
Lemma new_ones_add k a b l : assoc k l = None -> new_ones (assoc_set k (Pair a b) l) = new_ones l ++ [(k, Pair a b)].
Proof.
  unfold new_ones. induction l as [|[k' w] r IH]; cbn; [reflexivity|]. destruct (String.eqb k k'); [discriminate|].
  intros H. cbn. rewrite (IH H). destruct (is_pair (k', w)); reflexivity.
Qed.
Lemma new_ones_fill k a b l : (exists a0 b0, assoc k l = Some (Pair a0 b0)) -> forall x, new_ones l = [x] ->
  new_ones (assoc_set k (Pair a b) l) = [(k, Pair a b)].
Proof.
  intros (a0 & b0 & H) x Hx. revert H Hx. unfold new_ones.
  assert (G : forall l, filter is_pair l = [] -> forall a0 b0, assoc k l = Some (Pair a0 b0) -> False).
  { induction l0 as [|[k' [t|u v]] r IH]; cbn; intros H a1 b1 E; try discriminate.
    destruct (String.eqb k k'); [discriminate|]. exact (IH H _ _ E). }
  induction l as [|[k' w] r IH]; cbn; [discriminate|]. destruct (String.eqb k k') eqn:E.
  - apply String.eqb_eq in E. subst k'. intros H Hx. injection H as ->. cbn in Hx |- *. injection Hx as _ Hr. rewrite Hr. reflexivity.
  - intros H Hx. destruct w as [t|u v]; cbn in Hx |- *; [apply IH; assumption|].
    injection Hx as _ Hr. exfalso. exact (G _ Hr _ _ H).
Qed.
(** Labels of a document are labels of its fields. *)
Lemma shown_app l1 l2 lab t : shown (l1 ++ l2) lab t = shown l2 lab (shown l1 lab t).
Proof. unfold shown. apply fold_left_app. Qed.

(** C55.  A new entry added to a section, whatever fields are edited before and
    after: it is saved in that section, and nothing else changes.  The new field
    replaces a field of the same key, or comes last. *)
Theorem C55_new_entry_saved : forall path fs d f0 e s fsec row l1 l2 l3 kt vt k out,
  load_json fs path = Ok d -> d = JObj f0 -> clean d ->
  open_editor repr_float d = Ok e -> s <> [] -> at_path s d = Some (JObj fsec) ->
  assoc (dot s) (ed_sections e) = Some row ->
  no_temp d -> no_echo (hd "" s) d ->
  only_fields l1 -> only_fields l2 -> only_fields l3 ->
  strip kt = k -> k <> "" ->
  session path (l1 ++ AddEntry (dot s) :: l2 ++ FillEntry (temp_key (dot s) (S row)) kt vt :: l3) fs = Ok out ->
  exists d0, session path (l1 ++ l2 ++ l3) fs = Ok (fs_write path (FJson d0) fs, true) /\
    out = (fs_write path (FJson (with_field s k (match loads constant (strip vt) with Some v => v | None => JStr (strip vt) end) d0)) fs, true).
Proof.
  intros path fs d f0 e s fsec row l1 l2 l3 kt vt k out Hd Ed Hc He Hs Hsec Hrow Hnt Hne L1 L2 L3 Hk Hk0 H.
  assert (Hf : ~ field d) by (subst d; intros []).
  assert (L : only_fields (l1 ++ l2 ++ l3)) by (apply Forall_app; split; [exact L1|apply Forall_app; auto]).
  assert (He' : e = render d "" (Editor [] [] 0)).
  { subst d. unfold EditJson.open_editor in He. destruct (ed_sections _) eqn:Es in He; [discriminate|]. injection He as <-. reflexivity. }
  assert (Hg : Forall good_key s) by (exact (at_path_good _ _ _ Hc Hsec)).
  (* the plain session *)
  assert (H0 : session path (l1 ++ l2 ++ l3) fs = Ok (fs_write path (FJson (fill constant (text_in repr_float d (l1 ++ l2 ++ l3)) [] d)) fs, true)).
  { destruct (acts_fields _ L e) as (e2 & E2 & _).
    assert (X : exists o, session path (l1 ++ l2 ++ l3) fs = Ok o).
    { unfold EditJson.session. rewrite Hd. cbn [rbind]. rewrite He. cbn [rbind]. rewrite E2. cbn. eauto. }
    destruct X as (o & X). destruct (session_fields constant repr_float path _ fs d o Hd Hc L X) as [-> _]. exact X. }
  eexists. split; [exact H0|].
  (* the labels of the session with a new entry *)
  unfold EditJson.session in H. rewrite Hd in H. cbn [rbind] in H. rewrite He in H. cbn [rbind] in H.
  apply rbind_ok in H as (e9 & H & Ho). injection Ho as <-.
  assert (Acts_app : forall a b e, acts (a ++ b) e = let? e1 := acts a e in acts b e1).
  { clear. induction a as [|x a IH]; intros b e; [reflexivity|]. cbn. destruct (act x e); cbn; [apply IH|reflexivity]. }
  rewrite Acts_app in H. destruct (acts_fields l1 L1 e) as (e1 & E1 & N1 & S1 & K1 & T1). rewrite E1 in H. cbn [rbind acts act] in H.
  unfold add_entry in H. pose proof (dot_nonempty s Hs Hg) as Dn. destruct (dot s) as [|c0 ds] eqn:Eds; [congruence|]. rewrite <- Eds in *.
  rewrite S1, Hrow in H. cbn [rbind] in H. set (tk := temp_key (dot s) (S row)) in *.
  set (e2 := Editor _ _ _) in H. rewrite Acts_app in H.
  destruct (acts_fields l2 L2 e2) as (e3 & E3 & N3 & S3 & K3 & T3). rewrite E3 in H. cbn [rbind acts act] in H.
  assert (Tk0 : assoc tk (ed_labels e) = None).
  { subst e. destruct (render_labels constant repr_float d [] (Editor [] [] 0) Hc (Forall_nil _)) as [_ B].
    change ""%string with (dot []). rewrite B; [reflexivity|]. intros q v Hq Hv _ E. cbn [List.app] in E. unfold tk in E.
    rewrite (temp_key_dot s (S row) Hs) in E. apply dot_inj in E.
    - subst q. exact (Hnt _ _ _ _ Hv eq_refl).
    - intros X. apply app_eq_nil in X as [_ X]. discriminate.
    - exact Hq.
    - apply Forall_app. split; [exact Hg|constructor; [apply new_key_good|constructor]].
    - exact (at_path_good _ _ _ Hc Hv). }
  assert (Tk1 : assoc tk (ed_labels e1) = None).
  { apply assoc_None_notin. change (map fst (ed_labels e1) = map fst (ed_labels e)) in K1. rewrite K1. apply assoc_None_notin. exact Tk0. }
  assert (Nn : new_ones (ed_labels e) = []) by (rewrite He'; exact (render_no_pairs constant repr_float d "" (Editor [] [] 0) eq_refl)).
  assert (N3' : new_ones (ed_labels e3) = [(tk, Pair "" "")]).
  { rewrite N3. unfold e2. cbn [ed_labels]. rewrite (new_ones_add _ _ _ _ Tk1), N1, Nn. reflexivity. }
  assert (P3 : exists a b, assoc tk (ed_labels e3) = Some (Pair a b)).
  { assert (In3 : In (tk, Pair "" "") (ed_labels e3)).
    { assert (X : In (tk, Pair "" "") (new_ones (ed_labels e3))) by (rewrite N3'; left; reflexivity).
      unfold new_ones in X. apply filter_In in X. apply X. }
    assert (Nd : forall l, only_fields l -> forall e e', acts l e = Ok e' -> assoc tk (ed_labels e) = Some (Pair "" "") -> assoc tk (ed_labels e') = Some (Pair "" "")).
    { clear. induction l as [|a l IH]; intros Hl e e' H Ha; [cbn in H; congruence|]. inversion Hl as [|? ? Hx Hr]; subst.
      destruct a as [m t| |]; try contradiction. cbn in H. destruct (assoc m (ed_labels e)) as [[t0|]|] eqn:Em; cbn [rbind] in H; try exact (IH Hr _ _ H Ha).
      apply (IH Hr _ _ H). cbn [ed_labels]. rewrite assoc_set_other; [exact Ha|]. intros ->. congruence. }
    exists "", "". apply (Nd l2 L2 e2 e3 E3). unfold e2. cbn [ed_labels]. apply assoc_set_same. }
  destruct P3 as (a3 & b3 & P3). rewrite P3 in H. cbn [rbind] in H. set (e4 := Editor _ _ _) in H.
  destruct (acts_fields l3 L3 e4) as (e5 & E5 & N5 & S5 & K5 & T5). rewrite E5 in H. injection H as <-.
  assert (N5' : new_ones (ed_labels e5) = [(tk, Pair kt vt)]).
  { rewrite N5. unfold e4. cbn [ed_labels]. apply (new_ones_fill tk kt vt (ed_labels e3)) with (x := (tk, Pair "" "")); eauto. }
  assert (Tx : forall q v, q <> [] -> at_path q d = Some v -> field v ->
     assoc (dot q) (ed_labels e5) = Some (Entry (text_in repr_float d (l1 ++ l2 ++ l3) q))).
  { intros q v Hq Ha Hv. destruct (render_labels constant repr_float d [] (Editor [] [] 0) Hc (Forall_nil _)) as [A _].
    specialize (A q v Hq Ha Hv). cbn [List.app] in A. change (dot []) with ""%string in A. rewrite <- He' in A.
    assert (Dq : dot q <> tk).
    { intros E. rewrite E in A. congruence. }
    apply T1 in A. unfold text_in. rewrite Ha, !shown_app. apply T5. unfold e4. cbn [ed_labels].
    rewrite assoc_set_other by exact Dq. apply T3. unfold e2. cbn [ed_labels]. rewrite assoc_set_other by exact Dq. exact A. }
  set (t := text_in repr_float d (l1 ++ l2 ++ l3)) in *.
  assert (Parts : parts_of (before_last ".new_entry_" tk) = s).
  { unfold tk. rewrite section_of_temp_key. unfold parts_of. rewrite Eds. rewrite <- Eds. apply split_dot; assumption. }
  unfold save. change ""%string with (dot []).
  rewrite (rebuild_fills constant (ed_labels e5) t d [] Hc (Forall_nil _) Hf Tx).
  - rewrite (place_one _ _ _ _ _ N5'), Parts.
    destruct (strip kt) as [|c r] eqn:Ek; [congruence|]. rewrite Hk.
    assert (F := fill_at constant t s [] d). rewrite Hsec in F. cbn [fill] in F. erewrite (put_at_section s k _ _ _ F). reflexivity.
  - intros q f Hq Ha. rewrite (place_one _ _ _ _ _ N5'), Parts. destruct (strip kt) as [|c r]; [reflexivity|].
    destruct s as [|s0 s1]; [congruence|]. cbn [fill put_at]. rewrite fill_assoc. cbn [hd] in Hne. rewrite (Hne q f Hq Ha). reflexivity.
Qed.

(** What [with_field] does, in terms of paths. *)
Theorem C55_new_entry_effect : forall s k v d fsec, at_path s d = Some (JObj fsec) ->
  at_path (s ++ [k]) (with_field s k v d) = Some v /\
  (exists f', at_path s (with_field s k v d) = Some (JObj f') /\ map fst f' = (if assoc k fsec then map fst fsec else map fst fsec ++ [k])) /\
  forall q w, at_path q d = Some w -> field w -> q <> s ++ [k] -> (forall r, q <> (s ++ [k]) ++ r) -> at_path q (with_field s k v d) = Some w.
Proof.
  induction s as [|p s IH]; intros k v d fsec H.
  - injection H as ->. cbn. rewrite assoc_set_same. split; [reflexivity|]. split.
    + eexists. split; [reflexivity|]. destruct (assoc k fsec) eqn:E.
      * apply assoc_set_keys_in. apply assoc_in in E. apply (in_map fst) in E. exact E.
      * apply assoc_set_keys_notin. apply assoc_None_notin. exact E.
    + intros q w Hq Hw _ Hr. destruct q as [|k2 q]; [injection Hq as <-; contradiction|]. cbn in Hq |- *.
      rewrite assoc_set_other; [exact Hq|]. intros ->. apply (Hr q). reflexivity.
  - cbn in H. destruct d as [| | | | | |f]; try discriminate. destruct (assoc p f) as [c|] eqn:E; [|discriminate].
    destruct (IH k v c fsec H) as (A & (f' & B1 & B2) & C). cbn [with_field]. rewrite E.
    split; [cbn; rewrite assoc_set_same; exact A|]. split.
    + exists f'. split; [cbn; rewrite assoc_set_same; exact B1|exact B2].
    + intros q w Hq Hw Hn Hr. destruct q as [|k2 q]; [injection Hq as <-; contradiction|]. cbn in Hq |- *.
      destruct (String.eqb k2 p) eqn:Ek.
      * apply String.eqb_eq in Ek. subst k2. rewrite assoc_set_same. rewrite E in Hq. apply C; [exact Hq|exact Hw| |].
        -- intros ->. apply Hn. reflexivity.
        -- intros r ->. apply (Hr r). reflexivity.
      * rewrite assoc_set_other; [exact Hq|]. intros ->. rewrite String.eqb_refl in Ek. discriminate.
Qed.

(** ** When a section below has the name of a top section *)
(** C55.  The new entry is also added to the inner section of that name. *)
Theorem C55_new_entry_echoed_refuted :
  let d := JObj [("a", JObj [("a", JObj [("x", JInt 1)])])] : json T in
  let fs : fsys T := fun p => if String.eqb p "f.json" then Some (FJson d) else None in
  exists row l, session "f.json" (AddEntry "a" :: FillEntry (temp_key "a" (S row)) "k" "5" :: l) fs =
    Ok (fs_write "f.json" (FJson (JObj [("a", JObj [("a", JObj [("x", JInt 1); ("k", JInt 5)]); ("k", JInt 5)])])) fs, true).
Proof. exists 2%nat, []. reflexivity. Qed.
(** C55.  Or the document cannot be saved at all: a number where the walk expects a
    section is a TypeError, and nothing is written. *)
Theorem C55_new_entry_blocks_saving :
  let d := JObj [("a", JObj [("a", JInt 7); ("b", JObj [("x", JInt 1)])])] : json T in
  let fs : fsys T := fun p => if String.eqb p "f.json" then Some (FJson d) else None in
  exists row, session "f.json" [AddEntry "a.b"; FillEntry (temp_key "a.b" (S row)) "k" "5"] fs = Ok (fs, false).
Proof. exists 3%nat. reflexivity. Qed.
(** C55.  Where the walk of a new entry meets a text it fails if the next name occurs
    anywhere in that text, and otherwise drops the entry without a word. *)
Lemma contains_spec p s : contains p s = true <-> exists a b, s = (a ++ p ++ b)%string.
Proof.
  assert (P : forall p s, prefix p s = true <-> exists b, s = (p ++ b)%string).
  { clear. induction p as [|c p IH]; intros s.
    - split; [intros _; exists s; reflexivity|intros _; destruct s; reflexivity].
    - destruct s as [|x s]; cbn; [split; [discriminate|intros (b & H); discriminate]|].
      destruct (ascii_dec c x) as [->|Hn]; [|split; [discriminate|intros (b & H); injection H as -> _; contradiction]].
      rewrite IH. split; intros (b & H); exists b; [rewrite H; reflexivity|injection H as ->; reflexivity]. }
  induction s as [|x s IH]; cbn [contains]; rewrite orb_true_iff, P.
  - split; [intros [(b & E)|E]; [exists ""%string, b; exact E|discriminate]|]. intros (a & b & E). left. destruct a; [exists b; exact E|discriminate].
  - rewrite IH. split.
    + intros [(b & E)|(a & b & ->)]; [exists ""%string, b; exact E|exists (String x a), b; reflexivity].
    + intros ([|y a] & b & E); [left; exists b; exact E|right]. injection E as -> ->. exists a, b. reflexivity.
Qed.
Lemma assoc_set_id k (v : json T) f : assoc k f = Some v -> assoc_set k v f = f.
Proof.
  induction f as [|[x w] f IH]; cbn; [discriminate|]. destruct (String.eqb k x); [intros H; injection H as ->; reflexivity|].
  intros H. rewrite (IH H). reflexivity.
Qed.
Theorem C55_new_entry_meets_a_text : forall q p ps k (v : json T) s j, at_path q j = Some (JStr s) ->
  ((exists a b, s = (a ++ p ++ b)%string) -> put_at (q ++ p :: ps) k v j = Err TypeError) /\
  (~ (exists a b, s = (a ++ p ++ b)%string) -> put_at (q ++ p :: ps) k v j = Ok j).
Proof.
  induction q as [|x q IH]; intros p ps k v s j H.
  - injection H as ->. cbn. rewrite <- contains_spec. destruct (contains p s); split; intros E; auto; congruence.
  - cbn in H. destruct j; try discriminate. cbn [app put_at]. destruct (assoc x fields) as [c|] eqn:E; [|discriminate].
    destruct (IH p ps k v s c H) as [A B]. split; intros Q; [rewrite (A Q); reflexivity|]. rewrite (B Q). cbn. rewrite (assoc_set_id x c fields E). reflexivity.
Qed.
(** A session in which this blocks saving, and one in which it does not. *)
Theorem C55_text_blocks_saving :
  let d s := JObj [("a", JObj [("a", JStr s); ("b", JObj [("x", JInt 1)])])] : json T in
  let fs s : fsys T := fun p => if String.eqb p "f.json" then Some (FJson (d s)) else None in
  exists row, session "f.json" [AddEntry "a.b"; FillEntry (temp_key "a.b" (S row)) "k" "5"] (fs "rhyolite b") = Ok (fs "rhyolite b", false) /\
    exists out, session "f.json" [AddEntry "a.b"; FillEntry (temp_key "a.b" (S row)) "k" "5"] (fs "rhyolite") = Ok (out, true) /\
      out "f.json" = Some (FJson (JObj [("a", JObj [("a", JStr "rhyolite"); ("b", JObj [("x", JInt 1); ("k", JInt 5)])])])).
Proof. exists 3%nat. split; [reflexivity|]. eexists. split; reflexivity. Qed.
(** C55.  A dotted key takes the place of a field of the section it looks like. *)
Theorem C55_dotted_key_collides :
  let d := JObj [("a", JObj [("b", JInt 1)]); ("a.b", JInt 2)] : json T in
  let fs : fsys T := fun p => if String.eqb p "f.json" then Some (FJson d) else None in
  session "f.json" [] fs = Ok (fs_write "f.json" (FJson (JObj [("a", JObj [("b", JInt 2)]); ("a.b", JInt 2)])) fs, true).
Proof. reflexivity. Qed.

(** C55.  Whatever the user does, saving writes at most the edited file, and
    writes nothing when it reports an error. *)
Theorem C55_save_writes_only_the_file : forall path l fs out,
  session path l fs = Ok out -> (snd out = false -> fst out = fs) /\ forall p, p <> path -> fst out p = fs p.
Proof.
  intros path l fs out H. unfold EditJson.session in H. do 3 (apply rbind_ok in H as (? & _ & H)). injection H as <-.
  unfold save. destruct (EditJson.rebuild _ _ _ _); cbn; [|auto]. split; [discriminate|].
  intros p Hp. unfold fs_write. destruct (String.eqb p path) eqn:E; [apply String.eqb_eq in E; contradiction|reflexivity].
Qed.
End New.
