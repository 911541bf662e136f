(** * Props_EditJson: what the JSON editor saves: C55 *)
From Verif Require Import Base Num Json Logger World Vesicle MeltVisc RelVisc Bubbles Terrain Lava
  Thermal Flux Integrator Factory Run JsonText Props_RunFile JsonFacts JsonRead EditJson.

(** ** Vocabulary *)
Section Doc.
Context {T : Type}.
(** The value at the end of a path of keys. *)
Fixpoint at_path (q : list string) (j : json T) : option (json T) :=
  match q with
  | [] => Some j
  | k :: r => match j with
              | JObj f => match assoc k f with Some c => at_path r c | None => None end
              | _ => None
              end
  end.
Definition field (v : json T) : Prop := match v with JObj _ => False | _ => True end.
Lemma field_or v : field v \/ exists f, v = JObj f.
Proof. destruct v; cbn; eauto. Qed.
(** Keys that are not empty and have no dot. *)
Definition good_key (k : string) : Prop := k <> "" /\ has_char "." k = false.
(** A document whose sections have distinct good keys. *)
Fixpoint clean (j : json T) : Prop :=
  match j with
  | JObj f => NoDup (map fst f) /\ (fix all (l : list (string * json T)) : Prop :=
                match l with [] => True | (k, v) :: r => good_key k /\ clean v /\ all r end) f
  | _ => True
  end.
(** The label the editor shows for a path. *)
Definition dot (q : list string) : string := join "." q.

Lemma clean_obj (f : list (string * json T)) : clean (JObj f) ->
  NoDup (map fst f) /\ Forall (fun p => good_key (fst p) /\ clean (snd p)) f.
Proof.
  cbn. intros [H1 H2]. split; [exact H1|]. clear H1. induction f as [|[k v] r IH]; constructor.
  - cbn. tauto. - apply IH. tauto.
Qed.
Lemma clean_tail k v r : clean (JObj ((k, v) :: r)) -> clean (JObj r) /\ good_key k /\ clean v /\ ~ In k (map fst r).
Proof.
  cbn. intros [H1 (H2 & H3 & H4)]. inversion H1; subst. tauto.
Qed.
Lemma clean_assoc f k v : clean (JObj f) -> assoc k f = Some v -> good_key k /\ clean v.
Proof.
  intros H E. apply clean_obj in H as [_ H]. apply assoc_in in E. rewrite Forall_forall in H.
  exact (H _ E).
Qed.
Lemma at_path_good q : forall j v, clean j -> at_path q j = Some v -> Forall good_key q.
Proof.
  induction q as [|k q IH]; intros j v Hc H; [constructor|]. cbn in H. destruct j; try discriminate.
  destruct (assoc k fields) eqn:E; [|discriminate]. destruct (clean_assoc _ _ _ Hc E) as [G1 G2].
  constructor; [exact G1|]. exact (IH _ _ G2 H).
Qed.
Lemma at_path_clean q : forall j v, clean j -> at_path q j = Some v -> clean v.
Proof.
  induction q as [|k q IH]; intros j v Hc H; [cbn in H; congruence|]. cbn in H. destruct j; try discriminate.
  destruct (assoc k fields) eqn:E; [|discriminate]. destruct (clean_assoc _ _ _ Hc E) as [G1 G2]. exact (IH _ _ G2 H).
Qed.
Lemma at_path_app p : forall q j, at_path (p ++ q) j = match at_path p j with Some c => at_path q c | None => None end.
Proof.
  induction p as [|k p IH]; intros q j; [reflexivity|]. cbn. destruct j; try reflexivity.
  destruct (assoc k fields); [apply IH|reflexivity].
Qed.

Lemma split_no_dot k : has_char "." k = false -> split_on "." k = [k].
Proof.
  induction k as [|c k IH]; [reflexivity|]. cbn. intros H. apply orb_false_elim in H as [H1 H2].
  rewrite H1, (IH H2). reflexivity.
Qed.
Lemma split_app k s : has_char "." k = false -> split_on "." (k ++ "." ++ s) = k :: split_on "." s.
Proof.
  induction k as [|c k IH]; [reflexivity|]. cbn. intros H. apply orb_false_elim in H as [H1 H2].
  rewrite H1. change (String "." s) with ("." ++ s)%string. rewrite (IH H2). reflexivity.
Qed.
Lemma split_dot q : q <> [] -> Forall good_key q -> split_on "." (dot q) = q.
Proof.
  induction q as [|k q IH]; [congruence|]. intros _ H. inversion H as [|? ? [Hk1 Hk2] Hq]; subst. unfold dot.
  destruct q as [|k2 q]; [apply split_no_dot; exact Hk2|].
  change (join "." (k :: k2 :: q)) with (k ++ "." ++ join "." (k2 :: q))%string.
  rewrite (split_app _ _ Hk2). f_equal. apply IH; [discriminate|exact Hq].
Qed.
Lemma dot_inj p q : p <> [] -> q <> [] -> Forall good_key p -> Forall good_key q -> dot p = dot q -> p = q.
Proof. intros P1 Q1 P2 Q2 E. rewrite <- (split_dot p), <- (split_dot q), E by assumption. reflexivity. Qed.
Lemma dot_nonempty q : q <> [] -> Forall good_key q -> dot q <> "".
Proof.
  intros Hq Hg E. apply (f_equal (split_on ".")) in E. rewrite (split_dot q Hq Hg) in E. cbn in E. subst q.
  inversion Hg as [|? ? [G _]]; subst. congruence.
Qed.
Lemma dot_snoc q k : q <> [] -> dot (q ++ [k]) = (dot q ++ "." ++ k)%string.
Proof.
  induction q as [|a q IH]; [congruence|]. intros _. destruct q as [|b q]; [reflexivity|].
  change (dot ((a :: b :: q) ++ [k])) with (a ++ "." ++ dot ((b :: q) ++ [k]))%string.
  rewrite IH by discriminate. change (dot (a :: b :: q)) with (a ++ "." ++ dot (b :: q))%string.
  rewrite !string_app_assoc_fix. reflexivity.
Qed.
Lemma display_dot q k : Forall good_key q -> display (dot q) k = dot (q ++ [k]).
Proof.
  intros H. destruct q as [|a q]; [reflexivity|]. rewrite dot_snoc by discriminate. unfold display.
  pose proof (dot_nonempty (a :: q) ltac:(discriminate) H) as E. destruct (dot (a :: q)); [congruence|reflexivity].
Qed.
Lemma assoc_set_new (k : string) (v : json T) l : ~ In k (map fst l) -> assoc_set k v l = l ++ [(k, v)].
Proof.
  induction l as [|[k' v'] r IH]; cbn; [reflexivity|]. intros H. destruct (String.eqb k k') eqn:E.
  - apply String.eqb_eq in E. subst. tauto.
  - f_equal. apply IH. tauto.
Qed.
End Doc.

Section Edit.
Context {T : Type} {N : Num T}.
Context (constant : string -> T) (repr_float : T -> string).
Notation str_of := (str_of repr_float).
Notation render := (render repr_float).
Notation rebuild := (rebuild constant).
Notation value_of := (value_of constant).
Notation open_editor := (open_editor repr_float).
Notation session := (session constant repr_float).

(** ** What opening a document puts in the entries *)
Definition render_one (parent k : string) (v : json T) (e : editor) : editor :=
  let dk := display parent k in
  match v with
  | JObj _ =>
      let e1 := Editor (ed_labels e) (assoc_set dk (ed_row e) (ed_sections e)) (S (ed_row e)) in
      let e2 := render v dk e1 in
      Editor (ed_labels e2) (assoc_set dk (ed_row e2 - 1)%nat (ed_sections e2)) (ed_row e2)
  | _ =>
      let secs := match parent with
                  | EmptyString => ed_sections e
                  | _ => match assoc parent (ed_sections e) with
                         | Some _ => assoc_set parent (ed_row e) (ed_sections e)
                         | None => ed_sections e
                         end
                  end in
      Editor (assoc_set dk (Entry (str_of v)) (ed_labels e)) secs (S (ed_row e))
  end.
Lemma render_cons k v r parent e : render (JObj ((k, v) :: r)) parent e = render (JObj r) parent (render_one parent k v e).
Proof. reflexivity. Qed.
Lemma render_one_field parent k v e : field v ->
  ed_labels (render_one parent k v e) = assoc_set (display parent k) (Entry (str_of v)) (ed_labels e).
Proof. destruct v; cbn; tauto. Qed.

Lemma render_labels : forall j pp e, clean j -> Forall good_key pp ->
  (forall q v, q <> [] -> at_path q j = Some v -> field v ->
     assoc (dot (pp ++ q)) (ed_labels (render j (dot pp) e)) = Some (Entry (str_of v))) /\
  (forall s, (forall q v, q <> [] -> at_path q j = Some v -> field v -> s <> dot (pp ++ q)) ->
     assoc s (ed_labels (render j (dot pp) e)) = assoc s (ed_labels e)).
Proof.
  induction j as [|b|z|x|s|l IH|f IH] using json_size_ind; intros pp e Hc Hp.
  1-6: split; [intros q v Hq E; destruct q; [congruence|discriminate]|reflexivity].
  revert e. induction f as [|[k v] r IHr]; intros e.
  - split; [intros q w Hq E; destruct q; [congruence|discriminate]|reflexivity].
  - destruct (clean_tail _ _ _ Hc) as (Hcr & Hk & Hcv & Hnk).
    inversion IH as [|? ? IHv IHrest]; subst. cbn [snd] in IHv. specialize (IHr IHrest Hcr).
    rewrite render_cons.
    assert (Hpk : Forall good_key (pp ++ [k])) by (apply Forall_app; split; [exact Hp|constructor; [exact Hk|constructor]]).
    (* what the first key does *)
    assert (One : (forall q w, at_path q v = Some w -> field w ->
                     assoc (dot (pp ++ k :: q)) (ed_labels (render_one (dot pp) k v e)) = Some (Entry (str_of w))) /\
                  (forall s, (forall q w, at_path q v = Some w -> field w -> s <> dot (pp ++ k :: q)) ->
                     assoc s (ed_labels (render_one (dot pp) k v e)) = assoc s (ed_labels e))).
    { destruct (field_or v) as [Fv|(fv & ->)].
      { rewrite (render_one_field (dot pp) k v e Fv), (display_dot pp k Hp). split.
        - intros q w Hq Hw. destruct q; [injection Hq as <-; apply assoc_set_same|].
          destruct v; try discriminate Hq. contradiction.
        - intros s' Hs. apply assoc_set_other. exact (Hs [] _ eq_refl Fv). }
      unfold render_one. cbn [ed_labels]. rewrite (display_dot pp k Hp).
      set (e1 := Editor _ _ _).
      destruct (IHv (pp ++ [k]) e1 Hcv Hpk) as [A B]. split.
      - intros q w Hq Hw. destruct q as [|k2 q]; [injection Hq as <-; contradiction|].
        replace (pp ++ k :: k2 :: q) with ((pp ++ [k]) ++ k2 :: q) by (rewrite <- app_assoc; reflexivity).
        apply A; [discriminate|exact Hq|exact Hw].
      - intros s' Hs. rewrite (B s'); [reflexivity|]. intros q w Hq Hq2 Hw. rewrite <- app_assoc. apply (Hs q w); assumption. }
    destruct One as [One1 One2].
    destruct (IHr (render_one (dot pp) k v e)) as [A B].
    assert (Apart : forall q, Forall good_key (k :: q) -> forall q2 w2, q2 <> [] -> at_path q2 (JObj r) = Some w2 ->
              dot (pp ++ k :: q) <> dot (pp ++ q2)).
    { intros q Hq q2 w2 Hq2 E2 Ed.
      apply dot_inj in Ed; [|intros X; apply app_eq_nil in X as [_ X]; congruence|intros X; apply app_eq_nil in X as [_ X]; congruence
        |apply Forall_app; auto|apply Forall_app; split; [exact Hp|exact (at_path_good _ _ _ Hcr E2)]].
      apply app_inv_head in Ed. subst q2. cbn in E2. destruct (assoc k r) eqn:Ea; [|discriminate].
      apply Hnk. apply assoc_in in Ea. apply (in_map fst) in Ea. exact Ea. }
    split.
    + intros q w Hq E Hw. destruct q as [|k2 q]; [congruence|]. cbn in E. destruct (String.eqb k2 k) eqn:Ek.
      * apply String.eqb_eq in Ek. subst k2. rewrite B; [apply One1; assumption|].
        intros q2 w2 Hq2 E2 _. apply (Apart q) with (w2 := w2); [|exact Hq2|exact E2].
        constructor; [exact Hk|exact (at_path_good _ _ _ Hcv E)].
      * apply A; [discriminate|exact E|exact Hw].
    + intros s Hs. rewrite B.
      * apply One2. intros q w Hq Hw. apply (Hs (k :: q) w); [discriminate| |exact Hw].
        cbn. rewrite String.eqb_refl. exact Hq.
      * intros q w Hq E Hw. apply (Hs q w Hq); [|exact Hw]. destruct q as [|k2 q]; [congruence|]. cbn in E |- *.
        destruct (String.eqb k2 k) eqn:Ek; [|exact E]. exfalso. apply String.eqb_eq in Ek. subst k2.
        destruct (assoc k r) eqn:Ea; [|discriminate]. apply Hnk. apply assoc_in in Ea. apply (in_map fst) in Ea. exact Ea.
Qed.

(** Only entries of fields, no new ones. *)
Definition is_pair (p : string * widget) : bool := match snd p with Pair _ _ => true | Entry _ => false end.
Definition new_ones (l : list (string * widget)) : list (string * widget) := filter is_pair l.
Lemma new_set_entry k t l : match assoc k l with Some (Pair _ _) => False | _ => True end ->
  new_ones (assoc_set k (Entry t) l) = new_ones l.
Proof.
  induction l as [|[k' w] r IH]; cbn; [reflexivity|]. destruct (String.eqb k k').
  - destruct w; [reflexivity|contradiction].
  - intros H. change (is_pair (k', w)) with (match w with Pair _ _ => true | Entry _ => false end) in *.
    specialize (IH H). unfold new_ones in *. cbn. rewrite IH. reflexivity.
Qed.
Lemma no_pairs_assoc l k : new_ones l = [] -> match assoc k l with Some (Pair _ _) => False | _ => True end.
Proof.
  induction l as [|[k' w] r IH]; cbn; [auto|]. unfold new_ones. cbn. destruct w; cbn; [|discriminate]. intros H.
  destruct (String.eqb k k'); [exact I|apply IH; exact H].
Qed.
Lemma render_no_pairs : forall j parent e, new_ones (ed_labels e) = [] -> new_ones (ed_labels (render j parent e)) = [].
Proof.
  induction j as [|b|z|x|s|l IH|f IH] using json_size_ind; intros parent e He; try exact He.
  revert e He. induction f as [|[k v] r IHr]; intros e He; [exact He|]. inversion IH as [|? ? IHv IHrest]; subst.
  rewrite render_cons. apply IHr; [exact IHrest|].
  assert (F : field v -> new_ones (ed_labels (render_one parent k v e)) = []).
  { intros Hf. rewrite (render_one_field _ _ _ _ Hf), new_set_entry; [exact He|apply no_pairs_assoc, He]. }
  destruct v; try (apply F; exact I). cbn [render_one ed_labels]. apply IHv. exact He.
Qed.

(** ** What rebuilding reads *)
Definition rebuild_go (labels : list (string * widget)) (parent : string) :=
  fix go (fs : list (string * json T)) (new : list (string * json T)) : res (list (string * json T)) :=
    match fs with
    | [] => Ok new
    | (k, v) :: r =>
        let dk := display parent k in
        match v with
        | JObj _ => let? v' := rebuild labels v dk in go r (assoc_set k v' new)
        | _ => match assoc dk labels with
               | None => go r new
               | Some (Entry text) => go r (assoc_set k (value_of text) new)
               | Some (Pair _ _) => Err (AttributeError "get")
               end
        end
    end.
Lemma rebuild_obj labels fs parent :
  rebuild labels (JObj fs) parent = let? f := rebuild_go labels parent fs [] in place_entries constant labels (JObj f).
Proof. reflexivity. Qed.

(** The document with every field replaced by the value of its text. *)
Fixpoint fill (t : list string -> string) (pp : list string) (j : json T) : json T :=
  match j with
  | JObj f => JObj (map (fun p => (fst p, fill t (pp ++ [fst p]) (snd p))) f)
  | _ => value_of (t pp)
  end.
Lemma fill_keys t pp (f : list (string * json T)) :
  map fst (map (fun p => (fst p, fill t (pp ++ [fst p]) (snd p))) f) = map fst f.
Proof. rewrite map_map. reflexivity. Qed.
Lemma fill_assoc t pp (f : list (string * json T)) k :
  assoc k (map (fun p => (fst p, fill t (pp ++ [fst p]) (snd p))) f) =
  match assoc k f with Some v => Some (fill t (pp ++ [k]) v) | None => None end.
Proof.
  induction f as [|[k' v] r IH]; cbn; [reflexivity|]. destruct (String.eqb k k') eqn:E; [|exact IH].
  apply String.eqb_eq in E. subst k'. reflexivity.
Qed.
Lemma fill_at t : forall q pp j, match at_path q j with
  | Some (JObj f) => at_path q (fill t pp j) = Some (fill t (pp ++ q) (JObj f))
  | Some _ => at_path q (fill t pp j) = Some (value_of (t (pp ++ q)))
  | None => True
  end.
Proof.
  induction q as [|k q IH]; intros pp j.
  - cbn. rewrite app_nil_r. destruct j; reflexivity.
  - cbn [at_path]. destruct j; try exact I. destruct (assoc k fields) as [c|] eqn:E; [|exact I].
    cbn [fill]. rewrite fill_assoc, E. specialize (IH (pp ++ [k]) c). rewrite <- app_assoc in IH. exact IH.
Qed.

(** [placed]: the new entries leave every section below this one alone. *)
Lemma rebuild_fills labels t : forall j pp, clean j -> Forall good_key pp -> ~ field j ->
  (forall q v, q <> [] -> at_path q j = Some v -> field v -> assoc (dot (pp ++ q)) labels = Some (Entry (t (pp ++ q)))) ->
  (forall q f, q <> [] -> at_path q j = Some (JObj f) ->
     place_entries constant labels (fill t (pp ++ q) (JObj f)) = Ok (fill t (pp ++ q) (JObj f))) ->
  rebuild labels j (dot pp) = place_entries constant labels (fill t pp j).
Proof.
  induction j as [|b|z|x|s|l IH|f IH] using json_size_ind; intros pp Hc Hp Hf Ht Hn; try (exfalso; apply Hf; exact I).
  rewrite rebuild_obj. cbn [fill].
  assert (G : forall r new, Forall (fun p => forall pp, clean (snd p) -> Forall good_key pp -> ~ field (snd p) ->
                (forall q v, q <> [] -> at_path q (snd p) = Some v -> field v -> assoc (dot (pp ++ q)) labels = Some (Entry (t (pp ++ q)))) ->
                (forall q f, q <> [] -> at_path q (snd p) = Some (JObj f) ->
                   place_entries constant labels (fill t (pp ++ q) (JObj f)) = Ok (fill t (pp ++ q) (JObj f))) ->
                rebuild labels (snd p) (dot pp) = place_entries constant labels (fill t pp (snd p))) r ->
            clean (JObj r) ->
            (forall q v, q <> [] -> at_path q (JObj r) = Some v -> field v -> assoc (dot (pp ++ q)) labels = Some (Entry (t (pp ++ q)))) ->
            (forall q f, q <> [] -> at_path q (JObj r) = Some (JObj f) ->
               place_entries constant labels (fill t (pp ++ q) (JObj f)) = Ok (fill t (pp ++ q) (JObj f))) ->
            (forall k, In k (map fst r) -> ~ In k (map fst new)) ->
            rebuild_go labels (dot pp) r new = Ok (new ++ map (fun p => (fst p, fill t (pp ++ [fst p]) (snd p))) r)).
  { clear - Hp repr_float. induction r as [|[k v] r IHr]; intros new IH Hc Ht Hn Hd; [cbn; rewrite app_nil_r; reflexivity|].
    destruct (clean_tail _ _ _ Hc) as (Hcr & Hk & Hcv & Hnk). inversion IH as [|? ? IHv IHrest]; subst. cbn [snd] in IHv.
    assert (Lift : forall q, q <> [] -> at_path q (JObj r) <> None -> at_path q (JObj ((k, v) :: r)) = at_path q (JObj r)).
    { intros q Hq Ha. destruct q as [|k2 q]; [congruence|]. cbn in *. destruct (String.eqb k2 k) eqn:Ek; [|reflexivity].
      apply String.eqb_eq in Ek. subst k2. destruct (assoc k r) eqn:Ea; [|congruence].
      exfalso. apply Hnk. apply assoc_in in Ea. apply (in_map fst) in Ea. exact Ea. }
    assert (Here : forall q, at_path (k :: q) (JObj ((k, v) :: r)) = at_path q v).
    { intros q. cbn. rewrite String.eqb_refl. reflexivity. }
    assert (Rest : forall w, rebuild_go labels (dot pp) r (assoc_set k w new) =
                     Ok ((new ++ [(k, w)]) ++ map (fun p => (fst p, fill t (pp ++ [fst p]) (snd p))) r)).
    { intros w. rewrite assoc_set_new by (apply Hd; left; reflexivity). apply IHr; try assumption.
      - intros q v0 Hq Ha. apply Ht; [exact Hq|]. rewrite Lift; congruence.
      - intros q f0 Hq Ha. apply Hn; [exact Hq|]. rewrite Lift; congruence.
      - intros k2 Hin. rewrite map_app, in_app_iff. intros [X|[X|[]]]; [apply (Hd k2); [right; exact Hin|exact X]|].
        cbn in X. subst k2. contradiction. }
    cbn [map fst snd]. replace (new ++ (k, fill t (pp ++ [k]) v) :: map (fun p => (fst p, fill t (pp ++ [fst p]) (snd p))) r)
      with ((new ++ [(k, fill t (pp ++ [k]) v)]) ++ map (fun p => (fst p, fill t (pp ++ [fst p]) (snd p))) r)
      by (rewrite <- app_assoc; reflexivity).
    assert (F : field v -> assoc (display (dot pp) k) labels = Some (Entry (t (pp ++ [k])))).
    { intros Hf. rewrite (display_dot pp k Hp). apply (Ht [k] v); [discriminate|rewrite Here; reflexivity|exact Hf]. }
    cbn [rebuild_go]. destruct v as [|b|z|x|s|l|fv] eqn:Ev; try (rewrite (F I); apply Rest).
    rewrite <- Ev in *. rewrite (display_dot pp k Hp), (IHv (pp ++ [k]) Hcv).
    - assert (P : place_entries constant labels (fill t (pp ++ [k]) v) = Ok (fill t (pp ++ [k]) v)).
      { subst v. apply Hn; [discriminate|rewrite Here; reflexivity]. }
      rewrite P. cbn [rbind]. apply Rest.
    - apply Forall_app. split; [exact Hp|constructor; [exact Hk|constructor]].
    - subst v. cbn. tauto.
    - intros q w Hq Ha Hw. rewrite <- app_assoc. apply (Ht (k :: q) w); [discriminate|rewrite Here; exact Ha|exact Hw].
    - intros q f0 Hq Ha. rewrite <- app_assoc. apply (Hn (k :: q) f0); [discriminate|rewrite Here; exact Ha]. }
  rewrite (G f [] IH Hc Ht Hn); [reflexivity|]. intros k _ [].
Qed.

Lemma place_none labels j : new_ones labels = [] -> place_entries constant labels j = Ok j.
Proof.
  induction labels as [|[k [s|a b]] r IH]; unfold new_ones; cbn; intros H; [reflexivity|apply IH; exact H|discriminate].
Qed.

(** ** Editing fields only *)
Definition only_fields (l : list action) : Prop :=
  Forall (fun a => match a with SetField _ _ => True | _ => False end) l.
(** The text a field shows after the user's typing. *)
Definition shown (l : list action) (label init : string) : string :=
  fold_left (fun cur a => match a with SetField m t => if String.eqb m label then t else cur | _ => cur end) l init.

Definition keeps_fields (l : list action) : Prop := Forall (fun a => match a with AddEntry _ => False | _ => True end) l.
Lemma acts_fields l : only_fields l -> forall e, exists e1, acts l e = Ok e1 /\
  new_ones (ed_labels e1) = new_ones (ed_labels e) /\ ed_sections e1 = ed_sections e /\
  map fst (ed_labels e1) = map fst (ed_labels e) /\
  forall lab t, assoc lab (ed_labels e) = Some (Entry t) -> assoc lab (ed_labels e1) = Some (Entry (shown l lab t)).
Proof.
  induction l as [|a l IH]; intros Ho e; [exists e; repeat split; auto|]. inversion Ho as [|? ? Ha Hl]; subst.
  destruct a as [m t| |]; try contradiction. cbn [acts act].
  destruct (assoc m (ed_labels e)) as [[t0|k v]|] eqn:E.
  - destruct (IH Hl (Editor (assoc_set m (Entry t) (ed_labels e)) (ed_sections e) (ed_row e))) as (e1 & E1 & E2 & E3 & E5 & E4).
    exists e1. cbn [rbind]. rewrite E1. cbn [ed_labels ed_sections] in *. repeat split.
    + rewrite E2. apply new_set_entry. rewrite E. exact I.
    + exact E3.
    + rewrite E5. apply assoc_set_keys_in. apply assoc_in in E. apply (in_map fst) in E. exact E.
    + intros lab t1 H. unfold shown. cbn [fold_left]. destruct (String.eqb m lab) eqn:Em.
      * apply String.eqb_eq in Em. subst lab. apply E4. apply assoc_set_same.
      * apply E4. rewrite assoc_set_other; [exact H|]. intros ->. rewrite String.eqb_refl in Em. discriminate.
  - destruct (IH Hl e) as (e1 & E1 & E2 & E3 & E5 & E4). exists e1. cbn [rbind]. repeat split; auto.
    intros lab t1 H. unfold shown. cbn [fold_left]. destruct (String.eqb m lab) eqn:Em; [|apply E4; exact H].
    apply String.eqb_eq in Em. subst lab. congruence.
  - destruct (IH Hl e) as (e1 & E1 & E2 & E3 & E5 & E4). exists e1. cbn [rbind]. repeat split; auto.
    intros lab t1 H. unfold shown. cbn [fold_left]. destruct (String.eqb m lab) eqn:Em; [|apply E4; exact H].
    apply String.eqb_eq in Em. subst lab. congruence.
Qed.

(** The text of a field after the session [l] on document [d]. *)
Definition text_in (d : json T) (l : list action) (q : list string) : string :=
  shown l (dot q) (match at_path q d with Some v => str_of v | None => "" end).

Lemma render_text d l e1 : clean d -> ~ field d -> only_fields l -> acts l (render d "" (Editor [] [] 0)) = Ok e1 ->
  (forall q v, q <> [] -> at_path q d = Some v -> field v -> assoc (dot q) (ed_labels e1) = Some (Entry (text_in d l q))) /\
  new_ones (ed_labels e1) = [].
Proof.
  intros Hc Hf Hl E. destruct (acts_fields l Hl (render d "" (Editor [] [] 0))) as (e2 & E1 & E2 & _ & _ & E4).
  rewrite E in E1. injection E1 as <-. split.
  - intros q v Hq Ha Hv. destruct (render_labels d [] (Editor [] [] 0) Hc (Forall_nil _)) as [A _].
    specialize (A q v Hq Ha Hv). cbn [List.app] in A. apply E4 in A. unfold text_in. rewrite Ha. exact A.
  - rewrite E2. apply render_no_pairs. reflexivity.
Qed.

Lemma session_fields path l fs d out : load_json fs path = Ok d -> clean d -> only_fields l ->
  session path l fs = Ok out -> out = (fs_write path (FJson (fill (text_in d l) [] d)) fs, true) /\ ~ field d.
Proof.
  intros Hd Hc Hl H. unfold EditJson.session in H. rewrite Hd in H. cbn [rbind] in H.
  apply rbind_ok in H as (e & He & H). apply rbind_ok in H as (e1 & He1 & H). injection H as <-.
  unfold EditJson.open_editor in He. destruct d as [| | | | | |f]; try discriminate.
  destruct (ed_sections _) eqn:Es in He; [discriminate|]. injection He as <-.
  assert (Hf : ~ field (JObj f)) by (intros []).
  destruct (render_text (JObj f) l e1 Hc Hf Hl He1) as [A B]. split; [|exact Hf].
  unfold save. change ""%string with (dot []).
  rewrite (rebuild_fills (ed_labels e1) (text_in (JObj f) l) (JObj f) [] Hc (Forall_nil _) Hf A).
  - rewrite (place_none _ _ B). reflexivity.
  - intros q g Hq Ha. apply place_none, B.
Qed.

(** C55.  Editing fields: the saved document has the same sections with the same
    keys in the same order, and every field holds the value of the text that was
    in its entry: the JSON value it denotes if it is JSON, else the text. *)
Theorem C55_save_reads_every_field : forall path l fs d out,
  load_json fs path = Ok d -> clean d -> only_fields l -> session path l fs = Ok out ->
  exists d', out = (fs_write path (FJson d') fs, true) /\
    forall q, match at_path q d with
      | Some (JObj f) => exists f', at_path q d' = Some (JObj f') /\ map fst f' = map fst f
      | Some v => at_path q d' = Some (match loads constant (shown l (dot q) (str_of v)) with
                                       | Some w => w
                                       | None => JStr (shown l (dot q) (str_of v))
                                       end)
      | None => True
      end.
Proof.
  intros path l fs d out Hd Hc Hl H. destruct (session_fields _ _ _ _ _ Hd Hc Hl H) as [-> Hf].
  exists (fill (text_in d l) [] d). split; [reflexivity|]. intros q.
  pose proof (fill_at (text_in d l) q [] d) as F. unfold text_in, EditJson.value_of in F. cbn [List.app] in F.
  destruct (at_path q d) as [v|] eqn:E; [|exact I].
  destruct v; try exact F. eexists. split; [exact F|]. cbn [fill]. apply fill_keys.
Qed.

(** Typing in one field changes no other field. *)
Theorem C55_other_fields_untouched : forall path l fs d out m q v,
  load_json fs path = Ok d -> clean d -> only_fields l -> session path l fs = Ok out ->
  at_path q d = Some v -> field v ->
  Forall (fun a => match a with SetField lab _ => lab = dot m | _ => True end) l -> m <> [] -> Forall good_key m -> q <> m ->
  exists d' d0, out = (fs_write path (FJson d') fs, true) /\
    session path [] fs = Ok (fs_write path (FJson d0) fs, true) /\ at_path q d' = at_path q d0.
Proof.
  intros path l fs d out m q v Hd Hc Hl H Hq Hv Hm Hm0 Hmg Hne.
  assert (H0 : exists o, session path [] fs = Ok o).
  { unfold EditJson.session in *. rewrite Hd in *. cbn [rbind] in *. apply rbind_ok in H as (e & -> & _). cbn. eauto. }
  destruct H0 as (o & H0).
  destruct (C55_save_reads_every_field path l fs d out Hd Hc Hl H) as (d' & -> & A).
  destruct (C55_save_reads_every_field path [] fs d o Hd Hc (Forall_nil _) H0) as (d0 & -> & B).
  exists d', d0. split; [reflexivity|]. split; [exact H0|]. specialize (A q). specialize (B q). rewrite Hq in A, B.
  assert (S : shown l (dot q) (str_of v) = str_of v).
  { destruct (session_fields _ _ _ _ _ Hd Hc Hl H) as [_ Hf].
    assert (Hq0 : q <> []) by (intros ->; injection Hq as ->; contradiction).
    assert (Dn : dot m <> dot q).
    { intros X. apply dot_inj in X; [congruence|exact Hm0|exact Hq0|exact Hmg|exact (at_path_good _ _ _ Hc Hq)]. }
    clear - Hm Dn. induction l as [|a l IH]; [reflexivity|]. inversion Hm as [|? ? Ha Hr]; subst. unfold shown in *.
    cbn [fold_left]. destruct a as [lab t|s|lab k t]; [|apply IH, Hr..]. subst lab.
    destruct (String.eqb (dot m) (dot q)) eqn:E; [apply String.eqb_eq in E; contradiction|]. apply IH, Hr. }
  rewrite S in A. cbn [shown fold_left] in B. destruct v; try contradiction; rewrite A, B; reflexivity.
Qed.

(** ** Saving without editing *)
(** What becomes of a field that is saved unedited. *)
Definition resaved (v : json T) : json T :=
  match loads constant (str_of v) with Some w => w | None => JStr (str_of v) end.

Lemma fill_resaved d : forall (P : clean d), fill (text_in d []) [] d = d <-> forall q v, at_path q d = Some v -> field v -> resaved v = v.
Proof.
  intros Hc. assert (G : forall j pp, at_path pp d = Some j ->
    (fill (text_in d []) pp j = j <-> forall q v, at_path q j = Some v -> field v -> resaved v = v)).
  { induction j as [|b|z|x|s|l IH|f IH] using json_size_ind; intros pp Hp.
    1-6: cbn [fill]; unfold text_in; rewrite Hp; cbn [shown fold_left]; unfold EditJson.value_of; fold (resaved JNull);
      (split; [intros E q v Hq Hv; destruct q; [injection Hq as <-; exact E|discriminate]|intros E; exact (E [] _ eq_refl I)]).
    cbn [fill]. assert (Hcf : clean (JObj f)) by (exact (at_path_clean _ _ _ Hc Hp)).
    assert (M : JObj (map (fun p => (fst p, fill (text_in d []) (pp ++ [fst p]) (snd p))) f) = JObj f <->
                Forall (fun p => fill (text_in d []) (pp ++ [fst p]) (snd p) = snd p) f).
    { clear. split.
      - intros E. injection E as E. induction f as [|[k v] r IHr]; constructor; cbn in *.
        + congruence. + apply IHr. congruence.
      - intros H. f_equal. induction H as [|[k v] r H1 H2 IHr]; [reflexivity|]. cbn in *. rewrite H1, IHr. reflexivity. }
    rewrite M. split.
    - intros H q v Hq Hv. destruct q as [|k q]; [injection Hq as <-; contradiction|]. cbn in Hq.
      destruct (assoc k f) as [c|] eqn:E; [|discriminate]. apply assoc_in in E as Ein.
      rewrite Forall_forall in H, IH. specialize (H _ Ein). specialize (IH _ Ein). cbn in H, IH.
      assert (Hk : at_path (pp ++ [k]) d = Some c) by (rewrite at_path_app, Hp; cbn; rewrite E; reflexivity).
      exact (proj1 (IH _ Hk) H q v Hq Hv).
    - intros H. rewrite Forall_forall in IH |- *. intros [k v] Hin. cbn [fst snd]. specialize (IH _ Hin). cbn in IH.
      assert (E : assoc k f = Some v).
      { apply clean_obj in Hcf as [Hn _]. clear - Hin Hn. induction f as [|[k' v'] r IHr]; [contradiction|].
        inversion Hn as [|? ? N1 N2]; subst. cbn. destruct Hin as [E|Hin].
        - injection E as -> ->. rewrite String.eqb_refl. reflexivity.
        - destruct (String.eqb k k') eqn:Ek; [|apply IHr; assumption]. apply String.eqb_eq in Ek. subst k'.
          exfalso. apply N1. apply (in_map fst) in Hin. exact Hin. }
      apply IH; [rewrite at_path_app, Hp; cbn; rewrite E; reflexivity|].
      intros q w Hq Hw. apply (H (k :: q) w); [cbn; rewrite E; exact Hq|exact Hw]. }
  apply G. reflexivity.
Qed.

(** C55.  Saving without touching anything gives the same document exactly when
    every field is its own re-reading. *)
Theorem C55_unedited_save_preserves_iff : forall path fs d out,
  load_json fs path = Ok d -> clean d -> session path [] fs = Ok out ->
  (load_json (fst out) path = Ok d <-> forall q v, at_path q d = Some v -> field v -> resaved v = v).
Proof.
  intros path fs d out Hd Hc H. destruct (session_fields path [] fs d out Hd Hc (Forall_nil _) H) as [-> Hf].
  rewrite <- (fill_resaved d Hc). cbn [fst]. unfold load_json, fs_write. rewrite String.eqb_refl. split; intros E; congruence.
Qed.

(** Which fields are their own re-reading: numbers and lists of numbers,
    strings that are not JSON.  Booleans, null and lists holding them do not survive. *)
Theorem C55_numbers_survive : forall v, plain repr_float v -> resaved v = v.
Proof.
  intros v H. unfold resaved. assert (E : str_of v = py_repr repr_float v) by (destruct H; reflexivity).
  rewrite E, (loads_plain constant repr_float v H). reflexivity.
Qed.
Theorem C55_string_survives_iff : forall s, resaved (JStr s) = JStr s <-> loads constant s = None.
Proof.
  intros s. unfold resaved. cbn [JsonText.str_of]. destruct (loads constant s) as [w|] eqn:E; [|tauto].
  split; [|discriminate]. intros ->. apply loads_shorter in E. lia.
Qed.
Theorem C55_others_become_text : forall v, unreadable repr_float v -> (forall s, v <> JStr s) ->
  resaved v = JStr (py_repr repr_float v) /\ resaved v <> v.
Proof.
  intros v H Hs. assert (E : resaved v = JStr (py_repr repr_float v)).
  { unfold resaved. assert (E : str_of v = py_repr repr_float v) by (destruct v; try reflexivity; exfalso; eapply Hs; reflexivity).
    rewrite E, (loads_unreadable constant repr_float v H). reflexivity. }
  split; [exact E|]. rewrite E. intros X. exact (Hs _ (eq_sym X)).
Qed.
Corollary C55_booleans_become_text : resaved (JBool true) = JStr "True" /\ resaved (JBool false) = JStr "False" /\ resaved JNull = JStr "None".
Proof. repeat split; reflexivity. Qed.

(** C55.  So an unedited save preserves every configuration made of numbers,
    lists of numbers and strings that are not themselves JSON. *)
Theorem C55_unedited_save_preserves : forall path fs d out,
  load_json fs path = Ok d -> clean d -> session path [] fs = Ok out ->
  (forall q v, at_path q d = Some v -> field v -> plain repr_float v \/ exists s, v = JStr s /\ loads constant s = None) ->
  load_json (fst out) path = Ok d /\ snd out = true /\ forall p, p <> path -> fst out p = fs p.
Proof.
  intros path fs d out Hd Hc H Hv. split.
  - apply (C55_unedited_save_preserves_iff path fs d out Hd Hc H). intros q v Hq Hf.
    destruct (Hv q v Hq Hf) as [P|(s & -> & E)]; [apply C55_numbers_survive, P|apply C55_string_survives_iff, E].
  - destruct (session_fields path [] fs d out Hd Hc (Forall_nil _) H) as [-> _]. split; [reflexivity|].
    intros p Hp. cbn. unfold fs_write. destruct (String.eqb p path) eqn:E; [apply String.eqb_eq in E; contradiction|reflexivity].
Qed.

(** ** Consequences for the simulation *)
(** C55.  Saving a configuration that smooths the slope profile, without touching
    it, switches the smoothing off: the flag [true] is saved as the string
    "True". *)
Theorem C55_saving_switches_smoothing_off : forall path fs d out ter depth n d',
  load_json fs path = Ok d -> clean d -> read_terrain d = Ok (ter, depth, Some n) ->
  session path [] fs = Ok out -> load_json (fst out) path = Ok d' ->
  jget2 d' "terrain_conditions" "slope_smoothing_active" = Ok (JStr "True") /\
  forall ter' depth' s', read_terrain d' = Ok (ter', depth', s') -> s' = None.
Proof.
  intros path fs d out ter depth n d' Hd Hc Hr H Hd'.
  destruct (C55_save_reads_every_field path [] fs d out Hd Hc (Forall_nil _) H) as (d1 & -> & A).
  cbn [fst] in Hd'. unfold load_json, fs_write in Hd'. rewrite String.eqb_refl in Hd'. injection Hd' as <-.
  assert (E : at_path ["terrain_conditions"; "slope_smoothing_active"] d = Some (JBool true)).
  { unfold read_terrain in Hr. do 5 (apply rbind_ok in Hr as (? & _ & Hr)). apply rbind_ok in Hr as (act & Ha & Hr).
    apply rbind_ok in Hr as (sm & Hs & Hr). apply rbind_ok in Hr as (ds & _ & Hr). injection Hr as _ _ ->.
    destruct act as [|[]| | | | |]; try discriminate. unfold jget2, jget in Ha.
    destruct d as [| | | | | |f]; try discriminate. cbn. destruct (assoc "terrain_conditions" f) as [tc|]; [|discriminate].
    cbn [rbind] in Ha. destruct tc as [| | | | | |g]; try discriminate. destruct (assoc "slope_smoothing_active" g); [|discriminate].
    injection Ha as ->. reflexivity. }
  specialize (A ["terrain_conditions"; "slope_smoothing_active"]). rewrite E in A. cbn [shown fold_left JsonText.str_of py_repr] in A.
  change (loads constant "True") with (@None (json T)) in A.
  assert (G : jget2 d1 "terrain_conditions" "slope_smoothing_active" = Ok (JStr "True")).
  { unfold jget2, jget. cbn in A. destruct d1 as [| | | | | |f]; try discriminate.
    destruct (assoc "terrain_conditions" f) as [tc|]; [|discriminate]. cbn [rbind].
    destruct tc as [| | | | | |g]; try discriminate. destruct (assoc "slope_smoothing_active" g); [|discriminate].
    injection A as ->. reflexivity. }
  split; [exact G|]. intros ter' depth' s' H'. unfold read_terrain in H'. do 5 (apply rbind_ok in H' as (? & _ & H')).
  rewrite G in H'. cbn [rbind] in H'. apply rbind_ok in H' as (? & _ & H'). congruence.
Qed.

(** C55.  A configuration without sections cannot be saved from the editor: the
    section menu cannot be built. *)
Theorem C55_flat_document_cannot_be_edited : forall f : list (string * json T),
  (forall k v, In (k, v) f -> field v) -> open_editor (JObj f) = Err TypeError.
Proof.
  intros f Hf. unfold EditJson.open_editor.
  assert (G : forall e, ed_sections e = [] -> ed_sections (render (JObj f) "" e) = []).
  { induction f as [|[k v] r IH]; intros e He; [exact He|]. rewrite render_cons. apply IH.
    - intros k' v' Hin. apply (Hf k'). right. exact Hin.
    - assert (Fv := Hf k v (or_introl eq_refl)). destruct v; try contradiction; exact He. }
  rewrite G by reflexivity. reflexivity.
Qed.
End Edit.
