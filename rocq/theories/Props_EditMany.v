(** * Props_EditMany: any number of new entries in one editor session: C55 *)
From Verif Require Import Base Num Json Logger World Vesicle MeltVisc RelVisc Bubbles Terrain Lava
  Thermal Flux Integrator Factory Run JsonText Props_RunFile JsonFacts JsonRead EditJson Props_EditJson Props_EditNew.

(** ** Specification: the new entries of a session *)
(** An entry the user has added: the section it was added to, the name of its two
    input boxes, and what the user last typed in them. *)
Record entry : Type := { en_section : string; en_label : string; en_key : string; en_value : string }.
(** How many entries have been added to a section. *)
Definition count (sec : string) (xs : list entry) : nat :=
  length (filter (fun x => String.eqb (en_section x) sec) xs).
(** The entries of a session, in the order in which they were added: each press of the
    button makes a new one, typing changes the one with that name.  [rows]: the row of
    the window in which each section ends (part of the names of the boxes). *)
Fixpoint added (rows : string -> nat) (l : list action) (xs : list entry) : list entry :=
  match l with
  | [] => xs
  | AddEntry sec :: r =>
      added rows r (xs ++ [{| en_section := sec; en_label := temp_key sec (S (rows sec + count sec xs));
                              en_key := ""; en_value := "" |}])
  | FillEntry lab k v :: r =>
      added rows r (map (fun x => if String.eqb (en_label x) lab
                                  then {| en_section := en_section x; en_label := en_label x; en_key := k; en_value := v |}
                                  else x) xs)
  | SetField _ _ :: r => added rows r xs
  end.
Definition en_path (x : entry) : list string := split_on "." (en_section x).

Lemma temp_key_inj a b m n : temp_key a m = temp_key b n -> a = b /\ m = n.
Proof.
  intros H. assert (E : a = b) by (rewrite <- (section_of_temp_key a m), H; apply section_of_temp_key). subst b.
  split; [reflexivity|]. unfold temp_key in H.
  assert (App : forall p x y : string, (p ++ x = p ++ y)%string -> x = y).
  { clear. induction p as [|c p IH]; intros x y H; [exact H|]. cbn in H. injection H as H. now apply IH. }
  apply App in H. apply App in H. apply Z_to_string_inj in H. lia.
Qed.
Lemma count_snoc sec xs x : count sec (xs ++ [x]) = (count sec xs + (if String.eqb (en_section x) sec then 1 else 0))%nat.
Proof.
  unfold count. rewrite filter_app, app_length. cbn. destruct (String.eqb (en_section x) sec); reflexivity.
Qed.
Lemma count_fill sec lab k v xs :
  count sec (map (fun x => if String.eqb (en_label x) lab
     then {| en_section := en_section x; en_label := en_label x; en_key := k; en_value := v |} else x) xs) = count sec xs.
Proof.
  unfold count. induction xs as [|x xs IH]; [reflexivity|]. cbn [map filter].
  destruct (String.eqb (en_label x) lab); cbn [en_section]; destruct (String.eqb (en_section x) sec); cbn [length]; now rewrite IH.
Qed.
Definition boxes (xs : list entry) : list (string * widget) := map (fun x => (en_label x, Pair (en_key x) (en_value x))) xs.

Lemma new_ones_set k a b l : (exists a0 b0, assoc k l = Some (Pair a0 b0)) -> NoDup (map fst (new_ones l)) ->
  new_ones (assoc_set k (Pair a b) l) = map (fun p => if String.eqb (fst p) k then (k, Pair a b) else p) (new_ones l).
Proof.
  intros (a0 & b0 & H). revert H. unfold new_ones. induction l as [|[k' w] r IH]; cbn; [discriminate|].
  destruct (String.eqb k k') eqn:E.
  - apply String.eqb_eq in E. subst k'. intros H Nd. injection H as ->. cbn in Nd |- *. rewrite String.eqb_refl. f_equal.
    inversion Nd as [|? ? Hn _]; subst. clear - Hn. induction (filter is_pair r) as [|[k2 w2] q IHq]; [reflexivity|].
    cbn in Hn |- *. destruct (String.eqb k2 k) eqn:E2; [apply String.eqb_eq in E2; subst; tauto|]. f_equal. apply IHq. tauto.
  - intros H Nd. cbn. destruct (is_pair (k', w)); cbn in Nd |- *.
    + inversion Nd as [|? ? Hn Nd']; subst. assert (E' : String.eqb k' k = false) by (rewrite String.eqb_sym; exact E).
      rewrite E'. f_equal. now apply IH.
    + now apply IH.
Qed.

Section Many.
Context {T : Type} {N : Num T}.
Context (constant : string -> T) (repr_float : T -> string).
Notation str_of := (str_of repr_float).
Notation render := (render repr_float).
Notation value_of := (value_of constant).
Notation session := (session constant repr_float).
Notation text_in := (text_in repr_float).

(** The document with the new entries, in order; an entry without a key is ignored. *)
Definition with_entries (xs : list entry) (j : json T) : json T :=
  fold_left (fun j x => match strip (en_key x) with
                        | EmptyString => j
                        | k => with_field (en_path x) k (value_of (strip (en_value x))) j
                        end) xs j.

(** A section of the document. *)
Definition is_section (d : json T) (sec : string) : Prop :=
  exists s f, sec = dot s /\ s <> [] /\ at_path s d = Some (JObj f).

Record tracks (d : json T) (rows : string -> nat) (l0 : list action) (e : editor) (xs : list entry) : Prop := {
  tr_boxes : new_ones (ed_labels e) = boxes xs;
  tr_text : forall q v, q <> [] -> at_path q d = Some v -> field v -> assoc (dot q) (ed_labels e) = Some (Entry (text_in d l0 q));
  tr_rows : forall sec, is_section d sec -> assoc sec (ed_sections e) = Some (rows sec + count sec xs)%nat;
  tr_found : forall x, In x xs -> exists a b, assoc (en_label x) (ed_labels e) = Some (Pair a b);
  tr_free : forall sec n, is_section d sec -> (rows sec + count sec xs < n)%nat -> assoc (temp_key sec n) (ed_labels e) = None;
  tr_nodup : NoDup (map en_label xs);
  tr_section : forall x, In x xs -> is_section d (en_section x)
}.
Lemma boxes_labels xs : map fst (boxes xs) = map en_label xs.
Proof. unfold boxes. rewrite map_map. reflexivity. Qed.
Lemma assoc_new_ones l k a b : assoc k l = Some (Pair a b) -> In (k, Pair a b) (new_ones l).
Proof. intros H. apply filter_In. split; [now apply assoc_in|reflexivity]. Qed.
Lemma text_in_snoc d l0 a q : text_in d (l0 ++ [a]) q =
  match a with SetField m t => if String.eqb m (dot q) then t else text_in d l0 q | _ => text_in d l0 q end.
Proof. unfold Props_EditJson.text_in, shown. rewrite fold_left_app. reflexivity. Qed.

Lemma tracks_act d rows l0 e xs a e' : clean d ->
  (forall sec, a = AddEntry sec -> is_section d sec) -> tracks d rows l0 e xs -> act a e = Ok e' ->
  tracks d rows (l0 ++ [a]) e' (added rows [a] xs).
Proof.
  intros Hc Ha [B X R F E D S] H. destruct a as [m t|sec|lab kt vt]; cbn [act added] in *.
  - destruct (assoc m (ed_labels e)) as [[t0|u v]|] eqn:Em.
    + injection H as <-. constructor; cbn [ed_labels ed_sections].
      * rewrite <- B. apply new_set_entry. now rewrite Em.
      * intros q v Hq Hv Fv. rewrite text_in_snoc. destruct (String.eqb m (dot q)) eqn:Eq.
        -- apply String.eqb_eq in Eq. subst m. apply assoc_set_same.
        -- rewrite assoc_set_other; [now apply (X q v)|]. intros <-. rewrite String.eqb_refl in Eq. discriminate.
      * exact R.
      * intros x Hx. destruct (F x Hx) as (a1 & b1 & Fx). exists a1, b1. rewrite assoc_set_other; [exact Fx|]. intros <-. congruence.
      * intros s n Hs Hn. rewrite assoc_set_other; [now apply E|]. intros <-. rewrite (E s n Hs Hn) in Em. discriminate.
      * exact D.
      * exact S.
    + injection H as <-. constructor; auto. intros q w Hq Hv Fv. rewrite text_in_snoc. destruct (String.eqb m (dot q)) eqn:Eq; [|now apply (X q w)].
      apply String.eqb_eq in Eq. subst m. rewrite (X q w Hq Hv Fv) in Em. discriminate.
    + injection H as <-. constructor; auto. intros q w Hq Hv Fv. rewrite text_in_snoc. destruct (String.eqb m (dot q)) eqn:Eq; [|now apply (X q w)].
      apply String.eqb_eq in Eq. subst m. rewrite (X q w Hq Hv Fv) in Em. discriminate.
  - specialize (Ha sec eq_refl). pose proof (R sec Ha) as Rs. unfold add_entry in H.
    assert (Hne : sec <> "").
    { destruct Ha as (s & f & -> & Hs & Hp). apply dot_nonempty; [exact Hs|exact (at_path_good _ _ _ Hc Hp)]. }
    destruct sec as [|c0 sec0]; [congruence|]. set (sec := String c0 sec0) in *. rewrite Rs in H. injection H as <-.
    set (tk := temp_key sec (Datatypes.S (rows sec + count sec xs))).
    assert (Tk : assoc tk (ed_labels e) = None) by (apply E; [exact Ha|lia]).
    constructor; cbn [ed_labels ed_sections].
    + rewrite (new_ones_add _ _ _ _ Tk), B. unfold boxes. rewrite map_app. reflexivity.
    + intros q v Hq Hv Fv. rewrite text_in_snoc. rewrite assoc_set_other; [now apply (X q v)|]. intros Y. rewrite <- Y in Tk.
      rewrite (X q v Hq Hv Fv) in Tk. discriminate.
    + intros s Hs. rewrite count_snoc. cbn [en_section]. destruct (String.eqb sec s) eqn:Es.
      * apply String.eqb_eq in Es. subst s. rewrite assoc_set_same. f_equal. lia.
      * rewrite assoc_set_other; [rewrite (R s Hs); f_equal; lia|]. intros ->. rewrite String.eqb_refl in Es. discriminate.
    + intros x Hx. apply in_app_iff in Hx as [Hx|[<-|[]]].
      * destruct (F x Hx) as (a1 & b1 & Fx). exists a1, b1. rewrite assoc_set_other; [exact Fx|]. intros Y. congruence.
      * exists "", "". cbn [en_label]. apply assoc_set_same.
    + intros s n Hs Hn. rewrite count_snoc in Hn. cbn [en_section] in Hn. rewrite assoc_set_other.
      * apply E; [exact Hs|lia].
      * intros Y. unfold tk in Y. apply temp_key_inj in Y as [-> ->]. rewrite String.eqb_refl in Hn. lia.
    + rewrite map_app. cbn [map en_label].
      assert (Ad : Add tk (map en_label xs) (map en_label xs ++ [tk])).
      { generalize (map en_label xs). intros ys. induction ys as [|y ys IHy]; cbn; constructor. exact IHy. }
      apply (NoDup_Add Ad).
      split; [exact D|]. intros Hin. apply in_map_iff in Hin as (x & Ex & Hx). destruct (F x Hx) as (a1 & b1 & Fx). rewrite Ex in Fx. congruence.
    + intros x Hx. apply in_app_iff in Hx as [Hx|[<-|[]]]; [now apply S|exact Ha].
  - assert (Nd : NoDup (map fst (new_ones (ed_labels e)))) by (rewrite B, boxes_labels; exact D).
    assert (Lab : map en_label (map (fun x => if String.eqb (en_label x) lab
        then {| en_section := en_section x; en_label := en_label x; en_key := kt; en_value := vt |} else x) xs) = map en_label xs).
    { rewrite map_map. apply map_ext. intros x. destruct (String.eqb (en_label x) lab); reflexivity. }
    assert (Sec : forall x, In x (map (fun x => if String.eqb (en_label x) lab
        then {| en_section := en_section x; en_label := en_label x; en_key := kt; en_value := vt |} else x) xs) ->
        exists y, In y xs /\ en_label x = en_label y /\ en_section x = en_section y).
    { intros x Hx. apply in_map_iff in Hx as (y & <- & Hy). exists y. split; [exact Hy|].
      destruct (String.eqb (en_label y) lab); auto. }
    destruct (assoc lab (ed_labels e)) as [[t0|u v]|] eqn:Em.
    + injection H as <-.
      assert (Id : map (fun x => if String.eqb (en_label x) lab
        then {| en_section := en_section x; en_label := en_label x; en_key := kt; en_value := vt |} else x) xs = xs).
      { rewrite <- (map_id xs) at 2. apply map_ext_in. intros x Hx. destruct (String.eqb (en_label x) lab) eqn:El; [|reflexivity].
        apply String.eqb_eq in El. destruct (F x Hx) as (a1 & b1 & Fx). rewrite El in Fx. congruence. }
      rewrite Id. constructor; auto. intros q w Hq Hv Fv. rewrite text_in_snoc. now apply (X q w).
    + injection H as <-. constructor; cbn [ed_labels ed_sections].
      * rewrite new_ones_set; [|eauto|exact Nd]. rewrite B. unfold boxes. rewrite !map_map. apply map_ext. intros x. cbn [fst].
        destruct (String.eqb (en_label x) lab) eqn:El; [|reflexivity]. apply String.eqb_eq in El. subst lab. reflexivity.
      * intros q w Hq Hv Fv. rewrite text_in_snoc. rewrite assoc_set_other; [now apply (X q w)|]. intros <-. rewrite (X q w Hq Hv Fv) in Em. discriminate.
      * intros s Hs. rewrite count_fill. now apply R.
      * intros x Hx. destruct (Sec x Hx) as (y & Hy & -> & _). destruct (String.eqb (en_label y) lab) eqn:El.
        -- apply String.eqb_eq in El. rewrite El, assoc_set_same. eauto.
        -- rewrite assoc_set_other; [now apply F|]. intros Y. rewrite Y, String.eqb_refl in El. discriminate.
      * intros s n Hs Hn. rewrite count_fill in Hn. rewrite assoc_set_other; [now apply E|]. intros <-. rewrite (E s n Hs Hn) in Em. discriminate.
      * rewrite Lab. exact D.
      * intros x Hx. destruct (Sec x Hx) as (y & Hy & _ & ->). now apply S.
    + injection H as <-.
      assert (Id : map (fun x => if String.eqb (en_label x) lab
        then {| en_section := en_section x; en_label := en_label x; en_key := kt; en_value := vt |} else x) xs = xs).
      { rewrite <- (map_id xs) at 2. apply map_ext_in. intros x Hx. destruct (String.eqb (en_label x) lab) eqn:El; [|reflexivity].
        apply String.eqb_eq in El. destruct (F x Hx) as (a1 & b1 & Fx). rewrite El in Fx. congruence. }
      rewrite Id. constructor; auto. intros q w Hq Hv Fv. rewrite text_in_snoc. now apply (X q w).
Qed.
Lemma added_app rows l : forall l' xs, added rows (l ++ l') xs = added rows l' (added rows l xs).
Proof. induction l as [|[] l IH]; intros; cbn; auto. Qed.
Lemma tracks_acts d rows : clean d -> forall l l0 e xs e',
  (forall sec, In (AddEntry sec) l -> is_section d sec) -> tracks d rows l0 e xs -> acts l e = Ok e' ->
  tracks d rows (l0 ++ l) e' (added rows l xs).
Proof.
  intros Hc. induction l as [|a l IH]; intros l0 e xs e' Hs Ht H.
  - cbn in H. injection H as <-. now rewrite app_nil_r.
  - cbn [acts] in H. apply rbind_ok in H as (e1 & H1 & H).
    assert (Ht1 : tracks d rows (l0 ++ [a]) e1 (added rows [a] xs)).
    { apply (tracks_act d rows l0 e xs a e1 Hc); auto. intros sec ->. apply Hs. now left. }
    specialize (IH (l0 ++ [a]) e1 (added rows [a] xs) e' ltac:(intros; apply Hs; now right) Ht1 H).
    rewrite <- app_assoc in IH. cbn [List.app] in IH. change (a :: l) with ([a] ++ l). rewrite added_app. exact IH.
Qed.

(** Placing the entries. *)
Lemma place_new labels : forall j, place_entries constant labels j = place_entries constant (new_ones labels) j.
Proof.
  induction labels as [|[l [t|a b]] r IH]; intros j; cbn; [reflexivity|apply IH|].
  destruct (strip a) as [|c s]; [apply IH|]. destruct (put_at _ _ _ j); cbn [rbind]; [apply IH|reflexivity].
Qed.
Lemma with_field_keeps s k (v : json T) : forall j q f, at_path q j = Some (JObj f) -> (forall r, q <> (s ++ [k]) ++ r) ->
  exists f', at_path q (with_field s k v j) = Some (JObj f').
Proof.
  induction s as [|p s IH]; intros j q f H Hn.
  - destruct j; try (exists f; exact H). cbn. destruct q as [|k2 q].
    + cbn. eauto.
    + cbn in H |- *. rewrite assoc_set_other; [eauto|]. intros ->. apply (Hn q). reflexivity.
  - destruct j; try (exists f; exact H). cbn [with_field]. destruct (assoc p fields) as [c|] eqn:E; [|eauto].
    destruct q as [|k2 q]; [cbn; eauto|]. cbn in H |- *. destruct (String.eqb k2 p) eqn:Ek.
    + apply String.eqb_eq in Ek. subst k2. rewrite assoc_set_same. rewrite E in H. apply (IH c q f H).
      intros r ->. apply (Hn r). reflexivity.
    + rewrite assoc_set_other; [eauto|]. intros ->. rewrite String.eqb_refl in Ek. discriminate.
Qed.
(** No entry takes the place of (something above) the section of an entry. *)
Definition apart (xs : list entry) : Prop :=
  forall x y, In x xs -> In y xs -> strip (en_key x) <> "" -> forall r, en_path y <> (en_path x ++ [strip (en_key x)]) ++ r.
Lemma place_boxes xs : forall j,
  (forall x, In x xs -> before_last ".new_entry_" (en_label x) = en_section x /\ parts_of (en_section x) = en_path x) ->
  apart xs -> (forall x, In x xs -> exists f, at_path (en_path x) j = Some (JObj f)) ->
  place_entries constant (boxes xs) j = Ok (with_entries xs j).
Proof.
  induction xs as [|x xs IH]; intros j Hl Ha Hs; [reflexivity|].
  assert (Ha' : apart xs) by (intros a b Hx Hy; apply Ha; now right).
  change (boxes (x :: xs)) with ((en_label x, Pair (en_key x) (en_value x)) :: boxes xs).
  change (with_entries (x :: xs) j) with (with_entries xs (match strip (en_key x) with
                        | EmptyString => j
                        | k => with_field (en_path x) k (value_of (strip (en_value x))) j
                        end)).
  cbn [place_entries]. destruct (strip (en_key x)) as [|c r] eqn:Ek.
  - apply IH; [intros; apply Hl; now right|exact Ha'|intros; apply Hs; now right].
  - destruct (Hl x (or_introl eq_refl)) as [-> ->]. destruct (Hs x (or_introl eq_refl)) as (f & Hf).
    rewrite (put_at_section _ _ _ _ _ Hf). cbn [rbind].
    apply IH; [intros; apply Hl; now right|exact Ha'|]. intros y Hy. destruct (Hs y (or_intror Hy)) as (g & Hg).
    apply (with_field_keeps _ _ _ _ _ g Hg). intros r' E.
    apply (Ha x y (or_introl eq_refl) (or_intror Hy)) with (r := r'); [rewrite Ek; discriminate|]. now rewrite Ek.
Qed.
Lemma place_elsewhere xs : forall f : list (string * json T),
  (forall x, In x xs -> before_last ".new_entry_" (en_label x) = en_section x /\ parts_of (en_section x) = en_path x) ->
  (forall x, In x xs -> en_path x <> [] /\ assoc (hd "" (en_path x)) f = None) ->
  place_entries constant (boxes xs) (JObj f) = Ok (JObj f).
Proof.
  induction xs as [|x xs IH]; intros f Hl Hn; [reflexivity|].
  change (boxes (x :: xs)) with ((en_label x, Pair (en_key x) (en_value x)) :: boxes xs). cbn [place_entries].
  destruct (strip (en_key x)) as [|c r] eqn:Ek.
  - apply IH; [intros; apply Hl; now right|intros; apply Hn; now right].
  - destruct (Hl x (or_introl eq_refl)) as [-> ->]. destruct (Hn x (or_introl eq_refl)) as [H1 H2].
    destruct (en_path x) as [|p ps]; [congruence|]. cbn [put_at]. cbn [hd] in H2. rewrite H2. cbn [rbind].
    apply IH; [intros; apply Hl; now right|intros; apply Hn; now right].
Qed.

Definition rows_of (e : editor) (sec : string) : nat := match assoc sec (ed_sections e) with Some n => n | None => 0%nat end.

(** C55.  Any number of new entries, added to any sections, typed in in any order, between any
    edits of the fields: every press of the button makes an entry of its own, and the saved
    document is the document the field edits alone would have given, with each entry placed in
    its section in the order of their creation. *)
Theorem C55_new_entries_saved : forall path fs d e l out,
  load_json fs path = Ok d -> clean d -> open_editor repr_float d = Ok e -> no_temp d ->
  (forall sec, In (AddEntry sec) l -> is_section d sec /\ no_echo (hd "" (split_on "." sec)) d) ->
  let xs := added (rows_of e) l [] in
  apart xs ->
  session path l fs = Ok out ->
  NoDup (map en_label xs) /\
  out = (fs_write path (FJson (with_entries xs (fill constant (text_in d l) [] d))) fs, true).
Proof.
  intros path fs d e l out Hd Hc He Hnt Hs xs Ha H.
  assert (Hf : ~ field d) by (destruct d; cbn in He; try discriminate; intros []).
  assert (He' : e = render d "" (Editor [] [] 0)).
  { destruct d as [| | | | | |f]; try discriminate. unfold EditJson.open_editor in He.
    destruct (ed_sections _) eqn:Es in He; [discriminate|]. injection He as <-. reflexivity. }
  destruct (render_labels constant repr_float d [] (Editor [] [] 0) Hc (Forall_nil _)) as [A B].
  change (dot []) with ""%string in A, B. rewrite <- He' in A, B. cbn [List.app] in A, B.
  assert (T0 : tracks d (rows_of e) [] e []).
  { constructor.
    - rewrite He'. exact (render_no_pairs constant repr_float d "" (Editor [] [] 0) eq_refl).
    - intros q v Hq Hv Fv. rewrite (A q v Hq Hv Fv). unfold Props_EditJson.text_in. rewrite Hv. reflexivity.
    - intros sec (s & f & -> & Hs0 & Hp).
      destruct (render_sections repr_float d [] (Editor [] [] 0) Hc (Forall_nil _) s f Hs0 Hp) as (n & Hn).
      change (dot []) with ""%string in Hn. rewrite <- He' in Hn. cbn [List.app] in Hn. unfold rows_of, count. cbn [filter length].
      rewrite Hn. f_equal. lia.
    - intros x [].
    - intros sec n (s & f & -> & Hs0 & Hp) _. rewrite B; [reflexivity|]. intros q v Hq Hv _ E.
      rewrite (temp_key_dot s n Hs0) in E. apply dot_inj in E.
      + subst q. exact (Hnt _ _ _ _ Hv eq_refl).
      + intros X. apply app_eq_nil in X as [_ X]. discriminate.
      + exact Hq.
      + apply Forall_app. split; [exact (at_path_good _ _ _ Hc Hp)|constructor; [apply new_key_good|constructor]].
      + exact (at_path_good _ _ _ Hc Hv).
    - constructor.
    - intros x []. }
  unfold EditJson.session in H. rewrite Hd in H. cbn [rbind] in H. rewrite He in H. cbn [rbind] in H.
  apply rbind_ok in H as (e9 & H & Ho). injection Ho as <-.
  pose proof (tracks_acts d (rows_of e) Hc l [] e [] e9 (fun sec Hin => proj1 (Hs sec Hin)) T0 H) as [TB TX _ _ _ TD TS].
  cbn [List.app] in TX. fold xs in TB, TD, TS. split; [exact TD|].
  (* labels name their sections *)
  assert (Gen : forall l xs0, (forall x, In x xs0 -> exists n, en_label x = temp_key (en_section x) n) ->
       forall x, In x (added (rows_of e) l xs0) -> exists n, en_label x = temp_key (en_section x) n).
  { clear. induction l as [|[m t|sec|lab k v] l IH]; intros xs0 H x Hx; [now apply H|exact (IH xs0 H x Hx)| |].
    - refine (IH _ _ x Hx). intros y Hy. apply in_app_iff in Hy as [Hy|[<-|[]]]; [now apply H|eexists; reflexivity].
    - refine (IH _ _ x Hx). intros y Hy. apply in_map_iff in Hy as (z & <- & Hz). destruct (H z Hz) as (n & En).
      exists n. destruct (String.eqb (en_label z) lab); exact En. }
  assert (Src : forall l xs0 x, In x (added (rows_of e) l xs0) -> In (AddEntry (en_section x)) l \/ exists y, In y xs0 /\ en_section y = en_section x).
  { clear. induction l as [|[m t|sec|lab k v] l IH]; intros xs0 x Hx; [right; eauto| | |].
    - destruct (IH _ _ Hx) as [Hin|Hy]; [left; now right|now right].
    - destruct (IH _ _ Hx) as [Hin|(y & Hy & Ey)]; [left; now right|].
      apply in_app_iff in Hy as [Hy|[<-|[]]]; [right; eauto|]. cbn in Ey. left. left. now rewrite Ey.
    - destruct (IH _ _ Hx) as [Hin|(y & Hy & Ey)]; [left; now right|].
      apply in_map_iff in Hy as (z & Ez & Hz). right. exists z. split; [exact Hz|]. rewrite <- Ey, <- Ez.
      destruct (String.eqb (en_label z) lab); reflexivity. }
  assert (Names : forall x, In x xs -> before_last ".new_entry_" (en_label x) = en_section x /\ parts_of (en_section x) = en_path x).
  { intros x Hx. destruct (Gen l [] ltac:(intros ? []) x Hx) as (n & ->). split; [apply section_of_temp_key|].
    unfold parts_of, en_path. destruct (TS x Hx) as (s & f & -> & Hs0 & Hp).
    pose proof (dot_nonempty s Hs0 (at_path_good _ _ _ Hc Hp)) as Dn. now destruct (dot s). }
  assert (Path : forall x, In x xs -> exists f, en_path x <> [] /\ at_path (en_path x) d = Some (JObj f)).
  { intros x Hx. destruct (TS x Hx) as (s & f & Es & Hs0 & Hp). exists f. unfold en_path. rewrite Es.
    rewrite (split_dot s Hs0 (at_path_good _ _ _ Hc Hp)). auto. }
  set (t := text_in d l) in *. unfold save. change ""%string with (dot []).
  rewrite (rebuild_fills constant (ed_labels e9) t d [] Hc (Forall_nil _) Hf TX).
  - rewrite place_new, TB. rewrite (place_boxes xs _ Names Ha); [reflexivity|].
    intros x Hx. destruct (Path x Hx) as (f & _ & Hp). pose proof (fill_at constant t (en_path x) [] d) as Fa. rewrite Hp in Fa.
    cbn [fill] in Fa. eauto.
  - intros q f Hq Hp. rewrite place_new, TB. cbn [fill]. apply place_elsewhere; [exact Names|].
    intros x Hx. destruct (Path x Hx) as (g & Hn & _). split; [exact Hn|]. rewrite fill_assoc.
    destruct (Src l [] x Hx) as [Hin|(y & [] & _)]. destruct (Hs _ Hin) as [_ Ne]. fold (en_path x) in Ne.
    rewrite (Ne q f Hq Hp). reflexivity.
Qed.

(** What [with_entries] does, in terms of paths: an entry whose place is not taken by a later entry
    is found in its section, and every field of the document that no entry replaces is unchanged. *)
Theorem C55_new_entries_effect : forall xs (j : json T), apart xs ->
  (forall x, In x xs -> exists f, at_path (en_path x) j = Some (JObj f)) ->
  (forall before x after, xs = before ++ x :: after -> strip (en_key x) <> "" ->
     (forall y, In y after -> en_path y ++ [strip (en_key y)] <> en_path x ++ [strip (en_key x)]) ->
     field (value_of (strip (en_value x))) ->
     at_path (en_path x ++ [strip (en_key x)]) (with_entries xs j) = Some (value_of (strip (en_value x)))) /\
  (forall q w, at_path q j = Some w -> field w ->
     (forall x, In x xs -> strip (en_key x) <> "" -> forall r, q <> (en_path x ++ [strip (en_key x)]) ++ r) ->
     at_path q (with_entries xs j) = Some w).
Proof.
  assert (Q : forall xs (j : json T), apart xs -> (forall x, In x xs -> exists f, at_path (en_path x) j = Some (JObj f)) ->
    forall q w, at_path q j = Some w -> field w ->
     (forall x, In x xs -> strip (en_key x) <> "" -> forall r, q <> (en_path x ++ [strip (en_key x)]) ++ r) ->
     at_path q (with_entries xs j) = Some w).
  { induction xs as [|x xs IH]; intros j Ha Hs q w Hq Fw Hn; [exact Hq|].
    assert (Ha' : apart xs) by (intros a b Hx Hy; apply Ha; now right).
    change (with_entries (x :: xs) j) with (with_entries xs (match strip (en_key x) with
                        | EmptyString => j
                        | k => with_field (en_path x) k (value_of (strip (en_value x))) j
                        end)).
    destruct (strip (en_key x)) as [|c r] eqn:Ek.
    - apply IH; auto. intros; apply Hs; now right. intros; apply Hn; auto. now right.
    - destruct (Hs x (or_introl eq_refl)) as (f & Hf). rewrite <- Ek.
      assert (Nn : strip (en_key x) <> "") by (rewrite Ek; discriminate).
      apply IH; auto.
      + intros y Hy. destruct (Hs y (or_intror Hy)) as (g & Hg). apply (with_field_keeps _ _ _ _ _ g Hg).
        intros r'. apply (Ha x y (or_introl eq_refl) (or_intror Hy)). exact Nn.
      + destruct (C55_new_entry_effect (en_path x) (strip (en_key x)) (value_of (strip (en_value x))) j f Hf) as (_ & _ & E).
        apply E; auto.
        * intros ->. apply (Hn x (or_introl eq_refl) Nn []). now rewrite app_nil_r.
        * intros r'. apply (Hn x (or_introl eq_refl) Nn).
      + intros y Hy. apply Hn. now right. }
  intros xs j Ha Hs. split; [|now apply Q].
  revert j Hs. induction xs as [|x xs IH]; intros j Hs before y after E Hk Hl Fv; [now destruct before|].
  assert (Ha' : apart xs) by (intros a b Hx Hy; apply Ha; now right).
  change (with_entries (x :: xs) j) with (with_entries xs (match strip (en_key x) with
                        | EmptyString => j
                        | k => with_field (en_path x) k (value_of (strip (en_value x))) j
                        end)).
  assert (Keep : forall z, In z xs -> exists f, at_path (en_path z) (match strip (en_key x) with
                        | EmptyString => j
                        | k => with_field (en_path x) k (value_of (strip (en_value x))) j
                        end) = Some (JObj f)).
  { intros z Hz. destruct (Hs z (or_intror Hz)) as (g & Hg). destruct (strip (en_key x)) as [|c r] eqn:Ek; [eauto|].
    apply (with_field_keeps _ _ _ _ _ g Hg). intros r' Er.
    apply (Ha x z (or_introl eq_refl) (or_intror Hz)) with (r := r'); rewrite Ek; [discriminate|exact Er]. }
  destruct before as [|b before]; injection E as -> ->.
  - destruct (strip (en_key y)) as [|c r] eqn:Ek; [congruence|].
    destruct (Hs y (or_introl eq_refl)) as (f & Hf). rewrite <- Ek in *.
    destruct (C55_new_entry_effect (en_path y) (strip (en_key y)) (value_of (strip (en_value y))) j f Hf) as (E & _ & _).
    apply Q; auto. intros z Hz Kz r'. intros Er.
    destruct r' as [|p r'] using rev_ind.
    + rewrite app_nil_r in Er. exact (Hl z Hz (eq_sym Er)).
    + rewrite app_assoc in Er. apply app_inj_tail in Er as [Er _].
      apply (Ha z y (or_intror Hz) (or_introl eq_refl) Kz r'). exact Er.
  - apply (IH Ha' _ Keep before y after eq_refl); assumption.
Qed.
End Many.

(** The hypotheses are met: two entries for one section and one for another, with a field edited
    in between. *)
Example C55_two_entries {T} {N : Num T} (constant : string -> T) (repr_float : T -> string) :
  let d := JObj [("a", JObj [("x", JInt 1)]); ("b", JObj [("y", JInt 2)])] : json T in
  let fs : fsys T := fun p => if String.eqb p "f.json" then Some (FJson d) else None in
  let l := [AddEntry "a"; AddEntry "a"; SetField "b.y" "7"; FillEntry "a.new_entry_3" "k2" "4"; AddEntry "b";
            FillEntry "a.new_entry_2" " k1 " "3"; FillEntry "b.new_entry_4" "k3" "text"] in
  exists e, open_editor repr_float d = Ok e /\ no_temp d /\
    (forall sec, In (AddEntry sec) l -> is_section d sec /\ no_echo (hd "" (split_on "." sec)) d) /\
    apart (added (rows_of e) l []) /\
    EditJson.session constant repr_float "f.json" l fs =
      Ok (fs_write "f.json" (FJson (JObj [("a", JObj [("x", JInt 1); ("k1", JInt 3); ("k2", JInt 4)]);
                                          ("b", JObj [("y", JInt 7); ("k3", JStr "text")])])) fs, true).
Proof.
  intros d fs l. eexists. split; [reflexivity|]. split; [|split; [|split]].
  - assert (G : forall k n, has_char "_" k = false -> k <> ("new_entry_" ++ Z_to_string (Z.of_nat n))%string)
      by (intros k n H ->; cbn in H; discriminate).
    intros q k n v Hv. apply G.
    assert (K : k = "a" \/ k = "b" \/ k = "x" \/ k = "y").
    { assert (Three : forall s v, at_path s d = Some v -> s = [] \/ s = ["a"] \/ s = ["b"] \/ s = ["a"; "x"] \/ s = ["b"; "y"]).
      { clear. intros s v H. destruct s as [|a s]; [now left|]. cbn in H. right.
        destruct (String.eqb a "a") eqn:Ea; [apply String.eqb_eq in Ea; subst a|destruct (String.eqb a "b") eqn:Eb; [apply String.eqb_eq in Eb; subst a|discriminate]];
          (destruct s as [|b s]; [tauto|]); cbn in H;
          [destruct (String.eqb b "x") eqn:Ex; [apply String.eqb_eq in Ex; subst b|discriminate]
          |destruct (String.eqb b "y") eqn:Ex; [apply String.eqb_eq in Ex; subst b|discriminate]];
          (destruct s; [tauto|discriminate]). }
      destruct (Three _ _ Hv) as [E|[E|[E|[E|E]]]].
      - apply app_eq_nil in E as [_ E]. discriminate.
      - change ["a"] with ([] ++ ["a"]) in E. apply app_inj_tail in E as [_ ->]. tauto.
      - change ["b"] with ([] ++ ["b"]) in E. apply app_inj_tail in E as [_ ->]. tauto.
      - change ["a"; "x"] with (["a"] ++ ["x"]) in E. apply app_inj_tail in E as [_ ->]. tauto.
      - change ["b"; "y"] with (["b"] ++ ["y"]) in E. apply app_inj_tail in E as [_ ->]. tauto. }
    destruct K as [->|[->|[->| ->]]]; reflexivity.
  - assert (Ne : forall k, k = "a" \/ k = "b" -> no_echo k d).
    { intros k Hk q f Hq Hf. destruct q as [|a q]; [congruence|]. cbn in Hf.
      destruct (String.eqb a "a"); [|destruct (String.eqb a "b"); [|discriminate]];
        (destruct q as [|b q]; [injection Hf as <-; destruct Hk as [-> | ->]; reflexivity|]); cbn in Hf;
        [destruct (String.eqb b "x")|destruct (String.eqb b "y")]; try discriminate; destruct q; discriminate. }
    intros sec H. cbn in H.
    assert (E : sec = "a" \/ sec = "b") by (repeat (destruct H as [H|H]; [first [discriminate H|injection H as <-; tauto]|]); contradiction).
    destruct E as [-> | ->]; (split; [|apply Ne; cbn; tauto]).
    + exists ["a"], [("x", JInt 1)]. repeat split; discriminate.
    + exists ["b"], [("y", JInt 2)]. repeat split; discriminate.
  - match goal with |- apart ?A => let v := eval vm_compute in A in assert (Ea : A = v) by (vm_compute; reflexivity); rewrite Ea; clear Ea end.
    intros x y Hx Hy _ r E.
    repeat (destruct Hx as [<-|Hx]; [repeat (destruct Hy as [<-|Hy]; [discriminate E|]); contradiction|]). contradiction.
  - reflexivity.
Qed.
