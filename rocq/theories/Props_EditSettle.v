(** * Props_EditSettle: fields saved again and again (C55) *)
From Verif Require Import Base Num Json Logger World Vesicle MeltVisc RelVisc Bubbles Terrain Lava
  Thermal Flux Integrator Factory Run JsonText Props_RunFile JsonFacts JsonRead EditJson Props_EditJson
  JsonGrammar Props_Grammar JsonDump Props_Dump.

(** Between double quotes, Python's repr is either not JSON or means the same text. *)
Lemma repr_chars_read rest : forall s t r, has_char dquote s = false ->
  scan_string (repr_chars dquote s ++ String dquote rest) = Some (t, r) -> t = s /\ r = rest.
Proof.
  induction s as [|c s IH]; intros t r H E; [cbn in E; injection E as <- <-; auto|].
  cbn [has_char] in H. apply orb_false_elim in H as [Hc Hs]. cbn [repr_chars] in E. rewrite string_app_assoc_fix in E.
  unfold repr_char in E. rewrite Hc in E. cbn [orb] in E.
  destruct (Ascii.eqb c backslash) eqn:B.
  { apply Ascii.eqb_eq in B. subst c. cbn [append scan_string] in E. change (Ascii.eqb backslash dquote) with false in E. change (Ascii.eqb backslash backslash) with true in E.
    change (Ascii.eqb backslash "u") with false in E. change (simple_escape backslash) with (Some backslash) in E. cbn iota in E.
    destruct (scan_string (repr_chars dquote s ++ String dquote rest)) as [[t' r']|]; [|discriminate]. injection E as <- <-. destruct (IH t' r' Hs eq_refl) as [-> ->]. auto. }
  assert (Q : forall n, nat_of_ascii c = n -> c = ascii_of_nat n) by (intros n <-; symmetry; apply ascii_nat_embedding).
  destruct (Nat.eqb_spec (nat_of_ascii c) 9) as [X|X].
  { apply Q in X. subst c. cbn [append scan_string] in E. change (Ascii.eqb backslash dquote) with false in E. change (Ascii.eqb backslash backslash) with true in E.
    change (Ascii.eqb "t" "u") with false in E. change (simple_escape "t") with (Some (ascii_of_nat 9)) in E. cbn iota in E.
    destruct (scan_string (repr_chars dquote s ++ String dquote rest)) as [[t' r']|]; [|discriminate]. injection E as <- <-. destruct (IH t' r' Hs eq_refl) as [-> ->]. auto. }
  destruct (Nat.eqb_spec (nat_of_ascii c) 10) as [Y|Y].
  { apply Q in Y. subst c. cbn [append scan_string] in E. change (Ascii.eqb backslash dquote) with false in E. change (Ascii.eqb backslash backslash) with true in E.
    change (Ascii.eqb "n" "u") with false in E. change (simple_escape "n") with (Some (ascii_of_nat 10)) in E. cbn iota in E.
    destruct (scan_string (repr_chars dquote s ++ String dquote rest)) as [[t' r']|]; [|discriminate]. injection E as <- <-. destruct (IH t' r' Hs eq_refl) as [-> ->]. auto. }
  destruct (Nat.eqb_spec (nat_of_ascii c) 13) as [Z0|Z0].
  { apply Q in Z0. subst c. cbn [append scan_string] in E. change (Ascii.eqb backslash dquote) with false in E. change (Ascii.eqb backslash backslash) with true in E.
    change (Ascii.eqb "r" "u") with false in E. change (simple_escape "r") with (Some (ascii_of_nat 13)) in E. cbn iota in E.
    destruct (scan_string (repr_chars dquote s ++ String dquote rest)) as [[t' r']|]; [|discriminate]. injection E as <- <-. destruct (IH t' r' Hs eq_refl) as [-> ->]. auto. }
  destruct ((nat_of_ascii c <? 32)%nat || (nat_of_ascii c =? 127)%nat) eqn:W.
  { cbn [append scan_string] in E. change (Ascii.eqb backslash dquote) with false in E. change (Ascii.eqb backslash backslash) with true in E. discriminate. }
  cbn [append scan_string] in E. rewrite Hc, B in E. apply orb_false_elim in W as [W _]. apply Nat.ltb_ge in W.
  destruct (Nat.ltb_spec (nat_of_ascii c) 32) as [?|_] in E; [lia|].
  destruct (scan_string (repr_chars dquote s ++ String dquote rest)) as [[t' r']|]; [|discriminate]. injection E as <- <-. destruct (IH t' r' Hs eq_refl) as [-> ->]. auto.
Qed.

Section Settle.
Context {T : Type} {N : Num T}.
Context (constant : string -> T) (repr_float : T -> string).
Notation py_repr := (py_repr repr_float).
Notation loads := (loads constant).
Notation resaved := (resaved constant repr_float).
(** What Python's repr gives for a float: a number that reads back as that float, or one
    of the three words that JSON does not have. *)
Definition prints (x : T) : Prop := reads_back repr_float x \/ In (repr_float x) ["nan"; "inf"; "-inf"].
Notation readable := (all_floats prints).

Lemma readable_float x : readable (JFloat x) -> prints x.
Proof. remember (JFloat x) as v eqn:E. intros H. revert E. destruct H; intros E; try discriminate. injection E as ->. assumption. Qed.
Lemma readable_arr l : readable (JArr l) -> Forall readable l.
Proof. remember (JArr l) as v eqn:E. intros H. revert E. destruct H; intros E; try discriminate. injection E as ->. assumption. Qed.
Lemma repr_starts v : readable v -> starts_value (py_repr v).
Proof.
  intros H. destruct H as [|[]| |x Hx|s|l|[|p f]]; try (cbn; repeat split; discriminate).
  - apply (plain_number_starts constant repr_float (JInt z)), I.
  - destruct Hx as [Hx|Hx]; [apply (plain_number_starts constant repr_float (JFloat x)), Hx|]. cbn [JsonText.py_repr]. destruct Hx as [<-|[<-|[<-|[]]]]; cbn; repeat split; discriminate.
  - cbn [JsonText.py_repr]. unfold repr_str. destruct (_ && _); cbn; repeat split; discriminate.
Qed.
Lemma join_starts v l tail : readable v -> let s := (join ", " (map py_repr (v :: l)) ++ tail)%string in skip_ws s = s /\ eat "]" s = None.
Proof.
  intros H. cbv zeta. assert (E : exists tl, join ", " (map py_repr (v :: l)) = (py_repr v ++ tl)%string).
  { cbn [map join]. destruct (map py_repr l); [exists ""; rewrite app_nil_eq; reflexivity|eauto]. }
  destruct E as (tl & ->). rewrite string_app_assoc_fix. apply starts_skip, repr_starts, H.
Qed.
Lemma scan_repr : forall v, readable v -> forall f rest w r, stops rest -> scan constant f (py_repr v ++ rest) = Some (w, r) -> w = v /\ r = rest.
Proof.
  induction v as [|b|z|x|s|l IH|fl IH] using json_size_ind; intros Hv f rest w r Hr E; (destruct f as [|f]; [discriminate|]).
  - rewrite scan_unreadable in E; [discriminate|constructor|exact Hr].
  - rewrite scan_unreadable in E; [discriminate|constructor|exact Hr].
  - change (py_repr (JInt z)) with (Z_to_string z) in E. rewrite (scan_number_is_value constant _ (JInt z) rest) in E; [injection E as <- <-; auto|apply (scan_number_int constant repr_float), Hr].
  - destruct (readable_float x Hv) as [Hx|Hx]; [|exfalso; cbn [JsonText.py_repr] in E; rewrite scan_S in E; revert E; destruct Hx as [<-|[<-|[<-|[]]]]; discriminate]. change (py_repr (JFloat x)) with (repr_float x) in E.
    rewrite (scan_number_is_value constant _ (JFloat x) rest) in E; [injection E as <- <-; auto|apply (scan_number_float constant repr_float); [apply Hx|apply Hx|exact Hr]].
  - cbn [JsonText.py_repr] in E. unfold repr_str in E. destruct (has_char squote s && negb (has_char dquote s)) eqn:Q.
    + apply andb_prop in Q as [_ Q]. apply negb_true_iff in Q. cbn [append] in E. rewrite string_app_assoc_fix in E. cbn [append] in E. rewrite scan_S in E.
      change (Ascii.eqb dquote dquote) with true in E. cbn iota in E.
      destruct (scan_string _) as [[t r']|] eqn:Es; [|discriminate]. injection E as <- <-. destruct (repr_chars_read rest s t r' Q Es) as [-> ->]. auto.
    + cbn [append] in E. rewrite scan_S in E. discriminate.
  - cbn [JsonText.py_repr] in E. rewrite !string_app_assoc_fix in E. rewrite scan_S in E. cbn [append] in E.
    change (Ascii.eqb "[" dquote) with false in E. change (Ascii.eqb "[" "{") with false in E. change (Ascii.eqb "[" "[") with true in E. cbn iota in E.
    assert (Hl := readable_arr l Hv). destruct l as [|v l]; [cbn in E; injection E as <- <-; auto|].
    inversion Hl as [|? ? Rv Rl]; subst.
    destruct (join_starts v l (String "]" rest) Rv) as [S1 S2]. rewrite S1, S2 in E. clear S1 S2.
    destruct (scan_elems _ _ _) as [[ws r']|] eqn:Es; [|discriminate]. injection E as <- <-.
    assert (G : ws = v :: l /\ r' = rest); [|destruct G as [-> ->]; auto].
    clear Hv. revert v f ws r' IH Hl Rv Rl Es. induction l as [|u l IHl]; intros v f ws r' IH Hl Rv Rl Es.
    + destruct f as [|f]; [discriminate|]. rewrite scan_elems_S in Es. cbn [map join] in Es. inversion IH as [|? ? Iv _]; subst.
      destruct (scan constant f _) as [[v' r1]|] eqn:Ev; [|discriminate].
      destruct (Iv Rv f (String "]" rest) v' r1 ltac:(cbn; repeat split; discriminate) Ev) as [-> ->]. cbn in Es. injection Es as <- <-. auto.
    + destruct f as [|f]; [discriminate|]. rewrite scan_elems_S in Es. inversion IH as [|? ? Iv Ir]; subst. inversion Rl as [|? ? Ru Rl']; subst.
      change (join ", " (map py_repr (v :: u :: l))) with (py_repr v ++ ", " ++ join ", " (map py_repr (u :: l)))%string in Es. rewrite !string_app_assoc_fix in Es.
      destruct (scan constant f _) as [[v' r1]|] eqn:Ev; [|discriminate].
      pose proof (fun H => Iv Rv f _ v' r1 H Ev) as X. destruct X as [-> ->]; [cbn; repeat split; discriminate|]. clear Ev. cbn [append skip_ws] in Es. change (is_ws ",") with false in Es. cbn iota in Es.
      cbn [eat Ascii.eqb Bool.eqb] in Es. cbn [skip_ws] in Es. change (is_ws " ") with true in Es. cbn iota in Es.
      destruct (join_starts u l (String "]" rest) Ru) as [S1 S2]. rewrite S1 in Es. clear S1 S2.
      destruct (scan_elems _ _ _) as [[us r2]|] eqn:Eu; [|discriminate]. injection Es as <- <-.
      destruct (IHl u f us r2 Ir Rl Ru Rl' Eu) as [-> ->]. auto.
  - rewrite scan_unreadable in E; [discriminate|constructor|exact Hr].
Qed.
Lemma loads_repr v w : readable v -> loads (py_repr v) = Some w -> w = v.
Proof.
  intros R E. unfold JsonText.loads in E. destruct (starts_skip (py_repr v) "" (repr_starts v R)) as [S1 _]. rewrite app_nil_eq in S1. rewrite S1 in E.
  destruct (scan _ _ _) as [[w' r]|] eqn:Es; [|discriminate]. rewrite <- (app_nil_eq (py_repr v)) in Es.
  destruct (scan_repr v R _ "" w' r I Es) as [-> ->]. cbn in E. now injection E.
Qed.

Lemma all_readable : (forall x, prints x) -> forall v, readable v.
Proof.
  intros P. induction v as [|b|z|x|s|l IH|f IH] using json_size_ind; constructor; try apply P; assumption.
Qed.
Context (P : forall x, prints x).
(** C55.  A field that is not a text is saved unchanged or becomes its text, which stays. *)
Theorem C55_value_kept_or_becomes_its_text : forall v, (forall s, v <> JStr s) ->
  resaved v = v \/ resaved v = JStr (py_repr v) /\ resaved (JStr (py_repr v)) = JStr (py_repr v).
Proof.
  intros v Hs. assert (R := all_readable P v). assert (E : str_of repr_float v = py_repr v) by (destruct v; try reflexivity; exfalso; eapply Hs; reflexivity).
  unfold Props_EditJson.resaved. rewrite E. cbn [JsonText.str_of]. destruct (loads (py_repr v)) as [w|] eqn:L; [left; exact (loads_repr v w R L)|]. right. auto.
Qed.
(** Saving [n] times. *)
Fixpoint saved_times (n : nat) (v : json T) : json T := match n with O => v | S m => saved_times m (resaved v) end.
(** C55.  Whatever the field, after at most as many saves as its text has characters, and
    two more, saving changes it no more (if repr prints floats as it should). *)
Theorem C55_saving_settles : forall v, exists n, (n <= String.length (str_of repr_float v) + 2)%nat /\
  forall m, (n <= m)%nat -> saved_times m v = saved_times n v.
Proof.
  assert (Fix : forall v, resaved v = v -> forall m, saved_times m v = v) by (intros v H; induction m as [|m IH]; [reflexivity|cbn [saved_times]; rewrite H; exact IH]).
  intros v. assert (NS : forall v, (forall s, v <> JStr s) -> exists n, (n <= 1)%nat /\ forall m, (n <= m)%nat -> saved_times m v = saved_times n v).
  { clear v. intros v Hs. destruct (C55_value_kept_or_becomes_its_text v Hs) as [E|[E F]].
    - exists O. split; [lia|]. intros m _. now apply Fix.
    - exists 1%nat. split; [lia|]. intros [|m] Hm; [lia|]. cbn [saved_times]. rewrite E. now apply Fix. }
  assert (ST : forall k s, (String.length s <= k)%nat -> exists n, (n <= String.length s + 2)%nat /\ forall m, (n <= m)%nat -> saved_times m (JStr s) = saved_times n (JStr s)).
  { induction k as [|k IH]; intros s L; (destruct (loads s) as [w|] eqn:E; [|exists O; split; [lia|]; intros m _; apply Fix, C55_string_survives_iff, E]).
    - destruct s; [discriminate|cbn in L; lia].
    - assert (Es : resaved (JStr s) = w) by (unfold Props_EditJson.resaved; cbn [JsonText.str_of]; rewrite E; reflexivity).
      assert (Sn : (exists t, w = JStr t) \/ forall t, w <> JStr t) by (destruct w; try (right; discriminate); left; eauto).
      destruct Sn as [(t & ->)|Hw].
      + assert (Lt := loads_shorter _ _ _ E). destruct (IH t ltac:(lia)) as (n & Hn & Hm). exists (S n). split; [lia|]. intros [|m] Hle; [lia|]. cbn [saved_times]. rewrite Es. apply Hm. lia.
      + destruct (NS w Hw) as (n & Hn & Hm). exists (S n). split; [lia|]. intros [|m] Hle; [lia|]. cbn [saved_times]. rewrite Es. apply Hm. lia. }
  assert (Sn : (exists t, v = JStr t) \/ forall t, v <> JStr t) by (destruct v; try (right; discriminate); left; eauto).
  destruct Sn as [(t & ->)|Hv]; [exact (ST _ t (le_n _))|]. destruct (NS v Hv) as (n & Hn & Hm). exists n. split; [lia|exact Hm].
Qed.
End Settle.
(** A text of a quoted text of true: three saves (first the quotes go, then the text is
    read as true, which is saved as the text True). *)
Example settles_in_three {T} {N : Num T} (constant : string -> T) (repr_float : T -> string) :
  let v := JStr (String dquote ("true" ++ String dquote EmptyString)) in
  saved_times constant repr_float 1 v = JStr "true" /\ saved_times constant repr_float 2 v = JBool true /\
  saved_times constant repr_float 3 v = JStr "True" /\ saved_times constant repr_float 4 v = JStr "True".
Proof. repeat split; reflexivity. Qed.
(** A list with an apostrophe in it is kept; with another text it becomes a text. *)
Example lists {T} {N : Num T} (constant : string -> T) (repr_float : T -> string) :
  resaved constant repr_float (JArr [JStr "d'Aso"; JInt 2]) = JArr [JStr "d'Aso"; JInt 2] /\
  resaved constant repr_float (JArr [JStr "Aso"; JInt 2]) = JStr "['Aso', 2]".
Proof. split; reflexivity. Qed.
(** The hypothesis on repr is met, for instance by one that knows a single number. *)
From Coq Require Import Reals.
From Verif Require Import RNum Props_EditDemo.
Example repr_exists : exists repr : R -> string, (forall x, prints repr x) /\ repr (n_lit 25 10) = "2.5".
Proof.
  exists (fun x => if Req_EM_T x (n_lit 25 10) then "2.5" else "nan"). split.
  - intros x. unfold prints. destruct (Req_EM_T x (n_lit 25 10)) as [->|D]; [|right; left; reflexivity]. left.
    pose proof (@demo_reads_back R RNum) as H. unfold reads_back, demo_repr in *. destruct (Req_EM_T (n_lit 25 10) (n_lit 25 10)); [exact H|congruence].
  - destruct (Req_EM_T (n_lit 25 10) (n_lit 25 10)); [reflexivity|congruence].
Qed.
Print Assumptions C55_saving_settles.
