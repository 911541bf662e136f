(** * JsonFacts: which texts [loads] reads, and what it reads from [str] of a value. *)
From Verif Require Import Base Num Json JsonText Props_RunFile.

Lemma app_cons_assoc (a b c : string) : ((a ++ b) ++ c = a ++ b ++ c)%string.
Proof. apply string_app_assoc_fix. Qed.

Section Facts.
Context {T : Type} {N : Num T}.
Context (constant : string -> T).

(** ** Sizes: every scanner leaves a shorter text *)
Lemma skip_ws_length s : (String.length (skip_ws s) <= String.length s)%nat.
Proof. induction s as [|c r IH]; cbn; [lia|]. destruct (is_ws c); cbn; lia. Qed.
Lemma drop_prefix_length p : forall s r, drop_prefix p s = Some r ->
  String.length s = (String.length p + String.length r)%nat.
Proof.
  induction p as [|a p IH]; intros s r H; cbn in H.
  - injection H as ->. reflexivity.
  - destruct s as [|b s]; [discriminate|]. destruct (Ascii.eqb a b); [|discriminate]. apply IH in H. cbn. lia.
Qed.
Lemma span_digits_length s : forall a b, span_digits s = (a, b) ->
  String.length s = (String.length a + String.length b)%nat.
Proof.
  induction s as [|c r IH]; cbn; intros a b H; [injection H as <- <-; reflexivity|].
  destruct (JsonText.is_ws c); destruct (Num.is_digit c).
  all: try (injection H as <- <-; reflexivity).
  all: destruct (span_digits r) as [a' b'] eqn:E; injection H as <- <-; specialize (IH _ _ eq_refl); cbn; lia.
Qed.
Lemma scan_int_length s a b : scan_int s = Some (a, b) ->
  String.length s = (String.length a + String.length b)%nat /\ (0 < String.length a)%nat.
Proof.
  destruct s as [|c r]; cbn [scan_int]; [discriminate|].
  destruct (Ascii.eqb c "0"); [intros H; injection H as <- <-; cbn; lia|].
  destruct (Num.is_digit c) eqn:D; [|discriminate]. intros H. injection H as H.
  split; [apply span_digits_length; exact H|]. cbn [span_digits] in H. rewrite D in H.
  destruct (span_digits r); injection H as <- <-. cbn. lia.
Qed.
Lemma scan_frac_length s a b : scan_frac s = (a, b) -> String.length s = (String.length a + String.length b)%nat.
Proof.
  destruct s as [|c r]; cbn [scan_frac]; [intros H; injection H as <- <-; reflexivity|].
  destruct (Ascii.eqb c "."); [|intros H; injection H as <- <-; reflexivity].
  destruct (span_digits r) as [d rest] eqn:E. apply span_digits_length in E.
  destruct d; intros H; injection H as <- <-; cbn in *; lia.
Qed.
Lemma scan_exp_length s a b : scan_exp s = (a, b) -> String.length s = (String.length a + String.length b)%nat.
Proof.
  destruct s as [|c r]; cbn [scan_exp]; [intros H; injection H as <- <-; reflexivity|].
  destruct (_ || _); [|intros H; injection H as <- <-; reflexivity].
  destruct (match r with
            | String x r' => if Ascii.eqb x "-" || Ascii.eqb x "+" then (String x EmptyString, r') else (EmptyString, r)
            | EmptyString => (EmptyString, r) end) as [sg r1] eqn:Es.
  assert (L : String.length r = (String.length sg + String.length r1)%nat).
  { destruct r as [|x r']; [injection Es as <- <-; reflexivity|].
    destruct (_ || _); injection Es as <- <-; reflexivity. }
  destruct (span_digits r1) as [d rest] eqn:E. apply span_digits_length in E.
  destruct d; intros H; injection H as <- <-; cbn; rewrite ?string_length_app; cbn in *; lia.
Qed.
Lemma scan_number_length s v r : scan_number s = Some (v, r) -> (String.length r < String.length s)%nat.
Proof.
  unfold scan_number.
  destruct (match s with String c r => if Ascii.eqb c "-" then ("-"%string, r) else (EmptyString, s) | EmptyString => (EmptyString, s) end)
    as [sg s1] eqn:Es.
  assert (L : (String.length s1 <= String.length s)%nat).
  { destruct s as [|c x]; [injection Es as <- <-; lia|]. destruct (Ascii.eqb c "-"); injection Es as <- <-; cbn; lia. }
  destruct (scan_int s1) as [[ip s2]|] eqn:Ei; [|discriminate]. apply scan_int_length in Ei as [L1 L2].
  destruct (scan_frac s2) as [fr s3] eqn:Ef. apply scan_frac_length in Ef.
  destruct (scan_exp s3) as [ex s4] eqn:Ee. apply scan_exp_length in Ee.
  assert (G : (String.length s4 < String.length s)%nat) by lia.
  destruct fr, ex; try (intros H; injection H as _ <-; exact G);
    destruct (parse_float _); try discriminate; intros H; injection H as _ <-; exact G.
Qed.
Lemma literal_length s v r : literal constant s = Some (v, r) -> (String.length r < String.length s)%nat.
Proof.
  unfold literal. intros H.
  destruct (drop_prefix "null" s) eqn:E1; [injection H as <- <-; apply drop_prefix_length in E1; cbn in E1; lia|].
  destruct (drop_prefix "true" s) eqn:E2; [injection H as <- <-; apply drop_prefix_length in E2; cbn in E2; lia|].
  destruct (drop_prefix "false" s) eqn:E3; [injection H as <- <-; apply drop_prefix_length in E3; cbn in E3; lia|].
  destruct (scan_number s) as [[x y]|] eqn:E4; [injection H as <- <-; apply scan_number_length in E4; lia|].
  destruct (drop_prefix "NaN" s) eqn:E5; [injection H as <- <-; apply drop_prefix_length in E5; cbn in E5; lia|].
  destruct (drop_prefix "Infinity" s) eqn:E6; [injection H as <- <-; apply drop_prefix_length in E6; cbn in E6; lia|].
  destruct (drop_prefix "-Infinity" s) eqn:E7; [injection H as <- <-; apply drop_prefix_length in E7; cbn in E7; lia|].
  discriminate.
Qed.
Lemma utf8_length n : (String.length (utf8 n) <= 4)%nat.
Proof. unfold utf8. destruct (_ <? _)%N; [cbn; lia|]. destruct (_ <? _)%N; [cbn; lia|]. destruct (_ <? _)%N; cbn; lia. Qed.
(** The decoded text and what is left are together shorter than the source. *)
Lemma scan_string_length n : forall s t r, (String.length s <= n)%nat -> scan_string s = Some (t, r) ->
  (String.length t + String.length r < String.length s)%nat.
Proof.
  induction n as [|n IH]; intros s t r Hn H; (destruct s as [|c s]; [discriminate|]); cbn in Hn; [lia|].
  cbn [scan_string] in H. destruct (Ascii.eqb c dquote); [injection H as <- <-; cbn; lia|].
  destruct (Ascii.eqb c backslash).
  2:{ destruct (_ <? _)%nat; [discriminate|]. destruct (scan_string s) as [[t' r']|] eqn:E; [|discriminate].
      injection H as <- <-. apply IH in E; [|lia]. cbn. lia. }
  destruct s as [|e r1]; [discriminate|]. cbn in Hn. destruct (Ascii.eqb e "u").
  2:{ destruct (simple_escape e); [|discriminate]. destruct (scan_string r1) as [[t' r']|] eqn:E; [|discriminate].
      injection H as <- <-. apply IH in E; [|lia]. cbn. lia. }
  destruct r1 as [|a [|b [|c' [|d r2]]]]; try discriminate. cbn in Hn.
  destruct (hex4 a b c' d) as [hi|]; [|discriminate].
  assert (P : match scan_string r2 with Some (t0, rest) => Some ((utf8 hi ++ t0)%string, rest) | None => None end = Some (t, r) ->
              (String.length t + String.length r < S (S (String.length (String a (String b (String c' (String d r2)))))))%nat).
  { intros G. destruct (scan_string r2) as [[t' r']|] eqn:E; [|discriminate]. injection G as <- <-.
    apply IH in E; [|lia]. rewrite string_length_app. pose proof (utf8_length hi). cbn. lia. }
  cbn [String.length] in *.
  destruct r2 as [|x [|y [|a2 [|b2 [|c2 [|d2 r3]]]]]]; try (apply P; exact H).
  destruct (_ && _ && _); [|apply P; exact H].
  destruct (hex4 a2 b2 c2 d2) as [lo|]; [|apply P; exact H].
  destruct (_ && _); [|apply P; exact H].
  assert (U := utf8_length (65536 + (hi - 55296) * 1024 + (lo - 56320))).
  revert H U. generalize (utf8 (65536 + (hi - 55296) * 1024 + (lo - 56320))). clear P. intros u H U.
  destruct (scan_string r3) as [[t' r']|] eqn:E; [|discriminate]. injection H as <- <-.
  apply IH in E; [|cbn in Hn; lia]. rewrite string_length_app. cbn. lia.
Qed.

(** Unfolding equations *)
Lemma scan_S f (s : string) : scan constant (S f) s =
      match s with
      | EmptyString => None
      | String c r =>
          if Ascii.eqb c dquote then
            match scan_string r with Some (t, rest) => Some (JStr t, rest) | None => None end
          else if Ascii.eqb c "{" then
            match eat "}" (skip_ws r) with
            | Some rest => Some (JObj [], rest)
            | None => match scan_members constant f [] (skip_ws r) with Some (m, rest) => Some (JObj m, rest) | None => None end
            end
          else if Ascii.eqb c "[" then
            match eat "]" (skip_ws r) with
            | Some rest => Some (JArr [], rest)
            | None => match scan_elems constant f (skip_ws r) with Some (l, rest) => Some (JArr l, rest) | None => None end
            end
          else literal constant s
      end
  .
Proof. reflexivity. Qed.
Lemma scan_elems_S f (s : string) : scan_elems constant (S f) s =
      match scan constant f s with
      | None => None
      | Some (v, r) =>
          match eat "]" (skip_ws r) with
          | Some rest => Some ([v], rest)
          | None =>
              match eat "," (skip_ws r) with
              | Some rest => match scan_elems constant f (skip_ws rest) with Some (l, rest') => Some (v :: l, rest') | None => None end
              | None => None
              end
          end
      end
  .
Proof. reflexivity. Qed.
Lemma scan_members_S f acc (s : string) : scan_members constant (S f) acc s =
      match eat dquote s with
      | None => None
      | Some r =>
          match scan_string r with
          | None => None
          | Some (k, r1) =>
              match eat ":" (skip_ws r1) with
              | None => None
              | Some r2 =>
                  match scan constant f (skip_ws r2) with
                  | None => None
                  | Some (v, r3) =>
                      let acc' := assoc_set k v acc in
                      match eat "}" (skip_ws r3) with
                      | Some rest => Some (acc', rest)
                      | None => match eat "," (skip_ws r3) with
                                | Some rest => scan_members constant f acc' (skip_ws rest)
                                | None => None
                                end
                      end
                  end
              end
          end
      end
  .
Proof. reflexivity. Qed.
Lemma eat_length c s r : eat c s = Some r -> String.length s = S (String.length r).
Proof. destruct s as [|x y]; cbn; [discriminate|]. destruct (Ascii.eqb x c); [|discriminate]. intros H. injection H as ->. reflexivity. Qed.
Ltac lens := repeat match goal with
  | H : eat _ _ = Some _ |- _ => apply eat_length in H
  | H : scan_string ?s = Some _ |- _ => apply (scan_string_length _ _ _ _ (le_n _)) in H
  | |- context [skip_ws ?s] => match goal with L : (String.length (skip_ws s) <= _)%nat |- _ => fail 1 | _ => pose proof (skip_ws_length s) end
  | _ : context [skip_ws ?s] |- _ => match goal with L : (String.length (skip_ws s) <= _)%nat |- _ => fail 1 | _ => pose proof (skip_ws_length s) end
  end; cbn [String.length] in *; try lia.
Lemma scan_length : forall f,
  (forall s v r, scan constant f s = Some (v, r) -> (String.length r < String.length s)%nat) /\
  (forall s v r, scan_elems constant f s = Some (v, r) -> (String.length r < String.length s)%nat) /\
  (forall acc s v r, scan_members constant f acc s = Some (v, r) -> (String.length r < String.length s)%nat).
Proof.
  induction f as [|f (IH1 & IH2 & IH3)]; [repeat split; discriminate|]. split; [|split].
  - intros s v r H. rewrite scan_S in H. destruct s as [|c s]; [discriminate|].
    destruct (Ascii.eqb c dquote).
    { destruct (scan_string s) as [[t rest]|] eqn:E; [|discriminate]. injection H as <- <-. lens. }
    destruct (Ascii.eqb c "{").
    { destruct (eat _ _) as [rest|] eqn:E; [injection H as <- <-; lens|].
      destruct (scan_members constant f [] _) as [[m rest]|] eqn:E2; [|discriminate]. injection H as <- <-.
      apply IH3 in E2. lens. }
    destruct (Ascii.eqb c "[").
    { destruct (eat _ _) as [rest|] eqn:E; [injection H as <- <-; lens|].
      destruct (scan_elems constant f _) as [[m rest]|] eqn:E2; [|discriminate]. injection H as <- <-.
      apply IH2 in E2. lens. }
    apply literal_length in H. exact H.
  - intros s v r H. rewrite scan_elems_S in H. destruct (scan constant f s) as [[w r1]|] eqn:E; [|discriminate].
    apply IH1 in E. destruct (eat "]" _) as [rest|] eqn:E2; [injection H as <- <-; lens|].
    destruct (eat "," _) as [rest|] eqn:E3; [|discriminate].
    destruct (scan_elems constant f _) as [[l r2]|] eqn:E4; [|discriminate]. injection H as <- <-. apply IH2 in E4. lens.
  - intros acc s v r H. rewrite scan_members_S in H. destruct (eat dquote s) as [r0|] eqn:E0; [|discriminate].
    destruct (scan_string r0) as [[k r1]|] eqn:E; [|discriminate].
    destruct (eat ":" _) as [r2|] eqn:E1; [|discriminate].
    destruct (scan constant f _) as [[w r3]|] eqn:E2; [|discriminate]. apply IH1 in E2.
    cbn zeta in H. destruct (eat "}" _) as [rest|] eqn:E3; [injection H as <- <-; lens|].
    destruct (eat "," _) as [rest|] eqn:E4; [|discriminate]. apply IH3 in H. lens.
Qed.

(** ** The fuel of [loads] is enough: more fuel gives the same answer *)
Lemma scan_fuel : forall f,
  (forall s, (2 * String.length s < f)%nat -> scan constant (S f) s = scan constant f s) /\
  (forall s, (2 * String.length s + 1 < f)%nat -> scan_elems constant (S f) s = scan_elems constant f s) /\
  (forall acc s, (2 * String.length s + 1 < f)%nat -> scan_members constant (S f) acc s = scan_members constant f acc s).
Proof.
  induction f as [|f (IH1 & IH2 & IH3)]; [repeat split; intros; lia|].
  destruct (scan_length f) as (L1 & L2 & L3). split; [|split].
  - intros s Hs. rewrite (scan_S (S f)), (scan_S f). destruct s as [|c s]; [reflexivity|]. cbn [String.length] in Hs.
    destruct (Ascii.eqb c dquote); [reflexivity|].
    assert (W := skip_ws_length s).
    destruct (Ascii.eqb c "{").
    { destruct (eat _ _); [reflexivity|]. rewrite IH3 by lia. reflexivity. }
    destruct (Ascii.eqb c "["); [|reflexivity].
    destruct (eat _ _); [reflexivity|]. rewrite IH2 by lia. reflexivity.
  - intros s Hs. rewrite (scan_elems_S (S f)), (scan_elems_S f). rewrite (IH1 s) by lia. destruct (scan constant f s) as [[v r]|] eqn:E; [|reflexivity].
    apply L1 in E. destruct (eat "]" _); [reflexivity|]. destruct (eat "," _) as [rest|] eqn:E2; [|reflexivity].
    rewrite IH2; [reflexivity|]. lens.
  - intros acc s Hs. rewrite (scan_members_S (S f)), (scan_members_S f).
    destruct (eat dquote s) as [r0|] eqn:E0; [|reflexivity].
    destruct (scan_string r0) as [[k r1]|] eqn:E; [|reflexivity].
    destruct (eat ":" _) as [r2|] eqn:E1; [|reflexivity].
    rewrite (IH1 (skip_ws r2)) by lens.
    destruct (scan constant f _) as [[w r3]|] eqn:E2; [|reflexivity]. apply L1 in E2.
    cbn zeta. destruct (eat "}" _) as [rest|] eqn:E3; [reflexivity|].
    destruct (eat "," _) as [rest|] eqn:E4; [|reflexivity]. apply IH3. lens.
Qed.
Lemma scan_more_fuel s n : (2 * String.length s < n)%nat -> scan constant n s = scan constant (S (2 * String.length s)) s.
Proof.
  intros H. replace n with ((n - S (2 * String.length s)) + S (2 * String.length s))%nat by lia.
  generalize (n - S (2 * String.length s))%nat as k. induction k as [|k IH]; [reflexivity|].
  change (S k + S (2 * String.length s))%nat with (S (k + S (2 * String.length s))).
  rewrite (proj1 (scan_fuel _)) by lia. exact IH.
Qed.

(** A text never reads as itself: reading a quoted string shortens it. *)
Lemma loads_shorter s t : loads constant s = Some (JStr t) -> (String.length t < String.length s)%nat.
Proof.
  unfold loads. destruct (scan constant _ (skip_ws s)) as [[v r]|] eqn:E; [|discriminate].
  destruct (skip_ws r); [|discriminate]. intros H. injection H as ->. rewrite scan_S in E.
  pose proof (skip_ws_length s) as W. destruct (skip_ws s) as [|c x]; [discriminate|].
  destruct (Ascii.eqb c dquote).
  { destruct (scan_string x) as [[t' rest]|] eqn:E2; [|discriminate]. injection E as <- <-. lens. }
  exfalso. destruct (Ascii.eqb c "{").
  { destruct (eat _ _); [discriminate|]. destruct (scan_members _ _ _ _) as [[]|]; discriminate. }
  destruct (Ascii.eqb c "[").
  { destruct (eat _ _); [discriminate|]. destruct (scan_elems _ _ _) as [[]|]; discriminate. }
  unfold literal in E. do 3 (destruct (drop_prefix _ _); [discriminate|]).
  destruct (scan_number (String c x)) as [[v rr]|] eqn:En.
  2:{ do 3 (destruct (drop_prefix _ _); [discriminate|]). discriminate. }
  injection E as -> ->. unfold scan_number in En.
  destruct (if Ascii.eqb c "-" then _ else _) as [sg s1]. destruct (scan_int s1) as [[ip s2]|]; [|discriminate].
  destruct (scan_frac s2) as [fr s3]. destruct (scan_exp s3) as [ex s4].
  destruct fr, ex; try discriminate; destruct (parse_float _); discriminate.
Qed.
End Facts.
