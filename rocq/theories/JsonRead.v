(** * JsonRead: reading back the text of a value. *)
From Verif Require Import Base Num Json JsonText Props_RunFile JsonFacts.

(** ** Which values have a JSON text as their [str] *)
Section Read.
Context {T : Type} {N : Num T}.
Context (constant : string -> T) (repr_float : T -> string).
Notation py_repr := (py_repr repr_float).

(** A text that a following character cannot extend to a longer number. *)
Definition digit_free (s : string) : Prop := match s with String c _ => Num.is_digit c = false | EmptyString => True end.
Definition stops (s : string) : Prop :=
  match s with
  | String c _ => Num.is_digit c = false /\ c <> "."%char /\ c <> "e"%char /\ c <> "E"%char
  | EmptyString => True
  end.
Lemma stops_free s : stops s -> digit_free s.
Proof. destruct s; cbn; tauto. Qed.

Definition digits (s : string) : Prop := all_chars Props_RunFile.is_digit s.
Lemma digit_true c : Props_RunFile.is_digit c -> Num.is_digit c = true.
Proof.
  unfold Props_RunFile.is_digit, Num.is_digit. intros [H1 H2].
  apply andb_true_intro. split; apply Nat.leb_le; assumption.
Qed.
Lemma span_digits_all d : forall rest, digits d -> digit_free rest -> span_digits (d ++ rest) = (d, rest).
Proof.
  induction d as [|c d IH]; intros rest Hd Hr; cbn.
  - destruct rest as [|c r]; [reflexivity|]. cbn in *. rewrite Hr. reflexivity.
  - destruct Hd as [Hc Hd]. rewrite (digit_true _ Hc), (IH _ Hd Hr). reflexivity.
Qed.
Lemma read_digits_value d : forall acc n, digits d ->
  read_digits d acc n = (decimal_value acc d, (n + String.length d)%nat, ""%string).
Proof.
  induction d as [|c d IH]; intros acc n Hd; cbn.
  - rewrite Nat.add_0_r. reflexivity.
  - destruct Hd as [Hc Hd]. rewrite (digit_true _ Hc), (IH _ _ Hd).
    replace (acc * 10 + digit_val c)%Z with (10 * acc + (Z.of_nat (nat_of_ascii c) - 48))%Z.
    + f_equal. f_equal. lia.
    + unfold digit_val. unfold Props_RunFile.is_digit in Hc. lia.
Qed.

(** The integer part of a JSON number: 0, or digits that do not start with 0. *)
Definition int_part (s : string) : Prop :=
  digits s /\ match s with EmptyString => False | String c r => c = "0"%char -> r = EmptyString end.
Lemma digit_not c d : Props_RunFile.is_digit c -> Num.is_digit d = false -> Ascii.eqb c d = false.
Proof.
  intros Hc Hd. destruct (Ascii.eqb c d) eqn:E; [|reflexivity]. apply Ascii.eqb_eq in E. subst d.
  rewrite (digit_true _ Hc) in Hd. discriminate.
Qed.
Lemma scan_int_part ip rest : int_part ip -> digit_free rest -> scan_int (ip ++ rest) = Some (ip, rest).
Proof.
  intros [Hd H0] Hr. destruct ip as [|c r]; [contradiction|]. cbn [append scan_int].
  destruct (Ascii.eqb c "0") eqn:E.
  - apply Ascii.eqb_eq in E. rewrite (H0 E) in *. subst c. reflexivity.
  - destruct Hd as [Hc Hd]. rewrite (digit_true _ Hc). f_equal.
    apply (span_digits_all (String c r)); [split; assumption|assumption].
Qed.

Lemma pos_digits_int f n : (0 <= n < 2 ^ Z.of_nat (S f))%Z -> int_part (pos_digits (S f) n "").
Proof.
  intros Hn. split; [apply pos_digits_chars; lia|].
  assert (G : forall f n, (0 < n < 2 ^ Z.of_nat f)%Z -> match pos_digits f n "" with EmptyString => False | String c r => c <> "0"%char end).
  { clear. induction f as [|f IH]; intros n Hn; [cbn in Hn; lia|]. cbn [pos_digits].
    pose proof (Z.mod_pos_bound n 10 ltac:(lia)) as Hm. pose proof (Z.div_mod n 10 ltac:(lia)) as Hd.
    destruct (Z.eqb_spec (n / 10) 0) as [E|E].
    - intros H. apply (f_equal (fun c => Z.of_nat (nat_of_ascii c))) in H. rewrite digit_code in H by lia. change (nat_of_ascii "0") with 48%nat in H. lia.
    - rewrite pos_digits_app. assert (Hq : (0 <= n / 10)%Z) by (apply Z.div_pos; lia).
      specialize (IH (n / 10)%Z). destruct (pos_digits f (n / 10) "").
      + exfalso. apply IH. split; [lia|]. rewrite Nat2Z.inj_succ, Z.pow_succ_r in Hn by lia. apply Z.div_lt_upper_bound; lia.
      + cbn [append]. apply IH. split; [lia|]. rewrite Nat2Z.inj_succ, Z.pow_succ_r in Hn by lia. apply Z.div_lt_upper_bound; lia. }
  destruct (Z.eq_dec n 0) as [->|Hz].
  - cbn. auto.
  - specialize (G (S f) n ltac:(lia)). destruct (pos_digits (S f) n ""); [exact G|]. intros E. contradiction.
Qed.
(** Integers *)
Lemma scan_number_int z rest : stops rest -> scan_number (Z_to_string z ++ rest) = Some (@JInt T z, rest).
Proof.
  intros Hr.
  assert (G : forall n, (0 <= n)%Z -> let d := pos_digits (S (Z.to_nat (Z.log2 n))) n "" in
     int_part d /\ int_of_digits d = n).
  { intros n Hn d. pose proof (log2_fuel n Hn) as L. split; [apply pos_digits_int; lia|].
    unfold int_of_digits. rewrite read_digits_value by (apply pos_digits_chars; lia). cbn [fst].
    apply pos_digits_value. lia. }
  assert (F : scan_frac rest = (EmptyString, rest)).
  { destruct rest as [|c r]; [reflexivity|]. cbn in *. destruct (Ascii.eqb c ".") eqn:E; [|reflexivity].
    apply Ascii.eqb_eq in E. tauto. }
  assert (X : scan_exp rest = (EmptyString, rest)).
  { destruct rest as [|c r]; [reflexivity|]. cbn [scan_exp] in *. destruct Hr as (_ & _ & H1 & H2).
    apply Ascii.eqb_neq in H1. apply Ascii.eqb_neq in H2. rewrite H1, H2. reflexivity. }
  unfold Z_to_string. destruct (Z.ltb_spec z 0) as [Ez|Ez].
  - destruct (G (- z)%Z ltac:(lia)) as [I V]. cbn [append scan_number Ascii.eqb Bool.eqb]. unfold scan_number.
    cbn [Ascii.eqb Bool.eqb]. rewrite (scan_int_part _ _ I (stops_free _ Hr)), F, X, V. f_equal. f_equal. f_equal. lia.
  - destruct (G z Ez) as [I V]. unfold scan_number.
    set (d := pos_digits _ z "") in *.
    assert (E : match (d ++ rest)%string with
                | EmptyString => (EmptyString, (d ++ rest)%string)
                | String c r => if Ascii.eqb c "-" then ("-"%string, r) else (EmptyString, (d ++ rest)%string)
                end = (EmptyString, (d ++ rest)%string)).
    { destruct I as [Hd H0]. destruct d as [|c r]; [contradiction|]. cbn [append].
      rewrite (digit_not c "-" (proj1 Hd) eq_refl). reflexivity. }
    rewrite E, (scan_int_part _ _ I (stops_free _ Hr)), F, X, V. reflexivity.
Qed.

(** Floats: a JSON number text with a fraction or an exponent. *)
Definition number_text (s : string) : Prop :=
  exists sg ip fr ex, s = (sg ++ ip ++ fr ++ ex)%string /\ (sg = "" \/ sg = "-"%string) /\ int_part ip /\
    (fr = "" \/ exists d, fr = String "." d /\ digits d /\ d <> "") /\
    (ex = "" \/ exists e pm d, ex = String e (pm ++ d) /\ (e = "e"%char \/ e = "E"%char) /\
                  (pm = "" \/ pm = "-"%string \/ pm = "+"%string) /\ digits d /\ d <> "") /\
    ~ (fr = "" /\ ex = "").
(** [repr(x)] is such a text and [float] of it is [x] (a guarantee of CPython for
    every finite float). *)
Definition reads_back (x : T) : Prop := number_text (repr_float x) /\ parse_float (repr_float x) = Ok x.

Lemma app_nil_eq (a : string) : (a ++ "")%string = a.
Proof. apply string_app_nil_r. Qed.
Lemma scan_number_float s x rest : number_text s -> parse_float s = Ok x -> stops rest ->
  scan_number (s ++ rest) = Some (JFloat x, rest).
Proof.
  intros (sg & ip & fr & ex & -> & Hsg & Hip & Hfr & Hex & Hne) Hp Hr.
  assert (X : scan_exp (ex ++ rest) = (ex, rest)).
  { destruct Hex as [->|(e & pm & d & -> & He & Hpm & Hd & Hd0)].
    - destruct rest as [|c r]; [reflexivity|]. cbn [append scan_exp]. destruct Hr as (_ & _ & H1 & H2).
      apply Ascii.eqb_neq in H1. apply Ascii.eqb_neq in H2. rewrite H1, H2. reflexivity.
    - cbn [append scan_exp]. assert (Ee : Ascii.eqb e "e" || Ascii.eqb e "E" = true) by (destruct He as [->| ->]; reflexivity).
      rewrite Ee, string_app_assoc_fix.
      assert (Es : match (pm ++ d ++ rest)%string with
                   | EmptyString => (EmptyString, (pm ++ d ++ rest)%string)
                   | String x0 r' => if Ascii.eqb x0 "-" || Ascii.eqb x0 "+" then (String x0 EmptyString, r')
                                     else (EmptyString, (pm ++ d ++ rest)%string) end = (pm, (d ++ rest)%string)).
      { destruct Hpm as [->|[->| ->]]; [|reflexivity..]. cbn [append]. destruct d as [|c d']; [contradiction|].
        cbn [append]. rewrite (digit_not c "-" (proj1 Hd) eq_refl), (digit_not c "+" (proj1 Hd) eq_refl). reflexivity. }
      rewrite Es, (span_digits_all _ _ Hd (stops_free _ Hr)). destruct d as [|c d']; [contradiction|]. reflexivity. }
  assert (XF : digit_free (ex ++ rest)).
  { destruct Hex as [->|(e & pm & d & -> & He & _)]; [exact (stops_free _ Hr)|].
    cbn. destruct He as [->| ->]; reflexivity. }
  assert (F : scan_frac (fr ++ ex ++ rest) = (fr, (ex ++ rest)%string)).
  { destruct Hfr as [->|(d & -> & Hd & Hd0)].
    - cbn [append]. destruct Hex as [->|(e & pm & d & -> & He & _)].
      + cbn [append]. destruct rest as [|c r]; [reflexivity|]. cbn [scan_frac]. destruct Hr as (_ & H1 & _).
        apply Ascii.eqb_neq in H1. rewrite H1. reflexivity.
      + cbn [append scan_frac]. destruct He as [->| ->]; reflexivity.
    - cbn [append scan_frac Ascii.eqb Bool.eqb]. rewrite (span_digits_all _ _ Hd XF). destruct d; [contradiction|reflexivity]. }
  assert (FF : digit_free (fr ++ ex ++ rest)).
  { destruct Hfr as [->|(d & -> & _)]; [exact XF|reflexivity]. }
  assert (Es : match ((sg ++ ip ++ fr ++ ex) ++ rest)%string with
               | EmptyString => (EmptyString, ((sg ++ ip ++ fr ++ ex) ++ rest)%string)
               | String c r => if Ascii.eqb c "-" then ("-"%string, r) else (EmptyString, ((sg ++ ip ++ fr ++ ex) ++ rest)%string)
               end = (sg, (ip ++ fr ++ ex ++ rest)%string)).
  { rewrite !string_app_assoc_fix. destruct Hsg as [->| ->]; [|reflexivity].
    destruct Hip as [Hd H0]. destruct ip as [|c r]; [contradiction|]. cbn [append].
    rewrite (digit_not c "-" (proj1 Hd) eq_refl). reflexivity. }
  unfold scan_number. rewrite Es, (scan_int_part _ _ Hip FF), F, X, Hp.
  destruct fr, ex; try reflexivity. exfalso. apply Hne. auto.
Qed.

(** What a number text starts with, so that [scan] takes it as a number. *)
Lemma scan_number_first s v r : scan_number s = Some (v, r) -> scan_number s = @scan_number T N s ->
  match s with String c _ => Num.is_digit c = true \/ c = "-"%char | EmptyString => False end.
Proof.
  unfold scan_number. destruct s as [|c x]; [discriminate|]. destruct (Ascii.eqb c "-") eqn:E.
  - apply Ascii.eqb_eq in E. auto.
  - cbn [scan_int]. destruct (Ascii.eqb c "0") eqn:E0.
    + apply Ascii.eqb_eq in E0. subst c. left. reflexivity.
    + destruct (Num.is_digit c); [auto|discriminate].
Qed.
Lemma scan_number_is_value s v r f : scan_number s = Some (v, r) -> scan constant (S f) s = Some (v, r).
Proof.
  intros H. pose proof (scan_number_first _ _ _ H eq_refl) as F. rewrite scan_S. destruct s as [|c x]; [contradiction|].
  assert (D : forall d, Num.is_digit d = false -> d <> "-"%char -> Ascii.eqb c d = false).
  { intros d Hd Hm. apply Ascii.eqb_neq. intros ->. destruct F as [F|F]; congruence. }
  assert (D' : forall d, Num.is_digit d = false -> d <> "-"%char -> Ascii.eqb d c = false).
  { intros d Hd Hm. apply Ascii.eqb_neq. intros <-. destruct F as [F|F]; congruence. }
  rewrite (D dquote), (D "{"%char), (D "["%char) by (reflexivity || discriminate).
  unfold literal. cbn [drop_prefix]. rewrite (D' "n"%char), (D' "t"%char), (D' "f"%char) by (reflexivity || discriminate).
  rewrite H. reflexivity.
Qed.

(** Numbers, and lists of such values. *)
Inductive plain : json T -> Prop :=
| plain_int z : plain (JInt z)
| plain_float x : reads_back x -> plain (JFloat x)
| plain_arr l : Forall plain l -> plain (JArr l).

Lemma json_size_ind (P : json T -> Prop) :
  P JNull -> (forall b, P (JBool b)) -> (forall z, P (JInt z)) -> (forall x, P (JFloat x)) -> (forall s, P (JStr s)) ->
  (forall l, Forall P l -> P (JArr l)) -> (forall f, Forall (fun p => P (snd p)) f -> P (JObj f)) -> forall j, P j.
Proof.
  intros Hn Hb Hi Hf Hs Ha Ho. fix IH 1. intros [| | | | |l|f].
  - exact Hn. - apply Hb. - apply Hi. - apply Hf. - apply Hs.
  - apply Ha. induction l; constructor; [apply IH|assumption].
  - apply Ho. induction f as [|[k v] f IHf]; constructor; [apply IH|assumption].
Qed.

Lemma number_nonempty s v r : @scan_number T N (s ++ "") = Some (v, r) -> s <> "".
Proof. intros H ->. discriminate. Qed.
Lemma first_not_ws s x : (match s with String c _ => Num.is_digit c = true \/ c = "-"%char | EmptyString => False end) ->
  skip_ws (s ++ x) = (s ++ x)%string /\ (forall c, Num.is_digit c = false -> c <> "-"%char -> eat c (s ++ x) = None).
Proof.
  destruct s as [|c r]; [contradiction|]. intros F. split.
  - cbn. unfold is_ws. assert (G : forall n, (n < 40)%nat -> (nat_of_ascii c =? n)%nat = false).
    { intros n Hn. apply Nat.eqb_neq. intros E. destruct F as [F| ->]; [|cbn in E; lia].
      unfold Num.is_digit in F. apply andb_prop in F as [F _]. apply Nat.leb_le in F. lia. }
    rewrite !G by lia. reflexivity.
  - intros d Hd Hm. cbn. destruct (Ascii.eqb c d) eqn:E; [|reflexivity]. apply Ascii.eqb_eq in E. subst d.
    destruct F as [F|F]; congruence.
Qed.

(** The text of a plain value starts with a character that is not a space, a
    closing bracket or a separator. *)
Definition starts_value (s : string) : Prop :=
  match s with EmptyString => False | String c _ => is_ws c = false /\ c <> "]"%char /\ c <> "}"%char end.
Lemma starts_skip s x : starts_value s -> skip_ws (s ++ x) = (s ++ x)%string /\ eat "]" (s ++ x) = None.
Proof.
  destruct s as [|c r]; [contradiction|]. intros (H1 & H2 & H3). cbn. rewrite H1.
  apply Ascii.eqb_neq in H2. rewrite H2. auto.
Qed.
Lemma number_starts s : (match s with String c _ => Num.is_digit c = true \/ c = "-"%char | EmptyString => False end) -> starts_value s.
Proof.
  destruct s as [|c r]; [auto|]. intros F. cbn.
  assert (G : forall n, (n < 40)%nat -> (nat_of_ascii c =? n)%nat = false).
  { intros n Hn. apply Nat.eqb_neq. intros E. destruct F as [F| ->]; [|cbn in E; lia].
    unfold Num.is_digit in F. apply andb_prop in F as [F _]. apply Nat.leb_le in F. lia. }
  split; [unfold is_ws; rewrite !G by lia; reflexivity|]. split; intros ->; destruct F as [F|F]; discriminate.
Qed.
Lemma plain_number_starts v : match v with JInt _ => True | JFloat x => reads_back x | _ => False end -> starts_value (py_repr v).
Proof.
  intros H. apply number_starts. destruct v; try contradiction.
  - pose proof (scan_number_int z "" I) as E. rewrite app_nil_eq in E. exact (scan_number_first _ _ _ E eq_refl).
  - destruct H as [H1 H2]. pose proof (scan_number_float _ _ "" H1 H2 I) as E. rewrite app_nil_eq in E.
    exact (scan_number_first _ _ _ E eq_refl).
Qed.
Lemma plain_starts v : plain v -> starts_value (py_repr v).
Proof.
  intros H. destruct H as [z|x Hx|l Hl]; [apply plain_number_starts; exact I|apply plain_number_starts; exact Hx|].
  cbn. repeat split; discriminate.
Qed.

(** Values whose [str] is not JSON when met inside a list. *)
Inductive unreadable : json T -> Prop :=
| unreadable_null : unreadable JNull
| unreadable_bool b : unreadable (JBool b)
| unreadable_str s : has_char squote s = false \/ has_char dquote s = true -> unreadable (JStr s)
| unreadable_obj f : unreadable (JObj f)
| unreadable_arr l1 v l2 : Forall plain l1 -> unreadable v -> unreadable (JArr (l1 ++ v :: l2)).

Lemma unreadable_starts v : unreadable v -> starts_value (py_repr v).
Proof.
  intros H. destruct H as [|[]|s Hs|[|p f]|l1 v l2 H1 H2]; try (cbn; repeat split; discriminate).
  cbn [JsonText.py_repr]. assert (E : has_char squote s && negb (has_char dquote s) = false).
  { destruct Hs as [->| ->]; [reflexivity|apply andb_false_r]. }
  unfold repr_str. rewrite E. cbn. repeat split; discriminate.
Qed.

(** Reading an element list whose elements read as they should. *)
Lemma scan_plain : forall v, plain v -> forall f rest, (2 * String.length (py_repr v) <= f)%nat -> stops rest ->
  scan constant (S f) (py_repr v ++ rest) = Some (v, rest).
Proof.
  induction v as [|b|z|x|s|l IH|fl IH] using json_size_ind; intros Hp f rest Hf Hr; inversion Hp as [z' Ez|x' Hx Ex|l' Hl El]; subst.
  - apply scan_number_is_value, scan_number_int, Hr.
  - apply scan_number_is_value, scan_number_float; [apply Hx|apply Hx|exact Hr].
  - cbn [JsonText.py_repr] in *. rewrite !string_app_assoc_fix. rewrite scan_S. cbn [append].
    change (Ascii.eqb "[" dquote) with false. change (Ascii.eqb "[" "{") with false. change (Ascii.eqb "[" "[") with true. cbn iota.
    rewrite !string_length_app in Hf. cbn [String.length] in Hf.
    destruct l as [|v l]; [reflexivity|].
    assert (Sv : starts_value (py_repr v)) by (apply plain_starts; inversion Hl; assumption).
    assert (Ej : exists tl, join ", " (map py_repr (v :: l)) = (py_repr v ++ tl)%string).
    { cbn [map join]. destruct (map py_repr l); [exists ""; rewrite app_nil_eq; reflexivity|eauto]. }
    destruct Ej as (tl & Ej).
    assert (Sk : skip_ws (join ", " (map py_repr (v :: l)) ++ "]" ++ rest) = (join ", " (map py_repr (v :: l)) ++ "]" ++ rest)%string /\
                 eat "]" (join ", " (map py_repr (v :: l)) ++ "]" ++ rest) = None).
    { rewrite Ej, string_app_assoc_fix. apply starts_skip, Sv. }
    change (String "]" rest) with ("]" ++ rest)%string in *. 
    destruct Sk as [Sk1 Sk2]. rewrite Sk1, Sk2. clear Sk1 Sk2 Ej Sv tl.
    assert (G : forall l v f, Forall (fun v => plain v -> forall f rest, (2 * String.length (py_repr v) <= f)%nat -> stops rest ->
                   scan constant (S f) (py_repr v ++ rest) = Some (v, rest)) (v :: l) -> Forall plain (v :: l) ->
              (2 * String.length (join ", " (map py_repr (v :: l))) + 2 <= f)%nat ->
              scan_elems constant f (join ", " (map py_repr (v :: l)) ++ "]" ++ rest) = Some (v :: l, rest)).
    { clear. induction l as [|w l IHl]; intros v f IH Hl Hf.
      - inversion IH as [|? ? IHv _]; subst. inversion Hl as [|? ? Pv _]; subst. destruct f as [|[|f]]; [lia|lia|].
        rewrite scan_elems_S. cbn [map join] in *. rewrite (IHv Pv) by (lia || (cbn; repeat split; discriminate)). reflexivity.
      - inversion IH as [|? ? IHv IHr]; subst. inversion Hl as [|? ? Pv Pr]; subst. destruct f as [|[|f]]; [lia|lia|].
        change (join ", " (map py_repr (v :: w :: l))) with (py_repr v ++ ", " ++ join ", " (map py_repr (w :: l)))%string in *.
        rewrite !string_length_app in Hf. cbn [String.length] in Hf.
        rewrite scan_elems_S. rewrite !string_app_assoc_fix.
        rewrite (IHv Pv) by (lia || (cbn; repeat split; discriminate)). cbn [append skip_ws is_ws].
        change (is_ws ",") with false. cbn iota. change (eat "]" (String "," ?x)) with (@None string).
        cbn [eat Ascii.eqb Bool.eqb]. cbn [skip_ws]. change (is_ws " ") with true. cbn iota.
        assert (Ew : exists tl, join ", " (map py_repr (w :: l)) = (py_repr w ++ tl)%string).
        { cbn [map join]. destruct (map py_repr l); [exists ""; rewrite app_nil_eq; reflexivity|eauto]. }
        destruct Ew as (tl & Ew).
        assert (Sk : skip_ws (join ", " (map py_repr (w :: l)) ++ "]" ++ rest) = (join ", " (map py_repr (w :: l)) ++ "]" ++ rest)%string).
        { rewrite Ew, string_app_assoc_fix. apply starts_skip, plain_starts. inversion Pr; assumption. }
        change (String "]" rest) with ("]" ++ rest)%string. rewrite Sk.
        rewrite (IHl w (S f) IHr Pr) by lia. reflexivity. }
    rewrite (G l v f IH Hl) by lia. reflexivity.
Qed.
Theorem loads_plain v : plain v -> loads constant (py_repr v) = Some v.
Proof.
  intros H. unfold loads. destruct (starts_skip (py_repr v) "" (plain_starts v H)) as [E _]. rewrite app_nil_eq in E. rewrite E.
  pose proof (scan_plain v H (2 * String.length (py_repr v)) "" (le_n _) I) as G. rewrite app_nil_eq in G. rewrite G. reflexivity.
Qed.

(** Texts that [scan] refuses whatever follows. *)
Lemma scan_unreadable : forall v, unreadable v -> forall f rest, stops rest -> scan constant f (py_repr v ++ rest) = None.
Proof.
  induction v as [|b|z|x|s|l IH|fl IH] using json_size_ind; intros Hu f rest Hr; destruct f as [|f]; try reflexivity;
    inversion Hu as [|b' Eb|s' Hs Es|f' Ef|l1 w l2 H1 H2 El]; subst.
  - rewrite scan_S. destruct b; reflexivity.
  - cbn [JsonText.py_repr]. unfold repr_str.
    assert (E : has_char squote s && negb (has_char dquote s) = false).
    { destruct Hs as [->| ->]; [reflexivity|apply andb_false_r]. }
    rewrite E, scan_S. reflexivity.
  - cbn [JsonText.py_repr]. rewrite !string_app_assoc_fix. rewrite scan_S. cbn [append].
    change (Ascii.eqb "[" dquote) with false. change (Ascii.eqb "[" "{") with false. change (Ascii.eqb "[" "[") with true. cbn iota.
    assert (Hw : Forall (fun v => forall f rest, stops rest -> unreadable v -> scan constant f (py_repr v ++ rest) = None) (l1 ++ w :: l2)).
    { eapply Forall_impl; [|exact IH]. cbn. intros a Ha f0 r0 Hr0 Hu0. apply Ha; assumption. }
    assert (Sv : forall a, In a (l1 ++ [w]) -> starts_value (py_repr a)).
    { intros a Ha. apply in_app_or in Ha as [Ha|[<-|[]]]; [|apply unreadable_starts, H2].
      apply plain_starts. rewrite Forall_forall in H1. auto. }
    set (txt := (join ", " (map py_repr (l1 ++ w :: l2)) ++ String "]" rest)%string).
    assert (Sk : skip_ws txt = txt /\ eat "]" txt = None).
    { unfold txt. assert (Ej : exists a tl, In a (l1 ++ [w]) /\ join ", " (map py_repr (l1 ++ w :: l2)) = (py_repr a ++ tl)%string).
      { destruct l1 as [|a l1]; cbn [List.app map join].
        - exists w. destruct (map py_repr l2); [exists ""; rewrite app_nil_eq; cbn; auto|eexists; cbn; split; [auto|reflexivity]].
        - exists a. destruct (map py_repr (l1 ++ w :: l2)); [exists ""; rewrite app_nil_eq; cbn; auto|eexists; cbn; split; [auto|reflexivity]]. }
      destruct Ej as (a & tl & Ha & ->). rewrite string_app_assoc_fix. apply starts_skip, Sv, Ha. }
    destruct Sk as [Sk1 Sk2]. rewrite Sk1, Sk2.
    assert (G : forall l1 f, Forall plain l1 -> (forall a, In a (l1 ++ [w]) -> starts_value (py_repr a)) ->
       scan_elems constant f (join ", " (map py_repr (l1 ++ w :: l2)) ++ String "]" rest) = None).
    { assert (Wn : forall f r, stops r -> scan constant f (py_repr w ++ r) = None).
      { intros f0 r0 Hr0. rewrite Forall_forall in Hw. apply Hw; [apply in_elt|exact Hr0|exact H2]. }
      clear - Wn. induction l1 as [|a l1 IHl]; intros f Hp Sv; destruct f as [|f]; try reflexivity; rewrite scan_elems_S.
      - cbn [List.app map join]. destruct (map py_repr l2) as [|p q].
        + rewrite Wn; [reflexivity|cbn; repeat split; discriminate].
        + rewrite string_app_assoc_fix, Wn; [reflexivity|cbn; repeat split; discriminate].
      - inversion Hp as [|? ? Pa Pr]; subst.
        assert (Ej : join ", " (map py_repr ((a :: l1) ++ w :: l2)) = (py_repr a ++ ", " ++ join ", " (map py_repr (l1 ++ w :: l2)))%string).
        { cbn [List.app map]. destruct (l1 ++ w :: l2) eqn:E; [destruct l1; discriminate|]. reflexivity. }
        rewrite Ej, !string_app_assoc_fix.
        destruct (scan constant f (py_repr a ++ ", " ++ join ", " (map py_repr (l1 ++ w :: l2)) ++ String "]" rest)) as [[v r]|] eqn:Es; [|reflexivity].
        assert (X : (v, r) = (a, (", " ++ join ", " (map py_repr (l1 ++ w :: l2)) ++ String "]" rest)%string)).
        { assert (M : forall f g s x, scan constant f s = Some x -> (f <= g)%nat -> scan constant g s = Some x).
          { clear. assert (M : forall f,
              (forall s x, scan constant f s = Some x -> scan constant (S f) s = Some x) /\
              (forall s x, scan_elems constant f s = Some x -> scan_elems constant (S f) s = Some x) /\
              (forall acc s x, scan_members constant f acc s = Some x -> scan_members constant (S f) acc s = Some x)).
            { induction f as [|f (I1 & I2 & I3)]; [repeat split; discriminate|]. split; [|split].
              - intros s x. rewrite (scan_S constant (S f)), (scan_S constant f). destruct s as [|c s]; [auto|].
                destruct (Ascii.eqb c dquote); [auto|]. destruct (Ascii.eqb c "{").
                { destruct (eat _ _); [auto|]. destruct (scan_members constant f [] _) as [y|] eqn:E; [|discriminate].
                  rewrite (I3 _ _ _ E). auto. }
                destruct (Ascii.eqb c "["); [|auto]. destruct (eat _ _); [auto|].
                destruct (scan_elems constant f _) as [y|] eqn:E; [|discriminate]. rewrite (I2 _ _ E). auto.
              - intros s x. rewrite (scan_elems_S constant (S f)), (scan_elems_S constant f).
                destruct (scan constant f s) as [y|] eqn:E; [|discriminate]. rewrite (I1 _ _ E). destruct y as [v r].
                destruct (eat "]" _); [auto|]. destruct (eat "," _); [|auto].
                destruct (scan_elems constant f _) as [y|] eqn:E2; [|discriminate]. rewrite (I2 _ _ E2). auto.
              - intros acc s x. rewrite (scan_members_S constant (S f)), (scan_members_S constant f).
                destruct (eat dquote s); [|auto]. destruct (scan_string _) as [[k r1]|]; [|auto].
                destruct (eat ":" _); [|auto]. destruct (scan constant f _) as [y|] eqn:E; [|discriminate].
                rewrite (I1 _ _ E). destruct y as [v r]. cbn zeta. destruct (eat "}" _); [auto|]. destruct (eat "," _); [|auto]. apply I3. }
            intros f g s x H L. induction L as [|g L IH]; [exact H|]. apply (proj1 (M g)). exact IH. }
          apply (M _ (f + S (2 * String.length (py_repr a)))%nat) in Es; [|lia].
          replace (f + S (2 * String.length (py_repr a)))%nat with (S (f + 2 * String.length (py_repr a))) in Es by lia.
          rewrite (scan_plain a Pa) in Es; [injection Es as <- <-; reflexivity|lia|cbn; repeat split; discriminate]. }
        injection X as -> ->. cbn [append skip_ws]. change (is_ws ",") with false. cbn iota.
        cbn [eat Ascii.eqb Bool.eqb]. cbn [skip_ws]. change (is_ws " ") with true. cbn iota.
        assert (Sk : skip_ws (join ", " (map py_repr (l1 ++ w :: l2)) ++ String "]" rest) = (join ", " (map py_repr (l1 ++ w :: l2)) ++ String "]" rest)%string).
        { assert (Ea : exists a tl, In a (l1 ++ [w]) /\ join ", " (map py_repr (l1 ++ w :: l2)) = (py_repr a ++ tl)%string).
          { destruct l1 as [|b l1]; cbn [List.app map join].
            - exists w. destruct (map py_repr l2); [exists ""; rewrite app_nil_eq; cbn; auto|eexists; cbn; split; [auto|reflexivity]].
            - exists b. destruct (map py_repr (l1 ++ w :: l2)); [exists ""; rewrite app_nil_eq; cbn; auto|eexists; cbn; split; [auto|reflexivity]]. }
          destruct Ea as (b & tl & Hb & ->). rewrite string_app_assoc_fix. apply starts_skip. apply Sv. right. exact Hb. }
        rewrite Sk. rewrite IHl; [reflexivity|exact Pr|]. intros b Hb. apply Sv. right. exact Hb. }
    unfold txt. rewrite (G l1 f H1 Sv). reflexivity.
  - rewrite scan_S. destruct fl; reflexivity.
Qed.
Theorem loads_unreadable v : unreadable v -> loads constant (py_repr v) = None.
Proof.
  intros H. unfold loads. destruct (starts_skip (py_repr v) "" (unreadable_starts v H)) as [E _]. rewrite app_nil_eq in E. rewrite E.
  pose proof (scan_unreadable v H (S (2 * String.length (py_repr v))) "" I) as G. rewrite app_nil_eq in G. rewrite G. reflexivity.
Qed.
End Read.
