(** * Props_RunFile: configuration handling and result files: C51, C52, C53 *)
From Verif Require Import Base Num Json Logger World Vesicle MeltVisc RelVisc Bubbles Terrain Lava
  Thermal Flux Integrator Factory Run Props_Budget Props_Factory.

(** ** Decimal numerals *)
Section Decimal.
Open Scope Z_scope.
(** The value of a string of digits. *)
Fixpoint decimal_value (acc : Z) (s : string) : Z :=
  match s with
  | EmptyString => acc
  | String c r => decimal_value (10 * acc + (Z.of_nat (nat_of_ascii c) - 48)) r
  end.
Lemma pos_digits_app f : forall n acc, pos_digits f n acc = (pos_digits f n "" ++ acc)%string.
Proof.
  induction f as [|f IH]; intros n acc; cbn [pos_digits]; [reflexivity|].
  destruct (n / 10 =? 0); [reflexivity|]. rewrite (IH _ (String _ acc)), (IH _ (String _ "")).
  rewrite string_app_assoc_fix. reflexivity.
Qed.
Lemma decimal_value_app a : forall s b, decimal_value b (s ++ a) = decimal_value (decimal_value b s) a.
Proof. intros s. induction s as [|c r IH]; intros b; cbn; [reflexivity|]. apply IH. Qed.
Lemma digit_code k : 0 <= k < 10 -> Z.of_nat (nat_of_ascii (digit_char k)) = 48 + k.
Proof.
  intros Hk. unfold digit_char. rewrite nat_ascii_embedding by lia. lia.
Qed.
Lemma pos_digits_value f : forall n, 0 <= n < 2 ^ Z.of_nat f -> decimal_value 0 (pos_digits f n "") = n.
Proof.
  induction f as [|f IH]; intros n Hn.
  - cbn in Hn. cbn. lia.
  - cbn [pos_digits]. pose proof (Z.mod_pos_bound n 10 ltac:(lia)) as Hm.
    pose proof (Z.div_mod n 10 ltac:(lia)) as Hd.
    destruct (n / 10 =? 0) eqn:E.
    + apply Z.eqb_eq in E. cbn [decimal_value]. rewrite digit_code by lia. lia.
    + rewrite pos_digits_app, decimal_value_app, IH.
      * cbn [decimal_value]. rewrite digit_code by lia. lia.
      * rewrite Nat2Z.inj_succ, Z.pow_succ_r in Hn by lia.
        split; [apply Z.div_pos; lia|]. apply Z.div_lt_upper_bound; lia.
Qed.
Lemma log2_fuel n : 0 <= n -> n < 2 ^ Z.of_nat (S (Z.to_nat (Z.log2 n))).
Proof.
  intros Hn. rewrite Nat2Z.inj_succ, Z2Nat.id by apply Z.log2_nonneg.
  destruct (Z.eq_dec n 0) as [->|Hz]; [cbn; lia|]. apply Z.log2_spec. lia.
Qed.

(** Which characters a numeral uses. *)
Fixpoint all_chars (p : ascii -> Prop) (s : string) : Prop :=
  match s with EmptyString => True | String c r => p c /\ all_chars p r end.
Lemma all_chars_app p a b : all_chars p (a ++ b) <-> all_chars p a /\ all_chars p b.
Proof. induction a as [|c r IH]; cbn; [tauto|]. rewrite IH. tauto. Qed.
Definition is_digit (c : ascii) : Prop := (48 <= nat_of_ascii c <= 57)%nat.
Lemma pos_digits_chars f : forall n, 0 <= n -> all_chars is_digit (pos_digits f n "").
Proof.
  induction f as [|f IH]; intros n Hn; cbn [pos_digits]; [exact I|].
  pose proof (Z.mod_pos_bound n 10 ltac:(lia)) as Hm.
  assert (D : is_digit (digit_char (n mod 10))).
  { unfold is_digit. pose proof (digit_code (n mod 10) Hm). lia. }
  destruct (n / 10 =? 0); [cbn; auto|]. rewrite pos_digits_app. apply all_chars_app. split; [|cbn; auto].
  apply IH. apply Z.div_pos; lia.
Qed.
Lemma pos_digits_nonempty f n : pos_digits (S f) n "" <> ""%string.
Proof.
  cbn [pos_digits]. destruct (n / 10 =? 0); [discriminate|]. rewrite pos_digits_app.
  destruct (pos_digits f (n / 10) ""); discriminate.
Qed.
Lemma String_tail c a b : String c a = String c b -> a = b.
Proof. congruence. Qed.
Lemma Z_to_string_inj a b : Z_to_string a = Z_to_string b -> a = b.
Proof.
  unfold Z_to_string. intros H.
  destruct (Z.ltb_spec a 0) as [Ea|Ea], (Z.ltb_spec b 0) as [Eb|Eb].
  - apply String_tail in H. apply (f_equal (decimal_value 0)) in H.
    rewrite !pos_digits_value in H by (split; [lia|apply log2_fuel; lia]). lia.
  - exfalso. pose proof (pos_digits_chars (S (Z.to_nat (Z.log2 b))) b Eb) as C. rewrite <- H in C.
    destruct C as [C _]. unfold is_digit in C. cbn in C. lia.
  - exfalso. pose proof (pos_digits_chars (S (Z.to_nat (Z.log2 a))) a Ea) as C. rewrite H in C.
    destruct C as [C _]. unfold is_digit in C. cbn in C. lia.
  - apply (f_equal (decimal_value 0)) in H.
    rewrite !pos_digits_value in H by (split; [lia|apply log2_fuel; lia]). lia.
Qed.
Lemma Z_to_string_no_underscore a : all_chars (fun c => c <> "_"%char) (Z_to_string a).
Proof.
  assert (W : forall s, all_chars is_digit s -> all_chars (fun c => c <> "_"%char) s).
  { induction s as [|c r IH]; cbn; [auto|]. intros [H1 H2]. split; [|auto]. intros ->. unfold is_digit in H1. cbn in H1. lia. }
  unfold Z_to_string. destruct (Z.ltb_spec a 0) as [Ea|Ea].
  - cbn [all_chars]. split; [discriminate|]. apply W, pos_digits_chars. lia.
  - apply W, pos_digits_chars. lia.
Qed.
End Decimal.

(** ** Splitting at the last underscore *)
Definition no_underscore (s : string) : Prop := all_chars (fun c => c <> "_"%char) s.
Lemma last_underscore a : forall b x y, no_underscore x -> no_underscore y ->
  (a ++ String "_" x = b ++ String "_" y)%string -> a = b /\ x = y.
Proof.
  induction a as [|c a IH]; intros [|d b] x y Hx Hy E; cbn in E.
  - injection E as E. auto.
  - injection E as <- E. exfalso. rewrite E in Hx. apply all_chars_app in Hx as [_ Hx]. cbn in Hx. now elim (proj1 Hx).
  - injection E as -> E. exfalso. rewrite <- E in Hy. apply all_chars_app in Hy as [_ Hy]. cbn in Hy. now elim (proj1 Hy).
  - injection E as -> E. destruct (IH _ _ _ Hx Hy E) as [-> ->]. auto.
Qed.

Section RunFile.
Context {T : Type} {N : Num T}.
Context (sf : T -> string) (sc : json T -> string).

(** ** C51 *)
(** The keys [run] requires at the top level, in the order in which it checks
    them, and the exception for the first one missing. *)
Definition first_missing (f : list (string * json T)) : option exn :=
  if assoc "effusion_rate_init" f then
    if assoc "lava_name" f then
      if assoc "slope_file" f then
        if assoc "step_size" f then None else Some (ValueError "step_size")
      else Some (ValueError "slope_file")
    else Some (ValueError "lava_name")
  else Some (KeyError "effusion_rate_init").

Theorem C51_missing_keys_reported : forall fuel fs log json_file folder f e,
  fs json_file = Some (FJson (JObj f)) -> first_missing f = Some e ->
  run sf sc fuel fs log json_file folder = Some (Err e, fs, log).
Proof.
  intros fuel fs log jf folder f e Hf He. unfold run, prepare, load_json. rewrite Hf. cbn [rbind].
  unfold first_missing in He. unfold jget at 1.
  destruct (assoc "effusion_rate_init" f); [|injection He as <-; reflexivity]. cbn [rbind].
  unfold require1 at 1, jmem at 1, jget at 1. cbn [rbind].
  destruct (assoc "lava_name" f); [|injection He as <-; reflexivity]. cbn [rbind].
  unfold require1 at 1, jmem at 1, jget at 1. cbn [rbind].
  destruct (assoc "slope_file" f); [|injection He as <-; reflexivity]. cbn [rbind].
  unfold require1 at 1, jmem at 1, jget at 1. cbn [rbind].
  destruct (assoc "step_size" f); [discriminate|]. injection He as <-; reflexivity.
Qed.

(** A run that gets as far as logging a row or writing a file had a
    configuration with all four keys, a documented value for each of the
    fourteen selectors and a slope file; equivalently, with any of these
    missing the run fails and neither the table nor any file has changed. *)
Theorem C51_nothing_happens_before_the_configuration_is_accepted :
  forall fuel fs log json_file folder r fs' log',
  run sf sc fuel fs log json_file folder = Some (r, fs', log') ->
  (exists e, r = Err e /\ fs' = fs /\ log' = log) \/
  (exists f path lines, fs json_file = Some (FJson (JObj f)) /\ first_missing f = None /\
     (forall section key,
        (section = "models" /\ In key model_keys) \/ (section = "heat_budget_models" /\ In key budget_keys) ->
        exists s, says (JObj f) section key s /\ In s (documented key)) /\
     (assoc "slope_file" f = Some (JStr path) \/
      assoc "slope_file" f = Some JNull /\ path = "../MaunaUlu74/DEM_maunaulu74.txt") /\
     fs path = Some (FText lines)).
Proof.
  intros fuel fs log jf folder r fs' log' H. unfold run in H.
  destruct (prepare mass_flag fs jf) as [[[[[eri name] sm] st] depth]|e] eqn:E.
  2:{ injection H as <- <- <-. left; eauto. }
  right. clear H. unfold prepare in E.
  apply rbind_ok in E as (d & Hd & E). unfold load_json in Hd.
  destruct (fs jf) as [[j| | |]|] eqn:Ej; try discriminate Hd. injection Hd as ->.
  apply rbind_ok in E as (eri' & H1 & E). apply rbind_ok in E as (name' & H2 & E).
  apply rbind_ok in E as (sl & H3 & E). apply rbind_ok in E as (stp & H4 & E).
  apply rbind_ok in E as (dx & _ & E). apply rbind_ok in E as (raw & _ & E).
  apply rbind_ok in E as ([[ter0 dep] smooth] & _ & E). apply rbind_ok in E as (lines & H5 & E).
  apply rbind_ok in E as (ter & _ & E). apply rbind_ok in E as (m & Hm & _).
  unfold jget in H1. destruct d as [| | | | | |f]; try discriminate H1.
  assert (R : forall key v, require1 (JObj f) key = Ok v -> assoc key f = Some v).
  { intros key v Hr. unfold require1, jmem, jget in Hr. cbn [rbind] in Hr.
    destruct (assoc key f); [|discriminate Hr]. congruence. }
  apply R in H2, H3, H4. unfold read_slope_lines in H5. apply rbind_ok in H5 as (path & Hp & H5).
  destruct (fs path) as [[|ln| |]|] eqn:Ep; try discriminate H5. injection H5 as ->.
  exists f, path, lines. split; [reflexivity|]. split.
  { unfold first_missing. destruct (assoc "effusion_rate_init" f); [|discriminate H1]. now rewrite H2, H3, H4. }
  split; [|split; [|exact Ep]].
  - intros section key Hk. eapply C49_other_names_refused; [exact Hk|exact Hm].
  - rewrite H3. destruct sl; try discriminate Hp; injection Hp as <-; auto.
Qed.

(** Any failing run leaves every file unchanged, unless it failed while
    exporting the table (which completed runs never do, C06). *)
Theorem C51_failed_runs_write_nothing : forall fuel fs log json_file folder e fs' log',
  run sf sc fuel fs log json_file folder = Some (Err e, fs', log') ->
  fs' = fs \/ e = ValueError "dict contains fields not in fieldnames".
Proof.
  intros fuel fs log jf folder e fs' log' H. unfold run in H.
  destruct (prepare mass_flag fs jf) as [[[[[eri name] sm] st] depth]|e0] eqn:E;
    [|injection H as <- <- <-; auto].
  destruct (simulate fuel sm (initial_world st log depth)) as [[[[]|e1] w]|]; [| |discriminate H].
  2:{ injection H as <- <- <-; auto. }
  unfold write_table in H. destruct (w_log w) as [|first rest] eqn:El; [injection H; discriminate|].
  destruct (write_values_to_file (first :: rest)) as [o|e2] eqn:Ew; [injection H; discriminate|].
  injection H as <- <- <-. right. cbn [write_values_to_file] in Ew.
  remember (first :: rest) as t eqn:Et. clear Et.
  assert (G : forall (t : table T) e, rmapM (csv_of_row (map fst first)) t = Err e ->
     e = ValueError "dict contains fields not in fieldnames").
  { clear. induction t as [|r t IH]; intros e H; cbn in H; [discriminate|].
    unfold csv_of_row in H at 1. destruct (has_extra (map fst first) r); cbn in H; [now injection H as <-|].
    destruct (rmapM (csv_of_row (map fst first)) t) eqn:E; cbn in H; [discriminate|]. injection H as <-. eauto. }
  destruct (rmapM (csv_of_row (map fst first)) t) eqn:Er; cbn in Ew; [discriminate|]. injection Ew as <-. eauto.
Qed.

(** ** C52 *)
(** "true" in any letter case, surrounded by any white space. *)
Definition reads_true (s : string) : Prop :=
  exists a c1 c2 c3 c4 b, s = (a ++ String c1 (String c2 (String c3 (String c4 b))))%string /\
    all_chars (fun c => is_space c = true) a /\ all_chars (fun c => is_space c = true) b /\
    (c1 = "t" \/ c1 = "T")%char /\ (c2 = "r" \/ c2 = "R")%char /\ (c3 = "u" \/ c3 = "U")%char /\
    (c4 = "e" \/ c4 = "E")%char.

Lemma lower_is c d : lower_ascii c = d -> (97 <= nat_of_ascii d <= 122)%nat ->
  c = d \/ c = ascii_of_nat (nat_of_ascii d - 32).
Proof.
  intros <- H. unfold lower_ascii in *. destruct ((65 <=? nat_of_ascii c)%nat && (nat_of_ascii c <=? 90)%nat) eqn:E; [|auto].
  right. apply andb_prop in E as [E1 E2]. apply Nat.leb_le in E1, E2.
  rewrite nat_ascii_embedding by lia. replace (nat_of_ascii c + 32 - 32)%nat with (nat_of_ascii c) by lia.
  now rewrite ascii_nat_embedding.
Qed.
Lemma lstrip_split s : exists a, s = (a ++ lstrip s)%string /\ all_chars (fun c => is_space c = true) a.
Proof.
  induction s as [|c r IH]; cbn; [exists ""; cbn; auto|].
  destruct (is_space c) eqn:E; [|exists ""; cbn; auto].
  destruct IH as (a & E2 & H). exists (String c a). cbn. split; [|auto]. f_equal. exact E2.
Qed.
Lemma rstrip_split s : exists b, s = (rstrip s ++ b)%string /\ all_chars (fun c => is_space c = true) b.
Proof.
  induction s as [|c r IH]; cbn; [exists ""; cbn; auto|].
  destruct IH as (b & E & H). destruct (rstrip r) as [|d r'].
  - destruct (is_space c) eqn:Ec; [exists (String c b); cbn in *; subst; auto|].
    exists b. cbn in *. subst. auto.
  - exists b. cbn in *. now rewrite E at 1.
Qed.
Lemma lstrip_spaces a s : all_chars (fun c => is_space c = true) a -> lstrip (a ++ s) = lstrip s.
Proof. induction a as [|c a IH]; cbn; intros H; [reflexivity|]. destruct H as [-> H]. auto. Qed.
Lemma rstrip_spaces b : all_chars (fun c => is_space c = true) b -> rstrip b = "".
Proof. induction b as [|c b IH]; cbn; intros H; [reflexivity|]. destruct H as [-> H]. now rewrite IH. Qed.

Lemma reads_true_spec s : String.eqb (lower (strip s)) "true" = true <-> reads_true s.
Proof.
  rewrite String.eqb_eq. split.
  - intros H. unfold strip in H. destruct (lstrip_split s) as (a & Ea & Ha).
    destruct (rstrip_split (lstrip s)) as (b & Eb & Hb).
    destruct (rstrip (lstrip s)) as [|c1 [|c2 [|c3 [|c4 [|c5 q]]]]]; cbn [lower] in H; try discriminate H.
    injection H as H1 H2 H3 H4. exists a, c1, c2, c3, c4, b. rewrite Ea, Eb at 1. cbn [append].
    split; [reflexivity|]. split; [exact Ha|]. split; [exact Hb|].
    apply lower_is in H1; [|cbn; lia]. apply lower_is in H2; [|cbn; lia]. apply lower_is in H3; [|cbn; lia].
    apply lower_is in H4; [|cbn; lia]. cbn in H1, H2, H3, H4. auto.
  - intros (a & c1 & c2 & c3 & c4 & b & -> & Ha & Hb & H1 & H2 & H3 & H4).
    unfold strip. rewrite lstrip_spaces by exact Ha.
    destruct H1 as [-> | ->], H2 as [-> | ->], H3 as [-> | ->], H4 as [-> | ->];
      (match goal with |- lower (rstrip (lstrip ?x)) = _ => change (lstrip x) with x end);
      cbn [rstrip]; rewrite (rstrip_spaces b Hb); reflexivity.
Qed.

(** What a mass_conservation entry means to [run]: Python truth, except that
    strings are read as text. *)
Definition asks_for_mass (v : option (json T)) : Prop :=
  match v with
  | None => False
  | Some (JBool b) => b = true
  | Some (JStr s) => reads_true s
  | Some JNull => False
  | Some (JInt z) => z <> 0%Z
  | Some (JFloat x) => n_eqb x zero = false
  | Some (JArr l) => l <> []
  | Some (JObj f) => f <> []
  end.
(** ... and to main_flowgo.py: only what Python considers equal to True. *)
Definition main_asks_for_mass (v : option (json T)) : Prop :=
  match v with
  | Some (JBool b) => b = true
  | Some (JInt z) => z = 1%Z
  | Some (JFloat x) => n_eqb x one = true
  | _ => False
  end.

Lemma prepare_mass flag fs jf eri name (sm : sim T) st depth :
  prepare flag fs jf = Ok (eri, name, sm, st, depth) ->
  exists f tc, fs jf = Some (FJson (JObj f)) /\ assoc "terrain_conditions" f = Some (JObj tc) /\
    s_mass sm = flag (match assoc "mass_conservation" tc with Some v => v | None => JBool false end).
Proof.
  intros E. unfold prepare in E.
  apply rbind_ok in E as (d & Hd & E). unfold load_json in Hd.
  destruct (fs jf) as [[j| | |]|] eqn:Ej; try discriminate Hd. injection Hd as ->.
  apply rbind_ok in E as (eri' & H1 & E). do 4 apply rbind_ok in E as (? & _ & E).
  apply rbind_ok in E as (raw & Hraw & E).
  apply rbind_ok in E as ([[ter0 dep] smooth] & _ & E). apply rbind_ok in E as (lines & _ & E).
  apply rbind_ok in E as (ter & _ & E). apply rbind_ok in E as (m & _ & E).
  apply rbind_ok in E as (st' & _ & E). injection E as _ _ <- _ _. cbn [s_mass].
  unfold jget in H1. destruct d as [| | | | | |f]; try discriminate H1.
  unfold mass_raw in Hraw. apply rbind_ok in Hraw as (tc & Htc & Hraw). unfold jget in Htc.
  destruct (assoc "terrain_conditions" f) as [tc'|] eqn:Et; [|discriminate Htc]. injection Htc as ->.
  destruct tc as [| | | | | |g]; try discriminate Hraw. injection Hraw as <-.
  exists f, g. auto.
Qed.

Theorem C52_run_mode : forall fs json_file eri name (sm : sim T) st depth f tc,
  prepare mass_flag fs json_file = Ok (eri, name, sm, st, depth) ->
  fs json_file = Some (FJson (JObj f)) -> assoc "terrain_conditions" f = Some (JObj tc) ->
  (s_mass sm = true <-> asks_for_mass (assoc "mass_conservation" tc)).
Proof.
  intros fs jf eri name sm st depth f tc H Hf Ht.
  destruct (prepare_mass _ _ _ _ _ _ _ _ H) as (f' & tc' & Hf' & Ht' & ->).
  rewrite Hf in Hf'. injection Hf' as <-. rewrite Ht in Ht'. injection Ht' as <-.
  destruct (assoc "mass_conservation" tc) as [[|b|z|x|s|l|g]|]; cbn.
  - split; [discriminate|tauto].
  - tauto.
  - rewrite negb_true_iff, Z.eqb_neq. tauto.
  - rewrite negb_true_iff. tauto.
  - apply reads_true_spec.
  - rewrite negb_true_iff, Nat.eqb_neq. destruct l; cbn; split; congruence.
  - rewrite negb_true_iff, Nat.eqb_neq. destruct g; cbn; split; congruence.
  - split; [discriminate|tauto].
Qed.
Theorem C52_main_flowgo_mode : forall fs json_file eri name (sm : sim T) st depth f tc,
  prepare main_mass_flag fs json_file = Ok (eri, name, sm, st, depth) ->
  fs json_file = Some (FJson (JObj f)) -> assoc "terrain_conditions" f = Some (JObj tc) ->
  (s_mass sm = true <-> main_asks_for_mass (assoc "mass_conservation" tc)).
Proof.
  intros fs jf eri name sm st depth f tc H Hf Ht.
  destruct (prepare_mass _ _ _ _ _ _ _ _ H) as (f' & tc' & Hf' & Ht' & ->).
  rewrite Hf in Hf'. injection Hf' as <-. rewrite Ht in Ht'. injection Ht' as <-.
  destruct (assoc "mass_conservation" tc) as [[|b|z|x|s|l|g]|]; cbn; try tauto; try (split; [discriminate|tauto]).
  apply Z.eqb_eq.
Qed.
(** Hence the two entry points disagree on every string that reads "true". *)
Corollary C52_entry_points_disagree : forall s, reads_true s ->
  asks_for_mass (Some (JStr s)) /\ ~ main_asks_for_mass (Some (JStr s)).
Proof. intros s H. split; [exact H|exact id]. Qed.
Example reads_true_example : reads_true " TRUE ".
Proof. exists " ", "T"%char, "R"%char, "U"%char, "E"%char, " ". cbn. auto 10. Qed.
Example reads_true_not_yes : ~ reads_true "yes".
Proof. rewrite <- reads_true_spec. discriminate. Qed.

(** ** C53 *)
Theorem C53_written_where_announced : forall fuel fs log json_file folder fs' log',
  run sf sc fuel fs log json_file folder = Some (Ok tt, fs', log') ->
  exists path, get_file_name_results sf sc fs folder json_file = Ok path /\
  (forall q, q <> path -> fs' q = fs q) /\
  (log' = [] -> fs' path = fs path) /\
  (log' <> [] -> exists c, fs' path = Some (FCsv c) /\ write_values_to_file log' = Ok (Some c)).
Proof.
  intros fuel fs log jf folder fs' log' H. unfold run in H.
  destruct (prepare mass_flag fs jf) as [[[[[eri name] sm] st] depth]|e0] eqn:E; [|discriminate H].
  exists (result_path sf sc folder name eri).
  assert (Hp : get_file_name_results sf sc fs folder jf = Ok (result_path sf sc folder name eri)).
  { unfold prepare in E. unfold get_file_name_results.
    apply rbind_ok in E as (d & Hd & E). rewrite Hd. cbn [rbind].
    apply rbind_ok in E as (a & H1 & E). rewrite H1. cbn [rbind].
    apply rbind_ok in E as (b & H2 & E). rewrite H2. cbn [rbind].
    do 4 apply rbind_ok in E as (? & _ & E). apply rbind_ok in E as ([[? ?] ?] & _ & E).
    do 4 apply rbind_ok in E as (? & _ & E). injection E as <- <- _ _ _. reflexivity. }
  split; [exact Hp|]. clear Hp. set (path := result_path sf sc folder name eri) in *.
  destruct (simulate fuel sm (initial_world st log depth)) as [[[[]|e1] w]|]; [|discriminate H|discriminate H].
  unfold write_table in H. destruct (w_log w) as [|first rest] eqn:El.
  { injection H as <- <-. repeat split; auto. congruence. }
  destruct (write_values_to_file (first :: rest)) as [o|e2] eqn:Ew; [|discriminate H].
  injection H as <- <-.
  assert (G : forall (t : table T) rows, rmapM (csv_of_row (map fst first)) t = Ok rows -> rows = csv_rows_until (map fst first) t).
  { clear. induction t as [|r t IH]; intros rows Er; cbn in *; [congruence|].
    destruct (csv_of_row (map fst first) r); [|discriminate]. cbn in Er.
    destruct (rmapM (csv_of_row (map fst first)) t); [|discriminate]. cbn in Er. injection Er as <-. f_equal. auto. }
  unfold fs_write. repeat split.
  - intros q Hq. apply String.eqb_neq in Hq. now rewrite Hq.
  - discriminate.
  - intros _. rewrite String.eqb_refl. eexists. split; [reflexivity|].
    unfold write_values_to_file in Ew |- *.
    destruct (rmapM (csv_of_row (map fst first)) (first :: rest)) as [rows|] eqn:Er; [|discriminate Ew]. cbn [rbind].
    apply G in Er. now rewrite Er.
Qed.

Lemma path_join_inj folder a b : (forall c r, a = String c r -> c <> "/"%char) -> (forall c r, b = String c r -> c <> "/"%char) ->
  path_join folder a = path_join folder b -> a = b.
Proof.
  intros Ha Hb. unfold path_join.
  assert (K : forall (s : string) X Y, (forall c r, s = String c r -> c <> "/"%char) ->
     match s with String "/" _ => X | _ => Y end = Y :> string).
  { intros [|c r] X Y Hs; [reflexivity|]. pose proof (Hs c r eq_refl) as Hc.
    destruct c as [[] [] [] [] [] [] [] []]; try reflexivity. now elim Hc. }
  rewrite !K by assumption. destruct (last_char folder) as [c|]; [|auto].
  assert (K2 : forall X Y : string, (match c with "/"%char => (folder ++ X)%string | _ => (folder ++ "/" ++ X)%string end
       = match c with "/"%char => (folder ++ Y)%string | _ => (folder ++ "/" ++ Y)%string end) -> X = Y).
  { intros X Y. destruct c as [[] [] [] [] [] [] [] []]; intros E; apply string_app_inj_l in E; try exact E;
      apply (string_app_inj_l "/") in E; exact E. }
  apply K2.
Qed.

(** Two configurations share a result file (in one folder) only if lava_name
    and effusion_rate_init print the same, provided effusion rates print
    without underscore (true of every number). *)
Theorem C53_paths_identify_runs : forall folder n1 n2 (e1 e2 : json T),
  no_underscore (py_str sf sc e1) -> no_underscore (py_str sf sc e2) ->
  result_path sf sc folder n1 e1 = result_path sf sc folder n2 e2 ->
  py_str sf sc n1 = py_str sf sc n2 /\ py_str sf sc e1 = py_str sf sc e2.
Proof.
  intros folder n1 n2 e1 e2 H1 H2 H. unfold result_path in H. apply path_join_inj in H.
  2,3: intros c r E; injection E as <- _; discriminate.
  apply (string_app_inj_l "results_flowgo_") in H.
  assert (S : forall a b : string, no_underscore a -> (b = "m3s.csv")%string -> no_underscore (a ++ b)).
  { intros a b Ha ->. apply all_chars_app. split; [exact Ha|]. cbn. repeat split; discriminate. }
  apply (last_underscore (py_str sf sc n1) (py_str sf sc n2)) in H; [|now apply S..].
  destruct H as [-> H]. split; [reflexivity|]. now apply string_app_inj_r in H.
Qed.
Corollary C53_different_integer_rates : forall folder name1 name2 z1 z2,
  result_path sf sc folder (JStr name1) (JInt z1) = result_path sf sc folder (JStr name2) (JInt z2) ->
  name1 = name2 /\ z1 = z2.
Proof.
  intros folder n1 n2 z1 z2 H. apply C53_paths_identify_runs in H as [H1 H2].
  - cbn in H1, H2. split; [exact H1|now apply Z_to_string_inj].
  - apply Z_to_string_no_underscore.
  - apply Z_to_string_no_underscore.
Qed.
Corollary C53_different_float_rates : forall folder name1 name2 x1 x2,
  (forall x y, sf x = sf y -> x = y) -> (forall x, no_underscore (sf x)) ->
  result_path sf sc folder (JStr name1) (JFloat x1) = result_path sf sc folder (JStr name2) (JFloat x2) ->
  name1 = name2 /\ x1 = x2.
Proof.
  intros folder n1 n2 x1 x2 Hi Hu H. apply C53_paths_identify_runs in H as [H1 H2]; [|apply Hu..].
  cbn in H1, H2. auto.
Qed.
(** Without the underscore condition two different configurations do share a
    file: effusion rates may be JSON strings. *)
Example C53_string_rates_collide : forall folder,
  result_path sf sc folder (JStr "etna_1") (JStr "2") = result_path sf sc folder (JStr "etna") (JStr "1_2").
Proof. reflexivity. Qed.
Example C53_example_path :
  result_path sf sc "out" (JStr "etna") (JInt (-12)) = "out/results_flowgo_etna_-12m3s.csv".
Proof. reflexivity. Qed.
End RunFile.
