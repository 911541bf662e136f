(** * Props_Files: the files of main_flowgo.py, how names print, and what a refused export leaves behind (C53, C04) *)
From Verif Require Import Base Num Json Logger World Vesicle MeltVisc RelVisc Bubbles Terrain Lava
  Thermal Flux Integrator Factory Run Props_Budget Props_Factory Props_RunFile.

Section Files.
Context {T : Type} {N : Num T}.
Context (sf : T -> string) (sc : json T -> string).

(** ** C53: how the name of a result file is spelled *)
Theorem C53_names_spelled : forall name z,
  result_path sf sc "out" (JStr name) (JInt z) = ("out/results_flowgo_" ++ name ++ "_" ++ Z_to_string z ++ "m3s.csv")%string /\
  main_result_path sf sc (JStr name) (JInt z) = ("./results_flowgo/results_main_flowgo_" ++ name ++ "_" ++ Z_to_string z ++ "m3s.csv")%string /\
  (forall e, result_path sf sc "out" (JBool true) e = result_path sf sc "out" (JStr "True") e /\
             result_path sf sc "out" (JBool false) e = result_path sf sc "out" (JStr "False") e /\
             result_path sf sc "out" JNull e = result_path sf sc "out" (JStr "None") e) /\
  (forall n, result_path sf sc "out" n (JBool true) = result_path sf sc "out" n (JStr "True") /\
             result_path sf sc "out" n (JBool false) = result_path sf sc "out" n (JStr "False") /\
             result_path sf sc "out" n JNull = result_path sf sc "out" n (JStr "None")) /\
  (forall x, result_path sf sc "out" (JStr name) (JFloat x) = ("out/results_flowgo_" ++ name ++ "_" ++ sf x ++ "m3s.csv")%string).
Proof. intros name z. repeat split. Qed.

Lemma required_entry (d : json T) k v : require1 d k = Ok v -> jget d k = Ok v.
Proof.
  unfold require1. destruct (jmem d k) as [b|e]; cbn [rbind]; [|discriminate]. destruct b; [auto|discriminate].
Qed.
(** main_flowgo.py: one file, in ./results_flowgo, named after the configuration's
    "lava_name" and "effusion_rate_init"; nothing when nothing was logged. *)
Theorem C53_main_flowgo_file : forall fuel (fs : fsys T) json_file fs' log',
  main_flowgo sf sc fuel fs json_file = Some (Ok tt, fs', log') ->
  exists d eri name, fs json_file = Some (FJson d) /\ jget d "effusion_rate_init" = Ok eri /\ jget d "lava_name" = Ok name /\
  let path := ("./results_flowgo/results_main_flowgo_" ++ py_str sf sc name ++ "_" ++ py_str sf sc eri ++ "m3s.csv")%string in
  (forall q, q <> path -> fs' q = fs q) /\
  (log' = [] -> fs' path = fs path) /\
  (log' <> [] -> exists c, fs' path = Some (FCsv c) /\ write_values_to_file log' = Ok (Some c)).
Proof.
  intros fuel fs jf fs' log' H. unfold main_flowgo in H.
  destruct (prepare main_mass_flag fs jf) as [[[[[eri name] sm] st] depth]|e0] eqn:E; [|discriminate H].
  assert (Hp : exists d, fs jf = Some (FJson d) /\ jget d "effusion_rate_init" = Ok eri /\ jget d "lava_name" = Ok name).
  { unfold prepare in E. apply rbind_ok in E as (d & Hd & E). apply rbind_ok in E as (a & H1 & E). apply rbind_ok in E as (b & H2 & E).
    do 4 apply rbind_ok in E as (? & _ & E). apply rbind_ok in E as ([[? ?] ?] & _ & E).
    do 4 apply rbind_ok in E as (? & _ & E). injection E as <- <- _ _ _. exists d.
    split; [|split; [exact H1|]].
    - unfold load_json in Hd. destruct (fs jf) as [[ | | |]|]; try discriminate. now injection Hd as ->.
    - now apply required_entry. }
  destruct Hp as (d & Hd & He & Hn). exists d, eri, name. repeat (split; [assumption|]).
  intros path. assert (Ep : main_result_path sf sc name eri = path) by reflexivity. rewrite Ep in H. clearbody path.
  destruct (simulate fuel sm (initial_world st [] depth)) as [[[[]|e1] w]|]; [|discriminate H|discriminate H].
  unfold write_table in H. destruct (w_log w) as [|first rest] eqn:El.
  { injection H as <- <-. repeat split; auto. congruence. }
  destruct (write_values_to_file (first :: rest)) as [o|e2] eqn:Ew; [|discriminate H].
  injection H as <- <-.
  assert (G : forall (t : table T) rows, rmapM (csv_of_row (map fst first)) t = Ok rows -> rows = csv_rows_until (map fst first) t).
  { clear. induction t as [|r t IH]; intros rows Er; cbn in *; [congruence|].
    destruct (csv_of_row (map fst first) r); [|discriminate]. cbn in Er.
    destruct (rmapM (csv_of_row (map fst first)) t); [|discriminate]. cbn in Er. injection Er as <-. f_equal. auto. }
  unfold fs_write. repeat split.
  - intros q Hq. apply String.eqb_neq in Hq. now rewrite Hq.
  - discriminate.
  - intros _. rewrite String.eqb_refl. eexists. split; [reflexivity|].
    unfold write_values_to_file in Ew |- *.
    destruct (rmapM (csv_of_row (map fst first)) (first :: rest)) as [rows|] eqn:Er; [|discriminate Ew]. cbn [rbind].
    apply G in Er. now rewrite Er.
Qed.

(** ** C04: a refused export
    The rows before the first row with an unknown column are in the file, that row
    and everything after it is not, and no other file changed. *)
Theorem C04_refused_export_leaves_first_rows : forall (first : row T) before bad after path (fs : fsys T),
  let known k := In k (map fst first) in
  (forall r k v, In r (first :: before) -> In (k, v) r -> known k) ->
  (exists k v, In (k, v) bad /\ ~ known k) ->
  exists fs', write_table path (first :: before ++ bad :: after) fs = (Err (ValueError "dict contains fields not in fieldnames"), fs') /\
  (forall q, q <> path -> fs' q = fs q) /\
  fs' path = Some (FCsv {| csv_header := map fst first; csv_rows := map (fun r => map (fun col => assoc col r) (map fst first)) (first :: before) |}).
Proof.
  intros first before bad after path fs known Hok (k & v & Hin & Hk).
  assert (In_strings : forall x l, in_strings x l = true <-> In x l).
  { intros x l. unfold in_strings. rewrite existsb_exists. split.
    - intros (y & Hy & E). apply String.eqb_eq in E. now subst.
    - intros Hx. exists x. split; [exact Hx|apply String.eqb_refl]. }
  assert (Bad : csv_of_row (map fst first) bad = Err (ValueError "dict contains fields not in fieldnames")).
  { unfold csv_of_row. replace (has_extra (map fst first) bad) with true; [reflexivity|]. symmetry.
    unfold has_extra. apply existsb_exists. exists (k, v). split; [exact Hin|]. cbn [fst].
    destruct (in_strings k (map fst first)) eqn:E; [|reflexivity]. apply In_strings in E. now elim Hk. }
  assert (Good : forall r, In r (first :: before) -> csv_of_row (map fst first) r = Ok (map (fun col => assoc col r) (map fst first))).
  { intros r Hr. unfold csv_of_row. replace (has_extra (map fst first) r) with false; [reflexivity|]. symmetry.
    unfold has_extra. destruct (existsb _ r) eqn:E; [|reflexivity]. apply existsb_exists in E as ([k' v'] & Hi & E). cbn [fst] in E.
    assert (K := Hok r k' v' Hr Hi). apply In_strings in K. rewrite K in E. discriminate. }
  assert (Gen : forall l, (forall r, In r l -> csv_of_row (map fst first) r = Ok (map (fun col => assoc col r) (map fst first))) ->
    rmapM (csv_of_row (map fst first)) (l ++ bad :: after) = Err (ValueError "dict contains fields not in fieldnames") /\
    csv_rows_until (map fst first) (l ++ bad :: after) = map (fun r => map (fun col => assoc col r) (map fst first)) l).
  { induction l as [|r l IH]; intros Hl; cbn [app rmapM csv_rows_until map].
    - rewrite Bad. split; reflexivity.
    - rewrite (Hl r (or_introl eq_refl)). destruct IH as [I1 I2]; [intros; apply Hl; now right|].
      cbn [rbind]. rewrite I1, I2. split; reflexivity. }
  destruct (Gen (first :: before) Good) as [G1 G2]. cbn [app] in G1, G2.
  eexists. split; [|split].
  - unfold write_table, write_values_to_file. rewrite G1. cbn [rbind]. reflexivity.
  - intros q Hq. unfold fs_write. apply String.eqb_neq in Hq. now rewrite Hq.
  - unfold fs_write. rewrite String.eqb_refl, G2. reflexivity.
Qed.
Example refused_export : forall (x y : T) path, exists fs',
  write_table path [[("position", CNum x); ("slope", CNum y)]; [("position", CNum y)]; [("width", CNum x)]; [("position", CNum x)]] (fun _ => None) =
    (Err (ValueError "dict contains fields not in fieldnames"), fs') /\
  fs' path = Some (FCsv {| csv_header := ["position"; "slope"]; csv_rows := [[Some (CNum x); Some (CNum y)]; [Some (CNum y); None]] |}).
Proof.
  intros x y path.
  destruct (C04_refused_export_leaves_first_rows [("position", CNum x); ("slope", CNum y)] [[("position", CNum y)]]
    [("width", CNum x)] [[("position", CNum x)]] path (fun _ => None)) as (fs' & E & _ & F).
  - intros r k v [<-|[<-|[]]] Hi; cbn in Hi |- *; intuition congruence.
  - exists "width", (CNum x). split; [left; reflexivity|]. intros [Q|[Q|[]]]; discriminate.
  - exists fs'. split; [exact E|exact F].
Qed.
End Files.
