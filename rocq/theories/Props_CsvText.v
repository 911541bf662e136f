(** * Props_CsvText: the text of the result files reads back as the table (C84) *)
From Coq Require Import Reals Lra.
From Verif Require Import Base Num Json Logger World Vesicle MeltVisc RelVisc Bubbles Terrain Lava
  Thermal Flux Integrator Factory Run Spec LoggerProofs RNum LogIndep EffArray JsonText CsvText CsvProofs Plot
  Valid Props_Logger Props_LogIndep Props_RunOuts Props_Plot.

(** C84(a).  csv.reader returns exactly the records csv.writer was given, for
    fields with commas, quotes and line feeds too; only a carriage return (which
    open() turns into a line feed) would not survive. *)
Theorem C84_csv_round_trip : forall rows,
  Forall (fun row => row <> [] /\ Forall no_cr row) rows -> csv_reader (csv_text rows) = rows.
Proof. exact csv_round_trip. Qed.
Example C84_csv_round_trip_met : Forall (fun row => row <> [] /\ Forall no_cr row) [["a,b"; String dquote "c"; ""]; [""]; [String lf ""]].
Proof. repeat constructor; discriminate. Qed.
Theorem C84_carriage_return_survives_refuted : csv_reader (csv_text [[String cr ""]]) = [[String lf ""]].
Proof. reflexivity. Qed.

(** ** Looking up a column *)
Lemma dict_get_absent name header record : ~ In name header -> dict_get name header record = None.
Proof.
  revert record. induction header as [|h hs IH]; intros record H; [reflexivity|]. cbn [dict_get]. rewrite IH by (intros X; apply H; now right).
  destruct (String.eqb_spec name h) as [->|]; [|reflexivity]. elim H. now left.
Qed.
Lemma dict_get_at name header : NoDup header -> forall i record, nth_error header i = Some name ->
  dict_get name header record = Some (nth_error record i).
Proof.
  induction 1 as [|h hs Hh H IH]; intros i record Hi; [destruct i; discriminate Hi|]. cbn [dict_get]. destruct i as [|i].
  - injection Hi as ->. rewrite dict_get_absent by exact Hh. rewrite String.eqb_refl. now destruct record.
  - cbn [nth_error] in Hi. rewrite (IH i (tl record) Hi). now destruct record; [destruct i|].
Qed.

Lemma nth_firstn {A} (l : list A) : forall j i, (i < j)%nat -> nth_error (firstn j l) i = nth_error l i.
Proof. induction l as [|a l IH]; intros [|j] [|i] H; try reflexivity; try lia. cbn. apply IH. lia. Qed.

Section Text.
Context {T : Type} {N : Num T} (sf : T -> string).

(** The number is printed so that float() reads it back. *)
Definition prints (x : T) : Prop := parse_float (sf x) = Ok x /\ no_cr (sf x).
(** What a history of add_variable calls logs can be printed. *)
Definition printable (calls : list (@call T)) : Prop :=
  forall name p v, In (name, p, v) calls -> no_cr name /\ prints p /\ prints (cell_value v).
(** The record read from the file is the row of the table: a column the row
    has is read as its number, a column of the header the row has not is an
    empty text (float() raises ValueError), any other name is a KeyError. *)
Definition reads_as (header record : list string) (r : row T) : Prop :=
  forall name,
    (forall v, assoc name r = Some v -> read_number name header record = Ok (cell_value v)) /\
    (assoc name r = None -> In name header -> dict_get name header record = Some (Some ""%string)) /\
    (assoc name r = None -> ~ In name header -> dict_get name header record = None).

Definition good_row (r : row T) : Prop :=
  r <> [] /\ NoDup (map fst r) /\ forall k v, In (k, v) r -> no_cr k /\ prints (cell_value v).
Lemma assoc_set_in k v k' v' (r : row T) : In (k', v') (assoc_set k v r) -> (k' = k /\ v' = v) \/ In (k', v') r.
Proof.
  induction r as [|[a b] r IH]; cbn [assoc_set].
  - intros [E|[]]. injection E as <- <-. now left.
  - destruct (String.eqb_spec k a) as [->|].
    + intros [E|E]; [injection E as <- <-; now left|]. right. now right.
    + intros [E|E]; [right; now left|]. destruct (IH E) as [X|X]; [now left|right; now right].
Qed.
Lemma good_set k v r : good_row r -> no_cr k -> prints (cell_value v) -> good_row (assoc_set k v r).
Proof.
  intros (A & B & C) Hk Hv. split; [|split; [now apply assoc_set_nodup|]].
  - destruct r as [|[a b] r]; [contradiction|]. cbn [assoc_set]. destruct (String.eqb k a); discriminate.
  - intros k' v' H. apply assoc_set_in in H as [[-> ->]|H]; [auto|]. exact (C _ _ H).
Qed.
Lemma good_after (calls : list (@call T)) : printable calls -> forall t, Forall good_row t -> Forall good_row (after t calls).
Proof.
  induction calls as [|[[k p] v] calls IH]; intros H t Ht; [exact Ht|]. unfold after in *. cbn [fold_left].
  apply IH; [intros n q u Hu; apply H; now right|]. destruct (H k p v (or_introl eq_refl)) as (A & B & C).
  unfold apply_call. cbn [fst snd]. induction Ht as [|r t Hr Ht IHt]; cbn [add_variable].
  - constructor; [|constructor]. apply good_set; [|exact A|exact C]. split; [discriminate|]. split; [constructor; [intros []|constructor]|].
    intros a b [E|[]]. injection E as <- <-. split; [repeat split; discriminate|exact B].
  - destruct (row_at p r); constructor; auto using good_set.
Qed.

Lemma assoc_in k v (r : row T) : assoc k r = Some v -> In (k, v) r.
Proof.
  induction r as [|[a b] r IH]; [discriminate|]. cbn [assoc]. destruct (String.eqb_spec k a) as [->|]; intros A.
  - left. congruence.
  - right. auto.
Qed.
Lemma good_record fields r : good_row r -> Forall no_cr (map (cell_text sf) (csv_line fields r)).
Proof.
  intros (_ & _ & C). apply Forall_map. unfold csv_line. apply Forall_map. apply Forall_forall. intros f _.
  destruct (assoc f r) as [v|] eqn:A; [|exact I].
  pose proof (assoc_in _ _ _ A) as K.
  destruct (C _ _ K) as (_ & _ & D). destruct v; exact D.
Qed.
Lemma prints_cell v (r : row T) k : good_row r -> assoc k r = Some v -> parse_float (cell_text sf (Some v)) = Ok (cell_value v).
Proof.
  intros (_ & _ & C) A. pose proof (assoc_in _ _ _ A) as K.
  destruct (C _ _ K) as (_ & D & _). destruct v; exact D.
Qed.
Lemma record_reads fields (r : row T) : NoDup fields -> good_row r -> has_extra fields r = false ->
  reads_as fields (map (cell_text sf) (csv_line fields r)) r.
Proof.
  intros Nd G Hx name.
  assert (At : forall i, nth_error fields i = Some name -> dict_get name fields (map (cell_text sf) (csv_line fields r)) = Some (Some (cell_text sf (assoc name r)))).
  { intros i Hi. rewrite (dict_get_at _ _ Nd i) by exact Hi. unfold csv_line. rewrite !nth_error_map, Hi. reflexivity. }
  assert (Inh : In name fields -> dict_get name fields (map (cell_text sf) (csv_line fields r)) = Some (Some (cell_text sf (assoc name r)))).
  { intros H. apply In_nth_error in H as [i Hi]. exact (At i Hi). }
  split; [|split].
  - intros v A. unfold read_number. pose proof (no_extra_in _ _ _ _ Hx A) as E. unfold in_strings in E.
    apply existsb_exists in E as (h & Hh & E). apply String.eqb_eq in E as <-. rewrite (Inh Hh), A. exact (prints_cell v r name G A).
  - intros A Hh. rewrite (Inh Hh), A. reflexivity.
  - intros _ Hh. now apply dict_get_absent.
Qed.

(** The exported table. *)
Lemma exported (t : table T) c : write_values_to_file t = Ok (Some c) ->
  exists first rest, t = first :: rest /\ csv_header c = map fst first /\ csv_rows c = map (csv_line (map fst first)) t /\
    forall r, In r t -> has_extra (map fst first) r = false.
Proof.
  intros H. destruct t as [|first rest]; [discriminate H|]. unfold write_values_to_file in H.
  destruct (rmapM_csv (map fst first) (first :: rest)) as [[_ E]|[Hx E]]; rewrite E in H; [discriminate H|].
  cbn [rbind] in H. injection H as <-. exists first, rest. auto.
Qed.

(** C84(b).  After any history of calls, the file that write_values_to_file
    writes, read with csv.DictReader and float(), is the table: the names of
    the first row as header, one record per row, in order. *)
Theorem C84_result_file_reads_back : forall calls c,
  printable calls -> write_values_to_file (after clear calls) = Ok (Some c) ->
  exists records, dict_reader (result_text sf c) = (map fst (hd [] (after clear calls)), records) /\
    Forall2 (reads_as (map fst (hd [] (after clear calls)))) records (after clear calls).
Proof.
  intros calls c Hp Hw. assert (G := good_after calls Hp clear (Forall_nil _)).
  destruct (exported _ _ Hw) as (first & rest & Et & Eh & Er & Hx). rewrite Et in *. cbn [hd].
  set (t := first :: rest) in *. assert (G1 : good_row first) by (apply Forall_inv in G; exact G).
  exists (map (fun r => map (cell_text sf) (csv_line (map fst first) r)) t). split.
  - unfold dict_reader, result_text. rewrite csv_round_trip.
    + rewrite Eh, Er, map_map. f_equal. clear -G1. induction t as [|r t IH]; [reflexivity|]. cbn [map filter].
      destruct first as [|[k v] first]; [elim (proj1 G1); reflexivity|]. cbn [map csv_line]. f_equal. exact IH.
    + rewrite Eh, Er, map_map. constructor.
      * split; [destruct first; [now elim (proj1 G1)|discriminate]|]. apply Forall_map, Forall_forall. intros [k v] Hk. exact (proj1 (proj2 (proj2 G1) k v Hk)).
      * apply Forall_map. rewrite Forall_forall in G |- *. intros r Hr. split; [|now apply good_record, G].
        destruct first as [|[k v] first]; [now elim (proj1 G1)|discriminate].
  - rewrite Forall_forall in G.
    assert (K : forall us, incl us t -> Forall2 (reads_as (map fst first)) (map (fun r => map (cell_text sf) (csv_line (map fst first) r)) us) us).
    { induction us as [|u us IH]; intros Hi; [constructor|]. cbn [map]. constructor.
      - apply record_reads; [exact (proj1 (proj2 G1))|apply G, Hi; now left|apply Hx, Hi; now left].
      - apply IH. intros x Hx'. apply Hi. now right. }
    apply K, incl_refl.
Qed.
(** In particular for every run: what RunFlowgo.run logs, whatever the lava. *)
Theorem C84_run_reads_back : forall (sm : sim T) fuel st depth w' c,
  simulate fuel sm (initial_world st [] depth) = Some (Ok tt, w') ->
  exists calls, w_log w' = after clear calls /\
    (printable calls -> write_values_to_file (w_log w') = Ok (Some c) ->
     exists records, dict_reader (result_text sf c) = (map fst (hd [] (w_log w')), records) /\
       Forall2 (reads_as (map fst (hd [] (w_log w')))) records (w_log w')).
Proof.
  intros sm fuel st depth w' c H. destruct (C70_logger_is_write_only sm fuel st depth) as [K|(calls & r & w & _ & K)].
  - rewrite K in H. discriminate H.
  - rewrite K in H. injection H as _ <-. exists calls. cbn [set_log w_log]. split; [reflexivity|].
    intros Hp Hw. exact (C84_result_file_reads_back calls c Hp Hw).
Qed.

(** The model reads cells instead of text: the same numbers. *)
Theorem C84_model_reads_the_text : forall calls c,
  printable calls -> write_values_to_file (after clear calls) = Ok (Some c) ->
  exists records, dict_reader (result_text sf c) = (csv_header c, records) /\
    Forall2 (fun record line => forall name, read_number name (csv_header c) record = field name (csv_header c) line) records (csv_rows c).
Proof.
  intros calls c Hp Hw. destruct (C84_result_file_reads_back calls c Hp Hw) as (records & E & F).
  destruct (exported _ _ Hw) as (first & rest & Et & Eh & Er & Hx). rewrite Et in E, F. cbn [hd] in E, F. rewrite <- Eh in E, F.
  exists records. split; [exact E|]. rewrite Et in Er, Hx. rewrite Er, Eh in *. clear E Er Eh Et Hw. generalize dependent (first :: rest). intros t F Hx.
  revert Hx. clear -F.
  induction F as [|record r records t H F IH]; intros Hx; [constructor|]. cbn [map]. constructor; [|apply IH; intros q Hq; apply Hx; now right].
  intros name. rewrite field_csv_line. destruct (H name) as (A & B & C). specialize (Hx r (or_introl eq_refl)).
  destruct (assoc name r) as [v|] eqn:As.
  - rewrite (A v eq_refl). now rewrite (no_extra_in _ _ _ _ Hx As).
  - unfold read_number. destruct (in_strings name (map fst first)) eqn:Ein.
    + unfold in_strings in Ein. apply existsb_exists in Ein as (h & Hh & Eh). apply String.eqb_eq in Eh as <-. now rewrite (B eq_refl Hh).
    + rewrite C; [reflexivity|reflexivity|]. intros Hh. assert (X : in_strings name (map fst first) = true).
      { unfold in_strings. apply existsb_exists. exists name. split; [exact Hh|apply String.eqb_refl]. }
      congruence.
Qed.

(** ** A file cut short *)
(** The record is that of the row up to column [j], which is cut; reading a
    later column raises TypeError (float(None)). *)
Definition cut_at (header record : list string) (r : row T) (j : nat) : Prop :=
  forall i name, nth_error header i = Some name ->
    ((i < j)%nat -> dict_get name header record = Some (Some (cell_text sf (assoc name r)))) /\
    (i = j -> exists s, dict_get name header record = Some (Some s) /\ starts s (cell_text sf (assoc name r))) /\
    ((j < i)%nat -> read_number (T := T) name header record = Err TypeError).
(** C84(c).  Whatever part of the file has reached the disk when its writer is
    killed: the records read are those of the first rows, all of them right,
    followed by at most one record of the next row, right in its first columns,
    cut in one and without the others. *)
Theorem C84_cut_short : forall calls c p,
  printable calls -> write_values_to_file (after clear calls) = Ok (Some c) -> starts p (result_text sf c) ->
  let header := map fst (hd [] (after clear calls)) in
  snd (dict_reader p) = [] \/
  exists done rest records, after clear calls = done ++ rest /\ fst (dict_reader p) = header /\
    Forall2 (reads_as header) records done /\
    (snd (dict_reader p) = records \/
     exists r more j last, rest = r :: more /\ (j < length header)%nat /\ snd (dict_reader p) = records ++ [last] /\ cut_at header last r j).
Proof.
  intros calls c p Hp Hw Hs header. assert (G := good_after calls Hp clear (Forall_nil _)).
  destruct (exported _ _ Hw) as (first & rest & Et & Eh & Er & Hx). unfold header. rewrite Et in *. cbn [hd]. clear header.
  set (t := first :: rest) in *. assert (G1 : good_row first) by (apply Forall_inv in G; exact G).
  set (line := fun r => map (cell_text sf) (csv_line (map fst first) r)).
  assert (Wr : Forall writable (map fst first :: map line t)).
  { constructor.
    - split; [destruct first; [now elim (proj1 G1)|discriminate]|]. apply Forall_map, Forall_forall. intros [k v] Hk. exact (proj1 (proj2 (proj2 G1) k v Hk)).
    - apply Forall_map. rewrite Forall_forall in G |- *. intros r Hr. split; [|now apply good_record, G].
      unfold line. destruct first as [|[k v] first]; [now elim (proj1 G1)|discriminate]. }
  assert (Hs' : starts p (csv_text (map fst first :: map line t))).
  { unfold result_text in Hs. rewrite Eh, Er, map_map in Hs. exact Hs. }
  destruct (csv_cut_short _ Wr p Hs') as (done & tail & Ed & D).
  assert (Nn : forall r, line r <> []) by (intros r; unfold line; destruct first as [|[k v] first]; [now elim (proj1 G1)|discriminate]).
  assert (Fl : forall us, filter (fun r : list string => match r with [] => false | _ => true end) (map line us) = map line us).
  { induction us as [|u us IH]; [reflexivity|]. cbn [map filter]. specialize (Nn u). destruct (line u); [contradiction|]. now rewrite IH. }
  assert (Rd : forall us, incl us t -> Forall2 (reads_as (map fst first)) (map line us) us).
  { rewrite Forall_forall in G. induction us as [|u us IH]; intros Hi; [constructor|]. constructor.
    - apply record_reads; [exact (proj1 (proj2 G1))|apply G, Hi; now left|apply Hx, Hi; now left].
    - apply IH. intros x Hx'. apply Hi. now right. }
  unfold dict_reader. destruct done as [|h done].
  { left. destruct D as [-> |(row & more & j & q & _ & _ & _ & ->)]; reflexivity. }
  cbn [app] in Ed. injection Ed as <- Ed. change (map line t = done ++ tail) in Ed.
  apply map_eq_app in Ed as (dt & rt & Et' & <- & <-).
  right. exists dt, rt, (map line dt). split; [exact Et'|].
  destruct D as [-> |(row & more & j & q & E1 & E2 & E3 & ->)]; cbn [fst snd app].
  - split; [reflexivity|]. split; [apply Rd; rewrite Et'; apply incl_appl, incl_refl|]. left. apply Fl.
  - split; [reflexivity|]. split; [apply Rd; rewrite Et'; apply incl_appl, incl_refl|]. right.
    apply map_eq_cons in E1 as (r & mr & -> & <- & <-).
    exists r, mr, j, (firstn j (line r) ++ [q]). split; [reflexivity|].
    assert (Lh : length (line r) = length (map fst first)) by (unfold line, csv_line; now rewrite !map_length).
    split; [congruence|]. split.
    + rewrite filter_app, Fl. cbn [filter]. destruct (firstn j (line r)); reflexivity.
    + intros i name Hi. rewrite (dict_get_at _ _ (proj1 (proj2 G1)) i _ Hi). unfold read_number. rewrite (dict_get_at _ _ (proj1 (proj2 G1)) i _ Hi).
      assert (Li : nth_error (line r) i = Some (cell_text sf (assoc name r))) by (unfold line, csv_line; rewrite map_map; now erewrite map_nth_error by exact Hi).
      assert (Lj : length (firstn j (line r)) = j) by (rewrite firstn_length; lia).
      split; [|split].
      * intros Hij. rewrite nth_error_app1 by lia. rewrite nth_firstn by exact Hij. now rewrite Li.
      * intros ->. rewrite nth_error_app2 by lia. rewrite Lj, Nat.sub_diag. exists q. split; [reflexivity|].
        rewrite (nth_error_nth _ _ ""%string Li) in E3. exact E3.
      * intros Hij. rewrite (proj2 (nth_error_None (firstn j (line r) ++ [q]) i)); [reflexivity|]. rewrite app_length. cbn. lia.
Qed.
End Text.

(** ** The run-out file *)
Section Outs.
Context {T : Type} {N : Num T} (sf : T -> string) (sc : json T -> string).
(** C84(d).  The figure of run_outs.py reads its own file back: for any lava
    name (commas and quotes included) it shows the numbers that were written. *)
Theorem C84_run_outs_read_back : forall rows,
  Forall (fun r => no_cr (name_text sf sc (fst r)) /\ length (snd r) = 10%nat /\ Forall (prints sf) (snd r)) rows ->
  read_outs (outs_text sf sc rows) =
    Ok (map (fun r => (name_text sf sc (fst r), (nth 9 (snd r) zero, nth 0 (snd r) zero))) rows).
Proof.
  intros rows H. unfold read_outs, outs_text, dict_reader. rewrite csv_round_trip.
  - assert (E : filter (fun r : list string => match r with [] => false | _ => true end) (map (fun r => name_text sf sc (fst r) :: map sf (snd r)) rows)
              = map (fun r => name_text sf sc (fst r) :: map sf (snd r)) rows) by (clear; induction rows as [|r rows IH]; cbn [map filter]; congruence).
    rewrite E. clear E. induction H as [|[name xs] rows (A & L & B) H IH]; [reflexivity|]. cbn [map rmapM].
    rewrite IH. clear IH H. cbn [fst snd] in *.
    destruct xs as [|x0 [|x1 [|x2 [|x3 [|x4 [|x5 [|x6 [|x7 [|x8 [|x9 [|]]]]]]]]]]]; try discriminate L.
    rewrite Forall_forall in B.
    assert (P0 : parse_float (sf x0) = Ok x0) by (apply B; cbn; tauto).
    assert (P9 : parse_float (sf x9) = Ok x9) by (apply B; cbn; tauto).
    unfold read_number. cbn [map]. cbn [dict_get outs_header tl hd_error String.eqb Ascii.eqb Bool.eqb rbind]. rewrite P0. cbn [rbind]. rewrite P9. reflexivity.
  - constructor.
    + split; [discriminate|]. repeat constructor; discriminate.
    + apply Forall_map. eapply Forall_impl; [|exact H]. intros r (A & _ & B). split; [discriminate|]. constructor; [exact A|].
      apply Forall_map. eapply Forall_impl; [|exact B]. intros x Hx. exact (proj2 Hx).
Qed.
End Outs.

(** ** Concrete cases *)
Open Scope R_scope.
Definition few (x : R) : string := if Req_EM_T x 0 then "0.0" else if Req_EM_T x 10 then "10.0" else "251.5".
Lemma few_0 : few 0 = "0.0". Proof. unfold few. destruct (Req_EM_T 0 0); [reflexivity|lra]. Qed.
Lemma few_10 : few 10 = "10.0". Proof. unfold few. destruct (Req_EM_T 10 0); [lra|]. destruct (Req_EM_T 10 10); [reflexivity|lra]. Qed.
Lemma few_x : few (2515 / 10) = "251.5".
Proof. unfold few. destruct (Req_EM_T (2515 / 10) 0); [lra|]. destruct (Req_EM_T (2515 / 10) 10); [lra|reflexivity]. Qed.
Definition few_calls : list (@call R) := [("width", 0, CNum (2515 / 10)); ("slope", 0, CNum 0); ("width", 10, CNum (2515 / 10))].
Lemma few_printable : printable few few_calls.
Proof.
  assert (P0 : prints few 0).
  { split; [|rewrite few_0; repeat split; discriminate]. rewrite few_0. change (parse_float "0.0") with (@Ok R (IZR 0 / IZR 10)). f_equal. lra. }
  assert (P10 : prints few 10).
  { split; [|rewrite few_10; repeat split; discriminate]. rewrite few_10. change (parse_float "10.0") with (@Ok R (IZR 100 / IZR 10)). f_equal. lra. }
  assert (Px : prints few (2515 / 10)).
  { split; [|rewrite few_x; repeat split; discriminate]. rewrite few_x. change (parse_float "251.5") with (@Ok R (IZR 2515 / IZR 10)). f_equal. }
  intros name p v [E|[E|[E|[]]]]; injection E as <- <- <-; (split; [repeat split; discriminate|]); split; assumption.
Qed.
Lemma few_table : after clear few_calls = [[("position", CNum 0); ("width", CNum (2515 / 10)); ("slope", CNum 0)]; [("position", CNum 10); ("width", CNum (2515 / 10))]].
Proof.
  unfold after, few_calls, apply_call. cbn [fold_left fst snd add_variable clear]. cbn.
  rewrite (proj2 (R_eqb_true 0 0) eq_refl). cbn.
  assert (E : R_eqb 10 0 = false) by (destruct (R_eqb 10 0) eqn:Q; [apply R_eqb_true in Q; lra|reflexivity]).
  rewrite E. reflexivity.
Qed.
Definition few_text : string :=
  ("position,width,slope" ++ String cr (String lf ("0.0,251.5,0.0" ++ String cr (String lf ("10.0,251.5," ++ String cr (String lf ""))))))%string.
Example few_file : exists c, write_values_to_file (after clear few_calls) = Ok (Some c) /\ result_text few c = few_text.
Proof.
  rewrite few_table. eexists. split; [reflexivity|]. unfold result_text, few_text. cbn [csv_header csv_rows map fst cell_text csv_line assoc String.eqb Ascii.eqb Bool.eqb].
  rewrite few_0, few_10, few_x. reflexivity.
Qed.
(** A file cut short can give a wrong number without any error: cut inside the
    last number it needs, the record reads 25 where the table has 251.5. *)
Theorem C84_cut_is_noticed_refuted : exists calls c p record,
  printable few calls /\ write_values_to_file (after clear calls) = Ok (Some c) /\ starts p (result_text few c) /\
  snd (dict_reader p) = [record] /\
  assoc "width" (hd [] (after clear calls)) = Some (CNum (2515 / 10)) /\
  read_number "width" (fst (dict_reader p)) record = @Ok R 25.
Proof.
  destruct few_file as (c & Hc & Ht).
  exists few_calls, c, ("position,width,slope" ++ String cr (String lf "0.0,25"))%string, ["0.0"; "25"].
  split; [exact few_printable|]. split; [exact Hc|]. split; [rewrite Ht; eexists; reflexivity|].
  split; [reflexivity|]. split; [rewrite few_table; reflexivity|].
  change (@Ok R (IZR 25 / IZR 1) = Ok 25). f_equal. lra.
Qed.
Print Assumptions C84_result_file_reads_back.
