(** * CsvProofs: reading back what csv.writer wrote, whole or cut short *)
From Verif Require Import Base Num Json Logger JsonText CsvText.

(** [s] has no carriage return. *)
Fixpoint no_cr (s : string) : Prop := match s with EmptyString => True | String c r => c <> cr /\ no_cr r end.
(** [a] is the beginning of [b]. *)
Definition starts (a b : string) : Prop := exists t, b = (a ++ t)%string.

Lemma sapp_nil s : (s ++ "")%string = s.
Proof. induction s; cbn; congruence. Qed.
Lemma sapp_assoc a b c : ((a ++ b) ++ c = a ++ (b ++ c))%string.
Proof. induction a; cbn; congruence. Qed.
Lemma starts_nil b : starts "" b.
Proof. now exists b. Qed.
Lemma starts_refl b : starts b b.
Proof. exists ""%string. now rewrite sapp_nil. Qed.
Lemma starts_cons c a b : starts a b -> starts (String c a) (String c b).
Proof. intros [t ->]. now exists t. Qed.
Lemma starts_cons_inv c a d b : starts (String c a) (String d b) -> c = d /\ starts a b.
Proof. intros [t H]. injection H as -> ->. split; [reflexivity|now exists t]. Qed.
Lemma starts_app a b c : starts a (b ++ c)%string -> starts a b \/ exists a', a = (b ++ a')%string /\ starts a' c.
Proof.
  revert a. induction b as [|x b IH]; intros a H.
  - right. exists a. auto.
  - destruct a as [|y a]; [left; apply starts_nil|]. apply starts_cons_inv in H as [-> H].
    apply IH in H as [H|(a' & -> & H)]; [left; now apply starts_cons|right]. exists a'. auto.
Qed.

Lemma no_cr_app a b : no_cr (a ++ b) <-> no_cr a /\ no_cr b.
Proof. induction a as [|c a IH]; cbn; [tauto|]. rewrite IH. tauto. Qed.
Lemma no_cr_starts a b : starts a b -> no_cr b -> no_cr a.
Proof. intros [t ->] H. now apply no_cr_app in H. Qed.
Lemma no_cr_double s : no_cr s -> no_cr (double_quotes s).
Proof.
  induction s as [|c s IH]; [intros _; exact I|]. cbn [no_cr double_quotes]. intros [A B]. destruct (Ascii.eqb_spec c dquote) as [->|]; cbn [no_cr]; [|auto].
  split; [discriminate|]. split; [discriminate|]. auto.
Qed.
Lemma no_cr_field s : no_cr s -> no_cr (csv_field s).
Proof.
  intros H. unfold csv_field. destruct (needs_quotes s); [|exact H]. cbn. split; [discriminate|]. apply no_cr_app. split; [now apply no_cr_double|].
  cbn. split; [discriminate|exact I].
Qed.
Definition body (fields : list string) : string :=
  match fields with
  | [EmptyString] => String dquote (String dquote EmptyString)
  | _ => join (String comma EmptyString) (map csv_field fields)
  end.
Lemma no_cr_body fields : Forall no_cr fields -> no_cr (body fields).
Proof.
  intros H. assert (K : no_cr (join (String comma EmptyString) (map csv_field fields))).
  { induction H as [|f fields Hf H IH]; [exact I|]. cbn [map join]. destruct fields as [|g fields]; [now apply no_cr_field|].
    change (no_cr (csv_field f ++ (String comma "" ++ join (String comma "") (map csv_field (g :: fields))))).
    apply no_cr_app. split; [now apply no_cr_field|]. split; [discriminate|exact IH]. }
  unfold body. destruct fields as [|[|c f] [|g fields]]; try exact K. cbn. repeat split; discriminate.
Qed.
Lemma record_body fields : csv_record fields = (body fields ++ String cr (String lf EmptyString))%string.
Proof. reflexivity. Qed.

Lemma universal_no_cr s t : no_cr s -> universal (s ++ t) = (s ++ universal t)%string.
Proof.
  induction s as [|c s IH]; intros H; [reflexivity|]. destruct H as [A B]. cbn [append universal].
  destruct (Ascii.eqb_spec c cr) as [|_]; [contradiction|]. now rewrite IH.
Qed.
Lemma universal_end t : universal (String cr (String lf t)) = String lf (universal t).
Proof. reflexivity. Qed.
Lemma universal_record fields t : Forall no_cr fields -> universal (csv_record fields ++ t) = (body fields ++ String lf (universal t))%string.
Proof.
  intros H. rewrite record_body, sapp_assoc, universal_no_cr by now apply no_cr_body. reflexivity.
Qed.

(** ** One field *)
Lemma special_false c : special c = false -> c <> comma /\ c <> dquote /\ c <> lf.
Proof.
  unfold special. intros H. apply Bool.orb_false_elim in H as [H D]. apply Bool.orb_false_elim in H as [H C].
  apply Bool.orb_false_elim in H as [A B]. repeat split; intros ->; discriminate.
Qed.
Ltac eqb_no := repeat match goal with |- context [Ascii.eqb ?c ?d] => destruct (Ascii.eqb_spec c d) as [?|_]; [contradiction|] end.
Lemma in_plain s fields : forall cur t, needs_quotes s = false -> csv_read InField fields cur (s ++ t) = csv_read InField fields (cur ++ s)%string t.
Proof.
  induction s as [|c s IH]; intros cur t H; [now rewrite sapp_nil|]. cbn in H. apply Bool.orb_false_elim in H as [Hc H].
  apply special_false in Hc as (A & B & C). cbn [append csv_read]. eqb_no. rewrite IH by exact H. f_equal. rewrite sapp_assoc. reflexivity.
Qed.
Lemma in_quoted s fields : forall cur t, csv_read InQuotedField fields cur (double_quotes s ++ t) = csv_read InQuotedField fields (cur ++ s)%string t.
Proof.
  induction s as [|c s IH]; intros cur t; [now rewrite sapp_nil|]. cbn [double_quotes]. destruct (Ascii.eqb_spec c dquote) as [->|Hc].
  - cbn [append csv_read]. rewrite !Ascii.eqb_refl, IH. f_equal. rewrite sapp_assoc. reflexivity.
  - cbn [append csv_read]. eqb_no. rewrite IH. f_equal. rewrite sapp_assoc. reflexivity.
Qed.
Definition at_start (st : reader_state) : Prop := st = StartRecord \/ st = StartField.
(** What follows a field. *)
Lemma read_field_comma st fields f t : at_start st ->
  csv_read st fields "" (csv_field f ++ String comma t) = csv_read StartField (fields ++ [f]) "" t.
Proof.
  intros Hst. unfold csv_field. destruct (needs_quotes f) eqn:Q.
  - replace (String dquote (double_quotes f ++ String dquote "") ++ String comma t)%string
      with (String dquote (double_quotes f ++ String dquote (String comma t)))%string by (cbn; now rewrite sapp_assoc).
    destruct Hst as [-> | ->]; cbn [csv_read]; cbn [Ascii.eqb Bool.eqb]; rewrite in_quoted; reflexivity.
  - destruct f as [|c f]; [destruct Hst as [-> | ->]; reflexivity|].
    cbn in Q. apply Bool.orb_false_elim in Q as [Hc Q]. apply special_false in Hc as (A & B & C).
    destruct Hst as [-> | ->]; cbn [append csv_read]; eqb_no; cbn [append]; rewrite in_plain by exact Q; reflexivity.
Qed.
Lemma read_field_lf st fields f t : st = StartField \/ (st = StartRecord /\ f <> ""%string) ->
  csv_read st fields "" (csv_field f ++ String lf t) = (fields ++ [f]) :: csv_read StartRecord [] "" t.
Proof.
  intros Hst. unfold csv_field. destruct (needs_quotes f) eqn:Q.
  - replace (String dquote (double_quotes f ++ String dquote "") ++ String lf t)%string
      with (String dquote (double_quotes f ++ String dquote (String lf t)))%string by (cbn; now rewrite sapp_assoc).
    destruct Hst as [-> | [-> _]]; cbn [csv_read]; cbn [Ascii.eqb Bool.eqb]; rewrite in_quoted; reflexivity.
  - destruct f as [|c f]; [destruct Hst as [-> | [_ H]]; [reflexivity|contradiction]|].
    cbn in Q. apply Bool.orb_false_elim in Q as [Hc Q]. apply special_false in Hc as (A & B & C).
    destruct Hst as [-> | [-> _]]; cbn [append csv_read]; eqb_no; cbn [append]; rewrite in_plain by exact Q; reflexivity.
Qed.
(** A field whose text is cut. *)
Lemma cut_plain s fields : forall cur p, needs_quotes s = false -> starts p s -> csv_read InField fields cur p = [fields ++ [(cur ++ p)%string]].
Proof.
  intros cur p H [t ->]. assert (K : needs_quotes p = false).
  { clear -H. induction p as [|c p IH]; [reflexivity|]. cbn in H |- *. apply Bool.orb_false_elim in H as [-> H]. now rewrite IH. }
  rewrite <- (sapp_nil p) at 1. rewrite in_plain by exact K. reflexivity.
Qed.
Lemma cut_quoted s fields : forall cur p, starts p (double_quotes s ++ String dquote "")%string ->
  exists q, starts q s /\ csv_read InQuotedField fields cur p = [fields ++ [(cur ++ q)%string]].
Proof.
  induction s as [|c s IH]; intros cur p H.
  - cbn in H. exists ""%string. split; [apply starts_nil|]. rewrite sapp_nil. destruct p as [|d p]; [reflexivity|].
    apply starts_cons_inv in H as [-> H]. destruct p as [|e p]; [reflexivity|]. destruct H as [t H]. discriminate H.
  - cbn [double_quotes] in H. destruct (Ascii.eqb_spec c dquote) as [->|Hc].
    + destruct p as [|d p]; [exists ""%string; split; [apply starts_nil|now rewrite sapp_nil]|]. apply starts_cons_inv in H as [-> H].
      destruct p as [|d p]; [exists ""%string; split; [apply starts_nil|now rewrite sapp_nil]|]. apply starts_cons_inv in H as [-> H].
      apply (IH (cur ++ String dquote "")%string) in H as (q & A & B). exists (String dquote q). split; [now apply starts_cons|].
      cbn [csv_read]. rewrite !Ascii.eqb_refl, B, sapp_assoc. reflexivity.
    + destruct p as [|d p]; [exists ""%string; split; [apply starts_nil|now rewrite sapp_nil]|]. cbn [append] in H. apply starts_cons_inv in H as [-> H].
      apply (IH (cur ++ String c "")%string) in H as (q & A & B). exists (String c q). split; [now apply starts_cons|].
      cbn [csv_read]. eqb_no. rewrite B, sapp_assoc. reflexivity.
Qed.
Lemma cut_field st fields f p : at_start st -> starts p (csv_field f) -> (p <> ""%string \/ st = StartField) ->
  exists q, starts q f /\ csv_read st fields "" p = [fields ++ [q]].
Proof.
  intros Hst H Hp. destruct p as [|c p].
  - destruct Hp as [Hp | ->]; [contradiction|]. exists ""%string. split; [apply starts_nil|reflexivity].
  - clear Hp. unfold csv_field in H. destruct (needs_quotes f) eqn:Q.
    + apply starts_cons_inv in H as [-> H]. apply (cut_quoted f fields "") in H as (q & A & B). exists q. split; [exact A|].
      destruct Hst as [-> | ->]; exact B.
    + destruct f as [|d f]; [destruct H as [t H]; discriminate H|]. apply starts_cons_inv in H as [-> H]. exists (String d p). split; [now apply starts_cons|].
      cbn in Q. apply Bool.orb_false_elim in Q as [Hc Q]. apply special_false in Hc as (A & B & C).
      destruct Hst as [-> | ->]; cbn [append csv_read]; eqb_no; cbn [append]; exact (cut_plain f fields (String d "") p Q H).
Qed.

(** ** One record *)
Lemma read_fields st saved f fs t : at_start st -> (fs <> [] \/ f <> ""%string \/ st = StartField) ->
  csv_read st saved "" (join (String comma "") (map csv_field (f :: fs)) ++ String lf t) = (saved ++ f :: fs) :: csv_read StartRecord [] "" t.
Proof.
  revert st saved f. induction fs as [|g fs IH]; intros st saved f Hst Hne.
  - cbn [map join]. rewrite read_field_lf; [reflexivity|]. destruct Hst as [-> | ->]; [right|left; reflexivity]. split; [reflexivity|].
    destruct Hne as [Hne|[Hne|Hne]]; [contradiction|exact Hne|discriminate].
  - change (join (String comma "") (map csv_field (f :: g :: fs)))
      with (csv_field f ++ String comma (join (String comma "") (map csv_field (g :: fs))))%string.
    rewrite sapp_assoc. cbn [append]. rewrite read_field_comma by exact Hst. rewrite IH; [|right; reflexivity|right; right; reflexivity].
    now rewrite <- app_assoc.
Qed.
Lemma read_record fields t : fields <> [] -> csv_read StartRecord [] "" (body fields ++ String lf t) = fields :: csv_read StartRecord [] "" t.
Proof.
  intros H. destruct fields as [|f fs]; [contradiction|]. destruct f as [|c f].
  - destruct fs as [|g fs]; [reflexivity|]. apply (read_fields StartRecord []); [now left|left; discriminate].
  - apply (read_fields StartRecord []); [now left|right; left; discriminate].
Qed.
Lemma cut_fields st saved f fs p : at_start st -> starts p (join (String comma "") (map csv_field (f :: fs))) -> (p <> ""%string \/ st = StartField) ->
  exists j q, (j < length (f :: fs))%nat /\ starts q (nth j (f :: fs) ""%string) /\ csv_read st saved "" p = [saved ++ firstn j (f :: fs) ++ [q]].
Proof.
  revert st saved f p. induction fs as [|g fs IH]; intros st saved f p Hst H Hp.
  - cbn [map join] in H. destruct (cut_field st saved f p Hst H Hp) as (q & A & B). exists 0%nat, q. split; [cbn; lia|]. split; assumption.
  - change (join (String comma "") (map csv_field (f :: g :: fs)))
      with (csv_field f ++ String comma (join (String comma "") (map csv_field (g :: fs))))%string in H.
    apply starts_app in H as [H|(p' & -> & H)].
    + destruct (cut_field st saved f p Hst H Hp) as (q & A & B). exists 0%nat, q. split; [cbn; lia|]. split; assumption.
    + destruct p' as [|c p'].
      * rewrite sapp_nil in Hp |- *. destruct (cut_field st saved f (csv_field f) Hst (starts_refl _) Hp) as (q & A & B).
        exists 0%nat, q. split; [cbn; lia|]. split; assumption.
      * apply starts_cons_inv in H as [-> H]. rewrite read_field_comma by exact Hst.
        destruct (IH StartField (saved ++ [f]) g p' (or_intror eq_refl) H (or_intror eq_refl)) as (j & q & A & B & C).
        exists (S j), q. split; [cbn in A |- *; lia|]. split; [exact B|]. rewrite C. cbn [firstn]. rewrite <- app_assoc. reflexivity.
Qed.
Lemma cut_record fields p : fields <> [] -> starts p (body fields) -> p <> ""%string ->
  exists j q, (j < length fields)%nat /\ starts q (nth j fields ""%string) /\ csv_read StartRecord [] "" p = [firstn j fields ++ [q]].
Proof.
  intros H Hp Hne. destruct fields as [|f fs]; [contradiction|].
  assert (K : starts p (join (String comma "") (map csv_field (f :: fs))) ->
    exists j q, (j < length (f :: fs))%nat /\ starts q (nth j (f :: fs) ""%string) /\ csv_read StartRecord [] "" p = [firstn j (f :: fs) ++ [q]]).
  { intros K. destruct (cut_fields StartRecord [] f fs p (or_introl eq_refl) K (or_introl Hne)) as (j & q & A & B & C). exists j, q. auto. }
  destruct f as [|c f]; [|exact (K Hp)]. destruct fs as [|g fs]; [|exact (K Hp)].
  cbn in Hp. exists 0%nat, ""%string. split; [cbn; lia|]. split; [apply starts_nil|].
  destruct p as [|x p]; [contradiction|]. apply starts_cons_inv in Hp as [-> Hp].
  destruct p as [|x p]; [reflexivity|]. apply starts_cons_inv in Hp as [-> Hp].
  destruct p as [|x p]; [reflexivity|]. destruct Hp as [t Hp]. discriminate Hp.
Qed.

(** ** Whole files *)
Definition writable (row : list string) : Prop := row <> [] /\ Forall no_cr row.
Lemma csv_round_trip rows : Forall writable rows -> csv_reader (csv_text rows) = rows.
Proof.
  unfold csv_reader. intros H. induction H as [|r rows (A & B) H IH]; [reflexivity|]. cbn [csv_text].
  rewrite universal_record by exact B. rewrite read_record by exact A. now rewrite IH.
Qed.
Lemma csv_cut_short rows : Forall writable rows -> forall p, starts p (csv_text rows) ->
  exists done rest, rows = done ++ rest /\
    (csv_reader p = done \/
     exists row more j q, rest = row :: more /\ (j < length row)%nat /\ starts q (nth j row ""%string) /\
       csv_reader p = done ++ [firstn j row ++ [q]]).
Proof.
  unfold csv_reader. intros H. induction H as [|r rows (A & B) H IH]; intros p Hp.
  - destruct Hp as [t Hp]. destruct p; [|discriminate Hp]. exists [], []. auto.
  - cbn [csv_text] in Hp. apply starts_app in Hp as [Hp|(p' & -> & Hp)].
    + rewrite record_body in Hp. apply starts_app in Hp as [Hp|(p' & -> & Hp)].
      * destruct p as [|c p]; [exists [], (r :: rows); split; [reflexivity|left; reflexivity]|].
        destruct (cut_record r (String c p) A Hp ltac:(discriminate)) as (j & q & C & D & E).
        exists [], (r :: rows). split; [reflexivity|]. right. exists r, rows, j, q. repeat (split; [assumption || reflexivity|]).
        rewrite <- (sapp_nil (String c p)), universal_no_cr by (eapply no_cr_starts; [exact Hp|now apply no_cr_body]). cbn [universal]. rewrite sapp_nil. exact E.
      * destruct p' as [|c p'].
        -- rewrite sapp_nil in *. destruct (body r) as [|c p] eqn:Eb; [exists [], (r :: rows); split; [reflexivity|left; reflexivity]|].
           rewrite <- Eb.
           destruct (cut_record r (body r) A (starts_refl _) ltac:(rewrite Eb; discriminate)) as (j & q & C & D & E).
           exists [], (r :: rows). split; [reflexivity|]. right. exists r, rows, j, q. repeat (split; [assumption || reflexivity|]).
           rewrite <- (sapp_nil (body r)), universal_no_cr by now apply no_cr_body. cbn [universal]. rewrite sapp_nil. exact E.
        -- exists [r], rows. split; [reflexivity|left]. rewrite universal_no_cr by now apply no_cr_body.
           apply starts_cons_inv in Hp as [-> Hp]. destruct p' as [|d p'].
           ++ change (universal (String cr "")) with (String lf ""). now rewrite read_record.
           ++ apply starts_cons_inv in Hp as [-> Hp]. destruct p' as [|d p']; [|destruct Hp as [t Hp]; discriminate Hp].
              change (universal (String cr (String lf ""))) with (String lf ""). now rewrite read_record.
    + destruct (IH p' Hp) as (done & rest & -> & D). exists (r :: done), rest. split; [reflexivity|].
      rewrite universal_record by exact B. rewrite read_record by exact A.
      destruct D as [-> |(row & more & j & q & E1 & E2 & E3 & ->)]; [now left|right]. exists row, more, j, q. auto.
Qed.
