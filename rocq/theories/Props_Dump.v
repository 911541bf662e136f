(** * Props_Dump: what json.dump writes, json.load reads (C93). *)
From Verif Require Import Base Num Json JsonText Props_RunFile JsonFacts JsonRead JsonGrammar Props_Grammar EditJson JsonDump.

(** ** Texts *)
(** The UTF-8 bytes of a list of code points. *)
Fixpoint text_of (l : list BinNums.N) : string :=
  match l with [] => EmptyString | n :: r => (utf8 n ++ text_of r)%string end.
(** No high surrogate is directly followed by a low one (two such code points of a
    Python string read back as one character). *)
Fixpoint no_pair (l : list BinNums.N) : Prop :=
  match l with
  | [] => True
  | n :: r => match r with m :: _ => ~ (high n /\ low m) | [] => True end /\ no_pair r
  end.
Definition python_text (s : string) : Prop :=
  exists l, s = text_of l /\ Forall (fun n => n < 1114112)%N l /\ no_pair l.

Lemma code_points_1 a r : (a < 128)%N -> code_points (byte a ++ r) = a :: code_points r.
Proof. intros H. unfold byte. cbn [append code_points]. rewrite N_of_byte by lia. destruct (N.ltb_spec a 128); [reflexivity|lia]. Qed.
Lemma code_points_2 a b r : (192 <= a < 224)%N -> (b < 256)%N ->
  code_points (byte a ++ byte b ++ r) = ((a - 192) * 64 + (b - 128))%N :: code_points r.
Proof.
  intros H Hb. unfold byte. cbn [append code_points]. rewrite (N_of_byte a), (N_of_byte b) by lia.
  destruct (N.ltb_spec a 128); [lia|]. destruct (N.ltb_spec a 224); [reflexivity|lia].
Qed.
Lemma code_points_3 a b c r : (224 <= a < 240)%N -> (b < 256)%N -> (c < 256)%N ->
  code_points (byte a ++ byte b ++ byte c ++ r) = ((a - 224) * 4096 + (b - 128) * 64 + (c - 128))%N :: code_points r.
Proof.
  intros H Hb Hc. unfold byte. cbn [append code_points]. rewrite (N_of_byte a), (N_of_byte b), (N_of_byte c) by lia.
  destruct (N.ltb_spec a 128); [lia|]. destruct (N.ltb_spec a 224); [lia|]. destruct (N.ltb_spec a 240); [reflexivity|lia].
Qed.
Lemma code_points_4 a b c d r : (240 <= a < 256)%N -> (b < 256)%N -> (c < 256)%N -> (d < 256)%N ->
  code_points (byte a ++ byte b ++ byte c ++ byte d ++ r) = ((a - 240) * 262144 + (b - 128) * 4096 + (c - 128) * 64 + (d - 128))%N :: code_points r.
Proof.
  intros H Hb Hc Hd. unfold byte. cbn [append code_points]. rewrite (N_of_byte a), (N_of_byte b), (N_of_byte c), (N_of_byte d) by lia.
  destruct (N.ltb_spec a 128); [lia|]. destruct (N.ltb_spec a 224); [lia|]. destruct (N.ltb_spec a 240); [lia|reflexivity].
Qed.
Lemma base64 n : (n / 64 * 64 + n mod 64 = n)%N /\ (n mod 64 < 64)%N.
Proof. split; [rewrite N.mul_comm; symmetry; apply N.div_mod; lia|apply N.mod_lt; lia]. Qed.
Lemma code_points_utf8 n s : (n < 1114112)%N -> code_points (utf8 n ++ s) = n :: code_points s.
Proof.
  intros Hn. unfold utf8.
  destruct (N.ltb_spec n 128); [now apply code_points_1|].
  assert (Q1 : (n / 4096 = n / 64 / 64)%N) by (rewrite N.div_div by lia; reflexivity).
  assert (Q2 : (n / 262144 = n / 64 / 64 / 64)%N) by (rewrite !N.div_div by lia; reflexivity).
  rewrite Q2, Q1. destruct (base64 (n / 64 / 64)) as [E2 L2]. destruct (base64 (n / 64)) as [E1 L1]. destruct (base64 n) as [E0 L0].
  clear Q1 Q2. revert E0 L0 E1 L1 E2 L2.
  generalize (n / 64 / 64 / 64)%N. intros q3. generalize (n / 64 / 64 mod 64)%N. intros r2. generalize (n / 64 / 64)%N. intros q2.
  generalize (n / 64 mod 64)%N. intros r1. generalize (n / 64)%N. intros q1. generalize (n mod 64)%N. intros r0 E0 L0 E1 L1 E2 L2.
  destruct (N.ltb_spec n 2048).
  { rewrite app_cons_assoc, code_points_2 by lia. f_equal. lia. }
  destruct (N.ltb_spec n 65536).
  { rewrite !app_cons_assoc, code_points_3 by lia. f_equal. lia. }
  rewrite !app_cons_assoc, code_points_4 by lia. f_equal. lia.
Qed.
Lemma code_points_text l : Forall (fun n => n < 1114112)%N l -> code_points (text_of l) = l.
Proof. induction l as [|n l IH]; intros H; [reflexivity|]. inversion H; subst. cbn [text_of]. rewrite code_points_utf8, IH by assumption. reflexivity. Qed.

Lemma hex_digit_spec n : (n < 16)%N -> hex (hex_digit (N.to_nat n)) n.
Proof.
  intros Hn. unfold hex, hex_digit. cbv zeta. destruct (Nat.ltb_spec (N.to_nat n) 10) as [H|H].
  - left. unfold ascii_of_nat. rewrite N_of_byte by lia. lia.
  - right. right. unfold ascii_of_nat. rewrite N_of_byte by lia. lia.
Qed.
Lemma unit_escape_spec n : (n < 65536)%N -> unit_text (unit_escape n) n.
Proof.
  intros Hn. unfold unit_escape, unit_text.
  exists (hex_digit (N.to_nat (n / 4096 mod 16))), (hex_digit (N.to_nat (n / 256 mod 16))), (hex_digit (N.to_nat (n / 16 mod 16))), (hex_digit (N.to_nat (n mod 16))).
  exists (n / 4096 mod 16)%N, (n / 256 mod 16)%N, (n / 16 mod 16)%N, (n mod 16)%N. split; [reflexivity|].
  do 4 (split; [apply hex_digit_spec, N.mod_lt; lia|]).
  assert (Q1 : (n / 256 = n / 16 / 16)%N) by (rewrite N.div_div by lia; reflexivity).
  assert (Q2 : (n / 4096 = n / 16 / 16 / 16)%N) by (rewrite !N.div_div by lia; reflexivity).
  assert (D0 := N.div_mod n 16 ltac:(lia)). assert (D1 := N.div_mod (n / 16) 16 ltac:(lia)). assert (D2 := N.div_mod (n / 16 / 16) 16 ltac:(lia)).
  assert (S3 : (n / 4096 mod 16 = n / 16 / 16 / 16)%N). { rewrite Q2. apply N.mod_small. rewrite <- Q2. apply N.div_lt_upper_bound; lia. }
  rewrite S3, Q1. lia.
Qed.
Lemma unit_fun u n u' n' r r' : unit_text u n -> unit_text u' n' -> (u ++ r = u' ++ r')%string -> n = n'.
Proof.
  intros H H' E. apply unit_text_spec in H as (a & b & c & d & -> & H). apply unit_text_spec in H' as (a' & b' & c' & d' & -> & H').
  cbn in E. injection E as -> -> -> -> _. congruence.
Qed.
(** What [dump_char n] starts with, when it starts with a unit. *)
Lemma dump_char_unit n u m r r' : unit_text u m -> (n < 1114112)%N -> (dump_char n ++ r = u ++ r')%string -> low m -> low n.
Proof.
  intros U Hn E L. assert (U0 := U). apply unit_text_spec in U0 as (a & b & c & d & Eu & _). unfold dump_char in E.
  destruct (N.eqb_spec n 34); [rewrite Eu in E; discriminate|]. destruct (N.eqb_spec n 92); [rewrite Eu in E; discriminate|].
  destruct (N.eqb_spec n 10); [rewrite Eu in E; discriminate|]. destruct (N.eqb_spec n 13); [rewrite Eu in E; discriminate|].
  destruct (N.eqb_spec n 9); [rewrite Eu in E; discriminate|]. destruct (N.eqb_spec n 12); [rewrite Eu in E; discriminate|].
  destruct (N.eqb_spec n 8); [rewrite Eu in E; discriminate|].
  destruct ((32 <=? n) && (n <=? 126))%N eqn:P.
  { exfalso. rewrite Eu in E. unfold byte in E. cbn [append] in E. injection E as E _.
    assert (E' := f_equal N_of_ascii E). apply andb_prop in P as [P1 P2]. apply N.leb_le in P1, P2. rewrite N_of_byte in E' by lia.
    change (N_of_ascii "092") with 92%N in E'. congruence. }
  clear P. destruct (N.ltb_spec n 65536).
  - rewrite (unit_fun _ n _ m r r' (unit_escape_spec n H) U E). exact L.
  - exfalso. rewrite app_cons_assoc in E.
    assert (Q : ((n - 65536) / 1024 < 1024)%N) by (apply N.div_lt_upper_bound; lia).
    assert (X := unit_fun _ _ _ m _ r' (unit_escape_spec (55296 + (n - 65536) / 1024) ltac:(lia)) U E). unfold low in L. lia.
Qed.
(** The escaped text stands for the text. *)
Lemma dump_body l : Forall (fun n => n < 1114112)%N l -> no_pair l -> body (dump_chars l) (text_of l).
Proof.
  induction l as [|n l IH]; intros F P; [constructor|]. inversion F as [|? ? Hn F']; subst. destruct P as [P P'].
  specialize (IH F' P'). cbn [dump_chars text_of]. unfold dump_char.
  destruct (N.eqb_spec n 34) as [->|]; [apply (body_escape "034" "034"); [constructor|exact IH]|].
  destruct (N.eqb_spec n 92) as [->|]; [apply (body_escape "092" "092"); [constructor|exact IH]|].
  destruct (N.eqb_spec n 10) as [->|]; [apply (body_escape "n" "010"); [constructor|exact IH]|].
  destruct (N.eqb_spec n 13) as [->|]; [apply (body_escape "r" "013"); [constructor|exact IH]|].
  destruct (N.eqb_spec n 9) as [->|]; [apply (body_escape "t" "009"); [constructor|exact IH]|].
  destruct (N.eqb_spec n 12) as [->|]; [apply (body_escape "f" "012"); [constructor|exact IH]|].
  destruct (N.eqb_spec n 8) as [->|]; [apply (body_escape "b" "008"); [constructor|exact IH]|].
  destruct ((32 <=? n) && (n <=? 126))%N eqn:R.
  { apply andb_prop in R as [R1 R2]. apply N.leb_le in R1, R2.
    assert (Eu : utf8 n = byte n) by (unfold utf8; destruct (N.ltb_spec n 128); [reflexivity|lia]). rewrite Eu. unfold byte. cbn [append].
    assert (C : N_of_ascii (ascii_of_N n) = n) by (apply N_of_byte; lia).
    constructor; [rewrite code_N, C; lia|intros E; apply (f_equal N_of_ascii) in E; rewrite C in E; cbn in E; congruence|
      intros E; apply (f_equal N_of_ascii) in E; rewrite C in E; cbn in E; congruence|exact IH]. }
  clear R. destruct (N.ltb_spec n 65536) as [Hs|Hs].
  - apply (body_unit _ n); [now apply unit_escape_spec|apply utf8_coded; exact Hn|exact IH|].
    intros [Hh (u' & n' & r & E & U & L)]. destruct l as [|m l].
    + cbn in E. apply unit_text_spec in U as (a & b & c & d & -> & _). discriminate.
    + apply P. split; [exact Hh|]. inversion F'; subst. cbn [dump_chars] in E. eapply dump_char_unit; eassumption.
  - rewrite app_cons_assoc. assert (Q : ((n - 65536) / 1024 < 1024)%N) by (apply N.div_lt_upper_bound; lia).
    assert (M := N.mod_lt (n - 65536) 1024 ltac:(lia)). assert (D := N.div_mod (n - 65536) 1024 ltac:(lia)).
    revert Q M D. generalize ((n - 65536) mod 1024)%N. intros m. generalize ((n - 65536) / 1024)%N. intros d Q M D.
    apply (body_pair _ (55296 + d) _ (56320 + m)).
    + apply unit_escape_spec. lia.
    + unfold high. lia.
    + apply unit_escape_spec. lia.
    + unfold low. lia.
    + replace (65536 + 1024 * (55296 + d - 55296) + (56320 + m - 56320))%N with n by lia. apply utf8_coded. exact Hn.
    + exact IH.
Qed.
Lemma dump_string_body s : python_text s -> exists b, dump_string s = quoted b /\ body b s.
Proof.
  intros (l & -> & F & P). exists (dump_chars l). split; [|now apply dump_body].
  unfold dump_string. rewrite (code_points_text l F). reflexivity.
Qed.

(** ** Texts read from ASCII files *)
Definition plain_ascii (s : string) : Prop := all_chars (fun c => N_of_ascii c < 128)%N s.
Lemma ascii_app a b : plain_ascii (a ++ b) <-> plain_ascii a /\ plain_ascii b.
Proof. apply all_chars_app. Qed.
Lemma coded_range n k : coded n k -> (n < 1114112)%N.
Proof.
  unfold coded. intros [(a & H)|[(a & b & x & y & H)|[(a & b & c & x & y & z & H)|(a & b & c & d & x & y & z & w & H)]]]; lia.
Qed.
Lemma body_text b t : body b t -> plain_ascii b -> exists l, t = text_of l /\ Forall (fun n => n < 1114112)%N l /\ no_pair l /\
  forall m l', l = m :: l' -> low m -> exists u n r, b = (u ++ r)%string /\ unit_text u n /\ low n.
Proof.
  induction 1 as [|c s t _ _ _ H IH|e x s t He H IH|u n k s t U C H IH NP|u n u' n' k s t U Hh U' Hl C H IH]; intros A.
  - exists []. repeat split; [constructor|discriminate].
  - destruct A as [Ac As]. destruct (IH As) as (l & -> & F & P & _). exists (N_of_ascii c :: l). cbn [text_of no_pair]. split; [|split; [|split]].
    + assert (E : utf8 (N_of_ascii c) = byte (N_of_ascii c)) by (unfold utf8; destruct (N.ltb_spec (N_of_ascii c) 128); [reflexivity|lia]).
      rewrite E. unfold byte. rewrite ascii_N_embedding. reflexivity.
    + constructor; [lia|exact F].
    + split; [|exact P]. destruct l; [exact I|]. unfold high. lia.
    + intros m l' E L. injection E as <- _. unfold low in L. lia.
  - destruct A as [_ [_ As]]. destruct (IH As) as (l & -> & F & P & _). exists (N_of_ascii x :: l). cbn [text_of no_pair].
    assert (Ax : (N_of_ascii x < 128)%N) by (destruct He; reflexivity). split; [|split; [|split]].
    + assert (E : utf8 (N_of_ascii x) = byte (N_of_ascii x)) by (unfold utf8; destruct (N.ltb_spec (N_of_ascii x) 128); [reflexivity|lia]).
      rewrite E. unfold byte. rewrite ascii_N_embedding. reflexivity.
    + constructor; [lia|exact F].
    + split; [|exact P]. destruct l; [exact I|]. unfold high. lia.
    + intros m l' E L. injection E as <- _. unfold low in L. lia.
  - apply ascii_app in A as [_ As]. destruct (IH As) as (l & -> & F & P & Q). assert (R := coded_range n k C). exists (n :: l). cbn [text_of no_pair]. split; [|split; [|split]].
    + rewrite (coded_fun n k (utf8 n) C (utf8_coded n R)). reflexivity.
    + constructor; [exact R|exact F].
    + split; [|exact P]. destruct l as [|m l]; [exact I|]. intros [Hh Hl]. apply NP. split; [exact Hh|].
      destruct (Q m l eq_refl Hl) as (u' & n' & r & E & U' & L'). exists u', n', r. auto.
    + intros m l' E L. injection E as <- _. exists u, n, s. auto.
  - apply ascii_app in A as [_ A]. apply ascii_app in A as [_ As]. destruct (IH As) as (l & -> & F & P & _). assert (R := coded_range _ k C).
    set (q := (65536 + 1024 * (n - 55296) + (n' - 56320))%N) in *. assert (Hq : (65536 <= q)%N) by (unfold q; lia).
    exists (q :: l). cbn [text_of no_pair]. split; [|split; [|split]].
    + rewrite (coded_fun q k (utf8 q) C (utf8_coded q R)). reflexivity.
    + constructor; [exact R|exact F].
    + split; [|exact P]. destruct l; [exact I|]. unfold high. lia.
    + intros m l' E L. injection E as <- _. unfold low in L. lia.
Qed.
Lemma ascii_python_text b t : body b t -> plain_ascii b -> python_text t.
Proof. intros B A. destruct (body_text b t B A) as (l & E & F & P & _). exists l. auto. Qed.

Lemma hex_ascii c n : hex c n -> (N_of_ascii c < 128)%N.
Proof. unfold hex. cbv zeta. lia. Qed.
Lemma unit_ascii u n : unit_text u n -> plain_ascii u.
Proof.
  intros (a & b & c & d & x & y & z & w & -> & A & B & C & D & _). apply hex_ascii in A, B, C, D.
  repeat split; try assumption; reflexivity.
Qed.
Lemma dump_char_ascii n : (n < 1114112)%N -> plain_ascii (dump_char n).
Proof.
  intros Hn. unfold dump_char.
  do 7 (match goal with |- plain_ascii (if ?b then _ else _) => destruct b; [repeat split; reflexivity|] end).
  destruct ((32 <=? n) && (n <=? 126))%N eqn:R.
  { apply andb_prop in R as [R1 R2]. apply N.leb_le in R1, R2. split; [|exact I]. rewrite N_of_byte by lia. lia. }
  destruct (N.ltb_spec n 65536) as [Hs|Hs]; [eapply unit_ascii, unit_escape_spec; exact Hs|].
  assert (Q : ((n - 65536) / 1024 < 1024)%N) by (apply N.div_lt_upper_bound; lia).
  assert (M := N.mod_lt (n - 65536) 1024 ltac:(lia)). revert Q M. generalize ((n - 65536) mod 1024)%N. intros m.
  generalize ((n - 65536) / 1024)%N. intros d Q M. apply ascii_app. split; eapply unit_ascii, unit_escape_spec; lia.
Qed.
Lemma dump_string_ascii s : python_text s -> plain_ascii (dump_string s).
Proof.
  intros (l & -> & F & _). unfold dump_string. rewrite (code_points_text l F). split; [reflexivity|]. apply ascii_app. split; [|split; [reflexivity|exact I]].
  induction F as [|n l Hn F IH]; [exact I|]. cbn [dump_chars]. apply ascii_app. split; [now apply dump_char_ascii|exact IH].
Qed.

(** ** Values *)
Section Values.
Context {T : Type} {N : Num T}.
Context (constant : string -> T) (float_text : T -> string).
Notation dumps := (dumps float_text). Notation dump := (dump float_text).

(** The text printed for a float is one that stands for that float: [float(repr(x)) == x]
    for the finite ones, the constants for the others (a guarantee of CPython). *)
Definition prints_back (x : T) : Prop := value constant (float_text x) (JFloat x).
(** Values a Python program can hold after [json.load]: texts are code points, keys of an
    object are different. *)
Inductive writable : json T -> Prop :=
| writable_null : writable JNull
| writable_bool b : writable (JBool b)
| writable_int z : writable (JInt z)
| writable_float x : prints_back x -> writable (JFloat x)
| writable_str s : python_text s -> writable (JStr s)
| writable_arr l : Forall writable l -> writable (JArr l)
| writable_obj f : NoDup (map fst f) -> Forall python_text (map fst f) -> Forall (fun p => writable (snd p)) f -> writable (JObj f).

Lemma spaces_blank n : blank (spaces n).
Proof. induction n as [|n IH]; [exact I|]. split; [left; reflexivity|exact IH]. Qed.
Lemma indent_blank n : blank (newline_indent n).
Proof. split; [right; right; left; reflexivity|]. apply spaces_blank. Qed.
Lemma int_value z : value constant (Z_to_string z) (JInt z).
Proof.
  assert (H : @scan_number T N (Z_to_string z ++ "") = Some (JInt z, ""%string)) by exact (scan_number_int constant float_text z "" I).
  rewrite string_app_nil_r in H. apply (scan_number_sound constant) in H as (t & E & V).
  rewrite string_app_nil_r in E. rewrite E. exact V.
Qed.
Lemma own_dict (f : list (string * json T)) : NoDup (map fst f) -> dict f f.
Proof.
  intros D. assert (G : forall (f : list (string * json T)) seen, NoDup (map fst f) -> (forall k, In k (map fst f) -> ~ In k seen) -> first_keys seen f = map fst f).
  { clear. induction f as [|[k v] f IH]; intros seen D H; [reflexivity|]. inversion D as [|? ? Hk D']; subst. cbn.
    destruct (in_dec string_dec k seen) as [Hi|Hi]; [destruct (H k); [left; reflexivity|exact Hi]|]. f_equal. apply IH; [exact D'|].
    intros j Hj [<-|Hs]; [contradiction|]. apply (H j); [right; exact Hj|exact Hs]. }
  split; [symmetry; apply G; [exact D|intros k _ []]|]. intros k.
  clear G. induction f as [|[x v] f IH]; [reflexivity|]. inversion D as [|? ? Hk D']; subst. cbn [rev]. rewrite assoc_app_l. cbn [assoc].
  rewrite <- (IH D'). destruct (String.eqb_spec k x) as [->|]; [|destruct (assoc k f); reflexivity].
  rewrite (proj2 (assoc_None_notin x f) Hk). reflexivity.
Qed.
Lemma dump_value : forall v, writable v -> forall level, value constant (dump level v) v.
Proof.
  induction v as [|b|z|x|s|l IH|f IH] using json_size_ind; intros W level; inversion W; subst.
  - constructor.
  - destruct b; constructor.
  - apply int_value.
  - assumption.
  - destruct (dump_string_body s) as (b & E & B); [assumption|]. cbn [JsonDump.dump]. rewrite E. now constructor.
  - destruct l as [|v l]; [exact (value_no_array constant "" I)|]. cbn [JsonDump.dump].
    match goal with H : Forall writable _ |- _ => rename H into Ws end.
    match goal with |- value _ (String "[" (_ ++ _ ++ ?m l)) _ => set (more := m) end.
    assert (G : forall l v, Forall (fun v => writable v -> forall level, value constant (dump level v) v) (v :: l) -> Forall writable (v :: l) ->
      exists body, (dump (S level) v ++ more l)%string = (body ++ "]")%string /\ elements constant body (v :: l)).
    { clear. induction l as [|w l IHl]; intros v IH Ws; inversion IH as [|? ? Hv IH']; subst; inversion Ws as [|? ? Wv Ws']; subst.
      - exists (dump (S level) v ++ newline_indent level)%string. split; [cbn [more]; rewrite !app_cons_assoc; reflexivity|].
        constructor; [now apply Hv|apply indent_blank].
      - destruct (IHl w IH' Ws') as (b & E & B). exists (dump (S level) v ++ "" ++ String "," (newline_indent (S level) ++ b))%string. split.
        + change (more (w :: l)) with (String "," (newline_indent (S level) ++ dump (S level) w ++ more l)). rewrite E.
          rewrite !app_cons_assoc. cbn [append]. rewrite !app_cons_assoc. reflexivity.
        + constructor; [now apply Hv|exact I|apply indent_blank|exact B]. }
    destruct (G l v IH Ws) as (b & E & B). rewrite E. constructor; [apply indent_blank|exact B].
  - destruct f as [|[k v] f]; [exact (value_no_object constant "" I)|]. cbn [JsonDump.dump].
    match goal with H : Forall (fun p => writable (snd p)) _ |- _ => rename H into Ws end.
    match goal with H : Forall python_text _ |- _ => rename H into Ks end.
    match goal with |- value _ (String "{" (_ ++ _ ++ _ ++ _ ++ ?m f)) _ => set (more := m) end.
    assert (G : forall f k v, Forall (fun p => writable (snd p) -> forall level, value constant (dump level (snd p)) (snd p)) ((k, v) :: f) ->
      Forall (fun p => writable (snd p)) ((k, v) :: f) -> Forall python_text (map fst ((k, v) :: f)) ->
      exists body, (dump_string k ++ ": " ++ dump (S level) v ++ more f)%string = (body ++ "}")%string /\ members constant body ((k, v) :: f)).
    { clear. induction f as [|[k' w] f IHf]; intros k v IH Ws Ks; inversion IH as [|? ? Hv IH']; subst; inversion Ws as [|? ? Wv Ws']; subst; inversion Ks as [|? ? Kk Ks']; subst.
      - destruct (dump_string_body k Kk) as (kb & Ek & Kb). exists (quoted kb ++ "" ++ String ":" (" " ++ dump (S level) v ++ newline_indent level))%string. split.
        + rewrite Ek. cbn [more]. cbn [append]. rewrite !app_cons_assoc. cbn [append]. rewrite !app_cons_assoc. reflexivity.
        + constructor; [exact Kb|exact I|split; [left; reflexivity|exact I]|now apply Hv|apply indent_blank].
      - destruct (IHf k' w IH' Ws' Ks') as (b & E & B). destruct (dump_string_body k Kk) as (kb & Ek & Kb).
        exists (quoted kb ++ "" ++ String ":" (" " ++ dump (S level) v ++ "" ++ String "," (newline_indent (S level) ++ b)))%string. split.
        + change (more ((k', w) :: f)) with (String "," (newline_indent (S level) ++ dump_string k' ++ ": " ++ dump (S level) w ++ more f)). rewrite E, Ek.
          cbn [append]. rewrite !app_cons_assoc. cbn [append]. rewrite !app_cons_assoc. cbn [append]. rewrite !app_cons_assoc. reflexivity.
        + constructor; [exact Kb|exact I|split; [left; reflexivity|exact I]|now apply Hv|exact I|apply indent_blank|exact B]. }
    destruct (G f k v IH Ws Ks) as (b & E & B). rewrite E. eapply value_object; [apply indent_blank|exact B|]. now apply own_dict.
Qed.
(** Reading a saved file gives what was saved. *)
Theorem C93_saved_value_reads_back : forall v, writable v -> loads constant (dumps v) = Some v.
Proof.
  intros v W. apply C92_reads_exactly_json. exists ""%string, (dumps v), ""%string.
  split; [exact I|]. split; [exact I|]. split; [rewrite string_app_nil_r; reflexivity|]. now apply dump_value.
Qed.
(** Different configurations are saved as different files. *)
Corollary C93_text_determines_value : forall v v', writable v -> writable v' -> dumps v = dumps v' -> v = v'.
Proof. intros v v' W W' E. apply C93_saved_value_reads_back in W, W'. rewrite E in W. congruence. Qed.

(** Every float in a value satisfies [P]. *)
Inductive all_floats (P : T -> Prop) : json T -> Prop :=
| all_null : all_floats P JNull
| all_bool b : all_floats P (JBool b)
| all_int z : all_floats P (JInt z)
| all_float x : P x -> all_floats P (JFloat x)
| all_str s : all_floats P (JStr s)
| all_arr l : Forall (all_floats P) l -> all_floats P (JArr l)
| all_obj f : Forall (fun p => all_floats P (snd p)) f -> all_floats P (JObj f).

Lemma dict_values (ps m : list (string * json T)) : dict ps m -> NoDup (map fst m) /\ (forall p, In p m -> In p ps).
Proof.
  intros [K A]. assert (D : NoDup (map fst m)) by (rewrite K; apply (proj1 (first_keys_spec constant ps []))).
  split; [exact D|]. intros [k v] Hp. apply in_rev. assert (E : assoc k m = Some v).
  { clear K A. induction m as [|[x w] m IH]; [destruct Hp|]. inversion D as [|? ? Hx D']; subst. cbn [assoc]. destruct Hp as [E|Hp].
    - injection E as -> ->. rewrite String.eqb_refl. reflexivity.
    - destruct (String.eqb_spec k x) as [->|]; [|now apply IH]. exfalso. apply Hx. apply (in_map fst) in Hp. exact Hp. }
  rewrite A in E. clear - E. induction (rev ps) as [|[x w] r IH]; [discriminate|]. cbn [assoc] in E. destruct (String.eqb_spec k x) as [->|].
  - injection E as ->. left. reflexivity.
  - right. now apply IH.
Qed.
Lemma value_writable :
  (forall t v, value constant t v -> plain_ascii t -> all_floats prints_back v -> writable v) /\
  (forall t l, elements constant t l -> plain_ascii t -> Forall (fun v => all_floats prints_back v -> writable v) l) /\
  (forall t ps, members constant t ps -> plain_ascii t -> Forall (fun p => python_text (fst p) /\ (all_floats prints_back (snd p) -> writable (snd p))) ps).
Proof.
  apply grammar_ind; try (intros; now constructor).
  - intros s x _ _ _ F. inversion F; subst. now constructor.
  - intros _ F. inversion F; subst. now constructor.
  - intros _ F. inversion F; subst. now constructor.
  - intros _ F. inversion F; subst. now constructor.
  - intros s t B A _. destruct A as [_ A]. apply ascii_app in A as [A _]. constructor. eapply ascii_python_text; eassumption.
  - intros w s l _ _ IH A F. destruct A as [_ A]. apply ascii_app in A as [_ A]. apply ascii_app in A as [A _]. specialize (IH A).
    constructor. inversion F as [| | | | |l' Fl El|]; subst. rewrite Forall_forall in *. intros v Hv. apply IH; [exact Hv|now apply Fl].
  - intros w _ _ _. constructor; constructor.
  - intros w s ps m _ _ IH D A F. destruct A as [_ A]. apply ascii_app in A as [_ A]. apply ascii_app in A as [A _]. specialize (IH A).
    destruct (dict_values ps m D) as [ND Hin]. inversion F as [| | | | | |f' Ff Ef]; subst. rewrite Forall_forall in *. constructor; [exact ND| |].
    + rewrite Forall_forall. intros k Hk. apply in_map_iff in Hk as (p & <- & Hp). apply IH, Hin, Hp.
    + rewrite Forall_forall. intros p Hp. apply IH; [apply Hin, Hp|now apply Ff].
  - intros s v w _ IH _ A. apply ascii_app in A as [A _]. constructor; [now apply IH|constructor].
  - intros s v w1 w2 r l _ IH _ _ _ IHl A. apply ascii_app in A as [A A']. apply ascii_app in A' as [_ A']. destruct A' as [_ A']. apply ascii_app in A' as [_ A'].
    constructor; [now apply IH|now apply IHl].
  - intros k key w1 w2 s v w3 B _ _ _ IH _ A. apply ascii_app in A as [Ak A]. apply ascii_app in A as [_ A]. destruct A as [_ A]. apply ascii_app in A as [_ A]. apply ascii_app in A as [A _].
    destruct Ak as [_ Ak]. apply ascii_app in Ak as [Ak _]. constructor; [|constructor]. split; [eapply ascii_python_text; eassumption|now apply IH].
  - intros k key w1 w2 s v w3 w4 r ps B _ _ _ IH _ _ _ IHr A. apply ascii_app in A as [Ak A]. apply ascii_app in A as [_ A]. destruct A as [_ A]. apply ascii_app in A as [_ A]. apply ascii_app in A as [A A'].
    apply ascii_app in A' as [_ A']. destruct A' as [_ A']. apply ascii_app in A' as [_ A'].
    destruct Ak as [_ Ak]. apply ascii_app in Ak as [Ak _]. constructor; [|now apply IHr]. split; [eapply ascii_python_text; eassumption|now apply IH].
Qed.
(** Whatever was read from an ASCII file can be saved and read again, if its floats print
    back. *)
Theorem C93_loaded_value_is_writable : forall s v, plain_ascii s -> loads constant s = Some v -> all_floats prints_back v -> writable v.
Proof.
  intros s v A H F. apply C92_reads_exactly_json in H as (w1 & t & w2 & _ & _ & -> & V). apply ascii_app in A as [_ A]. apply ascii_app in A as [A _].
  apply (proj1 value_writable t v V A F).
Qed.
Corollary C93_resaved_file_reads_the_same : forall s v, plain_ascii s -> loads constant s = Some v -> all_floats prints_back v ->
  loads constant (dumps v) = Some v.
Proof. intros s v A H F. apply C93_saved_value_reads_back. eapply C93_loaded_value_is_writable; eassumption. Qed.

Lemma assoc_set_in k v (f : list (string * json T)) p : In p (assoc_set k v f) -> p = (k, v) \/ In p f.
Proof.
  induction f as [|[x w] f IH]; cbn; [intros [<-|[]]; auto|]. destruct (String.eqb_spec k x) as [->|].
  - intros [<-|H]; auto.
  - intros [<-|H]; [auto|]. destruct (IH H); auto.
Qed.
Lemma assoc_set_nodup k v (f : list (string * json T)) : NoDup (map fst f) -> NoDup (map fst (assoc_set k v f)).
Proof.
  intros D. destruct (in_dec string_dec k (map fst f)) as [H|H].
  - rewrite (assoc_set_keys_in k v f H). exact D.
  - rewrite (assoc_set_keys_notin k v f H). apply (NoDup_Add (Add_app k (map fst f) [])). rewrite app_nil_r. auto.
Qed.
Lemma assoc_set_writable k v f : python_text k -> writable v -> writable (JObj f) -> writable (JObj (assoc_set k v f)).
Proof.
  intros K V W. inversion W as [| | | | | |f' D Ks Ws]; subst. rewrite Forall_forall in *. constructor; [now apply assoc_set_nodup| |]; rewrite Forall_forall.
  - intros x Hx. apply in_map_iff in Hx as (p & <- & Hp). apply assoc_set_in in Hp as [->|Hp]; [exact K|]. apply Ks, (in_map fst), Hp.
  - intros p Hp. apply assoc_set_in in Hp as [->|Hp]; [exact V|now apply Ws].
Qed.
(** A template with some entries replaced (the lava name and the slope file of
    make_new_json, the rate of a sweep): the next run reads exactly that. *)
Theorem C93_template_with_entries_reads_back : forall s f entries, plain_ascii s -> loads constant s = Some (JObj f) ->
  all_floats prints_back (JObj f) -> Forall (fun p => python_text (fst p) /\ writable (snd p)) entries ->
  let out := fold_left (fun f p => assoc_set (fst p) (snd p) f) entries f in
  loads constant (dumps (JObj out)) = Some (JObj out).
Proof.
  intros s f entries A H F E. apply C93_saved_value_reads_back. assert (W := C93_loaded_value_is_writable s _ A H F). clear - W E.
  revert f W. induction E as [|[k v] l [K V] E IH]; intros f W; [exact W|]. cbn [fold_left fst snd]. apply IH, assoc_set_writable; assumption.
Qed.

(** A saved file is ASCII, whatever the texts in it: the platform's encoding does not
    matter. *)
Lemma digits_ascii s : digits s -> plain_ascii s.
Proof.
  unfold digits, plain_ascii. induction s as [|c s IH]; [trivial|]. intros [H H']. split; [|now apply IH].
  unfold Props_RunFile.is_digit in H. unfold nat_of_ascii in H. lia.
Qed.
Lemma int_part_ascii s : int_part s -> plain_ascii s.
Proof. intros [H _]. now apply digits_ascii. Qed.
Lemma number_ascii s : number_text s -> plain_ascii s.
Proof.
  intros (sg & ip & fr & ex & -> & Hsg & Hip & Hfr & Hex & _). repeat (apply ascii_app; split).
  - destruct Hsg as [->| ->]; repeat split.
  - now apply int_part_ascii.
  - destruct Hfr as [->|(d & -> & D & _)]; [exact I|]. split; [reflexivity|now apply digits_ascii].
  - destruct Hex as [->|(e & pm & d & -> & He & Hpm & D & _)]; [exact I|]. split; [destruct He as [->| ->]; reflexivity|].
    apply ascii_app. split; [destruct Hpm as [->|[->| ->]]; repeat split|now apply digits_ascii].
Qed.
Lemma value_number_ascii t v : value constant t v -> match v with JInt _ | JFloat _ => True | _ => False end -> plain_ascii t.
Proof.
  destruct 1; intros Hv; try contradiction; try (repeat split; reflexivity).
  - now apply int_part_ascii.
  - split; [reflexivity|now apply int_part_ascii].
  - now apply number_ascii.
Qed.
Lemma indent_ascii n : plain_ascii (newline_indent n).
Proof. split; [reflexivity|]. generalize (4 * n)%nat. intros m. induction m as [|m IH]; [exact I|split; [reflexivity|exact IH]]. Qed.
Theorem C93_saved_text_is_ascii : forall v, writable v -> plain_ascii (dumps v).
Proof.
  intros v W. unfold JsonDump.dumps. generalize 0%nat. revert W.
  induction v as [|b|z|x|s|l IH|f IH] using json_size_ind; intros W level; inversion W; subst.
  - repeat split.
  - destruct b; repeat split.
  - exact (value_number_ascii _ _ (int_value z) I).
  - match goal with H : prints_back x |- _ => exact (value_number_ascii _ _ H I) end.
  - now apply dump_string_ascii.
  - match goal with H : Forall writable _ |- _ => rename H into Ws end. destruct l as [|v l]; [repeat split|]. cbn [JsonDump.dump].
    split; [reflexivity|]. apply ascii_app. split; [apply indent_ascii|]. inversion IH as [|? ? Hv IH']; subst. inversion Ws as [|? ? Wv Ws']; subst.
    apply ascii_app. split; [now apply Hv|]. clear - IH' Ws'. induction l as [|w l IHl]; [apply ascii_app; split; [apply indent_ascii|repeat split]|].
    inversion IH' as [|? ? Hw IH'']; subst. inversion Ws' as [|? ? Ww Ws'']; subst.
    split; [reflexivity|]. apply ascii_app. split; [apply indent_ascii|]. apply ascii_app. split; [now apply Hw|now apply IHl].
  - match goal with H : Forall (fun p => writable (snd p)) _ |- _ => rename H into Ws end.
    match goal with H : Forall python_text _ |- _ => rename H into Ks end. destruct f as [|[k v] f]; [repeat split|]. cbn [JsonDump.dump].
    inversion IH as [|? ? Hv IH']; subst. inversion Ws as [|? ? Wv Ws']; subst. inversion Ks as [|? ? Kk Ks']; subst.
    split; [reflexivity|]. apply ascii_app. split; [apply indent_ascii|]. apply ascii_app. split; [now apply dump_string_ascii|].
    apply ascii_app. split; [repeat split|]. apply ascii_app. split; [now apply Hv|].
    clear - IH' Ws' Ks'. induction f as [|[k w] f IHf]; [apply ascii_app; split; [apply indent_ascii|repeat split]|].
    inversion IH' as [|? ? Hw IH'']; subst. inversion Ws' as [|? ? Ww Ws'']; subst. inversion Ks' as [|? ? Kk Ks'']; subst.
    split; [reflexivity|]. apply ascii_app. split; [apply indent_ascii|]. apply ascii_app. split; [now apply dump_string_ascii|].
    apply ascii_app. split; [repeat split|]. apply ascii_app. split; [now apply Hw|now apply IHf].
Qed.
End Values.
Print Assumptions C93_saved_value_reads_back.
Print Assumptions C93_template_with_entries_reads_back.
Print Assumptions C93_saved_text_is_ascii.
