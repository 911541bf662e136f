(** * Props_Grammar: the editor reads exactly the JSON texts (C92). *)
From Coq Require Import Classical_Prop.
From Verif Require Import Base Num Json JsonText Props_RunFile JsonFacts JsonRead JsonGrammar EditJson.

(** ** Characters *)
Lemma code_N c : nat_of_ascii c = N.to_nat (N_of_ascii c).
Proof. reflexivity. Qed.
Lemma hex_val_spec c n : hex_val c = Some n <-> hex c n.
Proof.
  unfold hex_val, hex. rewrite code_N. set (m := N_of_ascii c). cbv zeta.
  destruct (Nat.leb_spec 48 (N.to_nat m)); destruct (Nat.leb_spec (N.to_nat m) 57); cbn [andb];
  try (destruct (Nat.leb_spec 65 (N.to_nat m)); destruct (Nat.leb_spec (N.to_nat m) 70); cbn [andb]);
  try (destruct (Nat.leb_spec 97 (N.to_nat m)); destruct (Nat.leb_spec (N.to_nat m) 102); cbn [andb]);
  (split; [intros E; first [discriminate|injection E as <-]; lia|intros E; first [f_equal; lia|exfalso; lia]]).
Qed.
Lemma hex_bound c n : hex c n -> (n < 16)%N.
Proof. unfold hex. cbv zeta. lia. Qed.
Lemma hex4_spec a b c d n : hex4 a b c d = Some n <->
  exists x y z w, hex a x /\ hex b y /\ hex c z /\ hex d w /\ (n = 4096 * x + 256 * y + 16 * z + w)%N.
Proof.
  unfold hex4. split.
  - destruct (hex_val a) as [x|] eqn:Ea; [|discriminate]. destruct (hex_val b) as [y|] eqn:Eb; [|discriminate].
    destruct (hex_val c) as [z|] eqn:Ec; [|discriminate]. destruct (hex_val d) as [w|] eqn:Ed; [|discriminate].
    intros E. injection E as <-. exists x, y, z, w. rewrite <- !hex_val_spec. repeat split; try assumption. lia.
  - intros (x & y & z & w & Ha & Hb & Hc & Hd & ->). apply hex_val_spec in Ha, Hb, Hc, Hd. rewrite Ha, Hb, Hc, Hd. f_equal. lia.
Qed.
Lemma hex4_bound a b c d n : hex4 a b c d = Some n -> (n < 65536)%N.
Proof. intros H. apply hex4_spec in H as (x & y & z & w & A & B & C & D & ->). apply hex_bound in A, B, C, D. lia. Qed.
Lemma simple_escape_spec e x : simple_escape e = Some x <-> escape e x.
Proof.
  split.
  - unfold simple_escape. repeat match goal with |- context [Ascii.eqb e ?c] => destruct (Ascii.eqb_spec e c) as [->|]; [intros E; injection E as <-; constructor|] end.
    discriminate.
  - intros []; reflexivity.
Qed.
Lemma N_of_byte n : (n < 256)%N -> N_of_ascii (ascii_of_N n) = n.
Proof. apply N_ascii_embedding. Qed.
Lemma utf8_coded n : (n < 1114112)%N -> coded n (utf8 n).
Proof.
  intros Hn. unfold utf8, coded. destruct (N.ltb_spec n 128); [left; exists (ascii_of_N n); repeat split; [apply N_of_byte; lia|lia]|].
  assert (M64 := N.mod_lt n 64 ltac:(lia)). assert (D64 := N.div_mod n 64 ltac:(lia)).
  destruct (N.ltb_spec n 2048).
  { right. left. exists (ascii_of_N (192 + n / 64)), (ascii_of_N (128 + n mod 64)), (n / 64)%N, (n mod 64)%N.
    assert (n / 64 < 32)%N by (apply N.div_lt_upper_bound; lia).
    repeat split; try lia; apply N_of_byte; lia. }
  assert (M1 := N.mod_lt (n / 64) 64 ltac:(lia)). assert (D1 := N.div_mod (n / 64) 64 ltac:(lia)).
  assert (Q1 : (n / 4096 = n / 64 / 64)%N) by (rewrite N.div_div by lia; reflexivity).
  destruct (N.ltb_spec n 65536).
  { right. right. left. exists (ascii_of_N (224 + n / 4096)), (ascii_of_N (128 + (n / 64) mod 64)), (ascii_of_N (128 + n mod 64)), (n / 4096)%N, ((n / 64) mod 64)%N, (n mod 64)%N.
    assert (n / 4096 < 16)%N by (apply N.div_lt_upper_bound; lia).
    repeat split; try lia; apply N_of_byte; lia. }
  right. right. right.
  exists (ascii_of_N (240 + n / 262144)), (ascii_of_N (128 + (n / 4096) mod 64)), (ascii_of_N (128 + (n / 64) mod 64)), (ascii_of_N (128 + n mod 64)),
    (n / 262144)%N, ((n / 4096) mod 64)%N, ((n / 64) mod 64)%N, (n mod 64)%N.
  assert (n / 262144 < 5)%N by (apply N.div_lt_upper_bound; lia).
  assert (M2 := N.mod_lt (n / 4096) 64 ltac:(lia)). assert (D2 := N.div_mod (n / 4096) 64 ltac:(lia)).
  assert (Q2 : (n / 262144 = n / 4096 / 64)%N) by (rewrite N.div_div by lia; reflexivity).
  repeat split; try lia; apply N_of_byte; lia.
Qed.
Lemma byte_inj a b : N_of_ascii a = N_of_ascii b -> a = b.
Proof. intros H. rewrite <- (ascii_N_embedding a), <- (ascii_N_embedding b), H. reflexivity. Qed.
Lemma coded_fun n k k' : coded n k -> coded n k' -> k = k'.
Proof.
  unfold coded. intros H H'.
  destruct H as [(a & -> & A1 & A2)|[(a & b & x & y & -> & A1 & A2 & A3 & A4 & A5)|[(a & b & c & x & y & z & -> & A1 & A2 & A3 & A4 & A5 & A6 & A7)|(a & b & c & d & x & y & z & w & -> & A1 & A2 & A3 & A4 & A5 & A6 & A7 & A8 & A9)]]];
  destruct H' as [(a' & -> & B1 & B2)|[(a' & b' & x' & y' & -> & B1 & B2 & B3 & B4 & B5)|[(a' & b' & c' & x' & y' & z' & -> & B1 & B2 & B3 & B4 & B5 & B6 & B7)|(a' & b' & c' & d' & x' & y' & z' & w' & -> & B1 & B2 & B3 & B4 & B5 & B6 & B7 & B8 & B9)]]];
  try (exfalso; lia); repeat f_equal; apply byte_inj; lia.
Qed.
Lemma coded_utf8 n k : (n < 1114112)%N -> coded n k -> k = utf8 n.
Proof. intros Hn H. exact (coded_fun n k _ H (utf8_coded n Hn)). Qed.
Lemma unit_text_spec u n : unit_text u n <->
  exists a b c d, u = String "092" (String "u" (String a (String b (String c (String d EmptyString))))) /\ hex4 a b c d = Some n.
Proof.
  unfold unit_text. split.
  - intros (a & b & c & d & x & y & z & w & -> & A & B & C & D & E). exists a, b, c, d. split; [reflexivity|]. apply hex4_spec. exists x, y, z, w. auto.
  - intros (a & b & c & d & -> & H). apply hex4_spec in H as (x & y & z & w & H). exists a, b, c, d, x, y, z, w. auto.
Qed.
Definition low_next (s : string) : Prop := exists u' n' r, s = (u' ++ r)%string /\ unit_text u' n' /\ low n'.

(** ** Strings *)
Lemma scan_plain_unit a b c d n r : hex4 a b c d = Some n -> ~ (high n /\ low_next r) ->
  scan_string (String "092" (String "u" (String a (String b (String c (String d r)))))) =
  match scan_string r with Some (t, rest) => Some ((utf8 n ++ t)%string, rest) | None => None end.
Proof.
  intros H Hn. cbn [scan_string]. change (Ascii.eqb "092" dquote) with false. change (Ascii.eqb "092" backslash) with true.
  change (Ascii.eqb "u" "u") with true. cbv iota. rewrite H. cbv zeta.
  destruct r as [|x [|y [|a2 [|b2 [|c2 [|d2 r3]]]]]]; try reflexivity.
  destruct (N.leb_spec 55296 n) as [H1|H1]; [|reflexivity]. destruct (N.leb_spec n 56319) as [H2|H2]; [|reflexivity]. cbn [andb].
  destruct (Ascii.eqb_spec x backslash) as [->|]; [|reflexivity]. destruct (Ascii.eqb_spec y "u") as [->|]; [|reflexivity]. cbn [andb].
  destruct (hex4 a2 b2 c2 d2) as [lo|] eqn:E; [|reflexivity].
  destruct (N.leb_spec 56320 lo) as [H3|H3]; [|reflexivity]. destruct (N.leb_spec lo 57343) as [H4|H4]; [|reflexivity].
  exfalso. apply Hn. split; [unfold high; lia|]. eexists _, lo, r3. split; [|split].
  - instantiate (1 := String "092" (String "u" (String a2 (String b2 (String c2 (String d2 EmptyString)))))). reflexivity.
  - apply unit_text_spec. eauto 8.
  - unfold low. lia.
Qed.
Lemma scan_two_units a b c d n a2 b2 c2 d2 n2 r : hex4 a b c d = Some n -> high n -> hex4 a2 b2 c2 d2 = Some n2 -> low n2 ->
  scan_string (String "092" (String "u" (String a (String b (String c (String d
    (String "092" (String "u" (String a2 (String b2 (String c2 (String d2 r)))))))))))) =
  match scan_string r with Some (t, rest) => Some ((utf8 (65536 + 1024 * (n - 55296) + (n2 - 56320)) ++ t)%string, rest) | None => None end.
Proof.
  intros H Hn H2 Hn2. unfold high, low in *. rewrite (N.mul_comm 1024).
  set (s2 := String "092" (String "u" (String a2 (String b2 (String c2 (String d2 r)))))).
  cbn [scan_string]. change (Ascii.eqb "092" dquote) with false. change (Ascii.eqb "092" backslash) with true.
  change (Ascii.eqb "u" "u") with true. cbv iota. rewrite H. cbv zeta. unfold s2 at 1. cbv iota.
  rewrite (proj2 (N.leb_le 55296 n)), (proj2 (N.leb_le n 56319)) by lia.
  change (Ascii.eqb "092" backslash) with true. cbn [andb]. rewrite H2, (proj2 (N.leb_le 56320 n2)), (proj2 (N.leb_le n2 57343)) by lia. reflexivity.
Qed.
Lemma pair_bound n n2 : high n -> low n2 -> (65536 + 1024 * (n - 55296) + (n2 - 56320) < 1114112)%N.
Proof. unfold high, low. lia. Qed.
Lemma low_next_dec s : low_next s \/ ~ low_next s.
Proof. apply classic. Qed.

Lemma scan_string_sound m : forall s t r, (String.length s <= m)%nat -> scan_string s = Some (t, r) ->
  exists b, s = (b ++ String quote_char r)%string /\ body b t.
Proof.
  induction m as [|m IH]; intros s t r Hm H; (destruct s as [|c s]; [discriminate|]); cbn in Hm; [lia|].
  destruct (Ascii.eqb_spec c dquote) as [->|N1].
  { cbn [scan_string] in H. change (Ascii.eqb dquote dquote) with true in H. injection H as <- <-. exists EmptyString. split; [reflexivity|constructor]. }
  destruct (Ascii.eqb_spec c backslash) as [->|N2].
  2:{ cbn [scan_string] in H. rewrite (proj2 (Ascii.eqb_neq _ _) N1), (proj2 (Ascii.eqb_neq _ _) N2) in H.
      destruct (Nat.ltb_spec (nat_of_ascii c) 32); [discriminate|]. destruct (scan_string s) as [[t' r']|] eqn:E; [|discriminate].
      injection H as <- <-. destruct (IH s t' r' ltac:(lia) E) as (b & -> & B). exists (String c b). split; [reflexivity|]. constructor; assumption. }
  destruct s as [|e r1]; [discriminate|]. cbn in Hm.
  destruct (Ascii.eqb_spec e "u") as [->|N3].
  2:{ cbn [scan_string] in H. change (Ascii.eqb backslash dquote) with false in H. change (Ascii.eqb backslash backslash) with true in H.
      rewrite (proj2 (Ascii.eqb_neq _ _) N3) in H. destruct (simple_escape e) as [x|] eqn:Ex; [|discriminate].
      destruct (scan_string r1) as [[t' r']|] eqn:E; [|discriminate]. injection H as <- <-.
      destruct (IH r1 t' r' ltac:(lia) E) as (b & -> & B). exists (String escape_char (String e b)). split; [reflexivity|].
      constructor; [now apply simple_escape_spec|exact B]. }
  destruct r1 as [|a [|b [|c' [|d r2]]]]; try discriminate. cbn in Hm.
  destruct (hex4 a b c' d) as [n|] eqn:Eh.
  2:{ cbn [scan_string] in H. change (Ascii.eqb backslash dquote) with false in H. change (Ascii.eqb backslash backslash) with true in H.
      change (Ascii.eqb "u" "u") with true in H. cbv iota in H. rewrite Eh in H. discriminate. }
  change backslash with "092"%char in H.
  assert (U : unit_text (String "092" (String "u" (String a (String b (String c' (String d EmptyString)))))) n) by (apply unit_text_spec; eauto 8).
  assert (Hb := hex4_bound _ _ _ _ _ Eh).
  destruct (classic (high n /\ low_next r2)) as [[Hn (u' & n' & r3 & -> & U' & L')]|Hn].
  - apply unit_text_spec in U' as (a2 & b2 & c2 & d2 & -> & Eh2). cbn [append] in H, Hm |- *. rewrite (scan_two_units _ _ _ _ n _ _ _ _ n' r3 Eh Hn Eh2 L') in H.
    destruct (scan_string r3) as [[t' r']|] eqn:E; [|discriminate]. injection H as <- <-.
    cbn [String.length] in Hm. destruct (IH r3 t' r' ltac:(lia) E) as (bb & -> & B).
    assert (U' : unit_text (String "092" (String "u" (String a2 (String b2 (String c2 (String d2 EmptyString)))))) n') by (apply unit_text_spec; eauto 8).
    eexists. split; [|exact (body_pair _ n _ n' _ bb t' U Hn U' L' (utf8_coded _ (pair_bound n n' Hn L')) B)]. reflexivity.
  - rewrite (scan_plain_unit _ _ _ _ n r2 Eh Hn) in H. destruct (scan_string r2) as [[t' r']|] eqn:E; [|discriminate]. injection H as <- <-.
    destruct (IH r2 t' r' ltac:(lia) E) as (bb & -> & B).
    eexists. split; [|eapply (body_unit _ n _ bb t' U)].
    + reflexivity.
    + apply utf8_coded. lia.
    + exact B.
    + intros [Q (u' & n' & rr & -> & R)]. apply Hn. split; [exact Q|]. exists u', n', (rr ++ String quote_char r')%string.
      rewrite app_cons_assoc. split; [reflexivity|exact R].
Qed.
Lemma hex_not_quote c n : hex c n -> c <> quote_char.
Proof. intros H ->. unfold hex in H. cbn in H. lia. Qed.
(** A unit that begins a text closed by a quote ends before that quote. *)
Lemma unit_inside b r u n z : unit_text u n -> (b ++ String quote_char r = u ++ z)%string -> exists z', b = (u ++ z')%string.
Proof.
  intros (x1 & x2 & x3 & x4 & y1 & y2 & y3 & y4 & -> & H1 & H2 & H3 & H4 & _) E. apply hex_not_quote in H1, H2, H3, H4. cbn [append] in *.
  destruct b as [|c b]; [discriminate|]. cbn [append] in E. injection E as -> E.
  destruct b as [|c b]; [discriminate|]. cbn [append] in E. injection E as -> E.
  destruct b as [|c b]; cbn [append] in E; injection E as E1 E; [congruence|subst c].
  destruct b as [|c b]; cbn [append] in E; injection E as E1 E; [congruence|subst c].
  destruct b as [|c b]; cbn [append] in E; injection E as E1 E; [congruence|subst c].
  destruct b as [|c b]; cbn [append] in E; injection E as E1 E; [congruence|subst c].
  exists b. reflexivity.
Qed.
Lemma scan_string_complete b t : body b t -> forall r, scan_string (b ++ String quote_char r) = Some (t, r).
Proof.
  intros H. induction H as [|c s t Hc N1 N2 H IH|e x s t He H IH|u n k s t U Hk H IH Hn|u n u' n' k s t U Hn U' Hn' Hk H IH]; intros r.
  - reflexivity.
  - cbn [append scan_string]. rewrite (proj2 (Ascii.eqb_neq c dquote) N1), (proj2 (Ascii.eqb_neq c backslash) N2).
    destruct (Nat.ltb_spec (nat_of_ascii c) 32); [lia|]. rewrite IH. reflexivity.
  - cbn [append scan_string]. change (Ascii.eqb escape_char dquote) with false. change (Ascii.eqb escape_char backslash) with true. cbv iota.
    destruct (Ascii.eqb_spec e "u") as [->|]; [inversion He|]. rewrite (proj2 (simple_escape_spec e x) He), IH. reflexivity.
  - assert (U0 := U). apply unit_text_spec in U as (x1 & x2 & x3 & x4 & -> & Eh). cbn [append]. rewrite (scan_plain_unit _ _ _ _ n _ Eh).
    + rewrite IH. rewrite (coded_utf8 n k); [reflexivity| |exact Hk]. assert (Q := hex4_bound _ _ _ _ _ Eh). lia.
    + intros [Q (u' & n' & z & E & V & L)]. apply Hn. split; [exact Q|]. destruct (unit_inside _ _ _ _ _ V E) as [z' ->]. exists u', n', z'. auto.
  - apply unit_text_spec in U as (x1 & x2 & x3 & x4 & -> & Eh). apply unit_text_spec in U' as (y1 & y2 & y3 & y4 & -> & Eh').
    cbn [append]. rewrite (scan_two_units _ _ _ _ n _ _ _ _ n' _ Eh Hn Eh' Hn'), IH. rewrite <- (coded_utf8 _ k (pair_bound n n' Hn Hn') Hk). reflexivity.
Qed.

(** ** Blanks *)
Lemma is_ws_spec c : is_ws c = true <-> (nat_of_ascii c = 32 \/ nat_of_ascii c = 9 \/ nat_of_ascii c = 10 \/ nat_of_ascii c = 13)%nat.
Proof. unfold is_ws. rewrite !orb_true_iff, !Nat.eqb_eq. tauto. Qed.
Lemma skip_ws_sound s : exists w, blank w /\ s = (w ++ skip_ws s)%string.
Proof.
  induction s as [|c s (w & B & E)]; [exists EmptyString; split; [exact I|reflexivity]|]. cbn [skip_ws].
  destruct (is_ws c) eqn:Ec; [|exists EmptyString; split; [exact I|reflexivity]].
  exists (String c w). split; [split; [now apply is_ws_spec|exact B]|]. cbn [append]. rewrite <- E. reflexivity.
Qed.
Definition solid (s : string) : Prop := match s with EmptyString => True | String c _ => is_ws c = false end.
Lemma skip_ws_blank w x : blank w -> solid x -> skip_ws (w ++ x) = x.
Proof.
  induction w as [|c w IH]; intros B Hx.
  - destruct x as [|c x]; [reflexivity|]. cbn in *. rewrite Hx. reflexivity.
  - destruct B as [Bc B]. cbn [append skip_ws]. rewrite (proj2 (is_ws_spec c) Bc). now apply IH.
Qed.
Lemma blank_stops w x : blank w -> stops x -> stops (w ++ x).
Proof.
  destruct w as [|c w]; [auto|]. intros [B _] _. cbn. unfold Num.is_digit.
  split; [destruct B as [B|[B|[B|B]]]; rewrite B; reflexivity|].
  repeat split; intros ->; cbn in B; lia.
Qed.

(** ** Numbers *)
Lemma digit_spec c : Num.is_digit c = true -> Props_RunFile.is_digit c.
Proof. unfold Num.is_digit, Props_RunFile.is_digit. rewrite andb_true_iff, !Nat.leb_le. auto. Qed.
Lemma span_digits_sound s : forall a b, span_digits s = (a, b) -> s = (a ++ b)%string /\ digits a.
Proof.
  induction s as [|c s IH]; intros a b H; cbn in H; [injection H as <- <-; split; [reflexivity|exact I]|].
  destruct (Num.is_digit c) eqn:E; [|injection H as <- <-; split; [reflexivity|exact I]].
  destruct (span_digits s) as [x y]. injection H as <- <-. destruct (IH x y eq_refl) as [-> D].
  split; [reflexivity|]. split; [now apply digit_spec|exact D].
Qed.
Lemma scan_int_sound s a b : scan_int s = Some (a, b) -> s = (a ++ b)%string /\ int_part a.
Proof.
  destruct s as [|c s]; [discriminate|]. cbn [scan_int]. destruct (Ascii.eqb_spec c "0") as [->|N0].
  - intros H. injection H as <- <-. split; [reflexivity|]. split; [|auto]. split; [|exact I]. unfold Props_RunFile.is_digit. cbn. lia.
  - destruct (Num.is_digit c) eqn:E; [|discriminate]. intros H. apply (f_equal (fun o => match o with Some p => p | None => (a, b) end)) in H. destruct (span_digits_sound (String c s) _ _ H) as [Es D].
    split; [exact Es|]. split; [exact D|]. cbn in H. rewrite E in H. destruct (span_digits s) as [x y]. injection H as <- <-. intros ->. contradiction.
Qed.
Lemma scan_frac_sound s a b : scan_frac s = (a, b) -> s = (a ++ b)%string /\ (a = "" \/ exists d, a = String "." d /\ digits d /\ d <> "").
Proof.
  destruct s as [|c s]; cbn [scan_frac]; [intros H; injection H as <- <-; auto|].
  destruct (Ascii.eqb_spec c ".") as [->|]; [|intros H; injection H as <- <-; auto].
  destruct (span_digits s) as [x y] eqn:E. destruct (span_digits_sound _ _ _ E) as [-> D].
  destruct x as [|c x]; intros H; injection H as <- <-; [auto|]. split; [reflexivity|]. right. eexists. split; [reflexivity|]. split; [exact D|discriminate].
Qed.
Definition exponent (ex : string) : Prop :=
  exists e pm d, ex = String e (pm ++ d) /\ (e = "e"%char \/ e = "E"%char) /\
    (pm = "" \/ pm = "-"%string \/ pm = "+"%string) /\ digits d /\ d <> "".
Lemma scan_exp_sound s a b : scan_exp s = (a, b) -> s = (a ++ b)%string /\ (a = "" \/ exponent a).
Proof.
  destruct s as [|c s]; cbn [scan_exp]; [intros H; injection H as <- <-; auto|].
  destruct (Ascii.eqb c "e" || Ascii.eqb c "E") eqn:Ec; [|intros H; injection H as <- <-; auto].
  assert (Hc : c = "e"%char \/ c = "E"%char) by (apply orb_prop in Ec as [Ec|Ec]; apply Ascii.eqb_eq in Ec; auto).
  destruct (match s with EmptyString => _ | String _ _ => _ end) as [sg r1] eqn:Es.
  assert (Q : s = (sg ++ r1)%string /\ (sg = "" \/ sg = "-"%string \/ sg = "+"%string)).
  { destruct s as [|x s]; [injection Es as <- <-; auto|]. destruct (Ascii.eqb x "-" || Ascii.eqb x "+") eqn:Ex; injection Es as <- <-; [|auto].
    apply orb_prop in Ex as [Ex|Ex]; apply Ascii.eqb_eq in Ex; subst x; auto. }
  destruct Q as [-> Hs]. destruct (span_digits r1) as [x y] eqn:E. destruct (span_digits_sound _ _ _ E) as [-> D].
  destruct x as [|d x]; intros H; injection H as <- <-; [auto|]. split.
  - cbn [append]. rewrite app_cons_assoc. reflexivity.
  - right. exists c, sg, (String d x). repeat split; try assumption; try apply D. discriminate.
Qed.
Lemma int_of_digits_value s : int_part s -> int_of_digits s = decimal_value 0 s.
Proof. intros [D _]. unfold int_of_digits. rewrite (read_digits_value s 0 0 D). reflexivity. Qed.

Section Values.
Context {T : Type} {N : Num T}.
Context (constant : string -> T).
Notation value := (value constant). Notation elements := (elements constant). Notation members := (members constant).

Lemma scan_number_sound s v r : scan_number s = Some (v, r) -> exists t, s = (t ++ r)%string /\ value t v.
Proof.
  unfold scan_number. destruct (match s with EmptyString => _ | String _ _ => _ end) as [sg s1] eqn:Es.
  assert (Q : s = (sg ++ s1)%string /\ (sg = "" \/ sg = "-"%string)).
  { destruct s as [|c s]; [injection Es as <- <-; auto|]. destruct (Ascii.eqb_spec c "-") as [->|]; injection Es as <- <-; auto. }
  destruct Q as [-> Hs]. destruct (scan_int s1) as [[ip s2]|] eqn:E1; [|discriminate]. destruct (scan_int_sound _ _ _ E1) as [-> Hip].
  destruct (scan_frac s2) as [fr s3] eqn:E2. destruct (scan_frac_sound _ _ _ E2) as [-> Hfr].
  destruct (scan_exp s3) as [ex s4] eqn:E3. destruct (scan_exp_sound _ _ _ E3) as [-> Hex].
  intros H. exists (sg ++ ip ++ fr ++ ex)%string.
  assert (C : (fr = "" /\ ex = "" /\ Some (JInt (match sg with EmptyString => int_of_digits ip | _ => (- int_of_digits ip)%Z end), s4) = Some (v, r)) \/
    (~ (fr = "" /\ ex = "") /\ match parse_float (sg ++ ip ++ fr ++ ex) with Ok x => Some (JFloat x, s4) | Err _ => None end = Some (v, r))).
  { destruct fr, ex; [left; auto|right; split; [intros [? ?]; discriminate|exact H]..]. }
  clear H. destruct C as [(-> & -> & H)|[Hne H]].
  - injection H as <- <-. rewrite !string_app_nil_r. rewrite (int_of_digits_value _ Hip). split.
    + rewrite !app_cons_assoc. reflexivity.
    + destruct Hs as [->| ->]; [now apply value_int|now apply value_minus].
  - destruct (parse_float _) as [x|] eqn:Ep; [|discriminate]. injection H as <- <-. split.
    + rewrite !app_cons_assoc. reflexivity.
    + apply value_float; [|exact Ep]. exists sg, ip, fr, ex. repeat split; try assumption; apply Hip.
Qed.
Lemma scan_number_complete_int sg s r : sg = "" \/ sg = "-"%string -> int_part s -> stops r ->
  scan_number ((sg ++ s) ++ r) = Some (@JInt T (match sg with EmptyString => decimal_value 0 s | _ => (- decimal_value 0 s)%Z end), r).
Proof.
  intros Hs I Hr.
  assert (F : scan_frac r = (EmptyString, r)).
  { destruct r as [|c x]; [reflexivity|]. cbn in *. destruct (Ascii.eqb_spec c "."); [tauto|reflexivity]. }
  assert (X : scan_exp r = (EmptyString, r)).
  { destruct r as [|c x]; [reflexivity|]. cbn [scan_exp] in *. destruct Hr as (_ & _ & H1 & H2).
    apply Ascii.eqb_neq in H1. apply Ascii.eqb_neq in H2. rewrite H1, H2. reflexivity. }
  assert (Fr : digit_free r) by (destruct r; cbn in *; tauto). assert (Sc := scan_int_part s r I Fr).
  unfold scan_number. destruct Hs as [->| ->]; cbn [append].
  - assert (E : match (s ++ r)%string with
                | EmptyString => (EmptyString, (s ++ r)%string)
                | String c x => if Ascii.eqb c "-" then ("-"%string, x) else (EmptyString, (s ++ r)%string)
                end = (EmptyString, (s ++ r)%string)).
    { destruct I as [Hd H0]. destruct s as [|c x]; [contradiction|]. cbn [append].
      rewrite (digit_not c "-" (proj1 Hd) eq_refl). reflexivity. }
    rewrite E, Sc, F, X, int_of_digits_value by exact I. reflexivity.
  - change (Ascii.eqb "-" "-") with true. cbv iota. rewrite Sc, F, X, int_of_digits_value by exact I. reflexivity.
Qed.

(** ** Objects *)
Definition put (m : list (string * json T)) (p : string * json T) : list (string * json T) := assoc_set (fst p) (snd p) m.
Lemma assoc_app_l k (a b : list (string * json T)) : assoc k (a ++ b) = match assoc k a with Some v => Some v | None => assoc k b end.
Proof. induction a as [|[x v] a IH]; cbn; [reflexivity|]. destruct (String.eqb k x); [reflexivity|exact IH]. Qed.
Lemma assoc_put k m x v : assoc k (put m (x, v)) = if string_dec x k then Some v else assoc k m.
Proof.
  unfold put. cbn [fst snd]. destruct (string_dec x k) as [->|Hn]; [apply assoc_set_same|].
  apply assoc_set_other. congruence.
Qed.
Lemma fold_assoc k ps : forall m, assoc k (fold_left put ps m) = match assoc k (rev ps) with Some v => Some v | None => assoc k m end.
Proof.
  induction ps as [|[x v] ps IH]; intros m; [reflexivity|]. cbn [fold_left rev]. rewrite IH, assoc_app_l, assoc_put.
  destruct (assoc k (rev ps)); [reflexivity|]. cbn. destruct (string_dec x k) as [->|Hn]; [rewrite String.eqb_refl; reflexivity|].
  destruct (String.eqb_spec k x); [congruence|reflexivity].
Qed.
Lemma fold_keys ps : forall m seen, (forall k, In k seen <-> In k (map fst m)) -> map fst (fold_left put ps m) = map fst m ++ first_keys seen ps.
Proof.
  induction ps as [|[x v] ps IH]; intros m seen Hs; [symmetry; apply app_nil_r|]. cbn [fold_left first_keys].
  destruct (in_dec string_dec x seen) as [Hx|Hx].
  - assert (E : map fst (put m (x, v)) = map fst m) by (apply assoc_set_keys_in; now apply Hs).
    rewrite (IH _ seen), E; [reflexivity|]. rewrite E. exact Hs.
  - assert (E : map fst (put m (x, v)) = map fst m ++ [x]) by (apply assoc_set_keys_notin; intros Hi; apply Hx; now apply Hs).
    rewrite (IH _ (x :: seen)), E, <- app_assoc; [reflexivity|]. intros k. rewrite E, in_app_iff. cbn. rewrite Hs. tauto.
Qed.
Lemma fold_dict ps : dict ps (fold_left put ps []).
Proof.
  split; [apply (fold_keys ps [] []); tauto|]. intros k. rewrite fold_assoc. destruct (assoc k (rev ps)); reflexivity.
Qed.
Lemma first_keys_spec (ps : list (string * json T)) : forall seen, NoDup (first_keys seen ps) /\ forall k, In k (first_keys seen ps) -> ~ In k seen.
Proof.
  induction ps as [|[x v] ps IH]; intros seen; cbn; [split; [constructor|tauto]|].
  destruct (in_dec string_dec x seen) as [Hx|Hx]; [apply IH|]. destruct (IH (x :: seen)) as [A B]. split.
  - constructor; [|exact A]. intros Hi. apply (B _ Hi). left. reflexivity.
  - intros k [<-|Hk]; [exact Hx|]. intros Hi. apply (B _ Hk). right. exact Hi.
Qed.
Lemma assoc_none k (m : list (string * json T)) : ~ In k (map fst m) -> assoc k m = None.
Proof.
  induction m as [|[x v] m IH]; cbn; [reflexivity|]. intros H. destruct (String.eqb_spec k x) as [->|]; [tauto|]. apply IH. tauto.
Qed.
Lemma same_dict : forall m m' : list (string * json T), map fst m = map fst m' -> NoDup (map fst m) -> (forall k, assoc k m = assoc k m') -> m = m'.
Proof.
  induction m as [|[x v] m IH]; intros [|[x' v'] m'] E D H; try discriminate; [reflexivity|].
  cbn in E, D. injection E as <- E. inversion D as [|? ? Hx D']; subst.
  assert (Hv := H x). cbn in Hv. rewrite String.eqb_refl in Hv. injection Hv as <-. f_equal.
  apply IH; [exact E|exact D'|]. intros k. destruct (String.eqb_spec k x) as [->|Hn].
  - rewrite !assoc_none; [reflexivity|rewrite <- E; exact Hx|exact Hx].
  - specialize (H k). cbn in H. apply String.eqb_neq in Hn. rewrite Hn in H. exact H.
Qed.
Lemma dict_fold ps m : dict ps m -> m = fold_left put ps [].
Proof.
  intros [K A]. destruct (fold_dict ps) as [K' A']. apply same_dict; [congruence|rewrite K; apply first_keys_spec|].
  intros k. rewrite A, A'. reflexivity.
Qed.

(** ** Values *)
Lemma eat_sound c s r : eat c s = Some r -> s = String c r.
Proof. destruct s as [|x s]; [discriminate|]. cbn. destruct (Ascii.eqb_spec x c) as [->|]; [|discriminate]. intros H. injection H as ->. reflexivity. Qed.
Lemma eat_same c s : eat c (String c s) = Some s.
Proof. cbn. rewrite Ascii.eqb_refl. reflexivity. Qed.
Lemma drop_prefix_sound p : forall s r, drop_prefix p s = Some r -> s = (p ++ r)%string.
Proof.
  induction p as [|a p IH]; intros s r H; cbn in H; [injection H as ->; reflexivity|]. destruct s as [|b s]; [discriminate|].
  destruct (Ascii.eqb_spec a b) as [->|]; [|discriminate]. cbn. f_equal. now apply IH.
Qed.
Lemma literal_sound s v r : literal constant s = Some (v, r) -> exists t, s = (t ++ r)%string /\ value t v.
Proof.
  unfold literal. intros H.
  destruct (drop_prefix "null" s) eqn:E1; [injection H as <- <-; apply drop_prefix_sound in E1; exists "null"%string; split; [exact E1|constructor]|].
  destruct (drop_prefix "true" s) eqn:E2; [injection H as <- <-; apply drop_prefix_sound in E2; exists "true"%string; split; [exact E2|constructor]|].
  destruct (drop_prefix "false" s) eqn:E3; [injection H as <- <-; apply drop_prefix_sound in E3; exists "false"%string; split; [exact E3|constructor]|].
  destruct (scan_number s) as [[v' r']|] eqn:E4; [injection H as <- <-; now apply scan_number_sound|].
  destruct (drop_prefix "NaN" s) eqn:E5; [injection H as <- <-; apply drop_prefix_sound in E5; exists "NaN"%string; split; [exact E5|exact (value_nan constant)]|].
  destruct (drop_prefix "Infinity" s) eqn:E6; [injection H as <- <-; apply drop_prefix_sound in E6; exists "Infinity"%string; split; [exact E6|exact (value_infinity constant)]|].
  destruct (drop_prefix "-Infinity" s) eqn:E7; [injection H as <- <-; apply drop_prefix_sound in E7; exists "-Infinity"%string; split; [exact E7|exact (value_minus_infinity constant)]|].
  discriminate.
Qed.
Lemma string_sound s t r : scan_string s = Some (t, r) -> exists b, s = (b ++ String quote_char r)%string /\ body b t.
Proof. apply (scan_string_sound (String.length s)). lia. Qed.
Lemma scan_sound : forall f,
  (forall s v r, scan constant f s = Some (v, r) -> exists t, s = (t ++ r)%string /\ value t v) /\
  (forall s l r, scan_elems constant f s = Some (l, r) -> exists t, s = (t ++ String "]" r)%string /\ elements t l) /\
  (forall acc s m r, scan_members constant f acc s = Some (m, r) -> exists t ps, s = (t ++ String "}" r)%string /\ members t ps /\ m = fold_left put ps acc).
Proof.
  induction f as [|f (IH1 & IH2 & IH3)]; [repeat split; discriminate|]. split; [|split].
  - intros s v r H. rewrite scan_S in H. destruct s as [|c s]; [discriminate|].
    destruct (Ascii.eqb_spec c dquote) as [->|].
    { destruct (scan_string s) as [[t rest]|] eqn:E; [|discriminate]. injection H as <- <-. apply string_sound in E as (b & -> & B).
      exists (quoted b). split; [|now constructor]. unfold quoted. cbn [append]. rewrite app_cons_assoc. reflexivity. }
    destruct (skip_ws_sound s) as (w & W & Ew).
    destruct (Ascii.eqb_spec c "{") as [->|].
    { destruct (eat "}" _) as [rest|] eqn:E.
      - injection H as <- <-. apply eat_sound in E. exists (String "{" (w ++ "}")). split; [|now constructor].
        cbn [append]. rewrite app_cons_assoc. cbn [append]. rewrite <- E, <- Ew. reflexivity.
      - destruct (scan_members constant f [] _) as [[m rest]|] eqn:E2; [|discriminate]. injection H as <- <-.
        apply IH3 in E2 as (t & ps & Et & M & ->). exists (String "{" (w ++ t ++ "}")). split.
        + cbn [append]. rewrite !app_cons_assoc. cbn [append]. rewrite <- Et, <- Ew. reflexivity.
        + eapply value_object; [exact W|exact M|apply fold_dict]. }
    destruct (Ascii.eqb_spec c "[") as [->|]; [|now apply literal_sound in H].
    destruct (eat "]" _) as [rest|] eqn:E.
    + injection H as <- <-. apply eat_sound in E. exists (String "[" (w ++ "]")). split; [|now constructor].
      cbn [append]. rewrite app_cons_assoc. cbn [append]. rewrite <- E, <- Ew. reflexivity.
    + destruct (scan_elems constant f _) as [[l rest]|] eqn:E2; [|discriminate]. injection H as <- <-.
      apply IH2 in E2 as (t & Et & M). exists (String "[" (w ++ t ++ "]")). split.
      * cbn [append]. rewrite !app_cons_assoc. cbn [append]. rewrite <- Et, <- Ew. reflexivity.
      * now constructor.
  - intros s l r H. rewrite scan_elems_S in H. destruct (scan constant f s) as [[v r1]|] eqn:E; [|discriminate].
    apply IH1 in E as (t & -> & V). destruct (skip_ws_sound r1) as (w & W & Ew).
    destruct (eat "]" _) as [rest|] eqn:E2.
    { injection H as <- <-. apply eat_sound in E2. exists (t ++ w)%string. split; [|now constructor].
      rewrite app_cons_assoc, <- E2, <- Ew. reflexivity. }
    destruct (eat "," _) as [rest|] eqn:E3; [|discriminate]. apply eat_sound in E3. destruct (skip_ws_sound rest) as (w2 & W2 & Ew2).
    destruct (scan_elems constant f _) as [[l' r']|] eqn:E4; [|discriminate]. injection H as <- <-. apply IH2 in E4 as (t' & Et' & M).
    exists (t ++ w ++ String "," (w2 ++ t'))%string. split; [|now constructor].
    rewrite !app_cons_assoc. cbn [append]. rewrite !app_cons_assoc, <- Et', <- Ew2, <- E3, <- Ew. reflexivity.
  - intros acc s m r H. rewrite scan_members_S in H. destruct (eat dquote s) as [r0|] eqn:E0; [|discriminate]. apply eat_sound in E0 as ->.
    destruct (scan_string r0) as [[k r1]|] eqn:E; [|discriminate]. apply string_sound in E as (b & -> & B).
    destruct (skip_ws_sound r1) as (w1 & W1 & Ew1). destruct (eat ":" _) as [r2|] eqn:E1; [|discriminate]. apply eat_sound in E1.
    destruct (skip_ws_sound r2) as (w2 & W2 & Ew2). destruct (scan constant f _) as [[v r3]|] eqn:E2; [|discriminate].
    apply IH1 in E2 as (t & Et & V). cbn zeta in H. destruct (skip_ws_sound r3) as (w3 & W3 & Ew3).
    assert (Head : forall x, (quoted b ++ x)%string = String dquote (b ++ String quote_char x)).
    { intros x. unfold quoted. cbn [append]. rewrite app_cons_assoc. reflexivity. }
    destruct (eat "}" _) as [rest|] eqn:E3.
    { injection H as <- <-. apply eat_sound in E3. exists (quoted b ++ w1 ++ String ":" (w2 ++ t ++ w3))%string, [(k, v)]. split; [|split; [now constructor|reflexivity]].
      rewrite !app_cons_assoc, Head. cbn [append]. rewrite !app_cons_assoc, <- E3, <- Ew3, <- Et, <- Ew2, <- E1, <- Ew1. reflexivity. }
    destruct (eat "," _) as [rest|] eqn:E4; [|discriminate]. apply eat_sound in E4. destruct (skip_ws_sound rest) as (w4 & W4 & Ew4).
    apply IH3 in H as (t' & ps & Et' & M & ->).
    exists (quoted b ++ w1 ++ String ":" (w2 ++ t ++ w3 ++ String "," (w4 ++ t')))%string, ((k, v) :: ps). split; [|split; [now constructor|reflexivity]].
    rewrite !app_cons_assoc, Head. cbn [append]. rewrite !app_cons_assoc. cbn [append]. rewrite !app_cons_assoc, <- Et', <- Ew4, <- E4, <- Ew3, <- Et, <- Ew2, <- E1, <- Ew1. reflexivity.
Qed.

Lemma eat_not c d s : c <> d -> eat c (String d s) = None.
Proof. intros H. cbn. destruct (Ascii.eqb_spec d c); [congruence|reflexivity]. Qed.
Lemma number_text_first s : number_text s -> match s with String c _ => Num.is_digit c = true \/ c = "-"%char | EmptyString => False end.
Proof.
  intros (sg & ip & fr & ex & -> & [->| ->] & [D I] & _); [|cbn; auto].
  destruct ip as [|c ip]; [contradiction|]. cbn. left. apply digit_true. apply D.
Qed.
Lemma int_part_first s : int_part s -> match s with String c _ => Num.is_digit c = true \/ c = "-"%char | EmptyString => False end.
Proof. intros [D I]. destruct s as [|c s]; [contradiction|]. left. apply digit_true. apply D. Qed.
(** A value starts with a character that is not a blank or a closing bracket. *)
Lemma value_starts t v : value t v -> starts_value t.
Proof.
  intros H. destruct H; try (cbn; repeat split; discriminate).
  - apply number_starts. now apply int_part_first.
  - apply number_starts. now apply number_text_first.
Qed.
Lemma starts_solid t x : starts_value t -> solid (t ++ x).
Proof. destruct t as [|c t]; [contradiction|]. intros H. apply H. Qed.
Lemma starts_not t x c : starts_value t -> c = "]"%char \/ c = "}"%char -> eat c (t ++ x) = None.
Proof.
  destruct t as [|d t]; [contradiction|]. cbn. intros (_ & N1 & N2) H. destruct (Ascii.eqb_spec d c) as [->|]; [|reflexivity]. destruct H; congruence.
Qed.
Lemma number_read s v r f : scan_number (s ++ r) = Some (v, r) -> scan constant (S f) (s ++ r) = Some (v, r).
Proof. apply (@scan_number_is_value T N constant). Qed.
Lemma length_app a b : (String.length (a ++ b) = String.length a + String.length b)%nat.
Proof. apply string_length_app. Qed.
Lemma length_cons c s : String.length (String c s) = Datatypes.S (String.length s).
Proof. reflexivity. Qed.
Ltac sizes := match goal with H : (_ < Datatypes.S _)%nat |- _ => repeat (rewrite length_app in H || rewrite length_cons in H) end;
  repeat (rewrite length_app || rewrite length_cons); lia.

Lemma scan_complete :
  (forall t v, value t v -> forall r f, stops r -> (2 * String.length (t ++ r) < f)%nat -> scan constant f (t ++ r) = Some (v, r)) /\
  (forall t l, elements t l -> starts_value t /\ forall r f, (2 * String.length (t ++ String "]" r) + 1 < f)%nat -> scan_elems constant f (t ++ String "]" r) = Some (l, r)) /\
  (forall t ps, members t ps -> (exists k, t = String quote_char k) /\ forall r acc f, (2 * String.length (t ++ String "}" r) + 1 < f)%nat ->
     scan_members constant f acc (t ++ String "}" r) = Some (fold_left put ps acc, r)).
Proof.
  assert (Sep : forall c x, In c ["]"; "}"; ","]%char -> stops (String c x)).
  { intros c x [<-|[<-|[<-|[]]]]; cbn; repeat split; discriminate. }
  assert (Quoted : forall b x, (quoted b ++ x)%string = String dquote (b ++ String quote_char x)).
  { intros b x. unfold quoted. cbn [append]. rewrite app_cons_assoc. reflexivity. }
  apply (grammar_ind constant
    (fun t v => forall r f, stops r -> (2 * String.length (t ++ r) < f)%nat -> scan constant f (t ++ r) = Some (v, r))
    (fun t l => starts_value t /\ forall r f, (2 * String.length (t ++ String "]" r) + 1 < f)%nat -> scan_elems constant f (t ++ String "]" r) = Some (l, r))
    (fun t ps => (exists k, t = String quote_char k) /\ forall r acc f, (2 * String.length (t ++ String "}" r) + 1 < f)%nat ->
     scan_members constant f acc (t ++ String "}" r) = Some (fold_left put ps acc, r))).
  - intros r [|f] _ Hf; [lia|]. reflexivity.
  - intros r [|f] _ Hf; [lia|]. reflexivity.
  - intros r [|f] _ Hf; [lia|]. reflexivity.
  - intros s Hs r [|f] Hr Hf; [lia|]. apply number_read. exact (scan_number_complete_int "" s r (or_introl eq_refl) Hs Hr).
  - intros s Hs r [|f] Hr Hf; [lia|]. apply (number_read (String "-" s)). exact (scan_number_complete_int "-" s r (or_intror eq_refl) Hs Hr).
  - intros s x Hs Hx r [|f] Hr Hf; [lia|]. apply number_read. now apply scan_number_float.
  - intros r [|f] _ Hf; [lia|]. reflexivity.
  - intros r [|f] _ Hf; [lia|]. reflexivity.
  - intros r [|f] _ Hf; [lia|]. reflexivity.
  - intros s t B r [|f] Hr Hf; [lia|]. rewrite Quoted, scan_S. change (Ascii.eqb dquote dquote) with true. cbv iota.
    rewrite (scan_string_complete _ _ B). reflexivity.
  - intros w W r [|f] Hr Hf; [lia|]. cbn [append]. rewrite scan_S. change (Ascii.eqb "[" dquote) with false. change (Ascii.eqb "[" "{") with false.
    change (Ascii.eqb "[" "[") with true. cbv iota. rewrite app_cons_assoc. cbn [append]. rewrite (skip_ws_blank w (String "]" r) W eq_refl), eat_same. reflexivity.
  - intros w s l W Hs [St IH] r [|f] Hr Hf; [lia|]. cbn [append] in *. rewrite scan_S. change (Ascii.eqb "[" dquote) with false. change (Ascii.eqb "[" "{") with false.
    change (Ascii.eqb "[" "[") with true. cbv iota. rewrite !app_cons_assoc in *. cbn [append] in *. rewrite (skip_ws_blank w (s ++ String "]" r) W (starts_solid _ _ St)).
    rewrite (starts_not _ _ _ St (or_introl eq_refl)), IH; [reflexivity|sizes].
  - intros w W r [|f] Hr Hf; [lia|]. cbn [append]. rewrite scan_S. change (Ascii.eqb "{" dquote) with false. change (Ascii.eqb "{" "{") with true. cbv iota.
    rewrite app_cons_assoc. cbn [append]. rewrite (skip_ws_blank w (String "}" r) W eq_refl), eat_same. reflexivity.
  - intros w s ps m W Hs [[k St] IH] D r [|f] Hr Hf; [lia|]. cbn [append] in *. rewrite scan_S. change (Ascii.eqb "{" dquote) with false. change (Ascii.eqb "{" "{") with true. cbv iota.
    rewrite !app_cons_assoc in *. cbn [append] in *. rewrite (skip_ws_blank w (s ++ String "}" r) W) by (rewrite St; reflexivity).
    assert (E : eat "}" (s ++ String "}" r) = None) by (rewrite St; reflexivity). rewrite E, IH by sizes. rewrite <- (dict_fold _ _ D). reflexivity.
  - intros s v w V IH W. split; [apply value_starts in V; destruct s; [contradiction|exact V]|]. intros r [|f] Hf; [lia|].
    rewrite app_cons_assoc in *. rewrite scan_elems_S, IH by (try (apply blank_stops; [exact W|apply Sep; cbn; auto]); sizes).
    rewrite (skip_ws_blank w (String "]" r) W eq_refl), eat_same. reflexivity.
  - intros s v w1 w2 t l V IH W1 W2 _ [St IHl]. split; [apply value_starts in V; destruct s; [contradiction|exact V]|]. intros r [|f] Hf; [lia|].
    rewrite !app_cons_assoc in *. cbn [append] in *. rewrite !app_cons_assoc in *.
    rewrite scan_elems_S, IH by (try (apply blank_stops; [exact W1|apply Sep; cbn; auto]); sizes).
    rewrite (skip_ws_blank w1 _ W1) by reflexivity. rewrite eat_not, eat_same by discriminate.
    rewrite (skip_ws_blank w2 _ W2 (starts_solid _ _ St)), IHl by sizes. reflexivity.
  - intros k key w1 w2 s v w3 B W1 W2 V IH W3. split; [eexists; reflexivity|]. intros r acc [|f] Hf; [lia|].
    rewrite !app_cons_assoc in *. cbn [append] in *. rewrite !app_cons_assoc in *. rewrite Quoted in *.
    rewrite scan_members_S, eat_same, (scan_string_complete _ _ B), (skip_ws_blank w1 _ W1) by reflexivity. rewrite eat_same.
    rewrite (skip_ws_blank w2 _ W2) by (apply starts_solid; exact (value_starts _ _ V)).
    rewrite IH by (try (apply blank_stops; [exact W3|apply Sep; cbn; auto]); sizes). cbv zeta.
    rewrite (skip_ws_blank w3 _ W3) by reflexivity. rewrite eat_same. reflexivity.
  - intros k key w1 w2 s v w3 w4 t ps B W1 W2 V IH W3 W4 _ [[kk St] IHm]. split; [eexists; reflexivity|]. intros r acc [|f] Hf; [lia|].
    rewrite !app_cons_assoc in *. cbn [append] in *. rewrite !app_cons_assoc in *. cbn [append] in *. rewrite !app_cons_assoc in *. rewrite Quoted in *.
    rewrite scan_members_S, eat_same, (scan_string_complete _ _ B), (skip_ws_blank w1 _ W1) by reflexivity. rewrite eat_same.
    rewrite (skip_ws_blank w2 _ W2) by (apply starts_solid; exact (value_starts _ _ V)).
    rewrite IH by (try (apply blank_stops; [exact W3|apply Sep; cbn; auto]); sizes). cbv zeta.
    rewrite (skip_ws_blank w3 _ W3) by reflexivity. rewrite eat_not, eat_same by discriminate.
    rewrite (skip_ws_blank w4 _ W4) by (rewrite St; reflexivity). rewrite IHm by sizes. reflexivity.
Qed.

(** ** C92 *)
(** The editor's JSON reader reads a text as a value exactly if the text is a JSON
    document of that value. *)
Theorem C92_reads_exactly_json : forall s v, loads constant s = Some v <-> document constant s v.
Proof.
  intros s v. unfold loads, document. split.
  - destruct (scan constant _ (skip_ws s)) as [[v' r]|] eqn:E; [|discriminate]. destruct (skip_ws r) eqn:Er; [|discriminate].
    intros H. injection H as ->. apply (proj1 (scan_sound _)) in E as (t & Et & V).
    destruct (skip_ws_sound s) as (w1 & W1 & E1). destruct (skip_ws_sound r) as (w2 & W2 & E2). rewrite Er, string_app_nil_r in E2.
    exists w1, t, w2. split; [exact W1|]. split; [exact W2|]. split; [|exact V]. rewrite E1 at 1. rewrite Et, E2. reflexivity.
  - intros (w1 & t & w2 & W1 & W2 & -> & V). assert (St := value_starts _ _ V).
    rewrite (skip_ws_blank w1 _ W1 (starts_solid _ _ St)).
    assert (Sw : stops w2) by (rewrite <- (string_app_nil_r w2); apply blank_stops; [exact W2|exact I]).
    rewrite (proj1 scan_complete _ _ V w2 _ Sw) by (rewrite !length_app; lia).
    rewrite <- (string_app_nil_r w2), (skip_ws_blank w2 "" W2 I). reflexivity.
Qed.
(** A text has at most one meaning. *)
Theorem C92_one_meaning : forall s v v', document constant s v -> document constant s v' -> v = v'.
Proof. intros s v v' H H'. apply C92_reads_exactly_json in H, H'. congruence. Qed.
(** What the editor stores for the text of a field: the value it denotes if it is JSON,
    the text itself if it is not. *)
Theorem C92_what_a_field_becomes : forall s,
  (forall v, document constant s v -> value_of constant s = v) /\
  ((forall v, ~ document constant s v) -> value_of constant s = JStr s).
Proof.
  intros s. unfold value_of. split.
  - intros v H. apply C92_reads_exactly_json in H. rewrite H. reflexivity.
  - intros H. destruct (loads constant s) as [v|] eqn:E; [|reflexivity]. apply C92_reads_exactly_json in E. destruct (H _ E).
Qed.
(** So a field keeps the text typed into it exactly if that text is not JSON. *)
Theorem C92_text_kept_iff : forall s, value_of constant s = JStr s <-> forall v, ~ document constant s v.
Proof.
  intros s. split.
  - intros H v D. assert (E := D). apply C92_reads_exactly_json in E. unfold value_of in H. rewrite E in H. subst v.
    apply loads_shorter in E. lia.
  - apply C92_what_a_field_becomes.
Qed.
End Values.
