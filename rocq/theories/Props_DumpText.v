(** * Props_DumpText: what the editor saves can be read again (C93) *)
From Verif Require Import Base Num Json Logger World Vesicle MeltVisc RelVisc Bubbles Terrain Lava Thermal Flux Integrator Factory Run.
From Verif Require Import JsonText Props_RunFile JsonFacts JsonRead JsonGrammar Props_Grammar EditJson JsonDump Props_Dump.

(** ** Texts without surrogates: everything a valid UTF-8 file or a keyboard gives *)
Definition scalar (n : BinNums.N) : Prop := (n < 55296 \/ 57344 <= n < 1114112)%N.
Definition unicode (s : string) : Prop := exists l, s = text_of l /\ Forall scalar l.

Lemma scalar_range l : Forall scalar l -> Forall (fun n => n < 1114112)%N l.
Proof. apply Forall_impl. unfold scalar. lia. Qed.
Lemma scalar_pairs l : Forall scalar l -> no_pair l.
Proof.
  induction 1 as [|n l H F IH]; [exact I|]. split; [|exact IH]. destruct l; [exact I|]. unfold high, scalar in *. lia.
Qed.
Lemma unicode_text s : unicode s -> python_text s.
Proof. intros (l & -> & F). exists l. split; [reflexivity|]. split; [now apply scalar_range|now apply scalar_pairs]. Qed.
Lemma text_of_app a b : text_of (a ++ b) = (text_of a ++ text_of b)%string.
Proof. induction a as [|n a IH]; [reflexivity|]. cbn [List.app text_of]. rewrite IH, app_cons_assoc. reflexivity. Qed.

(** The bytes of a character above 127 are above 127. *)
Definition wide (s : string) : Prop := all_chars (fun c => 128 <= N_of_ascii c)%N s.
Lemma utf8_wide n : (128 <= n < 1114112)%N -> wide (utf8 n) /\ utf8 n <> "".
Proof.
  intros Hn. unfold utf8. destruct (N.ltb_spec n 128); [lia|].
  destruct (base64 (n / 64 / 64)) as [E2 L2]. destruct (base64 (n / 64)) as [E1 L1]. destruct (base64 n) as [E0 L0].
  assert (Q1 : (n / 4096 = n / 64 / 64)%N) by (rewrite N.div_div by lia; reflexivity).
  assert (Q2 : (n / 262144 = n / 64 / 64 / 64)%N) by (rewrite !N.div_div by lia; reflexivity).
  rewrite Q2, Q1. clear Q1 Q2. revert E0 L0 E1 L1 E2 L2.
  generalize (n / 64 / 64 / 64)%N. intros q3. generalize (n / 64 / 64 mod 64)%N. intros r2. generalize (n / 64 / 64)%N. intros q2.
  generalize (n / 64 mod 64)%N. intros r1. generalize (n / 64)%N. intros q1. generalize (n mod 64)%N. intros r0 E0 L0 E1 L1 E2 L2.
  destruct (N.ltb_spec n 2048); [|destruct (N.ltb_spec n 65536)]; (split; [|discriminate]); unfold wide; repeat (apply all_chars_app; split);
    (split; [rewrite N_of_byte by lia; lia|exact I]).
Qed.
Lemma utf8_narrow n : (n < 128)%N -> utf8 n = byte n.
Proof. intros H. unfold utf8. destruct (N.ltb_spec n 128); [reflexivity|lia]. Qed.

Lemma wide_prefix u t a c b : wide u -> (N_of_ascii c < 128)%N -> (u ++ t = a ++ String c b)%string ->
  exists a', a = (u ++ a')%string /\ t = (a' ++ String c b)%string.
Proof.
  revert a. induction u as [|x u IH]; intros a W Hc E; [exists a; auto|]. destruct W as [Wx W]. destruct a as [|y a]; cbn [append] in E.
  - injection E as -> _. lia.
  - injection E as -> E. destruct (IH a W Hc E) as (a' & -> & E'). exists a'. auto.
Qed.
(** A text may be cut at any ASCII character. *)
Lemma unicode_cut a c b : (N_of_ascii c < 128)%N -> unicode (a ++ String c b) -> unicode a /\ unicode b.
Proof.
  intros Hc (l & E & F). revert a E. induction F as [|n l Hn F IH]; intros a E; [destruct a; discriminate|]. cbn [text_of] in E.
  destruct (N.ltb_spec n 128) as [H|H].
  - rewrite (utf8_narrow n H) in E. unfold byte in E. destruct a as [|x a]; cbn [append] in E.
    + injection E as _ E. split; [exists []; auto|]. exists l. auto.
    + injection E as Ex E. destruct (IH a (eq_sym E)) as [(la & -> & Fa) Ub] || destruct (IH a E) as [(la & -> & Fa) Ub]. split; [|exact Ub].
      exists (n :: la). split; [|constructor; assumption]. cbn [text_of]. rewrite (utf8_narrow n H). unfold byte. cbn [append]. congruence.
  - assert (R : (128 <= n < 1114112)%N) by (unfold scalar in Hn; lia). destruct (utf8_wide n R) as [W _].
    destruct (wide_prefix (utf8 n) (text_of l) a c b W Hc (eq_sym E)) as (a' & -> & E').
    destruct (IH a' (eq_sym E')) as [(la & -> & Fa) Ub]. split; [|exact Ub]. exists (n :: la). split; [reflexivity|constructor; assumption].
Qed.
Lemma unicode_tail c s : (N_of_ascii c < 128)%N -> unicode (String c s) -> unicode s.
Proof. intros Hc U. exact (proj2 (unicode_cut "" c s Hc U)). Qed.
Lemma unicode_after a b : plain_ascii a -> unicode (a ++ b) -> unicode b.
Proof.
  induction a as [|c a IH]; intros A U; [exact U|]. destruct A as [Ac A]. apply IH; [exact A|]. exact (unicode_tail c _ Ac U).
Qed.
Lemma unicode_before a w : plain_ascii w -> unicode (a ++ w) -> unicode a.
Proof.
  destruct w as [|c w]; intros A U; [rewrite string_app_nil_r in U; exact U|]. destruct A as [Ac _]. exact (proj1 (unicode_cut a c w Ac U)).
Qed.
Lemma unicode_sep a w c b : plain_ascii w -> (N_of_ascii c < 128)%N -> unicode (a ++ w ++ String c b) -> unicode a /\ unicode b.
Proof.
  intros A Hc U. destruct w as [|x w]; [exact (unicode_cut a c b Hc U)|]. destruct A as [Ax A]. destruct (unicode_cut a x _ Ax U) as [Ua Ub].
  split; [exact Ua|]. apply (unicode_after w) in Ub; [|exact A]. exact (unicode_tail c b Hc Ub).
Qed.
Lemma ascii_unicode s : plain_ascii s -> unicode s.
Proof.
  induction s as [|c s IH]; [exists []; auto|]. intros [Ac A]. destruct (IH A) as (l & -> & F). exists (N_of_ascii c :: l).
  split; [|constructor; [unfold scalar; lia|exact F]]. cbn [text_of]. rewrite (utf8_narrow _ Ac). unfold byte. rewrite ascii_N_embedding. reflexivity.
Qed.
Lemma blank_ascii w : blank w -> plain_ascii w.
Proof.
  unfold blank, plain_ascii. induction w as [|c w IH]; [trivial|]. intros [H H']. split; [|now apply IH]. unfold nat_of_ascii in H. lia.
Qed.

(** ** Strings *)
Lemma body_wide u s t : wide u -> body (u ++ s) t -> exists t', t = (u ++ t')%string /\ body s t'.
Proof.
  revert t. induction u as [|c u IH]; intros t W B; [exists t; auto|]. destruct W as [Wc W]. cbn [append] in B.
  remember (String c (u ++ s)) as b eqn:Eb. destruct B as [|c0 s0 t0 _ _ _ B|e x s0 t0 He B|v n k s0 t0 U C B _|v n v' n' k s0 t0 U _ U' _ C B].
  - discriminate.
  - injection Eb as -> ->. destruct (IH t0 W B) as (t' & -> & B'). exists t'. auto.
  - injection Eb as Ec _. rewrite <- Ec in Wc. cbn in Wc. lia.
  - exfalso. apply unit_text_spec in U as (? & ? & ? & ? & -> & _). injection Eb as Ec _. rewrite <- Ec in Wc. cbn in Wc. lia.
  - exfalso. apply unit_text_spec in U as (? & ? & ? & ? & -> & _). injection Eb as Ec _. rewrite <- Ec in Wc. cbn in Wc. lia.
Qed.
Lemma body_unicode k : forall b t, (String.length b < k)%nat -> body b t -> unicode b ->
  exists l, t = text_of l /\ Forall (fun n => n < 1114112)%N l /\ no_pair l /\
  forall m l', l = m :: l' -> low m -> exists u n r, b = (u ++ r)%string /\ unit_text u n /\ low n.
Proof.
  induction k as [|k IH]; intros b t Hk B U; [lia|].
  destruct B as [|c s t _ _ _ B|e x s t He B|u n kk s t Ut C B NP|u n u' n' kk s t Ut Hh Ut' Hl C B].
  - exists []. repeat split; [constructor|discriminate].
  - cbn [String.length] in Hk. destruct (N.ltb_spec (N_of_ascii c) 128) as [Ac|Ac].
    + destruct (IH s t ltac:(lia) B (unicode_tail c s Ac U)) as (l & -> & F & P & _). exists (N_of_ascii c :: l). cbn [text_of no_pair]. split; [|split; [|split]].
      * rewrite (utf8_narrow _ Ac). unfold byte. rewrite ascii_N_embedding. reflexivity.
      * constructor; [lia|exact F].
      * split; [|exact P]. destruct l; [exact I|]. unfold high. lia.
      * intros m l' E L. injection E as <- _. unfold low in L. lia.
    + destruct U as ([|n l] & E & F); [discriminate|]. cbn [text_of] in E. inversion F as [|? ? Hn F']; subst.
      assert (Rn : (128 <= n < 1114112)%N).
      { destruct (N.ltb_spec n 128) as [H|H]; [|unfold scalar in Hn; lia]. rewrite (utf8_narrow n H) in E. unfold byte in E. injection E as Ec _.
        rewrite Ec in Ac. rewrite N_of_byte in Ac by lia. lia. }
      destruct (utf8_wide n Rn) as [W Ne]. destruct (utf8 n) as [|c' r] eqn:Eu; [congruence|]. cbn [append] in E. injection E as -> ->.
      destruct W as [_ W]. destruct (body_wide r (text_of l) t W B) as (t' & -> & B').
      destruct (IH (text_of l) t') as (l1 & -> & F1 & P1 & _); [rewrite string_length_app in Hk; lia|exact B'|exists l; auto|].
      exists (n :: l1). cbn [text_of no_pair]. split; [|split; [|split]].
      * rewrite Eu. reflexivity.
      * constructor; [lia|exact F1].
      * split; [|exact P1]. destruct l1; [exact I|]. unfold high, scalar in *. lia.
      * intros m l' E L. injection E as <- _. unfold low, scalar in *. lia.
  - cbn [String.length] in Hk. assert (Ae : (N_of_ascii e < 128)%N) by (destruct He; reflexivity).
    destruct (IH s t ltac:(lia) B) as (l & -> & F & P & _).
    { apply (unicode_tail e); [exact Ae|]. apply (unicode_tail escape_char); [reflexivity|exact U]. }
    exists (N_of_ascii x :: l). cbn [text_of no_pair].
    assert (Ax : (N_of_ascii x < 128)%N) by (destruct He; reflexivity). split; [|split; [|split]].
    + rewrite (utf8_narrow _ Ax). unfold byte. rewrite ascii_N_embedding. reflexivity.
    + constructor; [lia|exact F].
    + split; [|exact P]. destruct l; [exact I|]. unfold high. lia.
    + intros m l' E L. injection E as <- _. unfold low in L. lia.
  - assert (Ls : (String.length s < k)%nat).
    { apply unit_text_spec in Ut as (? & ? & ? & ? & -> & _). rewrite string_length_app in Hk. cbn [String.length] in Hk. lia. }
    destruct (IH s t Ls B (unicode_after u s (unit_ascii _ _ Ut) U)) as (l & -> & F & P & Q). assert (R := coded_range n kk C). exists (n :: l). cbn [text_of no_pair]. split; [|split; [|split]].
    + rewrite (coded_fun n kk (utf8 n) C (utf8_coded n R)). reflexivity.
    + constructor; [exact R|exact F].
    + split; [|exact P]. destruct l as [|m l]; [exact I|]. intros [Hh Hl]. apply NP. split; [exact Hh|].
      destruct (Q m l eq_refl Hl) as (u' & n' & r & E & U' & L'). exists u', n', r. auto.
    + intros m l' E L. injection E as <- _. exists u, n, s. auto.
  - assert (Ls : (String.length s < k)%nat).
    { rewrite !string_length_app in Hk. apply unit_text_spec in Ut as (? & ? & ? & ? & -> & _). cbn [String.length] in Hk. lia. }
    destruct (IH s t Ls B) as (l & -> & F & P & _).
    { apply (unicode_after u'); [exact (unit_ascii _ _ Ut')|]. apply (unicode_after u); [exact (unit_ascii _ _ Ut)|exact U]. }
    assert (R := coded_range _ kk C).
    set (q := (65536 + 1024 * (n - 55296) + (n' - 56320))%N) in *. assert (Hq : (65536 <= q)%N) by (unfold q; lia).
    exists (q :: l). cbn [text_of no_pair]. split; [|split; [|split]].
    + rewrite (coded_fun q kk (utf8 q) C (utf8_coded q R)). reflexivity.
    + constructor; [exact R|exact F].
    + split; [|exact P]. destruct l; [exact I|]. unfold high. lia.
    + intros m l' E L. injection E as <- _. unfold low in L. lia.
Qed.
Lemma unicode_body b t : body b t -> unicode b -> python_text t.
Proof. intros B U. destruct (body_unicode _ b t (Nat.lt_succ_diag_r _) B U) as (l & E & F & P & _). exists l. auto. Qed.

(** ** Values *)
Section Values.
Context {T : Type} {N : Num T}.
Context (constant : string -> T) (float_text : T -> string).
Notation dumps := (dumps float_text). Notation writable := (writable constant float_text).

(** Texts and keys that Python can hold, whatever the floats. *)
Inductive sayable : json T -> Prop :=
| sayable_null : sayable JNull
| sayable_bool b : sayable (JBool b)
| sayable_int z : sayable (JInt z)
| sayable_float x : sayable (JFloat x)
| sayable_str s : python_text s -> sayable (JStr s)
| sayable_arr l : Forall sayable l -> sayable (JArr l)
| sayable_obj f : NoDup (map fst f) -> Forall python_text (map fst f) -> Forall (fun p => sayable (snd p)) f -> sayable (JObj f).
Lemma sayable_writable v : sayable v -> all_floats (prints_back constant float_text) v -> writable v.
Proof.
  induction v as [|b|z|x|s|l IH|f IH] using json_size_ind; intros S F; inversion S; subst; inversion F; subst; constructor; try assumption.
  - rewrite Forall_forall in *. auto.
  - rewrite Forall_forall in *. auto.
Qed.
Lemma value_sayable :
  (forall t v, value constant t v -> unicode t -> sayable v) /\
  (forall t l, elements constant t l -> unicode t -> Forall sayable l) /\
  (forall t ps, members constant t ps -> unicode t -> Forall (fun p => python_text (fst p) /\ sayable (snd p)) ps).
Proof.
  assert (Brack : forall c w s d, (N_of_ascii c < 128)%N -> (N_of_ascii d < 128)%N -> blank w -> unicode (String c (w ++ s ++ String d "")) -> unicode s).
  { intros c w s d Hc Hd W U. apply (unicode_tail c) in U; [|exact Hc]. apply (unicode_after w) in U; [|now apply blank_ascii].
    exact (proj1 (unicode_cut s d "" Hd U)). }
  assert (Key : forall k w1 X, blank w1 -> unicode (quoted k ++ w1 ++ String ":" X) -> unicode k /\ unicode X).
  { intros k w1 X W U. unfold quoted in U. cbn [append] in U. rewrite app_cons_assoc in U. apply (unicode_tail quote_char) in U; [|reflexivity]. cbn [append] in U.
    apply (unicode_cut k) in U as [Uk U]; [|reflexivity]. split; [exact Uk|]. apply (unicode_after w1) in U; [|now apply blank_ascii].
    apply (unicode_tail ":"); [reflexivity|exact U]. }
  apply grammar_ind; try (intros; now constructor).
  - intros s t B U. constructor. eapply unicode_body; [exact B|]. unfold quoted in U. apply (unicode_tail quote_char) in U; [|reflexivity].
    exact (proj1 (unicode_cut s quote_char "" eq_refl U)).
  - intros w s l W _ IH U. constructor. apply IH. apply (Brack "["%char w s "]"%char); [reflexivity|reflexivity|exact W|exact U].
  - intros w _ _. constructor; constructor.
  - intros w s ps m W _ IH D U. assert (H : Forall (fun p => python_text (fst p) /\ sayable (snd p)) ps).
    { apply IH. apply (Brack "{"%char w s "}"%char); [reflexivity|reflexivity|exact W|exact U]. }
    destruct (dict_values constant ps m D) as [ND Hin]. rewrite Forall_forall in H. constructor; [exact ND| |]; rewrite Forall_forall.
    + intros k Hk. apply in_map_iff in Hk as (p & <- & Hp). apply H, Hin, Hp.
    + intros p Hp. apply H, Hin, Hp.
  - intros s v w _ IH W U. constructor; [|constructor]. apply IH. apply (unicode_before s w); [now apply blank_ascii|exact U].
  - intros s v w1 w2 r l _ IH W1 W2 _ IHl U. apply unicode_sep in U as [Us U]; [|now apply blank_ascii|reflexivity].
    apply (unicode_after w2) in U; [|now apply blank_ascii]. constructor; auto.
  - intros k key w1 w2 s v w3 B W1 W2 _ IH W3 U. destruct (Key _ _ _ W1 U) as [Uk Ux]. apply (unicode_after w2) in Ux; [|now apply blank_ascii].
    apply (unicode_before s w3) in Ux; [|now apply blank_ascii]. constructor; [|constructor]. split; [eapply unicode_body; eassumption|now apply IH].
  - intros k key w1 w2 s v w3 w4 r ps B W1 W2 _ IH W3 W4 _ IHr U. destruct (Key _ _ _ W1 U) as [Uk Ux]. apply (unicode_after w2) in Ux; [|now apply blank_ascii].
    apply unicode_sep in Ux as [Us Ux]; [|now apply blank_ascii|reflexivity]. apply (unicode_after w4) in Ux; [|now apply blank_ascii].
    constructor; [|now apply IHr]. split; [eapply unicode_body; eassumption|now apply IH].
Qed.
Lemma loads_sayable s v : unicode s -> loads constant s = Some v -> sayable v.
Proof.
  intros U H. apply C92_reads_exactly_json in H as (w1 & t & w2 & W1 & W2 & -> & V). apply (unicode_after w1) in U; [|now apply blank_ascii].
  apply (unicode_before t w2) in U; [|now apply blank_ascii]. exact (proj1 value_sayable t v V U).
Qed.
(** Whatever was read from a UTF-8 file can be saved and read again. *)
Theorem C93_unicode_file_resaved : forall s v, unicode s -> loads constant s = Some v -> all_floats (prints_back constant float_text) v ->
  loads constant (dumps v) = Some v.
Proof. intros s v U H F. apply C93_saved_value_reads_back, sayable_writable; [now apply (loads_sayable s)|exact F]. Qed.

(** ** The editor *)
Notation value_of := (value_of constant). Notation rebuild := (rebuild constant). Notation session := (session constant float_text).
Lemma value_of_sayable s : unicode s -> sayable (value_of s).
Proof.
  intros U. unfold EditJson.value_of. destruct (loads constant s) as [v|] eqn:E; [now apply (loads_sayable s)|]. constructor. now apply unicode_text.
Qed.
Lemma space_ascii a : all_chars (fun c => is_space c = true) a -> plain_ascii a.
Proof.
  unfold plain_ascii. induction a as [|c a IH]; [trivial|]. intros [H H']. split; [|now apply IH].
  unfold is_space, nat_of_ascii in H. cbv zeta in H. apply orb_prop in H as [H|H]; apply andb_prop in H as [_ H]; apply Nat.leb_le in H; lia.
Qed.
Lemma strip_unicode s : unicode s -> unicode (strip s).
Proof.
  intros U. unfold strip. destruct (lstrip_split s) as (a & E & A). rewrite E in U. apply (unicode_after a) in U; [|now apply space_ascii].
  destruct (rstrip_split (lstrip s)) as (b & E' & B). rewrite E' in U. apply (unicode_before (rstrip (lstrip s)) b); [now apply space_ascii|exact U].
Qed.
Lemma sayable_entry f k c : sayable (JObj f) -> assoc k f = Some c -> python_text k /\ sayable c.
Proof.
  intros S E. inversion S as [| | | | | |f' _ K W]; subst. rewrite Forall_forall in *. induction f as [|[x v] f IH]; [discriminate|]. cbn [assoc] in E.
  destruct (String.eqb_spec k x) as [->|].
  - injection E as ->. split; [apply K; left; reflexivity|apply (W (x, c)); left; reflexivity].
  - inversion S as [| | | | | |f' D' K' W']; subst. cbn [map] in D', K'. inversion D'; subst. inversion K'; subst. inversion W'; subst.
    apply IH; [now constructor|exact E|intros y Hy; apply K; right; exact Hy|intros p Hp; apply W; right; exact Hp].
Qed.
Lemma sayable_set f k v : python_text k -> sayable v -> sayable (JObj f) -> sayable (JObj (assoc_set k v f)).
Proof.
  intros K V W. inversion W as [| | | | | |f' D Ks Ws]; subst. rewrite Forall_forall in *. constructor; [now apply assoc_set_nodup| |]; rewrite Forall_forall.
  - intros x Hx. apply in_map_iff in Hx as (p & <- & Hp). apply assoc_set_in in Hp as [->|Hp]; [exact K|]. apply Ks, (in_map fst), Hp.
  - intros p Hp. apply assoc_set_in in Hp as [->|Hp]; [exact V|now apply Ws].
Qed.
Lemma put_sayable k v : python_text k -> sayable v -> forall path j j', sayable j -> put_at path k v j = Ok j' -> sayable j'.
Proof.
  intros K V. induction path as [|p ps IH]; intros j j' S E; cbn [put_at] in E.
  - destruct j; injection E as <-; try exact S. now apply sayable_set.
  - destruct j as [|b|z|x|s|l|f]; try discriminate.
    + destruct (contains p s); [discriminate|]. injection E as <-. exact S.
    + destruct (existsb (fun x => jis x p) l); [discriminate|]. injection E as <-. exact S.
    + destruct (assoc p f) as [c|] eqn:A; [|injection E as <-; exact S]. apply rbind_ok in E as (c' & E & E'). injection E' as <-.
      destruct (sayable_entry f p c S A) as [Kp Sc]. apply sayable_set; [exact Kp|exact (IH c c' Sc E)|exact S].
Qed.
(** Every text standing in the window is Unicode. *)
Definition window_text (w : widget) : Prop := match w with Entry t => unicode t | Pair k v => unicode k /\ unicode v end.
Definition window_texts (labels : list (string * widget)) : Prop := Forall (fun p => window_text (snd p)) labels.
Lemma place_sayable all : window_texts all -> forall j j', sayable j -> place_entries constant all j = Ok j' -> sayable j'.
Proof.
  induction 1 as [|[tk w] r Hw F IH]; intros j j' S E; cbn [place_entries] in E; [injection E as <-; exact S|]. destruct w as [t|kt vt]; [exact (IH j j' S E)|].
  destruct Hw as [Uk Uv]. assert (Us := strip_unicode kt Uk). destruct (strip kt) as [|c k]; [exact (IH j j' S E)|].
  apply rbind_ok in E as (j1 & E1 & E). apply (IH j1 j'); [|exact E]. eapply put_sayable; [| |exact S|exact E1].
  - now apply unicode_text.
  - apply value_of_sayable. now apply strip_unicode.
Qed.
Lemma assoc_window labels dk w : window_texts labels -> assoc dk labels = Some w -> window_text w.
Proof.
  induction 1 as [|[x v] r Hv F IH]; intros E; [discriminate|]. cbn [assoc] in E. destruct (String.eqb dk x); [injection E as <-; exact Hv|exact (IH E)].
Qed.
Lemma rebuild_sayable labels : window_texts labels -> forall j, sayable j -> forall parent out, rebuild labels j parent = Ok out -> sayable out.
Proof.
  intros L. induction j as [|b|z|x|s|l IH|f IH] using json_size_ind; intros S parent out E; try discriminate. cbn [EditJson.rebuild] in E.
  apply rbind_ok in E as (f' & E & E'). apply (place_sayable labels L (JObj f') out); [|exact E']. clear E'.
  inversion S as [| | | | | |f0 _ K W]; subst. assert (S0 : sayable (JObj [])) by (constructor; constructor). revert S0 E. generalize (@nil (string * json T)). clear S.
  induction f as [|[k v] f IHf]; intros new Sn E; [injection E as <-; exact Sn|].
  inversion IH as [|? ? Hv IH']; subst. cbn [map] in K. inversion K as [|? ? Kk K']; subst. inversion W as [|? ? Sv W']; subst. cbn [fst snd] in *.
  specialize (IHf IH' K' W').
  destruct v as [|b|z|x|s|l|g]; try (destruct (assoc (display parent k) labels) as [[t|kt vt]|] eqn:A; [|discriminate|exact (IHf new Sn E)];
    apply (IHf (assoc_set k (value_of t) new)); [apply sayable_set; [exact Kk|apply value_of_sayable; exact (assoc_window _ _ _ L A)|exact Sn]|exact E]).
  apply rbind_ok in E as (v' & Ev & E). apply (IHf (assoc_set k v' new)); [|exact E]. apply sayable_set; [exact Kk|exact (Hv Sv _ _ Ev)|exact Sn].
Qed.
(** A configuration read from a UTF-8 file, edited in any way and saved: the next
    reader gets exactly what the editor wrote. *)
Theorem C93_edited_file_reads_back : forall s d path l fs e e1 fs', unicode s -> loads constant s = Some d -> load_json fs path = Ok d ->
  open_editor float_text d = Ok e -> acts l e = Ok e1 -> window_texts (ed_labels e1) -> session path l fs = Ok (fs', true) ->
  exists out, fs' = fs_write path (FJson out) fs /\ (all_floats (prints_back constant float_text) out -> loads constant (dumps out) = Some out).
Proof.
  intros s d path l fs e e1 fs' U D Ld O A Wt H. unfold EditJson.session in H. rewrite Ld in H. cbn [rbind] in H. rewrite O in H. cbn [rbind] in H. rewrite A in H. cbn [rbind] in H.
  injection H as H. unfold save in H. destruct (rebuild (ed_labels e1) d "") as [out|er] eqn:R; [|discriminate]. injection H as <-. exists out. split; [reflexivity|]. intros F.
  apply C93_saved_value_reads_back, sayable_writable; [|exact F]. apply (rebuild_sayable _ Wt d (loads_sayable s d U D) "" out R).
Qed.
End Values.
Print Assumptions C93_edited_file_reads_back.
