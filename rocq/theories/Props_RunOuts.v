(** * Props_RunOuts: the shape of the table of a run (C62) and the run-out table (C60) *)
From Coq Require Import Reals Lra.
From Verif Require Import Base Num Json Logger World Vesicle MeltVisc RelVisc Bubbles Terrain Lava
  Thermal Flux Integrator Factory Run RNum Frame StepLog StepProofs LoggerProofs RowProofs StepProps ColumnProofs
  EffArray Props_Run.
Open Scope R_scope.

(** ** C62 *)
Lemma init_keeps_iter (sm : sim R) : keeps w_iter (init_effusion_rate sm).
Proof.
  unfold init_effusion_rate. destruct (n_eqb _ _).
  - intros w r w' H. injection H as _ <-. reflexivity.
  - assert (Hfr : forall A (m : M (T:=R) A), framed [] m -> keeps w_iter m).
    { intros A m Hm. apply (keeps_framed _ [] m); auto. }
    generalize 0%nat. induction depth_count as [|n IH]; intros i; cbn [search_depth].
    + apply Hfr, framed_ret.
    + apply keeps_bind.
      * unfold try_depth.
        repeat (apply keeps_bind; [first [apply Hfr, framed_velocity | apply Hfr, framed_pure
           | intros w r w' H; injection H as _ <-; reflexivity] | intros ]).
        apply Hfr, framed_ret.
      * intros []; [apply Hfr, framed_ret | apply IH].
Qed.

Definition row_with (pos : R) (columns : list string) (r : row R) : Prop :=
  assoc "position" r = Some (CNum pos) /\ map fst r = columns.

(** The rows at x0, x0+dx, x0+2dx, ..., each with these columns. *)
Definition evenly_spaced (x0 dx : R) (columns : list string) (t : table R) : Prop :=
  forall i r, nth_error t i = Some r -> row_with (x0 + INR i * dx) columns r.

Lemma evenly_snoc x0 dx cols t r :
  evenly_spaced x0 dx cols t -> row_with (x0 + INR (length t) * dx) cols r ->
  evenly_spaced x0 dx cols (t ++ [r]).
Proof.
  intros Ht Hr i q Hi. destruct (Nat.lt_ge_cases i (length t)) as [Hl|Hl].
  - rewrite nth_error_app1 in Hi by exact Hl. now apply Ht.
  - rewrite nth_error_app2 in Hi by exact Hl. destruct (i - length t)%nat as [|k] eqn:Ek.
    + injection Hi as <-. replace i with (length t) by lia. exact Hr.
    + destruct k; discriminate.
Qed.
Lemma evenly_not_at x0 dx cols t :
  dx <> 0 -> evenly_spaced x0 dx cols t ->
  Forall (fun r => row_at (x0 + INR (length t) * dx) r = false) t.
Proof.
  intros Hdx Ht. apply Forall_forall. intros r Hin. apply In_nth_error in Hin as (i & Hi).
  assert (Hl : (i < length t)%nat) by (apply nth_error_Some; congruence).
  destruct (Ht i r Hi) as [Hp _]. unfold row_at. rewrite Hp. apply lt_INR in Hl.
  change (R_eqb (x0 + INR (length t) * dx) (x0 + INR i * dx) = false). unfold R_eqb.
  destruct (Req_EM_T _ _) as [E|]; [|reflexivity]. exfalso.
  assert (Z : (INR (length t) - INR i) * dx = 0) by lra. apply Rmult_integral in Z as [Z|Z]; lra.
Qed.

Lemma logged_row (p : R) calls (t : table R) cols :
  no_position calls -> calls <> [] -> Forall (fun r => row_at p r = false) t ->
  cols = add_keys (map fst calls) ["position"] ->
  exists r, log_many p calls t = t ++ [r] /\ row_with p cols r.
Proof.
  intros Hn Hne Ht ->. exists (sets calls (fresh_row p)).
  rewrite log_many_miss by (auto using R_refl). split; [reflexivity|]. split.
  - now rewrite sets_position.
  - change (keys (sets calls (fresh_row p)) = add_keys (map fst calls) ["position"]). rewrite keys_sets. reflexivity.
Qed.

(** C62.  The table a fresh run leaves: one row per completed step, at
    x0, x0+dx, x0+2dx, ... in this order, all with the same columns; and at
    most one more row, at the position of the last, abandoned, step, holding
    the heat budget's columns only. *)
Theorem C62_table_of_a_run : forall (sm : sim R) fuel s depth w',
  s_dx sm <> 0 ->
  simulate fuel sm (initial_world s [] depth) = Some (Ok tt, w') ->
  st_pos (w_st w') = st_pos s + INR (w_iter w') * s_dx sm /\
  exists done rest, w_log w' = done ++ rest /\ length done = w_iter w' /\
    evenly_spaced (st_pos s) (s_dx sm) (full_columns sm) done /\
    (rest = [] \/ exists r, rest = [r] /\ row_with (st_pos (w_st w')) (partial_columns sm) r).
Proof.
  intros sm fuel s depth w' Hdx H. unfold simulate in H.
  destruct (init_effusion_rate sm (initial_world s [] depth)) as [[[]|e] w0] eqn:E0; [|discriminate H].
  assert (P0 := init_keeps_pos sm _ _ _ E0). assert (L0 := init_keeps_log sm _ _ _ E0).
  assert (I0 := init_keeps_iter sm _ _ _ E0). cbn [initial_world w_st w_log w_iter] in *.
  set (x0 := st_pos s) in *. set (dx := s_dx sm) in *.
  assert (G : forall fuel w, st_pos (w_st w) = x0 + INR (w_iter w) * dx -> length (w_log w) = w_iter w ->
    evenly_spaced x0 dx (full_columns sm) (w_log w) -> run_loop sm fuel w = Some (Ok tt, w') ->
    st_pos (w_st w') = x0 + INR (w_iter w') * dx /\
    exists done rest, w_log w' = done ++ rest /\ length done = w_iter w' /\
      evenly_spaced x0 dx (full_columns sm) done /\
      (rest = [] \/ exists r, rest = [r] /\ row_with (st_pos (w_st w')) (partial_columns sm) r)).
  { clear H w0 E0 P0 L0 I0 fuel. induction fuel as [|fu IH]; intros w HP HL HE H; cbn [run_loop] in H.
    - destruct (has_finished w); [|discriminate]. injection H as <-. split; [exact HP|].
      exists (w_log w), []. rewrite app_nil_r. auto.
    - destruct (has_finished w); [injection H as <-; split; [exact HP|]; exists (w_log w), []; rewrite app_nil_r; auto|].
      destruct (single_step sm w) as [[[]|e] w1] eqn:Es; [|discriminate].
      assert (Hno := evenly_not_at x0 dx _ _ Hdx HE). rewrite HL, <- HP in Hno.
      apply step_cases in Es as [S|(v & rho & wd & sl & hb & ra & dT & dt & C)].
      + assert (w1 = w') as ->.
        { destruct fu; cbn [run_loop] in H; unfold has_finished in H; rewrite (ss_fin _ _ _ S) in H; injection H as <-; auto. }
        destruct (ss_st _ _ _ S) as [x Hx]. assert (Hpos : st_pos (w_st w') = st_pos (w_st w)) by (rewrite Hx; reflexivity).
        rewrite (ss_iter _ _ _ S), Hpos. split; [exact HP|].
        destruct (ss_log _ _ _ S) as [->|(bc & Hn & ->)].
        { exists (w_log w), []. rewrite app_nil_r. auto. }
        destruct (logged_row (st_pos (w_st w)) bc (w_log w) (partial_columns sm)) as (r & -> & Hr).
        * unfold no_position. rewrite Hn. apply budget_names_no_position.
        * intros ->. unfold budget_names in Hn. symmetry in Hn. apply app_eq_nil in Hn as [_ Hn]. discriminate.
        * exact Hno.
        * rewrite Hn. reflexivity.
        * exists (w_log w), [r]. split; [reflexivity|]. split; [exact HL|]. split; [exact HE|]. right. eauto.
      + destruct (cs_log _ _ _ _ _ _ _ _ _ _ _ C) as
          (bc & sx & vf & mu & tc & f & t0 & tb & x & wb & Hn & Hlog & _).
        set (calls := bc ++ _) in Hlog.
        assert (Hcn : map fst calls = budget_names (s_budget sm) ++ step_names).
        { unfold calls. rewrite map_app, Hn, step_calls_names. reflexivity. }
        destruct (logged_row (st_pos (w_st w)) calls (w_log w) (full_columns sm)) as (r & Hr1 & Hr).
        * unfold no_position. rewrite Hcn. apply Forall_app. split; [apply budget_names_no_position|apply step_names_no_position].
        * intros E. rewrite E in Hcn. symmetry in Hcn. apply app_eq_nil in Hcn as [_ Hcn]. discriminate.
        * exact Hno.
        * rewrite Hcn. reflexivity.
        * rewrite Hr1 in Hlog. apply (IH w1); auto.
          -- rewrite (cs_pos _ _ _ _ _ _ _ _ _ _ _ C), (cs_iter _ _ _ _ _ _ _ _ _ _ _ C), S_INR, HP.
             change (x0 + INR (w_iter w) * dx + dx = x0 + (INR (w_iter w) + 1) * dx). ring.
          -- rewrite Hlog, app_length, HL, (cs_iter _ _ _ _ _ _ _ _ _ _ _ C). cbn. lia.
          -- rewrite Hlog. apply evenly_snoc; [exact HE|]. rewrite HL, <- HP. exact Hr. }
  apply (G fuel w0); auto.
  - rewrite P0, I0. cbn. lra.
  - rewrite L0, I0. reflexivity.
  - rewrite L0. intros i r Hi. destruct i; discriminate.
Qed.

(** In particular positions are never repeated and are increasing. *)
Corollary C62_positions_increase : forall (sm : sim R) fuel s depth w',
  0 < s_dx sm -> simulate fuel sm (initial_world s [] depth) = Some (Ok tt, w') ->
  forall i j ri rj, (i < j)%nat -> nth_error (w_log w') i = Some ri -> nth_error (w_log w') j = Some rj ->
  exists pi pj, assoc "position" ri = Some (CNum pi) /\ assoc "position" rj = Some (CNum pj) /\ pi < pj.
Proof.
  intros sm fuel s depth w' Hdx H i j ri rj Hij Hi Hj.
  destruct (C62_table_of_a_run sm fuel s depth w' ltac:(lra) H) as (HP & done & rest & HL & Hlen & HE & Hr).
  assert (P : forall k r, nth_error (w_log w') k = Some r -> assoc "position" r = Some (CNum (st_pos s + INR k * s_dx sm))).
  { intros k r Hk. rewrite HL in Hk. destruct (Nat.lt_ge_cases k (length done)) as [Hl|Hl].
    - rewrite nth_error_app1 in Hk by exact Hl. now apply HE.
    - rewrite nth_error_app2 in Hk by exact Hl. destruct Hr as [->|(q & -> & Hq & _)]; [destruct (k - length done)%nat; discriminate|].
      destruct (k - length done)%nat as [|m] eqn:Em; [|destruct m; discriminate]. injection Hk as <-.
      replace k with (w_iter w') by lia. now rewrite <- HP. }
  eexists. eexists. split; [apply P, Hi|]. split; [apply P, Hj|]. apply lt_INR in Hij. nra.
Qed.

(** ** C60: the run-out table *)
Definition cell_value {T} (c : cell T) : T := match c with CNum x => x | CStr x => x end.

(** Reading back a cell of an exported row. *)
Lemma field_csv_line {T} {N : Num T} name (fields : list string) (r : row T) :
  field name fields (csv_line fields r) =
  if in_strings name fields then
    match assoc name r with
    | Some c => Ok (cell_value c)
    | None => Err (ValueError "could not convert string to float")
    end
  else Err (KeyError name).
Proof.
  induction fields as [|h fs IH]; [reflexivity|]. cbn [csv_line map field in_strings existsb].
  destruct (String.eqb_spec name h) as [->|Hn]; cbn [orb].
  - destruct (assoc h r) as [[]|]; reflexivity.
  - exact IH.
Qed.

Lemma field_ok {T} {N : Num T} name (fields : list string) (r : row T) x :
  field name fields (csv_line fields r) = Ok x -> exists c, assoc name r = Some c /\ cell_value c = x.
Proof.
  rewrite field_csv_line. destruct (in_strings name fields); [|discriminate].
  destruct (assoc name r) as [c|]; [|discriminate]. intros H. injection H as <-. eauto.
Qed.

Definition shows (r : row R) (name : string) (x : R) : Prop :=
  exists c, assoc name r = Some c /\ cell_value c = x.

Lemma read_row_ok fields (r : row R) o :
  read_result_row fields (csv_line fields r) = Ok o ->
  shows r "position" (o_pos o) /\ (exists sl, shows r "slope" sl) /\
  shows r "channel_width" (o_width o) /\ shows r "channel_depth" (o_depth o) /\ shows r "effusion_rate" (o_eff o).
Proof.
  intros H. unfold read_result_row in H.
  apply rbind_ok in H as (p & Hp & H). apply rbind_ok in H as (sl & Hsl & H).
  do 4 apply rbind_ok in H as (? & _ & H).
  apply rbind_ok in H as (wd & Hwd & H). apply rbind_ok in H as (d & Hd & H). apply rbind_ok in H as (e & He & H).
  apply rbind_ok in H as (? & _ & H). injection H as <-. cbn [o_pos o_width o_depth o_eff].
  unfold shows. repeat split; eauto using field_ok.
Qed.

(** What run_outs does with the slope file: it reports the first and the last
    line whose distance does not exceed the limit. *)
Definition point_of (text : string) (x y z d : R) : Prop :=
  column (split_on tab_char text) 0 = Ok x /\ column (split_on tab_char text) 1 = Ok y /\
  column (split_on tab_char text) 2 = Ok z /\ column (split_on tab_char text) 3 = Ok d.
Definition beyond (limit : R) (text : string) : Prop :=
  exists d, column (split_on tab_char text) 3 = Ok d /\ limit < d.

Lemma read_xyz_some limit text x y z d :
  read_xyz limit text = Ok (Some (x, y, z, d)) -> point_of text x y z d /\ d <= limit.
Proof.
  intros H. unfold read_xyz in H. apply rbind_ok in H as (d' & Hd & H). destruct (n_leb d' limit) eqn:El; [|discriminate].
  apply rbind_ok in H as (x' & Hx & H). apply rbind_ok in H as (y' & Hy & H). apply rbind_ok in H as (z' & Hz & H).
  injection H as <- <- <- <-. split; [repeat split; assumption|].
  change (R_leb d' limit = true) in El. unfold R_leb in El. destruct (Rle_dec d' limit); [assumption|discriminate].
Qed.
Lemma read_xyz_none limit text : read_xyz limit text = Ok None -> beyond limit text.
Proof.
  intros H. unfold read_xyz in H. apply rbind_ok in H as (d' & Hd & H). destruct (n_leb d' limit) eqn:El.
  - apply rbind_ok in H as (x' & Hx & H). apply rbind_ok in H as (y' & Hy & H). apply rbind_ok in H as (z' & Hz & H). discriminate.
  - exists d'. split; [exact Hd|]. change (R_leb d' limit = false) in El. unfold R_leb in El.
    destruct (Rle_dec d' limit); [discriminate|lra].
Qed.
Lemma kept_first limit lines pts p :
  Forall2 (fun x y => read_xyz limit x = Ok y) lines pts -> nth_error (keep_some pts) 0 = Some p ->
  exists before text after, lines = before ++ text :: after /\ read_xyz limit text = Ok (Some p) /\
    Forall (beyond limit) before.
Proof.
  intros F. induction F as [|l q lines pts Hq F IH]; [discriminate|]. destruct q as [q|]; cbn [keep_some nth_error].
  - intros E. injection E as ->. exists [], l, lines. auto.
  - intros E. apply IH in E as (b & t & a & -> & Ht & Hb). exists (l :: b), t, a. split; [reflexivity|].
    split; [exact Ht|]. constructor; [now apply read_xyz_none|exact Hb].
Qed.
Lemma kept_all_beyond limit lines pts :
  Forall2 (fun x y => read_xyz limit x = Ok y) lines pts -> keep_some pts = [] -> Forall (beyond limit) lines.
Proof.
  intros F. induction F as [|l q lines pts Hq F IH]; [constructor|]. destruct q as [q|]; cbn [keep_some]; [discriminate|].
  intros E. constructor; [now apply read_xyz_none|auto].
Qed.
Lemma kept_last limit lines pts p :
  Forall2 (fun x y => read_xyz limit x = Ok y) lines pts -> nth_error (keep_some pts) (length (keep_some pts) - 1) = Some p ->
  exists before text after, lines = before ++ text :: after /\ read_xyz limit text = Ok (Some p) /\
    Forall (beyond limit) after.
Proof.
  intros F. induction F as [|l q lines pts Hq F IH]; [discriminate|]. destruct q as [q|]; cbn [keep_some].
  - cbn [length]. destruct (keep_some pts) as [|k ks] eqn:Ek.
    + cbn. intros E. injection E as ->. exists [], l, lines. split; [reflexivity|]. split; [exact Hq|].
      eapply kept_all_beyond; eauto.
    + cbn [length] in IH |- *. replace (S (S (length ks)) - 1)%nat with (S (S (length ks) - 1)) by lia.
      cbn [nth_error]. intros E. apply IH in E as (b & t & a & -> & Ht & Ha). exists (l :: b), t, a. auto.
  - intros E. apply IH in E as (b & t & a & -> & Ht & Ha). exists (l :: b), t, a. auto.
Qed.

Lemma fold_max (l : list R) : forall x, exists m, fold_left py_max l x = m /\ (m = x \/ In m l) /\ x <= m /\ (forall y, In y l -> y <= m).
Proof.
  induction l as [|a l IH]; intros x; cbn [fold_left].
  - exists x. split; [reflexivity|]. split; [auto|]. split; [lra|]. intros y [].
  - destruct (IH (py_max x a)) as (m & E & Hin & Hx & Hy). exists m. split; [exact E|].
    assert (P : (py_max x a = x \/ py_max x a = a) /\ x <= py_max x a /\ a <= py_max x a).
    { unfold py_max. change (n_ltb x a) with (R_ltb x a). unfold R_ltb. destruct (Rlt_dec x a); lra. }
    destruct P as (P1 & P2 & P3). split; [|split].
    + destruct Hin as [->|Hin]; [destruct P1 as [->| ->]; cbn; auto|cbn; auto].
    + lra.
    + intros y [<-|Hin']; [lra|auto].
Qed.

Lemma Forall2_map_left {A B C} (P : B -> C -> Prop) (g : A -> B) l l' :
  Forall2 P (map g l) l' -> Forall2 (fun a c => P (g a) c) l l'.
Proof.
  revert l'; induction l as [|a l IH]; intros l' F; inversion F; subst; constructor; auto.
Qed.

(** C60.  The run-out line of the result file [c] of any table [t]. *)
Theorem C60_run_out_line : forall (t : table R) c slope_lines ro,
  write_values_to_file t = Ok (Some c) -> run_out_of c slope_lines = Ok ro ->
  exists r0 r1 x0 x1 far,
    nth_error t 0 = Some r0 /\ nth_error t 1 = Some r1 /\
    shows r0 "effusion_rate" (ro_eff ro) /\
    shows r1 "channel_depth" (ro_depth ro) /\ shows r1 "channel_width" (ro_width ro) /\
    shows r0 "position" x0 /\ shows r1 "position" x1 /\
    (forall r, In r t -> exists p s, shows r "position" p /\ shows r "slope" s /\ p <= far) /\
    (exists r, In r t /\ shows r "position" far) /\
    let limit := far + x1 in
    ro_distance ro <= limit /\
    (exists before text after d, tl slope_lines = before ++ text :: after /\ Forall (beyond limit) before /\ d <= limit /\
       point_of text (fst (fst (ro_start ro))) (snd (fst (ro_start ro))) (snd (ro_start ro)) d) /\
    (exists before text after, tl slope_lines = before ++ text :: after /\ Forall (beyond limit) after /\
       point_of text (fst (fst (ro_end ro))) (snd (fst (ro_end ro))) (snd (ro_end ro)) (ro_distance ro)).
Proof.
  intros t c lines ro Hw H. destruct t as [|first rest]; [discriminate Hw|].
  unfold write_values_to_file in Hw. destruct (rmapM_csv (map fst first) (first :: rest)) as [[_ E]|[_ E]]; rewrite E in Hw; [discriminate|].
  cbn [rbind] in Hw. injection Hw as <-. unfold run_out_of in H. cbn [csv_header csv_rows] in H.
  change (csv_line (map fst first) first :: map (csv_line (map fst first)) rest)
    with (map (csv_line (map fst first)) (first :: rest)) in H.
  remember (first :: rest) as t eqn:Et. set (fields := map fst first) in *. clearbody fields.
  apply rbind_ok in H as (rows & Hrows & H). apply rmapM_Forall2 in Hrows. apply Forall2_map_left in Hrows.
  apply rbind_ok in H as (o0 & H0 & H). apply rbind_ok in H as (far & Hfar & H). apply rbind_ok in H as (o1 & H1 & H).
  set (limit := n_add far (o_pos o1)) in *.
  apply rbind_ok in H as (pts & Hpts & H). apply rmapM_Forall2 in Hpts.
  apply rbind_ok in H as (p0 & Hp0 & H). apply rbind_ok in H as (p1 & Hp1 & H).
  destruct p0 as [[[a0 b0] c0] d0], p1 as [[[a1 b1] c1] d1]. injection H as <-.
  cbn [ro_eff ro_depth ro_width ro_start ro_end ro_distance fst snd].
  assert (Rows : forall i o, nth_error rows i = Some o -> exists r, nth_error t i = Some r /\ read_result_row fields (csv_line fields r) = Ok o).
  { clear -Hrows. intros i. revert i. induction Hrows as [|r o' t' rows' Ho F IH]; intros i o Hi; [destruct i; discriminate Hi|].
    destruct i as [|i]; [injection Hi as <-; exists r; auto|]. cbn [nth_error] in Hi |- *. eapply IH; eauto. }
  unfold nth_err in *.
  destruct (nth_error rows 0) as [q0|] eqn:E0; [injection H0 as ->|discriminate].
  destruct (nth_error rows 1) as [q1|] eqn:E1; [injection H1 as ->|discriminate].
  destruct (nth_error (keep_some pts) 0) as [k0|] eqn:K0; [injection Hp0 as ->|discriminate].
  destruct (nth_error (keep_some pts) (length (keep_some pts) - 1)) as [k1|] eqn:K1; [injection Hp1 as ->|discriminate].
  destruct (Rows _ _ E0) as (r0 & N0 & R0). destruct (Rows _ _ E1) as (r1 & N1 & R1).
  apply read_row_ok in R0 as (P0 & _ & _ & _ & F0). apply read_row_ok in R1 as (P1 & _ & W1 & D1 & _).
  assert (Far : (forall o, In o rows -> o_pos o <= far) /\ exists o, In o rows /\ o_pos o = far).
  { unfold py_max_list in Hfar. destruct rows as [|q rows']; [discriminate E0|]. cbn [map] in Hfar. injection Hfar as Hfar.
    destruct (fold_max (map o_pos rows') (o_pos q)) as (m & Em & Hin & Hq & Hall). rewrite Em in Hfar. subst m. split.
    - intros o [<-|Ho]; [exact Hq|]. apply Hall, in_map, Ho.
    - destruct Hin as [->|Hin]; [exists q; cbn; auto|]. apply in_map_iff in Hin as (o & Eo & Ho). exists o. cbn. auto. }
  destruct Far as [Far1 (of_ & Hof & Eof)].
  destruct (kept_first _ _ _ _ Hpts K0) as (bf & tx & af & EL & Hx & Hb). apply read_xyz_some in Hx as [Px Lx].
  destruct (kept_last _ _ _ _ Hpts K1) as (bf' & tx' & af' & EL' & Hx' & Ha). apply read_xyz_some in Hx' as [Px' Lx'].
  exists r0, r1, (o_pos o0), (o_pos o1), far.
  split; [exact N0|]. split; [exact N1|]. split; [exact F0|]. split; [exact D1|]. split; [exact W1|]. split; [exact P0|]. split; [exact P1|].
  split.
  { intros r Hr. clear -Hr Hrows Far1. induction Hrows as [|r' o t rows Ho F IH]; [destruct Hr|]. destruct Hr as [->|Hr].
    - apply read_row_ok in Ho as (P & (s & S) & _). exists (o_pos o), s. split; [exact P|]. split; [exact S|]. apply Far1. now left.
    - apply IH; [|exact Hr]. intros; apply Far1; now right. }
  split.
  { apply In_nth_error in Hof as (i & Hi). destruct (Rows _ _ Hi) as (r & Nr & Rr). exists r. split; [eapply nth_error_In; eauto|].
    apply read_row_ok in Rr as (P & _). now rewrite Eof in P. }
  cbv zeta. change (far + o_pos o1) with limit. split; [exact Lx'|]. split.
  - exists bf, tx, af, d0. auto.
  - exists bf', tx', af'. auto.
Qed.

(** Fewer than two rows, or a row without a slope (the row of an abandoned
    step), make it fail. *)
Theorem C60_needs_two_complete_rows : forall (t : table R) c slope_lines,
  write_values_to_file t = Ok (Some c) ->
  (length t < 2)%nat \/ (exists r, In r t /\ assoc "slope" r = None) ->
  exists e, run_out_of c slope_lines = Err e.
Proof.
  intros t c lines Hw H. destruct (run_out_of c lines) as [ro|e] eqn:E; [exfalso|eauto].
  destruct (C60_run_out_line t c lines ro Hw E) as (r0 & r1 & x0 & x1 & far & _ & N1 & _ & _ & _ & _ & _ & Hall & _).
  destruct H as [Hl|(r & Hr & Hs)].
  - assert (nth_error t 1 <> None) by congruence. apply nth_error_Some in H. lia.
  - destruct (Hall r Hr) as (p & s & _ & (c' & Hc & _) & _). congruence.
Qed.

(** For the table of a fresh run with a positive step: the run-out line exists
    only if at least two steps completed and the last step did not stop in the
    middle; the reported run-out distance does not exceed the position reached
    plus the start position ... *)
Lemma slope_not_in_budget fl : ~ In "slope" (@budget_names R fl).
Proof.
  unfold budget_names. intros H. apply in_app_or in H as [H|[H|[]]]; [|discriminate].
  induction fl as [|f fl IH]; cbn [loop_names] in H; [exact H|].
  assert (Hf : ~ In "slope" (flux_logs f)) by (destruct f as [[]| | | | |]; cbn; intuition discriminate).
  repeat (apply in_app_or in H as [H|H]; [now apply Hf in H|]).
  apply in_app_or in H as [[H|[]]|H]; [destruct f; discriminate|auto].
Qed.
Theorem C60_run_out_of_a_run : forall (sm : sim R) fuel s depth w' c slope_lines ro,
  0 < s_dx sm ->
  simulate fuel sm (initial_world s [] depth) = Some (Ok tt, w') ->
  write_values_to_file (w_log w') = Ok (Some c) ->
  run_out_of c slope_lines = Ok ro ->
  (2 <= w_iter w')%nat /\ length (w_log w') = w_iter w' /\
  ro_distance ro <= st_pos (w_st w') + st_pos s /\
  (exists before text after, tl slope_lines = before ++ text :: after /\
     Forall (beyond (st_pos (w_st w') + st_pos s)) after /\
     point_of text (fst (fst (ro_end ro))) (snd (fst (ro_end ro))) (snd (ro_end ro)) (ro_distance ro)).
Proof.
  intros sm fuel s depth w' c lines ro Hdx Hs Hw Hro.
  destruct (C62_table_of_a_run sm fuel s depth w' ltac:(lra) Hs) as (HP & done & rest & HL & Hlen & HE & Hr).
  destruct (C60_run_out_line _ _ _ _ Hw Hro) as
    (r0 & r1 & x0 & x1 & far & N0 & N1 & _ & _ & _ & P0 & P1 & Hall & (rf & Hrf & Pf) & Hdist & _ & Hend).
  assert (rest = []) as ->.
  { destruct Hr as [->|(r & -> & _ & Hc)]; [reflexivity|]. exfalso.
    assert (Hin : In r (w_log w')) by (rewrite HL; apply in_or_app; cbn; auto).
    destruct (Hall r Hin) as (p & sl & _ & (cl & Hcl & _) & _).
    assert (K : In "slope" (map fst r)).
    { destruct (in_dec string_dec "slope" (map fst r)) as [|Hn]; [assumption|]. apply assoc_None_notin in Hn. congruence. }
    rewrite Hc in K. unfold partial_columns in K. apply add_keys_sub in K as [[K|[]]|K]; [discriminate|]. now apply slope_not_in_budget in K. }
  rewrite app_nil_r in HL. rewrite <- HL in *.
  assert (Hl1 : (1 < length (w_log w'))%nat) by (apply nth_error_Some; congruence).
  split; [lia|]. split; [exact Hlen|].
  assert (RP : forall i r p, nth_error (w_log w') i = Some r -> shows r "position" p -> p = st_pos s + INR i * s_dx sm).
  { intros i r p Hi (cl & Hcl & <-). destruct (HE i r Hi) as [Hp _]. rewrite Hp in Hcl. injection Hcl as <-. reflexivity. }
  assert (X1 := RP _ _ _ N1 P1).
  assert (XF : far = st_pos s + (INR (w_iter w') - 1) * s_dx sm).
  { destruct (nth_error (w_log w') (w_iter w' - 1)) as [rl|] eqn:El; [|apply nth_error_None in El; lia].
    destruct (Hall rl (nth_error_In _ _ El)) as (p & _ & Pl & _ & Hle). assert (XL := RP _ _ _ El Pl).
    apply In_nth_error in Hrf as (i & Hi). assert (XI := RP _ _ _ Hi Pf).
    assert (Hil : (i <= w_iter w' - 1)%nat) by (assert (i < length (w_log w'))%nat by (apply nth_error_Some; congruence); lia).
    apply le_INR in Hil. rewrite minus_INR in Hil, XL by lia. cbn [INR] in Hil, XL. nra. }
  assert (XX : far + x1 = st_pos (w_st w') + st_pos s).
  { rewrite X1, XF, HP. cbn [INR]. ring. }
  cbv zeta in Hdist. rewrite XX in Hdist, Hend. split; [exact Hdist|exact Hend].
Qed.

(** ... so a flow that starts at position 0 is never reported to reach further
    than it did. *)
Corollary C60_from_the_vent_run_out_is_sound : forall (sm : sim R) fuel s depth w' c slope_lines ro,
  0 < s_dx sm -> st_pos s = 0 ->
  simulate fuel sm (initial_world s [] depth) = Some (Ok tt, w') ->
  write_values_to_file (w_log w') = Ok (Some c) -> run_out_of c slope_lines = Ok ro ->
  ro_distance ro <= st_pos (w_st w').
Proof.
  intros sm fuel s depth w' c lines ro Hdx H0 Hs Hw Hro.
  destruct (C60_run_out_of_a_run _ _ _ _ _ _ _ _ Hdx Hs Hw Hro) as (_ & _ & H & _). rewrite H0 in H. lra.
Qed.

(** ... but one that starts further down can be: as soon as the slope file has
    a point beyond the place reached and less than the start position away
    from it, the reported distance is one the flow never reached. *)
Definition ascending (lines : list string) : Prop :=
  forall before a between b after da db, lines = before ++ a :: between ++ b :: after ->
    column (split_on tab_char a) 3 = Ok da -> column (split_on tab_char b) 3 = Ok db -> da <= db.
Theorem C60_reported_run_out_was_reached_refuted : forall (sm : sim R) fuel s depth w' c slope_lines ro text0 d0,
  0 < s_dx sm ->
  simulate fuel sm (initial_world s [] depth) = Some (Ok tt, w') ->
  write_values_to_file (w_log w') = Ok (Some c) -> run_out_of c slope_lines = Ok ro ->
  ascending (tl slope_lines) -> In text0 (tl slope_lines) -> column (split_on tab_char text0) 3 = Ok d0 ->
  st_pos (w_st w') < d0 <= st_pos (w_st w') + st_pos s ->
  st_pos (w_st w') < ro_distance ro.
Proof.
  intros sm fuel s depth w' c lines ro text0 d0 Hdx Hs Hw Hro Hasc Hin Hd0 Hd.
  destruct (C60_run_out_of_a_run _ _ _ _ _ _ _ _ Hdx Hs Hw Hro) as (_ & _ & _ & before & text & after & El & Hb & _ & _ & _ & Hd1).
  rewrite El in Hin. apply in_app_or in Hin as [Hin|[<-|Hin]].
  - apply in_split in Hin as (l1 & l2 & ->). rewrite <- app_assoc in El. cbn [app] in El.
    specialize (Hasc l1 text0 l2 text after d0 _ El Hd0 Hd1). lra.
  - rewrite Hd0 in Hd1. injection Hd1 as <-. lra.
  - rewrite Forall_forall in Hb. destruct (Hb _ Hin) as (d & Hd2 & Hlt). rewrite Hd0 in Hd2. injection Hd2 as <-. lra.
Qed.
