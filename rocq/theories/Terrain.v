(** * Terrain: pyflowgo/flowgo_terrain_condition.py and the linear splines *)
From Verif Require Import Base Num Json Logger World.

Section Spline.
Context {T : Type} {N : Num T}.
Open Scope num_scope.

(** scipy.interpolate.InterpolatedUnivariateSpline(x, y, k=1), trusted
    behaviour: needs at least two points and strictly increasing x (ValueError
    otherwise); the function is piecewise linear through the points, the first
    and last segments being extended beyond the ends (ext=0). *)
Fixpoint strictly_increasing (xs : list T) : bool :=
  match xs with
  | [] => true
  | x :: r => match r with
              | [] => true
              | y :: _ => (x <? y) && strictly_increasing r
              end
  end.

Definition make_spline (xs ys : list T) : res (list (T * T)) :=
  if (length xs <? 2)%nat then Err (ValueError "not enough points")
  else if negb (Nat.eqb (length xs) (length ys)) then Err (ValueError "x and y should have the same length")
  else if strictly_increasing xs then Ok (combine xs ys)
  else Err (ValueError "x must be strictly increasing").

(** Value on the segment (x0,y0)-(x1,y1), as the linear B-spline combination. *)
Definition segment (x0 y0 x1 y1 x : T) : res T :=
  let? a := (x1 - x) / (x1 - x0) in
  let? b := (x - x0) / (x1 - x0) in
  Ok (y0 * a + y1 * b).

(** The segment used for x is the first one whose right end exceeds x, the last
    one if there is none.  The result is a numpy value ([n_np]). *)
Fixpoint spline_segment (pts : list (T * T)) (x : T) : res T :=
  match pts with
  | [] => Err (ValueError "empty spline")
  | (x0, y0) :: rest =>
      match rest with
      | [] => Err (ValueError "empty spline")
      | (x1, y1) :: rest' =>
          match rest' with
          | [] => segment x0 y0 x1 y1 x
          | _ :: _ => if x <? x1 then segment x0 y0 x1 y1 x else spline_segment rest x
          end
      end
  end.
Definition spline_eval (pts : list (T * T)) (x : T) : res T :=
  rmap n_np (spline_segment pts x).
End Spline.

(** flowgo_terrain_condition.py:44-56 — the attributes that stay fixed once the
    files are read.  [_channel_depth] is mutable and lives in the world. *)
Record terrain (T : Type) : Type := {
  ter_eff_init  : T;
  ter_width     : T;
  ter_gravity   : T;
  ter_maxlen    : T;
  ter_default_slope : T;
  ter_spline    : option (list (T * T))
}.
Arguments ter_eff_init {T}. Arguments ter_width {T}. Arguments ter_gravity {T}.
Arguments ter_maxlen {T}. Arguments ter_default_slope {T}. Arguments ter_spline {T}.

Section Terrain.
Context {T : Type} {N : Num T}.
Open Scope num_scope.

(** math.radians(x) = x * (pi / 180) *)
Definition radians (x : T) : res T :=
  let? k := n_pi / n_lit 180 1 in Ok (x * k).

(** flowgo_terrain_condition.py:123-127 — get_channel_slope *)
Definition get_channel_slope (t : terrain T) (x : T) : res T :=
  match ter_spline t with
  | Some pts => spline_eval pts x
  | None => Ok (ter_default_slope t)
  end.

(** Python list slice l[a:b] for 0 <= a. *)
Definition slice {A} (l : list A) (a b : Z) : list A :=
  firstn (Z.to_nat b - Z.to_nat a) (skipn (Z.to_nat a) l).

(** Python's l[a:b] when the upper bound may be negative (counted from the
    end): flowgo_terrain_condition.py:154 with a negative last_index + 1. *)
Definition py_slice {A} (l : list A) (a b : Z) : list A :=
  let len := Z.of_nat (length l) in
  let norm := fun z => (if z <? 0 then Z.max 0 (z + len) else Z.min z len)%Z in
  slice l (norm a) (norm b).

(** flowgo_terrain_condition.py:149-157 — one entry of running_mean.
    n is a float: int(n/2) truncates, int(i+n/2) truncates after adding i. *)
Definition running_mean_at (l : list T) (n : T) (i : nat) : res T :=
  let? h := n / n_lit 2 1 in
  let? hi := n_trunc h in
  let start_index := Z.max 0 (Z.of_nat i - hi) in
  let? li := n_trunc (num_of_nat i + h) in
  let last_index := Z.min (Z.of_nat (length l) - 1) li in
  let current_list := py_slice l start_index (last_index + 1) in
  py_sum current_list / num_of_nat (length current_list).

(** flowgo_terrain_condition.py:147-159 — running_mean *)
Definition running_mean (l : list T) (n : T) : res (list T) :=
  rmapM (running_mean_at l n) (seq 0 (length l)).

(** flowgo_terrain_condition.py:58-72 — read_initial_condition_from_json_file.
    Result: the terrain without spline, the initial channel depth, and the
    smoothing window if smoothing is active ([value is True]: only the JSON
    literal true). *)
Definition read_terrain (d : json T) : res (terrain T * T * option T) :=
  let? eff := jfloat1 d "effusion_rate_init" in
  let? depth := jfloat2 d "terrain_conditions" "depth" in
  let? width := jfloat2 d "terrain_conditions" "width" in
  let? g := jfloat2 d "terrain_conditions" "gravity" in
  let? ml := jfloat2 d "terrain_conditions" "max_channel_length" in
  let? act := jget2 d "terrain_conditions" "slope_smoothing_active" in
  let? smooth := match act with
                 | JBool true =>
                     let? n := jfloat2 d "terrain_conditions" "slope_smoothing_number_of_points" in
                     Ok (Some n)
                 | _ => Ok None
                 end in
  let? ds := radians (n_lit 2657414 1000000) in                  (* line 52 *)
  Ok ({| ter_eff_init := eff; ter_width := width; ter_gravity := g; ter_maxlen := ml;
         ter_default_slope := ds; ter_spline := None |}, depth, smooth).

(** One data line of the slope file: line.strip('\n').split('\t') and float()
    of column [c]; IndexError when the column is missing.  (A trailing newline
    is removed by the line-splitting of the model; strip('\n') on the rest is a
    no-op.) *)
Definition column (line : list string) (c : nat) : res T :=
  match nth_error line c with
  | Some s => parse_float s
  | None => Err IndexError
  end.

(** flowgo_terrain_condition.py:102-111 — one iteration of the reading loop:
    [None] when the row is dropped (slope <= 0.1 degree), else
    (distance, slope in radians). *)
Definition read_slope_line (text : string) : res (option (T * T)) :=
  let line := split_on tab_char text in
  let? sl := column line 4 in
  if sl <=? n_lit 1 10 then Ok None
  else
    let? sl := column line 4 in
    let? rad := radians sl in
    let? dist := column line 3 in
    let? _ := column line 2 in
    let? _ := column line 0 in
    let? _ := column line 1 in
    Ok (Some (dist, rad)).

Fixpoint keep_some {A} (l : list (option A)) : list A :=
  match l with
  | [] => []
  | Some a :: r => a :: keep_some r
  | None :: r => keep_some r
  end.

(** flowgo_terrain_condition.py:73-121 — read_slope_from_file on the lines of
    the file (header included). *)
Definition read_slope_profile (lines : list string) : res (list (T * T)) :=
  let? rows := rmapM read_slope_line (tl lines) in
  Ok (keep_some rows).

Definition read_slope_from_file (lines : list string) (smooth : option T) (t : terrain T)
  : res (terrain T) :=
  let? prof := read_slope_profile lines in
  let dist := map fst prof in
  let? slope := match smooth with
                | Some n => running_mean (map snd prof) n
                | None => Ok (map snd prof)
                end in
  let? sp := make_spline dist slope in
  Ok {| ter_eff_init := ter_eff_init t; ter_width := ter_width t; ter_gravity := ter_gravity t;
        ter_maxlen := ter_maxlen t; ter_default_slope := ter_default_slope t;
        ter_spline := Some sp |}.
End Terrain.
