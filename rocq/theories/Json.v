(** * Json: configuration values as [json.load] returns them. *)
From Verif Require Import Base Num.

(** JSON objects keep insertion order (Python dicts do); a duplicate key in a
    document has already been merged by the parser. *)
Inductive json (T : Type) : Type :=
| JNull
| JBool (b : bool)
| JInt (z : Z)
| JFloat (x : T)
| JStr (s : string)
| JArr (l : list (json T))
| JObj (fields : list (string * json T)).
Arguments JNull {T}.
Arguments JBool {T} b.
Arguments JInt {T} z.
Arguments JFloat {T} x.
Arguments JStr {T} s.
Arguments JArr {T} l.
Arguments JObj {T} fields.

(** Python dictionaries as insertion-ordered association lists. *)
Section Assoc.
Context {V : Type}.
Fixpoint assoc (k : string) (l : list (string * V)) : option V :=
  match l with
  | [] => None
  | (k', v) :: r => if String.eqb k k' then Some v else assoc k r
  end.
(** [d[k] = v]: in place if present, appended otherwise. *)
Fixpoint assoc_set (k : string) (v : V) (l : list (string * V)) : list (string * V) :=
  match l with
  | [] => [(k, v)]
  | (k', v') :: r => if String.eqb k k' then (k', v) :: r else (k', v') :: assoc_set k v r
  end.

Lemma assoc_set_same k v l : assoc k (assoc_set k v l) = Some v.
Proof.
  induction l as [|[k' v'] r IH]; simpl.
  - now rewrite String.eqb_refl.
  - destruct (String.eqb k k') eqn:E; simpl; rewrite E; auto.
Qed.

Lemma assoc_set_other k k2 v l : k2 <> k -> assoc k2 (assoc_set k v l) = assoc k2 l.
Proof.
  intros Hne. induction l as [|[k' v'] r IH]; simpl.
  - destruct (String.eqb k2 k) eqn:E; auto. apply String.eqb_eq in E. contradiction.
  - destruct (String.eqb k k') eqn:E; simpl.
    + apply String.eqb_eq in E. subst k'.
      destruct (String.eqb k2 k) eqn:E2; auto. apply String.eqb_eq in E2. contradiction.
    + destruct (String.eqb k2 k'); auto.
Qed.

Lemma assoc_set_keys_in k v l :
  In k (map fst l) -> map fst (assoc_set k v l) = map fst l.
Proof.
  induction l as [|[k' v'] r IH]; simpl; intros Hin; [contradiction|].
  destruct (String.eqb k k') eqn:E; simpl; [reflexivity|].
  f_equal. apply IH. destruct Hin as [->|Hin]; auto.
  rewrite String.eqb_refl in E. discriminate.
Qed.

Lemma assoc_set_keys_notin k v l :
  ~ In k (map fst l) -> map fst (assoc_set k v l) = map fst l ++ [k].
Proof.
  induction l as [|[k' v'] r IH]; simpl; intros Hin; [reflexivity|].
  destruct (String.eqb k k') eqn:E; simpl.
  - apply String.eqb_eq in E. subst. exfalso; auto.
  - f_equal. apply IH. auto.
Qed.

Lemma assoc_None_notin k l : assoc k l = None <-> ~ In k (map fst l).
Proof.
  induction l as [|[k' v'] r IH]; simpl; [tauto|].
  destruct (String.eqb k k') eqn:E.
  - apply String.eqb_eq in E. subst. split; [discriminate | intros H; exfalso; auto].
  - rewrite IH. apply String.eqb_neq in E. intuition congruence.
Qed.

Lemma assoc_in k v l : assoc k l = Some v -> In (k, v) l.
Proof.
  induction l as [|[k' v'] r IH]; simpl; [discriminate|].
  destruct (String.eqb k k') eqn:E; intros H.
  - apply String.eqb_eq in E. injection H as ->. subst. auto.
  - auto.
Qed.
End Assoc.

Section JsonOps.
Context {T : Type} {N : Num T}.

(** [d[k]] on a JSON value: KeyError if the key is absent, TypeError if the
    value is not a dict (a list or str indexed by a str also raises TypeError). *)
Definition jget (j : json T) (k : string) : res (json T) :=
  match j with
  | JObj f => match assoc k f with Some v => Ok v | None => Err (KeyError k) end
  | _ => Err TypeError
  end.

(** [k in d].  For a str operand Python tests substring inclusion and for a
    list membership; those configurations fail later anyway and are reported
    here as TypeError (simplification). *)
Definition jmem (j : json T) (k : string) : res bool :=
  match j with
  | JObj f => Ok (match assoc k f with Some _ => true | None => false end)
  | _ => Err TypeError
  end.

(** [float(v)] *)
Definition py_float (j : json T) : res T :=
  match j with
  | JFloat x => Ok x
  | JInt z => Ok (n_lit z 1)
  | JBool b => Ok (n_lit (if b then 1 else 0) 1)
  | JStr s => parse_float s
  | _ => Err TypeError
  end.

(** [float(data[a])] and [float(data[a][b])] *)
Definition jfloat1 (j : json T) (a : string) : res T :=
  let? v := jget j a in py_float v.
Definition jfloat2 (j : json T) (a b : string) : res T :=
  let? s := jget j a in let? v := jget s b in py_float v.

(** The recurring guard
    [if key not in data[sec]: raise ValueError("Missing ... entry in json")]. *)
Definition require2 (j : json T) (sec key : string) : res unit :=
  let? s := jget j sec in
  let? b := jmem s key in
  if b then Ok tt else Err (ValueError key).

(** [data[a][b]] read as is (model selector strings). *)
Definition jget2 (j : json T) (a b : string) : res (json T) :=
  let? s := jget j a in jget s b.

(** [v == "name"] for a selector value: False for anything but that string. *)
Definition jis (j : json T) (s : string) : bool :=
  match j with JStr s' => String.eqb s' s | _ => false end.
End JsonOps.
