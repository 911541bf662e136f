(** * Base: exceptions as values, string helpers.

    Python exceptions are modelled as values of [exn]; a call that may raise
    returns [res A].  Nothing here is specific to pyflowgo. *)
From Coq Require Export String Ascii ZArith Bool Lia List.
Export ListNotations.
Open Scope string_scope.
Open Scope list_scope.

(** The exceptions that pyflowgo's code can raise, by Python class.
    [ComplexResult] is not a Python exception: [x ** y] with [x < 0] and a
    non-integer [y] yields a Python [complex]; every later ordering comparison
    or [math.*] call on it raises [TypeError].  We report it at the operation
    that produces the complex number (DESIGN.md, "simplifications").
    [NotReal] marks [float("inf")], which has no counterpart in the
    real-number instance. *)
Inductive exn : Type :=
| ZeroDivisionError
| ValueError (msg : string)
| OverflowError
| KeyError (key : string)
| NameError (msg : string)
| TypeError
| AttributeError (attr : string)
| RuntimeError (msg : string)
| IndexError
| AssertionError
| FileNotFoundError (path : string)
| ComplexResult
| NotReal
| StopIteration.

Inductive res (A : Type) : Type :=
| Ok (a : A)
| Err (e : exn).
Arguments Ok {A} a.
Arguments Err {A} e.

Definition rbind {A B} (m : res A) (f : A -> res B) : res B :=
  match m with Ok a => f a | Err e => Err e end.

Definition rmap {A B} (f : A -> B) (m : res A) : res B :=
  match m with Ok a => Ok (f a) | Err e => Err e end.

Notation "'let?' x ':=' m 'in' f" := (rbind m (fun x => f))
  (at level 200, x name, m at level 100, f at level 200, right associativity).

Definition is_ok {A} (m : res A) : Prop := exists a, m = Ok a.

Lemma rbind_ok {A B} (m : res A) (f : A -> res B) b :
  rbind m f = Ok b -> exists a, m = Ok a /\ f a = Ok b.
Proof. destruct m as [a|e]; simpl; intros H; [exists a; auto | discriminate]. Qed.

Lemma rbind_ok_iff {A B} (m : res A) (f : A -> res B) b :
  rbind m f = Ok b <-> exists a, m = Ok a /\ f a = Ok b.
Proof.
  split; [apply rbind_ok|]. intros [a [Ha Hf]]. rewrite Ha. exact Hf.
Qed.

(** Map a raising function over a list, left to right, stopping at the first
    exception. *)
Fixpoint rmapM {A B} (f : A -> res B) (l : list A) : res (list B) :=
  match l with
  | [] => Ok []
  | x :: r => let? y := f x in let? ys := rmapM f r in Ok (y :: ys)
  end.

Lemma rmapM_Forall2 {A B} (f : A -> res B) l ys :
  rmapM f l = Ok ys -> Forall2 (fun x y => f x = Ok y) l ys.
Proof.
  revert ys; induction l as [|x r IH]; simpl; intros ys H.
  - injection H as <-. constructor.
  - apply rbind_ok in H as [y [Hy H]]. apply rbind_ok in H as [ys' [Hys H]].
    injection H as <-. constructor; auto.
Qed.

(** Characters and strings. *)
Definition tab_char : ascii := Ascii.ascii_of_nat 9.
Definition newline_char : ascii := Ascii.ascii_of_nat 10.

Fixpoint string_app_assoc_fix (a b c : string) : ((a ++ b) ++ c = a ++ (b ++ c))%string.
Proof. destruct a as [|x a]; simpl; [reflexivity|]. now rewrite string_app_assoc_fix. Qed.

Lemma string_app_nil_r (a : string) : (a ++ "")%string = a.
Proof. induction a as [|x a IH]; simpl; [reflexivity | now rewrite IH]. Qed.

Lemma string_app_inj_l (a b c : string) : (a ++ b = a ++ c)%string -> b = c.
Proof. induction a as [|x a IH]; simpl; intros H; [exact H | injection H as H; auto]. Qed.

Lemma string_length_app (a b : string) :
  String.length (a ++ b) = (String.length a + String.length b)%nat.
Proof. induction a as [|x a IH]; simpl; [reflexivity | now rewrite IH]. Qed.

Lemma string_app_inj_r (a b c : string) : (a ++ c = b ++ c)%string -> a = b.
Proof.
  revert b; induction a as [|x a IH]; intros [|y b]; simpl; intros H; auto.
  - exfalso. assert (E := f_equal String.length H). simpl in E.
    rewrite string_length_app in E. lia.
  - exfalso. assert (E := f_equal String.length H). simpl in E.
    rewrite string_length_app in E. lia.
  - injection H as -> H. f_equal. auto.
Qed.

(** [str.split(sep)] for a one-character separator. *)
Fixpoint split_on (sep : ascii) (s : string) : list string :=
  match s with
  | EmptyString => [EmptyString]
  | String c r =>
      if Ascii.eqb c sep then EmptyString :: split_on sep r
      else match split_on sep r with
           | [] => [String c EmptyString]
           | h :: t => String c h :: t
           end
  end.

(** [str.lower()] on ASCII letters; other characters unchanged
    (simplification: non-ASCII case mapping is not modelled). *)
Definition lower_ascii (c : ascii) : ascii :=
  let n := nat_of_ascii c in
  if (65 <=? n)%nat && (n <=? 90)%nat then ascii_of_nat (n + 32) else c.
Fixpoint lower (s : string) : string :=
  match s with EmptyString => EmptyString | String c r => String (lower_ascii c) (lower r) end.

(** ASCII white space of [str.strip()]. *)
Definition is_space (c : ascii) : bool :=
  let n := nat_of_ascii c in
  ((9 <=? n)%nat && (n <=? 13)%nat) || ((28 <=? n)%nat && (n <=? 32)%nat).
Fixpoint lstrip (s : string) : string :=
  match s with
  | EmptyString => EmptyString
  | String c r => if is_space c then lstrip r else s
  end.
Fixpoint rstrip (s : string) : string :=
  match s with
  | EmptyString => EmptyString
  | String c r =>
      match rstrip r with
      | EmptyString => if is_space c then EmptyString else String c EmptyString
      | r' => String c r'
      end
  end.
Definition strip (s : string) : string := rstrip (lstrip s).

(** Decimal rendering of integers, [str(int)]. *)
Definition digit_char (n : Z) : ascii := ascii_of_nat (48 + Z.to_nat n).
Fixpoint pos_digits (fuel : nat) (n : Z) (acc : string) : string :=
  match fuel with
  | O => acc
  | S f =>
      let acc' := String (digit_char (n mod 10)) acc in
      if n / 10 =? 0 then acc' else pos_digits f (n / 10) acc'
  end%Z.
Definition Z_to_string (z : Z) : string :=
  if (z <? 0)%Z
  then String "-" (pos_digits (S (Z.to_nat (Z.log2 (- z)))) (- z) "")
  else pos_digits (S (Z.to_nat (Z.log2 z))) z "".
