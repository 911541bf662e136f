(** * Spec: plain mathematics used in the statements of the properties.

    Nothing in this file refers to the model of pyflowgo. *)
From Coq Require Import String List Bool Reals ZArith.
Import ListNotations.

(** ** Histories of "write (name, position, value)" calls *)
Section History.
Context {P V : Type} (eqb : P -> P -> bool).

(** The value of the last call with that name and position. *)
Fixpoint last_write (name : string) (p : P) (calls : list (string * P * V)) : option V :=
  match calls with
  | [] => None
  | (n, q, v) :: later =>
      match last_write name p later with
      | Some u => Some u
      | None => if String.eqb n name && eqb q p then Some v else None
      end
  end.

(** The distinct positions, in the order in which they first appear. *)
Fixpoint first_seen_acc (acc ps : list P) : list P :=
  match ps with
  | [] => acc
  | p :: r => if existsb (eqb p) acc then first_seen_acc acc r else first_seen_acc (acc ++ [p]) r
  end.
Definition first_seen (ps : list P) : list P := first_seen_acc [] ps.

(** [eqb] behaves as an equality on the listed positions (false with NaN). *)
Definition equality_on (ps : list P) : Prop :=
  (forall x, In x ps -> eqb x x = true) /\
  (forall x y, In x ps -> In y ps -> eqb x y = true -> eqb y x = true) /\
  (forall x y z, In x ps -> In y ps -> In z ps -> eqb x y = true -> eqb y z = true -> eqb x z = true).
End History.
