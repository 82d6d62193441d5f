(** Montgomery curves y^2 = x^3 + A x^2 + x over the integers mod p: points,
    chord-and-tangent addition, multiples.  Vocabulary of C46 for the five
    Montgomery curves of which the field files publish base point and order.
    No model of the code. *)
From Coq Require Import ZArith.
From Verif Require Import Fields EdwardsSpec GroupSpec.
Local Open Scope Z_scope.

Inductive mpoint : Type := Infinity | Finite (x y : Z).

Definition on_mont (p A : Z) (P : mpoint) : Prop :=
  match P with Infinity => True | Finite x y => on_montgomery p A x y end.

Definition same_mont (p : Z) (P Q : mpoint) : Prop :=
  match P, Q with
  | Infinity, Infinity => True
  | Finite x y, Finite x' y' => eqp p x x' /\ eqp p y y'
  | _, _ => False
  end.

(* R = P + Q.  The line through P and Q (the tangent when they are the same
   point) has slope l and meets the curve in a third point, which is reflected;
   it is vertical when Q is the reflection of P *)
Inductive mont_sum (p A : Z) : mpoint -> mpoint -> mpoint -> Prop :=
| sum_infinity_left : forall Q R, same_mont p Q R -> mont_sum p A Infinity Q R
| sum_infinity_right : forall P R, same_mont p P R -> mont_sum p A P Infinity R
| sum_vertical : forall x1 y1 x2 y2, eqp p x1 x2 -> eqp p y1 (- y2) -> mont_sum p A (Finite x1 y1) (Finite x2 y2) Infinity
| sum_chord : forall x1 y1 x2 y2 x3 y3 l, ~ eqp p x1 x2 -> eqp p (l * (x2 - x1)) (y2 - y1) ->
    eqp p x3 (l * l - A - x1 - x2) -> eqp p y3 (l * (x1 - x3) - y1) -> mont_sum p A (Finite x1 y1) (Finite x2 y2) (Finite x3 y3)
| sum_tangent : forall x1 y1 x2 y2 x3 y3 l, eqp p x1 x2 -> eqp p y1 y2 -> ~ eqp p y1 0 -> eqp p (l * (2 * y1)) (3 * x1 * x1 + 2 * A * x1 + 1) ->
    eqp p x3 (l * l - A - x1 - x2) -> eqp p y3 (l * (x1 - x3) - y1) -> mont_sum p A (Finite x1 y1) (Finite x2 y2) (Finite x3 y3).

(* R is the n-fold sum P + ... + P (the point at infinity for n = 0) *)
Inductive mont_multiple (p A : Z) (P : mpoint) : nat -> mpoint -> Prop :=
| mont_multiple_0 : mont_multiple p A P 0 Infinity
| mont_multiple_S : forall n R Q, mont_multiple p A P n R -> mont_sum p A R P Q -> mont_multiple p A P (S n) Q.

(* the published base point *)
Definition mc_point (c : montgomery_constants) : mpoint := Finite (value (mc_fld c) (mc_x c)) (value (mc_fld c) (mc_y c)).
