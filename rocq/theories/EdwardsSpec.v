(** What the curve properties talk about: Edwards curves over the integers mod
    p, extended coordinates, and what it means for a field implementation to
    compute correctly.  Only [lawful] and [ideal_field] mention the modelled
    code, by the names of the field functions src/curve/edwards.rs calls. *)
From Coq Require Import ZArith Znumtheory List String.
From Verif Require Import Lang.
From Verif Require Src_edwards.
Import ListNotations.

Local Open Scope string_scope.
Local Open Scope Z_scope.
Local Open Scope list_scope.

(** ** The curve x^2 + y^2 = 1 + d x^2 y^2 over the integers mod p *)
Definition eqp (p a b : Z) : Prop := a mod p = b mod p.

Definition affine : Type := Z * Z.

Definition on_curve (p d : Z) (P : affine) : Prop :=
  let (x, y) := P in eqp p (x * x + y * y) (1 + d * x * x * y * y).

Definition same_point (p : Z) (P Q : affine) : Prop :=
  eqp p (fst P) (fst Q) /\ eqp p (snd P) (snd Q).

(* R = P + Q : x3 = (x1 y2 + y1 x2)/(1 + d x1 x2 y1 y2),
               y3 = (y1 y2 - x1 x2)/(1 - d x1 x2 y1 y2), both denominators non-zero *)
Definition edwards_sum (p d : Z) (P Q R : affine) : Prop :=
  let (x1, y1) := P in let (x2, y2) := Q in let (x3, y3) := R in
  ~ eqp p (1 + d * x1 * x2 * y1 * y2) 0 /\
  ~ eqp p (1 - d * x1 * x2 * y1 * y2) 0 /\
  eqp p (x3 * (1 + d * x1 * x2 * y1 * y2)) (x1 * y2 + y1 * x2) /\
  eqp p (y3 * (1 - d * x1 * x2 * y1 * y2)) (y1 * y2 - x1 * x2).

Definition neutral : affine := (0, 1).

Definition non_square (p d : Z) : Prop := forall r, ~ eqp p (r * r) d.

(* R is the n-fold sum P + ... + P (0 for n = 0) *)
Inductive multiple (p d : Z) (P : affine) : nat -> affine -> Prop :=
| multiple_0 : forall R, same_point p R neutral -> multiple p d P 0 R
| multiple_S : forall n R Q, multiple p d P n R -> edwards_sum p d R P Q -> multiple p d P (S n) Q.

(** ** Extended coordinates (X : Y : Z : T): x = X/Z, y = Y/Z, T = XY/Z *)
Definition denotes (p : Z) (X Y Z T : Z) (P : affine) : Prop :=
  ~ eqp p Z 0 /\ eqp p (fst P * Z) X /\ eqp p (snd P * Z) Y /\ eqp p (T * Z) (X * Y).

(* the same without T *)
Definition denotes_xyz (p : Z) (X Y Z : Z) (P : affine) : Prop :=
  ~ eqp p Z 0 /\ eqp p (fst P * Z) X /\ eqp p (snd P * Z) Y.

(** ** A field implementation that computes correctly.  [ok] says which values
    represent field elements, [den] which residue mod p a value stands for,
    [canon] which values are normalised, [mask] which value stands for a mask
    of equal bits.  Every function may leave its by-value arguments in any
    state; `&mut` results are the final values of the parameters. *)
Record lawful (p d : Z) (nbits : Z) (ok canon : val -> Prop) (den : val -> Z) (mask : bool -> val)
    (base : string -> list val -> res (list val * list val)) : Prop := {
  law_mul : forall a b, ok a -> ok b -> exists r u v, base "F::mul(F)" [a; b] = Ok ([r], [u; v]) /\
    ok r /\ eqp p (den r) (den a * den b);
  law_add : forall a b, ok a -> ok b -> exists r u v, base "F::add(F)" [a; b] = Ok ([r], [u; v]) /\
    ok r /\ eqp p (den r) (den a + den b);
  law_sub : forall a b, ok a -> ok b -> exists r u v, base "F::sub(F)" [a; b] = Ok ([r], [u; v]) /\
    ok r /\ eqp p (den r) (den a - den b);
  law_squared : forall a, ok a -> exists r u, base "F::squared" [a] = Ok ([r], [u]) /\
    ok r /\ eqp p (den r) (den a * den a);
  law_small_mul : forall a, ok a ->
    exists r u v, base "F::small_mul" [a; VInt 2] = Ok ([r], [u; v]) /\ ok r /\ eqp p (den r) (den a * 2);
  law_zero : exists r, base "F::zero" [] = Ok ([r], []) /\ ok r /\ eqp p (den r) 0;
  law_one : exists r, base "F::one" [] = Ok ([r], []) /\ ok r /\ eqp p (den r) 1;
  law_d : exists r, base "C::d_val" [] = Ok ([r], []) /\ ok r /\ eqp p (den r) d;
  law_normalize : forall a, ok a -> exists r, base "F::normalize" [a] = Ok ([], [r]) /\
    ok r /\ canon r /\ eqp p (den r) (den a);
  law_nbits : base "F::nbits" [] = Ok ([VInt nbits], []) /\ 0 < nbits < 2 ^ 31 /\ p <= 2 ^ nbits;
  law_bit : forall a i, ok a -> canon a -> 0 <= i < nbits -> exists u v,
    base "F::bit_normalized" [a; VInt i] = Ok ([VInt (if Z.testbit (den a mod p) i then 1 else 0)], [u; v]);
  law_filled : forall b : bool, exists u, base "F::filled" [VInt (if b then 1 else 0)] = Ok ([mask b], [u]);
  (* (x & mask b) | (y & mask (not b)) is x or y *)
  law_select : forall (b : bool) x y, ok x -> ok y -> exists x' y' r u v w,
    base "F::normalized_bitand" [x; mask b] = Ok ([], [x'; u]) /\
    base "F::normalized_bitand" [y; mask (negb b)] = Ok ([], [y'; v]) /\
    base "F::normalized_bitor" [x'; y'] = Ok ([], [r; w]) /\ ok r /\ eqp p (den r) (den (if b then x else y)) }.

(** The integers mod p themselves, as such an implementation. *)
Definition ideal_field (p d nbits : Z) (f : string) (vs : list val) : res (list val * list val) :=
  let ret z := Ok ([VInt z], vs) in
  match vs with
  | [] =>
      if String.eqb f "F::zero" then ret 0
      else if String.eqb f "F::one" then ret (1 mod p)
      else if String.eqb f "C::d_val" then ret (d mod p)
      else if String.eqb f "F::nbits" then ret nbits
      else Stuck
  | [VInt a] =>
      if String.eqb f "F::squared" then ret ((a * a) mod p)
      else if String.eqb f "F::normalize" then Ok ([], [VInt a])
      else if String.eqb f "F::filled" then ret (- a)
      else Stuck
  | [VInt a; VInt b] =>
      if String.eqb f "F::mul(F)" then ret ((a * b) mod p)
      else if String.eqb f "F::add(F)" then ret ((a + b) mod p)
      else if String.eqb f "F::sub(F)" then ret ((a - b) mod p)
      else if String.eqb f "F::small_mul" then ret ((a * b) mod p)
      else if String.eqb f "F::bit_normalized" then ret (if Z.testbit a b then 1 else 0)
      else if String.eqb f "F::normalized_bitand" then Ok ([], [VInt (Z.land a b); VInt b])
      else if String.eqb f "F::normalized_bitor" then Ok ([], [VInt (Z.lor a b); VInt b])
      else Stuck
  | _ => Stuck
  end.
Definition ideal_ok (p : Z) (v : val) : Prop := exists z, v = VInt z /\ 0 <= z < p.
Definition ideal_den (v : val) : Z := match v with VInt z => z | VArr _ => 0 end.
Definition ideal_mask (b : bool) : val := VInt (if b then -1 else 0).

(** ** Running the curve code *)
(** A point as the code stores it. *)
Record ext := Ext { eX : val; eY : val; eZ : val; eT : val }.
Definition coords (P : ext) : list val := [eX P; eY P; eZ P; eT P].
Definition all_ok (ok : val -> Prop) (P : ext) : Prop := ok (eX P) /\ ok (eY P) /\ ok (eZ P) /\ ok (eT P).
Definition stands_for (p : Z) (den : val -> Z) (P : ext) (A : affine) : Prop :=
  denotes p (den (eX P)) (den (eY P)) (den (eZ P)) (den (eT P)) A.
(** the projective part only: nothing is asked of T *)
Definition stands_for_xyz (p : Z) (den : val -> Z) (P : ext) (A : affine) : Prop :=
  denotes_xyz p (den (eX P)) (den (eY P)) (den (eZ P)) A.
(** ** The published formulas on any four residues, points of a curve or not *)
Definition quad : Type := (Z * Z * Z * Z)%type.
Definition residues (p : Z) (den : val -> Z) (P : ext) : quad :=
  (den (eX P) mod p, den (eY P) mod p, den (eZ P) mod p, den (eT P) mod p).
(* add-2008-hwcd with a = 1 *)
Definition quad_sum (p d : Z) (P Q : quad) : quad :=
  let '(X1, Y1, Z1, T1) := P in let '(X2, Y2, Z2, T2) := Q in
  let A := X1 * X2 in let B := Y1 * Y2 in let C := T1 * d * T2 in let D := Z1 * Z2 in
  let E := (X1 + Y1) * (X2 + Y2) - A - B in let F := D - C in let G := D + C in let H := B - A in
  ((E * F) mod p, (G * H) mod p, (F * G) mod p, (E * H) mod p).
(* dbl-2008-hwcd with a = 1; T1 is not used *)
Definition quad_double (p : Z) (P : quad) : quad :=
  let '(X1, Y1, Z1, _) := P in
  let A := X1 * X1 in let B := Y1 * Y1 in let C := 2 * (Z1 * Z1) in
  let E := (X1 + Y1) * (X1 + Y1) - A - B in let G := A + B in let F := G - C in let H := A - B in
  ((E * F) mod p, (G * H) mod p, (F * G) mod p, (E * H) mod p).
(** what the code has for tripling; in tpl-2015-c the third line has aa + xb *)
Definition quad_triple (p : Z) (P : quad) : quad :=
  let '(X1, Y1, Z1, _) := P in
  let YY := Y1 * Y1 in let XX := X1 * X1 in let Ap := YY + XX in let B := 2 * (2 * (Z1 * Z1) - Ap) in
  let xB := XX * B in let yB := YY * B in let AA := Ap * (YY - XX) in
  let F := AA - yB in let G := AA - xB in
  let xE := X1 * (yB + AA) in let yH := Y1 * (xB - AA) in let zF := Z1 * F in let zG := Z1 * G in
  ((xE * zF) mod p, (yH * zG) mod p, (zF * zG) mod p, (xE * yH) mod p).
(** A Montgomery ladder over the lowest [k] bits, highest first, that doubles
    the first point on a 1 and the second on a 0 (a ladder for n does the
    opposite). *)
Fixpoint quad_ladder (p d : Z) (bit : Z -> bool) (k : nat) (R0 R1 : quad) : quad :=
  match k with
  | O => R0
  | S j => if bit (Z.of_nat j) then quad_ladder p d bit j (quad_double p R0) (quad_sum p d R0 R1)
           else quad_ladder p d bit j (quad_sum p d R0 R1) (quad_double p R1)
  end.

(** src/curve/edwards.rs over a given field implementation *)
Definition curve_call (md : mode) (base : string -> list val -> res (list val * list val)) (f : string) (vs : list val) :=
  call md base Src_edwards.table 16 f vs.
(** the four spellings of addition return (or leave in the first operand) R and
    leave the other operands alone, in both builds *)
Definition sum_calls base (P Q R : ext) : Prop := forall md,
  curve_call md base "P::add_assign(&P)" (coords P ++ coords Q) = Ok ([], coords R ++ coords Q) /\
  curve_call md base "P::add_assign(P)" (coords P ++ coords Q) = Ok ([], coords R ++ coords Q) /\
  curve_call md base "(&P)::add(&P)" (coords P ++ coords Q) = Ok (coords R, coords P ++ coords Q) /\
  curve_call md base "P::add(P)" (coords P ++ coords Q) = Ok (coords R, coords P ++ coords Q).
Definition double_calls base (P R : ext) : Prop := forall md,
  curve_call md base "P::double" (coords P) = Ok ([], coords R) /\
  curve_call md base "P::doubled" (coords P) = Ok (coords R, coords P).
Definition triple_calls base (P R : ext) : Prop := forall md,
  curve_call md base "P::triple" (coords P) = Ok ([], coords R) /\
  curve_call md base "P::tripled" (coords P) = Ok (coords R, coords P).
Definition zero_calls base (R : ext) : Prop := forall md, curve_call md base "P::zero" [] = Ok (coords R, []).
(** p.init(x, y) overwrites whatever point [P] was *)
Definition init_calls base (P : ext) (x y : val) (R : ext) : Prop := forall md,
  curve_call md base "P::init" (coords P ++ [x; y]) = Ok ([], coords R ++ [x; y]).
(** p.scalar_mult(&mut n) in place: the point becomes R, the scalar n' *)
Definition scalar_mult_calls base (P : ext) (n : val) (R : ext) (n' : val) : Prop := forall md,
  curve_call md base "P::scalar_mult" (coords P ++ [n]) = Ok ([], coords R ++ [n']).
(** p.scalar_mult_normalized(&n) in place; the scalar is only read *)
Definition ladder_calls base (P : ext) (n : val) (R : ext) : Prop := forall md,
  curve_call md base "P::scalar_mult_normalized" (coords P ++ [n]) = Ok ([], coords R ++ [n]).
