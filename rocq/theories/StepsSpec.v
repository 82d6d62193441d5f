(** The scalar multiplication of a shipped curve as steps of the library's own
    addition and doubling: the vocabulary of C59. *)
From Coq Require Import ZArith List String.
From Verif Require Import Lang Fields EdwardsSpec CurveSpec.
Import ListNotations.
Local Open Scope string_scope.
Local Open Scope Z_scope.
Local Open Scope list_scope.

(** From a pair of points (R0, R1), the bits k-1, ..., 0 of the scalar n, as
    read by bit_normalized, lead to the point R: a bit that is 1 replaces the
    pair by (2 R0, R0 + R1), a bit that is 0 by (R0 + R1, 2 R1), where sums and
    doubles are the arrays of words that the library's functions return. *)
Inductive ladder_steps (C : crv) (n : list Z) : nat -> ext -> ext -> ext -> Prop :=
| ladder_end R0 R1 : ladder_steps C n 0 R0 R1 R0
| ladder_one k R0 R1 U D R : runs (cv_fld C) "F::bit_normalized" [VArr n; VInt (Z.of_nat k)] [VInt 1] [VArr n; VInt (Z.of_nat k)] ->
    curve_sum C R0 R1 U -> curve_double C R0 D -> ladder_steps C n k D U R -> ladder_steps C n (S k) R0 R1 R
| ladder_zero k R0 R1 U D R : runs (cv_fld C) "F::bit_normalized" [VArr n; VInt (Z.of_nat k)] [VInt 0] [VArr n; VInt (Z.of_nat k)] ->
    curve_sum C R0 R1 U -> curve_double C R1 D -> ladder_steps C n k U D R -> ladder_steps C n (S k) R0 R1 R.
