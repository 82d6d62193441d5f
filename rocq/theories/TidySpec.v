(** The curve code over field operations whose results are normalised before
    they are used further: the vocabulary of C60. *)
From Coq Require Import ZArith List String Bool.
From Verif Require Import Lang Fields EdwardsSpec CurveSpec.
Import ListNotations.
Local Open Scope string_scope.
Local Open Scope list_scope.

(** the field operations of the curve formulas *)
Definition tidy_ops : list string := ["F::mul(F)"; "F::add(F)"; "F::sub(F)"; "F::squared"; "F::small_mul"].
(** the field code of the curve C, in a build [md], except that the result of
    each of these is passed through the library's own normalize() *)
Definition tidied (md : mode) (C : crv) (f : string) (vs : list val) : res (list val * list val) :=
  bind (rust_call md (cv_tbl C) f vs) (fun r =>
    match existsb (String.eqb f) tidy_ops, fst r with
    | true, [x] => bind (rust_call md (cv_tbl C) "F::normalize" [x]) (fun n =>
        match snd n with [y] => Ok ([y], snd r) | _ => Stuck end)
    | _, _ => Ok r
    end).
(** edwards.rs over it, all spellings, both builds *)
Definition tidy_sum (C : crv) (P Q R : ext) : Prop := forall md, sum_calls (tidied md C) P Q R.
Definition tidy_double (C : crv) (P R : ext) : Prop := forall md, double_calls (tidied md C) P R.
Definition tidy_scalar_mult (C : crv) (P : ext) (n : val) (R : ext) (n' : val) : Prop := forall md, scalar_mult_calls (tidied md C) P n R n'.
(** R is obtained from P by such additions and doublings, n counting how often
    P goes into it *)
Inductive tidy_built (C : crv) (P : ext) : nat -> ext -> Prop :=
| tb_point : tidy_built C P 1 P
| tb_sum : forall n m R S T, tidy_built C P n R -> tidy_built C P m S -> tidy_sum C R S T -> tidy_built C P (n + m) T
| tb_double : forall n R T, tidy_built C P n R -> tidy_double C R T -> tidy_built C P (2 * n) T.
