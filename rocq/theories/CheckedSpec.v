(** Runs of the curve code over a shipped field in which every field result is
    checked: the vocabulary of C58. *)
From Coq Require Import ZArith List String Bool.
From Verif Require Import Lang Fields EdwardsSpec CurveSpec.
From Verif Require Src_edwards.
Import ListNotations.
Local Open Scope string_scope.
Local Open Scope Z_scope.
Local Open Scope list_scope.

(** a value of the field: every word but the last within its width, any i64 last *)
Definition field_value (C : crv) (v : val) : Prop := exists l, v = VArr l /\ any_rep (cv_fld C) l.
Definition canonical_value (C : crv) (v : val) : Prop := exists l, v = VArr l /\ canonical (cv_fld C) l.
Definition shapedb (F : fld) (l : list Z) : bool :=
  Nat.eqb (List.length l) (fl_n F) && forallb (fun x => (0 <=? x) && (x <? 2 ^ fl_w F)) (firstn (fl_n F - 1) l) && in_i64 (top F l).
Definition reducedb (F : fld) (l : list Z) : bool := shapedb F l && (0 <=? top F l) && (top F l <? 2 ^ fl_tb F) && (value F l <? modulus F).

(** what a field function is expected to return, as an integer modulo p *)
Definition expected (C : crv) (f : string) (vs : list val) : option Z :=
  let v := coordinate C in
  match vs with
  | [a] => if String.eqb f "F::squared" then Some (v a * v a) else None
  | [a; VInt k] => if String.eqb f "F::small_mul" then Some (v a * k) else None
  | [a; b] => if String.eqb f "F::mul(F)" then Some (v a * v b)
              else if String.eqb f "F::add(F)" then Some (v a + v b)
              else if String.eqb f "F::sub(F)" then Some (v a - v b) else None
  | _ => None
  end.
(** normalize() must leave the reduced representation of its argument; of the
    other functions (constants, bits and masks) nothing is asked *)
Definition right_result (C : crv) (f : string) (vs : list val) (r : list val * list val) : bool :=
  let F := cv_fld C in let same a b := (a - b) mod cv_p C =? 0 in
  match expected C f vs with
  | Some z => match fst r with [VArr o] => shapedb F o && same (value F o) z | _ => false end
  | None =>
      if String.eqb f "F::normalize"
      then match vs, snd r with [a], [VArr o] => reducedb F o && same (value F o) (coordinate C a) | _, _ => false end
      else true
  end.
(** the field code, except that a wrong result is a panic *)
Definition checked (C : crv) (f : string) (vs : list val) : res (list val * list val) :=
  bind (rust_call Debug (cv_tbl C) f vs) (fun r => if right_result C f vs r then Ok r else Panic).
(** edwards.rs over it *)
Definition checked_runs (C : crv) (f : string) (args rets outs : list val) : Prop :=
  curve_call Debug (checked C) f args = Ok (rets, outs).
