(** Properties C47 and C48: what the build profile can change, and that release
    builds do not panic.  Types of the functions and well-formed programs are in
    ShapeSpec.v.  Nothing but the statements; the proofs are in Modes.v and
    Shape.v. *)
From Coq Require Import ZArith List String.
From Verif Require Import Lang Fields Machine EdwardsSpec CurveSpec TraceSpec ShapeSpec Modes Shape.
Import ListNotations.
Local Open Scope string_scope.
Local Open Scope Z_scope.
Local Open Scope list_scope.

(** C47.  With overflow checks on, any call of any function on any arguments
    panics or yields exactly what it yields without them ... *)
Theorem C47_call : forall tbl f vs, rust_call Debug tbl f vs = Panic \/ rust_call Debug tbl f vs = rust_call Release tbl f vs.
Proof. exact checks_only_panic. Qed.
Print Assumptions C47_call.
(** ... so does any program on field values ... *)
Theorem C47_program : forall F p s, run Debug F p s = Panic \/ run Debug F p s = run Release F p s.
Proof. exact programs_cut. Qed.
Print Assumptions C47_program.
(** ... and any program on points. *)
Theorem C47_point_program : forall C p st, prun Debug C p st = Panic \/ prun Debug C p st = prun Release C p st.
Proof. exact point_programs_cut. Qed.
Print Assumptions C47_point_program.
(** Both alternatives occur. *)
Example C47_case :
  rust_call Debug (fl_tbl e255_19) "F::small_mul" [VArr [1; 2; 3; 4; 5]; VInt 7] = Ok ([VArr [7; 14; 21; 28; 35]], [VArr [1; 2; 3; 4; 5]; VInt 7]) /\
  rust_call Debug (fl_tbl e255_19) "F::squared" [VArr [0; 0; 0; 0; 2 ^ 62]] = Panic /\
  rust_call Release (fl_tbl e255_19) "F::squared" [VArr [0; 0; 0; 0; 2 ^ 62]] = Ok ([VArr [0; 0; 0; 0; 0]], [VArr [0; 0; 0; 0; 2 ^ 62]]).
Proof. repeat split; vm_compute; reflexivity. Qed.

(** C48.  In a release build a call with arguments of the right types returns,
    whatever words they hold: no function of a field panics, its results have
    the declared types and so do the values left in its parameters ... *)
Theorem C48_field : forall F, In F all_fields -> forall f ps rs vs, In (f, (ps, rs)) signatures -> lookup f (fl_tbl F) <> None -> Forall2 (has_type F) ps vs ->
  exists rets outs, rust_call Release (fl_tbl F) f vs = Ok (rets, outs) /\ Forall2 (has_type F) rs rets /\ left_all F ps vs outs.
Proof. exact field_typed. Qed.
Print Assumptions C48_field.
(** ... and no function of a curve. *)
Theorem C48_curve : forall C, In C all_curves -> forall f ps rs vs, In (f, (ps, rs)) signatures -> lookup f (cv_tbl C) <> None -> Forall2 (has_type (cv_fld C)) ps vs ->
  exists rets outs, rust_call Release (cv_tbl C) f vs = Ok (rets, outs) /\ Forall2 (has_type (cv_fld C)) rs rets /\ left_all (cv_fld C) ps vs outs.
Proof. exact curve_typed. Qed.
Print Assumptions C48_curve.
(** Every function has a signature, so none is left out. *)
Theorem C48_all_fields : forall F f fn, In F all_fields -> In (f, fn) (fl_tbl F) -> exists ps rs, In (f, (ps, rs)) field_signatures.
Proof. exact field_listed. Qed.
Print Assumptions C48_all_fields.
Theorem C48_all_curves : forall C f fn, In C all_curves -> In (f, fn) (cv_tbl C) -> exists ps rs, In (f, (ps, rs)) signatures.
Proof. exact curve_listed. Qed.
Print Assumptions C48_all_curves.
(** So a program of any length runs to its end, whatever is computed on the way ... *)
Theorem C48_program : forall F p, In F all_fields -> forall s, formed F p (List.length (vars s)) -> Forall (is_i64s F) (vars s) ->
  exists s', run Release F p s = Ok s' /\ Forall (is_i64s F) (vars s').
Proof. exact programs_run. Qed.
Print Assumptions C48_program.
(** ... also with points, on the curve or not. *)
Theorem C48_point_program : forall C p, In C all_curves -> forall st, pformed C p (List.length st) -> Forall (each (is_i64s (cv_fld C))) st ->
  exists st', prun Release C p st = Ok st' /\ Forall (each (is_i64s (cv_fld C))) st'.
Proof. exact point_programs_run. Qed.
Print Assumptions C48_point_program.
(** A program that overflows: it ends in release and panics in debug. *)
Example C48_case : let p := [IConst MinusOne; ISmall SmallMul 0 (2 ^ 16); IUn Square 1; IOp Mul 2 1; IPacked 3]%nat in
  formed e221_3 p (List.length (vars start)) /\ Forall (is_i64s e221_3) (vars start) /\ run Debug e221_3 p start = Panic /\
  List.length signatures = 108%nat /\ Forall2 (has_type e221_3) [TElem; TIndex] [VArr [- 2 ^ 63; -1; 0; 2 ^ 63 - 1]; VInt 231].
Proof.
  cbv zeta. split; [cbn; unfold is_i32; repeat split; auto with arith; discriminate|]. split; [constructor|]. split; [vm_compute; reflexivity|]. split; [reflexivity|].
  repeat constructor; cbn; discriminate.
Qed.
