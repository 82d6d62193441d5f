(** Property C40: what an observer of the execution learns.  The observer's view
    is defined in TraceSpec.v.  Nothing but the statements; the proofs are in
    Trace.v. *)
From Coq Require Import ZArith List String.
From Verif Require Import Lang Fields EdwardsSpec CurveSpec TraceSpec Trace.
Import ListNotations.
Local Open Scope string_scope.
Local Open Scope Z_scope.
Local Open Scope list_scope.

(** C40.  The instrumented runs are the runs of the model ... *)
Theorem C40_erasure : forall md tbl f vs, snd (traced md tbl f vs) = rust_call md tbl f vs.
Proof. exact erasure. Qed.
Print Assumptions C40_erasure.
(** ... and in a release build two runs of any field function on inputs of the
    same shapes are observed to be the same, whatever the values ... *)
Theorem C40_field : forall F f vs ws, In F all_fields -> f <> "F::Debug::fmt" -> alike f vs ws ->
  trace Release (fl_tbl F) f vs = trace Release (fl_tbl F) f ws.
Proof. intros F f vs ws H. destruct (field_ok F H) as (A & B). exact (release_same _ A B f vs ws). Qed.
Print Assumptions C40_field.
(** ... likewise any curve function, scalar multiplication included. *)
Theorem C40_curve : forall C f vs ws, In C all_curves -> f <> "F::Debug::fmt" -> alike f vs ws ->
  trace Release (cv_tbl C) f vs = trace Release (cv_tbl C) f ws.
Proof. intros C f vs ws H. destruct (curve_ok C H) as (A & B). exact (release_same _ A B f vs ws). Qed.
Print Assumptions C40_curve.
(** With overflow checks on this holds of any two runs that both complete ... *)
Theorem C40_field_completed : forall F md f vs ws r s, In F all_fields -> f <> "F::Debug::fmt" -> alike f vs ws ->
  rust_call md (fl_tbl F) f vs = Ok r -> rust_call md (fl_tbl F) f ws = Ok s -> trace md (fl_tbl F) f vs = trace md (fl_tbl F) f ws.
Proof. intros F md f vs ws r s H. destruct (field_ok F H) as (A & B). exact (completed_same _ A B md f vs ws r s). Qed.
Print Assumptions C40_field_completed.
Theorem C40_curve_completed : forall C md f vs ws r s, In C all_curves -> f <> "F::Debug::fmt" -> alike f vs ws ->
  rust_call md (cv_tbl C) f vs = Ok r -> rust_call md (cv_tbl C) f ws = Ok s -> trace md (cv_tbl C) f vs = trace md (cv_tbl C) f ws.
Proof. intros C md f vs ws r s H. destruct (curve_ok C H) as (A & B). exact (completed_same _ A B md f vs ws r s). Qed.
Print Assumptions C40_curve_completed.
(** ... and a panic only cuts the observations short. *)
Theorem C40_field_panic : forall F md f vs ws, In F all_fields -> f <> "F::Debug::fmt" -> alike f vs ws -> rust_call md (fl_tbl F) f vs = Panic ->
  starts (trace md (fl_tbl F) f vs) (trace md (fl_tbl F) f ws) \/
  (rust_call md (fl_tbl F) f ws = Panic /\ starts (trace md (fl_tbl F) f ws) (trace md (fl_tbl F) f vs)).
Proof. intros F md f vs ws H. destruct (field_ok F H) as (A & B). exact (panic_cuts _ A B md f vs ws). Qed.
Print Assumptions C40_field_panic.
Theorem C40_curve_panic : forall C md f vs ws, In C all_curves -> f <> "F::Debug::fmt" -> alike f vs ws -> rust_call md (cv_tbl C) f vs = Panic ->
  starts (trace md (cv_tbl C) f vs) (trace md (cv_tbl C) f ws) \/
  (rust_call md (cv_tbl C) f ws = Panic /\ starts (trace md (cv_tbl C) f ws) (trace md (cv_tbl C) f vs)).
Proof. intros C md f vs ws H. destruct (curve_ok C H) as (A & B). exact (panic_cuts _ A B md f vs ws). Qed.
Print Assumptions C40_curve_panic.
(** So multiplying secret points by secret scalars looks the same in both
    builds, for all points and scalars the library produces. *)
Theorem C40_scalar_mult : forall C, In C all_curves -> forall md P Q n m, produced_point C P -> produced_point C Q ->
  produced (cv_fld C) n -> produced (cv_fld C) m ->
  trace md (cv_tbl C) "P::scalar_mult" (coords P ++ [VArr n]) = trace md (cv_tbl C) "P::scalar_mult" (coords Q ++ [VArr m]).
Proof. exact ladder_same. Qed.
Print Assumptions C40_scalar_mult.
(** The excluded function: the length of the debug text depends on the words. *)
Theorem C40_debug_text_refuted : forall F, In F all_fields -> exists a b, alike "F::Debug::fmt" [VArr a; VArr []] [VArr b; VArr []] /\
  trace Release (fl_tbl F) "F::Debug::fmt" [VArr a; VArr []] <> trace Release (fl_tbl F) "F::Debug::fmt" [VArr b; VArr []].
Proof. exact debug_leaks. Qed.
Print Assumptions C40_debug_text_refuted.
Example C40_case : alike "F::mul(F)" [VArr [1; 2; 3; 4; 5]; VArr [0; 0; 0; 0; -7]] [VArr [9; 9; 9; 9; 9]; VArr [2 ^ 55; 0; 1; 0; 0]] /\
  List.length (trace Release (fl_tbl e255_19) "F::mul(F)" [VArr [1; 2; 3; 4; 5]; VArr [0; 0; 0; 0; -7]]) = 677%nat /\
  alike "F::bit" [VArr [1; 2; 3; 4; 5]; VInt 200] [VArr [9; 9; 9; 9; 9]; VInt 200] /\
  trace Release (fl_tbl e255_19) "F::bit" [VArr [1; 2; 3; 4; 5]; VInt 200] <> trace Release (fl_tbl e255_19) "F::bit" [VArr [1; 2; 3; 4; 5]; VInt 20].
Proof.
  split; [split; [repeat constructor|intros [E|E]; discriminate]|]. split; [vm_compute; reflexivity|].
  split; [split; [repeat constructor|reflexivity]|vm_compute; discriminate].
Qed.
