(** C58: what a computation on a shipped curve gives when none of its field
    results happens to be wrong.  C59: scalar multiplication on a shipped curve
    in terms of the library's own addition and doubling. *)
From Coq Require Import ZArith Znumtheory List String.
From Verif Require Import Lang Fields Arith EdwardsSpec CurveSpec Curves Guarded CheckedSpec Checked StepsSpec Steps.
From Verif Require Src_edwards.
Import ListNotations.
Local Open Scope string_scope.
Local Open Scope Z_scope.
Local Open Scope list_scope.

(** A computation in which every field result was checked and found right is
    one the library performs, with the same results, in both build profiles. *)
Theorem C58_checked : forall C, In C all_curves -> forall f args rets outs, In f (map fst Src_edwards.table) ->
  checked_runs C f args rets outs -> point_runs C f args rets outs.
Proof. exact checked_real. Qed.
Print Assumptions C58_checked.
(** The checked field code is part of an implementation of the field that is
    right everywhere. *)
Theorem C58_lawful : forall C, In C all_curves -> exists mask base,
  lawful (cv_p C) (cv_d C) (nbits (cv_fld C)) (field_value C) (canonical_value C) (coordinate C) mask base /\
  (forall f vs r, checked C f vs = Ok r -> base f vs = Ok r).
Proof. intros C HC. exists (mask_val C), (repaired C). exact (conj (repaired_lawful C HC) (repaired_above C)). Qed.
Print Assumptions C58_lawful.
(** Every spelling of addition then gives the sum of the points represented. *)
Theorem C58_sum : forall C, In C all_curves -> forall P Q f rets outs, all_ok (field_value C) P -> all_ok (field_value C) Q ->
  In f ["P::add_assign(&P)"; "P::add_assign(P)"; "(&P)::add(&P)"; "P::add(P)"] -> checked_runs C f (coords P ++ coords Q) rets outs ->
  exists R, all_ok (field_value C) R /\
    (if existsb (String.eqb f) ["P::add_assign(&P)"; "P::add_assign(P)"] then rets = [] /\ outs = coords R ++ coords Q
     else rets = coords R /\ outs = coords P ++ coords Q) /\
    residues (cv_p C) (coordinate C) R = quad_sum (cv_p C) (cv_d C) (residues (cv_p C) (coordinate C) P) (residues (cv_p C) (coordinate C) Q) /\
    (forall A B S, represents C P A -> represents C Q B -> edwards_sum (cv_p C) (cv_d C) A B S -> represents C R S).
Proof. exact sum_checked. Qed.
Print Assumptions C58_sum.
Theorem C58_double : forall C, In C all_curves -> forall P f rets outs, all_ok (field_value C) P -> In f ["P::double"; "P::doubled"] -> checked_runs C f (coords P) rets outs ->
  exists R, all_ok (field_value C) R /\
    (if String.eqb f "P::double" then rets = [] /\ outs = coords R else rets = coords R /\ outs = coords P) /\
    residues (cv_p C) (coordinate C) R = quad_double (cv_p C) (residues (cv_p C) (coordinate C) P) /\
    (forall A S, represents C P A -> on_curve (cv_p C) (cv_d C) A -> edwards_sum (cv_p C) (cv_d C) A A S -> represents C R S).
Proof. exact double_checked. Qed.
Print Assumptions C58_double.
(** Tripling gives what its formula gives (which is not the triple: C31). *)
Theorem C58_triple : forall C, In C all_curves -> forall P f rets outs, all_ok (field_value C) P -> In f ["P::triple"; "P::tripled"] -> checked_runs C f (coords P) rets outs ->
  exists R, all_ok (field_value C) R /\
    (if String.eqb f "P::triple" then rets = [] /\ outs = coords R else rets = coords R /\ outs = coords P) /\
    residues (cv_p C) (coordinate C) R = quad_triple (cv_p C) (residues (cv_p C) (coordinate C) P).
Proof. exact triple_checked. Qed.
Print Assumptions C58_triple.
(** points on E-222, with their sum and double, and a quadruple on E-382, whose
    computations are right throughout *)
Example C58_case :
  (let P := scaled E_222 wb1 lb1 in let Q := scaled E_222 wb2 lb2 in all_ok (field_value E_222) P /\ all_ok (field_value E_222) Q /\
    represents E_222 P wb1 /\ represents E_222 Q wb2 /\ (exists S, edwards_sum (cv_p E_222) (cv_d E_222) wb1 wb2 S) /\
    exists rets outs, checked_runs E_222 "P::add(P)" (coords P ++ coords Q) rets outs) /\
  (let P := scaled E_222 we le in all_ok (field_value E_222) P /\ represents E_222 P we /\ on_curve (cv_p E_222) (cv_d E_222) we /\
    exists rets outs, checked_runs E_222 "P::double" (coords P) rets outs) /\
  (all_ok (field_value E_382) small_quad /\ exists rets outs, checked_runs E_382 "P::triple" (coords small_quad) rets outs).
Proof. exact checked_cases. Qed.

(** C59.  scalar_mult_normalized returns, word for word, what [nbits] ladder
    steps with the library's own addition and doubling lead to from zero() and
    the point ... *)
Theorem C59_ladder : forall C, In C all_curves -> forall P n, produced_point C P -> produced (cv_fld C) n ->
  exists Z0 R, point_runs C "P::zero" [] (coords Z0) [] /\ ladder_steps C n (Z.to_nat (nbits (cv_fld C))) Z0 P R /\ produced_point C R /\
    point_runs C "P::scalar_mult_normalized" (coords P ++ [VArr n]) [] (coords R ++ [VArr n]).
Proof. exact ladder_steps_claim. Qed.
Print Assumptions C59_ladder.
(** ... scalar_mult first normalises the scalar, and leaves it normalised ... *)
Theorem C59_scalar_mult : forall C, In C all_curves -> forall P n, produced_point C P -> produced (cv_fld C) n ->
  exists n' Z0 R, runs (cv_fld C) "F::normalize" [VArr n] [] [VArr n'] /\ point_runs C "P::zero" [] (coords Z0) [] /\
    ladder_steps C n' (Z.to_nat (nbits (cv_fld C))) Z0 P R /\ produced_point C R /\
    point_runs C "P::scalar_mult" (coords P ++ [VArr n]) [] (coords R ++ [VArr n']).
Proof. exact scalar_steps_claim. Qed.
Print Assumptions C59_scalar_mult.
(** ... and the steps lead to one point only. *)
Theorem C59_determined : forall C n k R0 R1 R R', ladder_steps C n k R0 R1 R -> ladder_steps C n k R0 R1 R' -> R = R'.
Proof. exact steps_det. Qed.
Print Assumptions C59_determined.
Example C59_case : produced_point E_222 (scaled E_222 wb1 lb1) /\ produced e222_117 [5; 0; 7; 2] /\ nbits e222_117 = 222.
Proof.
  split; [apply (canonical_produced E_222); [cbn; tauto|]; exact (proj1 add_two_case)|]. split; [show_rep|reflexivity].
Qed.
