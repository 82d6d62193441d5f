(** Properties C38 and C39: the five shipped curves.  Vocabulary in
    CurveSpec.v and EdwardsSpec.v; proofs in Curves.v, CurveRefute.v and
    Guarded.v. *)
From Coq Require Import ZArith List String.
From Verif Require Import Lang Fields EdwardsSpec CurveSpec Arith Curves CurveRefute Guarded.
Import ListNotations.
Local Open Scope string_scope.
Local Open Scope Z_scope.
Local Open Scope list_scope.

(** C38.  The full claim, [addition_is_right] and [doubling_is_right], is false
    for each of the five curves: the formulas subtract products that still have
    a pending carry, which the field subtraction gets wrong (C04). *)
Theorem C38_refuted : forall C, In C all_curves -> ~ doubling_is_right C /\ ~ addition_is_right C.
Proof. exact curve_ops_wrong. Qed.
Print Assumptions C38_refuted.
(** When the results are right.  On E-382, Curve41417 and E-521: addition is the
    group law on every pair of points whose products x1 x2, y1 y2 and d t1 t2
    come out without a pending carry. *)
Theorem C38_add_clean_partial : forall C, In C [E_382; Curve41417; E_521] -> forall P Q A B S, produced_point C P -> produced_point C Q ->
  represents C P A -> represents C Q B -> edwards_sum (cv_p C) (cv_d C) A B S -> clean_sum C P Q ->
  exists R, curve_sum C P Q R /\ represents C R S /\ produced_point C R.
Proof. exact add_guarded. Qed.
Print Assumptions C38_add_clean_partial.
Example C38_add_clean_case : let C := E_382 in let P := scaled C wa1 1 in let Q := scaled C wa2 1 in
  produced_point C P /\ produced_point C Q /\ represents C P wa1 /\ represents C Q wa2 /\
  (exists S, edwards_sum (cv_p C) (cv_d C) wa1 wa2 S) /\ clean_sum C P Q.
Proof. exact add_case. Qed.
(** ... and doubling, if the squares of x, y, z and 2 z^2 come out without one
    (in e521_1 too: the carries that small_mul misplaces there, C07, are zero
    when it doubles). *)
Theorem C38_double_clean_partial : forall C, In C [E_382; Curve41417; E_521] -> forall P A S, produced_point C P ->
  represents C P A -> on_curve (cv_p C) (cv_d C) A -> edwards_sum (cv_p C) (cv_d C) A A S -> clean_double C P ->
  exists R, curve_double C P R /\ represents C R S /\ produced_point C R.
Proof. exact double_guarded. Qed.
Print Assumptions C38_double_clean_partial.
Example C38_double_clean_case : let C := E_382 in let P := scaled C wd 1 in
  produced_point C P /\ represents C P wd /\ on_curve (cv_p C) (cv_d C) wd /\ (exists S, edwards_sum (cv_p C) (cv_d C) wd wd S) /\ clean_double C P.
Proof. exact double_case. Qed.
Example C38_double_clean_521_case : let C := E_521 in let P := scaled C wf 1 in
  produced_point C P /\ represents C P wf /\ on_curve (cv_p C) (cv_d C) wf /\ (exists S, edwards_sum (cv_p C) (cv_d C) wf wf S) /\ clean_double C P.
Proof. exact double_521_case. Qed.
(** On E-222 and Curve1174 the factors of the last four products must not be
    negative either (C02). *)
Theorem C38_add_positive_partial : forall C, In C [E_222; Curve1174] -> forall P Q A B S, canonical_point C P -> canonical_point C Q ->
  represents C P A -> represents C Q B -> edwards_sum (cv_p C) (cv_d C) A B S -> clean_sum C P Q -> positive_sum C P Q ->
  exists R, curve_sum C P Q R /\ represents C R S /\ produced_point C R.
Proof. exact add_guarded_two. Qed.
Print Assumptions C38_add_positive_partial.
Example C38_add_positive_case : let C := E_222 in let P := scaled C wb1 lb1 in let Q := scaled C wb2 lb2 in
  canonical_point C P /\ canonical_point C Q /\ represents C P wb1 /\ represents C Q wb2 /\
  (exists S, edwards_sum (cv_p C) (cv_d C) wb1 wb2 S) /\ clean_sum C P Q /\ positive_sum C P Q.
Proof. exact add_two_case. Qed.
Theorem C38_double_positive_partial : forall C, In C [E_222; Curve1174] -> forall P A S, produced_point C P ->
  represents C P A -> on_curve (cv_p C) (cv_d C) A -> edwards_sum (cv_p C) (cv_d C) A A S -> clean_double C P -> positive_double C P ->
  exists R, curve_double C P R /\ represents C R S /\ produced_point C R.
Proof. exact double_guarded_two. Qed.
Print Assumptions C38_double_positive_partial.
Example C38_double_positive_case : let C := E_222 in let P := scaled C we le in
  produced_point C P /\ represents C P we /\ on_curve (cv_p C) (cv_d C) we /\ (exists S, edwards_sum (cv_p C) (cv_d C) we we S) /\
  clean_double C P /\ positive_double C P.
Proof. exact double_two_case. Qed.

(** What always holds: on every four field values per point that field operations can
    produce, the point operations finish, with the same result in both builds,
    leave the other operands alone, and return such values again. *)
Theorem C38_add_partial : forall C, In C all_curves -> forall P Q, produced_point C P -> produced_point C Q ->
  exists R, curve_sum C P Q R /\ produced_point C R.
Proof. exact curve_sum_safe. Qed.
Print Assumptions C38_add_partial.
Theorem C38_double_partial : forall C, In C all_curves -> forall P, produced_point C P ->
  exists R, curve_double C P R /\ produced_point C R.
Proof. exact curve_double_safe. Qed.
Print Assumptions C38_double_partial.
Theorem C38_triple_partial : forall C, In C all_curves -> forall P, produced_point C P ->
  exists R, curve_triple C P R /\ produced_point C R.
Proof. exact curve_triple_safe. Qed.
Print Assumptions C38_triple_partial.
Theorem C38_zero_partial : forall C, In C all_curves ->
  exists R, point_runs C "P::zero" [] (coords R) [] /\ produced_point C R.
Proof. exact curve_zero_safe. Qed.
Print Assumptions C38_zero_partial.
Theorem C38_init_partial : forall C, In C all_curves -> forall P x y, produced (cv_fld C) x -> produced (cv_fld C) y ->
  exists R, point_runs C "P::init" (coords P ++ [VArr x; VArr y]) [] (coords R ++ [VArr x; VArr y]) /\ produced_point C R /\ eX R = VArr x /\ eY R = VArr y.
Proof. exact curve_init_safe. Qed.
Print Assumptions C38_init_partial.
(** scalar_mult leaves the scalar as normalize() leaves it *)
Theorem C38_scalar_mult_partial : forall C, In C all_curves -> forall P n, produced_point C P -> produced (cv_fld C) n ->
  exists R n', point_runs C "P::scalar_mult" (coords P ++ [VArr n]) [] (coords R ++ [VArr n']) /\ produced_point C R /\
    runs (cv_fld C) "F::normalize" [VArr n] [] [VArr n'].
Proof. exact curve_scalar_safe. Qed.
Print Assumptions C38_scalar_mult_partial.
Theorem C38_ladder_partial : forall C, In C all_curves -> forall P n, produced_point C P -> produced (cv_fld C) n ->
  exists R, point_runs C "P::scalar_mult_normalized" (coords P ++ [VArr n]) [] (coords R ++ [VArr n]) /\ produced_point C R.
Proof. exact curve_ladder_safe. Qed.
Print Assumptions C38_ladder_partial.
(** ... hence no program over points panics, however long, and both builds
    compute the same points *)
Theorem C38_programs_partial : forall C, In C all_curves -> forall cs st, Forall (produced_point C) st -> usable C cs (List.length st) ->
  exists st', (forall md, prun md C cs st = Ok st') /\ Forall (produced_point C) st'.
Proof. exact programs_safe. Qed.
Print Assumptions C38_programs_partial.
Example C38_case : usable E_222 [PZero; PInit 0 [3; 0; 0; 0] [7; 1; 0; 5]; PDoubled 0; PAdd 0 1; PScalar 2 [5; 0; 0; 2]; PTriple 1; PAddAssign 2 2] 0 /\
  Forall (produced_point E_222) [] /\ produced_point Curve1174 (Ext (VArr [1; 2; 3; 4; -7]) (VArr [1; 0; 0; 0; 0]) (VArr [1; 0; 0; 0; 0]) (VArr [1; 0; 0; 0; 2 ^ 27])).
Proof.
  split; [cbn [usable List.length]; repeat (split; [first [apply Nat.ltb_lt; reflexivity|show_rep]|]); exact I|]. split; [constructor|].
  do 4 eexists. split; [reflexivity|]. split; [show_rep|split; [show_rep|split; show_rep]].
Qed.

(** C39.  d_val() is the published d, reduced, and is not a square. *)
Theorem C39_d : forall C, In C all_curves -> exists l, point_runs C "C::d_val" [] [VArr l] [] /\ canonical (cv_fld C) l /\
  eqp (cv_p C) (value (cv_fld C) l) (cv_d C) /\ non_square (cv_p C) (cv_d C) /\ ~ eqp (cv_p C) (cv_d C) 0.
Proof. exact d_right. Qed.
Print Assumptions C39_d.
(** ... so any two points of a shipped curve have a sum, on the curve *)
Theorem C39_complete : forall C, In C all_curves -> forall A B, on_curve (cv_p C) (cv_d C) A -> on_curve (cv_p C) (cv_d C) B ->
  exists S, edwards_sum (cv_p C) (cv_d C) A B S /\ on_curve (cv_p C) (cv_d C) S.
Proof. exact curve_complete. Qed.
Print Assumptions C39_complete.
Example C39_case : In E_222 all_curves /\ on_curve (cv_p E_222) (cv_d E_222) (3, 2208305444344989162109437133128121052160802817496428287938488742343).
Proof. split; [left; reflexivity|vm_compute; reflexivity]. Qed.
