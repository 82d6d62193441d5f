(** C60: the curve code over field operations whose results are normalised. *)
From Coq Require Import ZArith Znumtheory List String.
From Verif Require Import Lang Fields Words EdwardsSpec CurveSpec CheckedSpec GroupSpec TidySpec Curves Tidy.
Import ListNotations.
Local Open Scope string_scope.
Local Open Scope Z_scope.
Local Open Scope list_scope.

(** C60.  If the result of every field addition, subtraction, product, square
    and small product is passed through normalize() before it is used, the field
    code of every shipped curve is a correct implementation of its field on
    reduced values ... *)
Theorem C60_lawful : forall C, In C all_curves -> forall md,
  lawful (cv_p C) (cv_d C) (nbits (cv_fld C)) (canonical_value C) (canonical_value C) (coordinate C) (mask_val C) (tidied md C).
Proof. exact tidied_lawful. Qed.
Print Assumptions C60_lawful.
(** ... so that, all points and both builds taken together, addition is the
    group law of the curve ... *)
Theorem C60_sum : forall C, In C all_curves -> forall P Q A B, canonical_point C P -> canonical_point C Q ->
  represents C P A -> represents C Q B -> on_curve (cv_p C) (cv_d C) A -> on_curve (cv_p C) (cv_d C) B ->
  exists R S, tidy_sum C P Q R /\ canonical_point C R /\ represents C R S /\ edwards_sum (cv_p C) (cv_d C) A B S /\ on_curve (cv_p C) (cv_d C) S.
Proof. exact tidy_sum_right. Qed.
Print Assumptions C60_sum.
(** ... and so is doubling ... *)
Theorem C60_double : forall C, In C all_curves -> forall P A, canonical_point C P ->
  represents C P A -> on_curve (cv_p C) (cv_d C) A ->
  exists R S, tidy_double C P R /\ canonical_point C R /\ represents C R S /\ edwards_sum (cv_p C) (cv_d C) A A S /\ on_curve (cv_p C) (cv_d C) S.
Proof. exact tidy_double_right. Qed.
Print Assumptions C60_double.
(** ... every positive multiple of a point can be built from it by additions and
    doublings, and whatever is built is that multiple ... *)
Theorem C60_multiples : forall C, In C all_curves -> forall P A, canonical_point C P -> represents C P A -> on_curve (cv_p C) (cv_d C) A ->
  (forall n, (0 < n)%nat -> exists R, tidy_built C P n R) /\
  (forall n R, tidy_built C P n R -> canonical_point C R /\ exists S, multiple (cv_p C) (cv_d C) A n S /\ represents C R S).
Proof. exact tidy_multiples. Qed.
Print Assumptions C60_multiples.
(** ... but scalar multiplication is still the ladder with its two cases
    exchanged, from (0 : 1 : 1) with T = 1 (C37). *)
Theorem C60_scalar_mult : forall C, In C all_curves -> forall P n, canonical_point C P -> canonical_value C n ->
  exists R, tidy_scalar_mult C P n R n /\ canonical_point C R /\
    residues (cv_p C) (coordinate C) R = quad_ladder (cv_p C) (cv_d C) (Z.testbit (coordinate C n)) (Z.to_nat (nbits (cv_fld C)))
      (0, 1, 1, 1) (residues (cv_p C) (coordinate C) P).
Proof. exact tidy_scalar_mult_exact. Qed.
Print Assumptions C60_scalar_mult.
(** The five published base points, with z = 1, are such points. *)
Example C60_case : forall c, In c edwards_published -> let C := ec_curve c in
  In C all_curves /\ exists t, let P := Ext (VArr (ec_x c)) (VArr (ec_y c)) (VArr (to_words (cv_fld C) 1)) (VArr t) in
    canonical_point C P /\ represents C P (ec_point c) /\ on_curve (cv_p C) (cv_d C) (ec_point c).
Proof. exact tidy_case. Qed.
