(** Property C46: the published orders.  Nothing but the statements; the proofs
    are in Orders.v, GroupOrder.v and MontOrder.v.  These theorems, and no others, rest on
    the standard library's axioms for 63-bit machine integers. *)
From Coq Require Import ZArith Znumtheory List String.
From Verif Require Import Lang Fields EdwardsSpec Lawful CurveSpec GroupSpec GroupOrder MontSpec MontOrder.
Import ListNotations.
Local Open Scope Z_scope.

(** C46.  All ten order constants are primes. *)
Theorem C46_edwards_prime : forall c, In c edwards_published -> prime (value (cv_fld (ec_curve c)) (ec_order c)).
Proof. exact edwards_order_prime. Qed.
Print Assumptions C46_edwards_prime.

Theorem C46_montgomery_prime : forall c, In c montgomery_published -> prime (value (mc_fld c) (mc_order c)).
Proof. exact montgomery_order_prime. Qed.
Print Assumptions C46_montgomery_prime.

(** A multiple of one of the five base points is the neutral point exactly when
    the order constant divides the scalar ... *)
Theorem C46_order : forall c, In c edwards_published ->
  let p := cv_p (ec_curve c) in let d := cv_d (ec_curve c) in let q := value (cv_fld (ec_curve c)) (ec_order c) in
  forall n R, multiple p d (ec_point c) n R -> (same_point p R neutral <-> (q | Z.of_nat n)).
Proof. exact base_order. Qed.
Print Assumptions C46_order.

(** ... and two multiples are the same point exactly when the scalars agree
    modulo the order constant. *)
Theorem C46_multiples : forall c, In c edwards_published ->
  let p := cv_p (ec_curve c) in let d := cv_d (ec_curve c) in let q := value (cv_fld (ec_curve c)) (ec_order c) in
  forall n m R S, multiple p d (ec_point c) n R -> multiple p d (ec_point c) m S -> (same_point p R S <-> (q | Z.of_nat n - Z.of_nat m)).
Proof. exact base_multiples. Qed.
Print Assumptions C46_multiples.

(** The same through the library's additions and doublings over a correct
    field: what is built from the base point is the neutral point exactly when
    the order divides the count, and two constructions give the same point
    exactly when their counts agree modulo the order. *)
Theorem C46_library : forall c, In c edwards_published ->
  let p := cv_p (ec_curve c) in let d := cv_d (ec_curve c) in let q := value (cv_fld (ec_curve c)) (ec_order c) in
  forall nbits ok canon den mask base, lawful p d nbits ok canon den mask base ->
  forall P, all_ok ok P -> stands_for p den P (ec_point c) ->
  (forall n R, built base P n R -> (stands_for p den R neutral <-> (q | Z.of_nat n))) /\
  (forall n R m S, built base P n R -> built base P m S -> (same_stored p den R S <-> (q | Z.of_nat n - Z.of_nat m))).
Proof. exact library_order. Qed.
Print Assumptions C46_library.

Example C46_case : In E521_constants edwards_published /\
  lawful (cv_p E_521) (cv_d E_521) 521 (ideal_ok (cv_p E_521)) (fun _ => True) ideal_den ideal_mask (ideal_field (cv_p E_521) (cv_d E_521) 521) /\
  all_ok (ideal_ok (cv_p E_521)) E521_ideal /\ stands_for (cv_p E_521) ideal_den E521_ideal (ec_point E521_constants) /\
  exists R, built (ideal_field (cv_p E_521) (cv_d E_521) 521) E521_ideal 5 R.
Proof. exact order_case. Qed.

(** The five Montgomery base points: a multiple, by chord-and-tangent addition,
    is the point at infinity exactly when the order constant divides the
    scalar ... *)
Theorem C46_montgomery_order : forall c, In c montgomery_published ->
  let p := modulus (mc_fld c) in let A := mc_A c in let q := value (mc_fld c) (mc_order c) in
  forall n R, mont_multiple p A (mc_point c) n R -> (R = Infinity <-> (q | Z.of_nat n)).
Proof. exact mont_order. Qed.
Print Assumptions C46_montgomery_order.

(** ... and two multiples are the same point exactly when the scalars agree
    modulo the order constant. *)
Theorem C46_montgomery_multiples : forall c, In c montgomery_published ->
  let p := modulus (mc_fld c) in let A := mc_A c in let q := value (mc_fld c) (mc_order c) in
  forall n m R S, mont_multiple p A (mc_point c) n R -> mont_multiple p A (mc_point c) m S -> (same_mont p R S <-> (q | Z.of_nat n - Z.of_nat m)).
Proof. exact mont_multiples. Qed.
Print Assumptions C46_montgomery_multiples.

(** Every multiple exists and is a point of the curve *)
Theorem C46_montgomery_every : forall c, In c montgomery_published -> let p := modulus (mc_fld c) in let A := mc_A c in
  forall n, exists R, mont_multiple p A (mc_point c) n R /\ on_mont p A R.
Proof. exact mont_every. Qed.
Print Assumptions C46_montgomery_every.
(** Multiples may be added up in any order: chord-and-tangent addition is total
    and associative on these curves, and adding multiples adds the scalars. *)
Theorem C46_montgomery_group : forall c, In c montgomery_published -> let p := modulus (mc_fld c) in let A := mc_A c in
  (forall P Q, on_mont p A P -> on_mont p A Q -> exists R, mont_sum p A P Q R /\ on_mont p A R) /\
  (forall P Q R PQ QR L M, on_mont p A P -> on_mont p A Q -> on_mont p A R ->
     mont_sum p A P Q PQ -> mont_sum p A PQ R L -> mont_sum p A Q R QR -> mont_sum p A P QR M -> same_mont p L M).
Proof. exact mont_group. Qed.
Print Assumptions C46_montgomery_group.
(** The sum is one point, whichever representatives of the coordinates it is
    computed from and in whichever order; the point at infinity is neutral and
    every point has an opposite. *)
Theorem C46_montgomery_laws : forall c, In c montgomery_published -> let p := modulus (mc_fld c) in let A := mc_A c in
  (forall P Q R R', on_mont p A P -> on_mont p A Q -> mont_sum p A P Q R -> mont_sum p A P Q R' -> same_mont p R R') /\
  (forall P Q R R', on_mont p A P -> on_mont p A Q -> mont_sum p A P Q R -> mont_sum p A Q P R' -> same_mont p R R') /\
  (forall P P' Q Q' R R', on_mont p A P -> on_mont p A P' -> on_mont p A Q -> on_mont p A Q' -> same_mont p P P' -> same_mont p Q Q' ->
     mont_sum p A P Q R -> mont_sum p A P' Q' R' -> same_mont p R R') /\
  (forall P R, on_mont p A P -> mont_sum p A P Infinity R -> same_mont p P R) /\
  (forall P, on_mont p A P -> exists M, on_mont p A M /\ forall R, mont_sum p A P M R -> R = Infinity).
Proof. exact mont_laws. Qed.
Print Assumptions C46_montgomery_laws.
Theorem C46_montgomery_added : forall c, In c montgomery_published -> let p := modulus (mc_fld c) in let A := mc_A c in
  forall n m R S T U, mont_multiple p A (mc_point c) n R -> mont_multiple p A (mc_point c) m S -> mont_sum p A R S T ->
  mont_multiple p A (mc_point c) (n + m) U -> same_mont p T U.
Proof. exact mont_added. Qed.
Print Assumptions C46_montgomery_added.
Example C46_montgomery_case : In Curve25519_constants montgomery_published /\
  mont_multiple (2 ^ 255 - 19) 486662 (mc_point Curve25519_constants) 2
    (Finite 0x20d342d51873f1b7d9750c687d1571148f3f5ced1e350b5c5cae469cdd684efb 0x13b57e011700e8ae050a00945d2ba2f377659eb28d8d391ebcd70465c72df563).
Proof. exact montgomery_case. Qed.
