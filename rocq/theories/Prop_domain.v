(** C49-C57: exactly what the operations do that miss the specification a user
    would expect (C02, C04, C05, C07, C21-C24, C29, C33, C35-C37, C38, C41). *)
From Coq Require Import ZArith Znumtheory List String.
From Verif Require Import Lang Fields Arith Encoding SmallMul SmallAny Doubling Observe Domain Refute.
From Verif Require Import EdwardsSpec Lawful Ladder CurveSpec Curves Guarded Deviate.
Import ListNotations.
Local Open Scope string_scope.
Local Open Scope Z_scope.

(** C49.  A product of two values the library produces is always returned, has
    the shape of a produced value, and is right unless the field is e222_117 or
    e251_9 and the product of the two signed values is negative or too large. *)
Theorem C49_product : forall F a b, In F all_fields -> produced F a -> produced F b ->
  exists o, computes F "mul" a b o /\ produced F o /\
    (eqmod F (value F o) (value F a * value F b) <->
     (F = e222_117 -> 0 <= value F a * value F b < 4588641 * 2 ^ 425) /\
     (F = e251_9 -> 0 <= value F a * value F b < 2 ^ 504)).
Proof. exact mul_domain. Qed.
Print Assumptions C49_product.
Example C49_case : produced e251_9 [1; 0; 0; 0; -1] /\ produced e251_9 [2; 0; 0; 0; 5] /\
  value e251_9 [1; 0; 0; 0; -1] * value e251_9 [2; 0; 0; 0; 5] < 0 /\
  produced e222_117 [3; 0; 0; -5] /\ 0 <= value e222_117 [3; 0; 0; -5] * value e222_117 [3; 0; 0; -5] < 4588641 * 2 ^ 425.
Proof. split; [show_rep|]. split; [show_rep|]. split; [reflexivity|]. split; [show_rep|]. split; [discriminate|reflexivity]. Qed.

(** C50.  A difference is off by 2 C times the pending carry of the
    subtrahend, C being 2^k minus the modulus, and by nothing else. *)
Theorem C50_difference : forall F a b, In F all_fields -> any_rep F a -> any_rep F b ->
  exists o, computes F "sub" a b o /\ rep F (- 2 ^ fl_tb F - 1) (2 ^ fl_tb F) o /\
    eqmod F (value F o) (value F a - value F b + 2 * fl_C F * carry F b) /\
    (eqmod F (value F o) (value F a - value F b) <-> carry F b = 0).
Proof. exact sub_domain. Qed.
Print Assumptions C50_difference.
Example C50_case : any_rep e255_19 [5; 0; 0; 0; 0] /\ any_rep e255_19 [7; 0; 0; 0; 2 ^ 31] /\ carry e255_19 [7; 0; 0; 0; 2 ^ 31] = 1 /\
  computes e255_19 "sub" [50; 0; 0; 0; 0] [7; 0; 0; 0; 2 ^ 31] [62; 0; 0; 0; 0] /\
  eqmod e255_19 62 (value e255_19 [50; 0; 0; 0; 0] - value e255_19 [7; 0; 0; 0; 2 ^ 31] + 2 * 19 * 1).
Proof. split; [show_rep|]. split; [show_rep|]. split; [reflexivity|]. split; [split; show_runs|]. vm_compute. reflexivity. Qed.

(** C51.  Unary minus returns a value congruent to its argument. *)
Theorem C51_negation : forall F a, In F all_fields -> any_rep F a ->
  exists o, runs F "F::neg" [VArr a] [VArr o] [VArr a] /\ rep F (-1) (2 * 2 ^ fl_tb F) o /\ eqmod F (value F o) (value F a) /\
    (eqmod F (value F o + value F a) 0 <-> eqmod F (value F a) 0).
Proof. exact neg_domain. Qed.
Print Assumptions C51_negation.
Example C51_case : any_rep e255_19 [5; 0; 0; 0; 2 ^ 40].
Proof. show_rep. Qed.

(** C52.  A small multiple of any value is right exactly under [small_exact]. *)
Theorem C52_small_multiple : forall F a k, In F all_fields -> any_rep F a -> is_i32 k ->
  exists o, small_or_panics F "mul" a k o /\ any_rep F o /\
    (eqmod F (value F o) (value F a * k) <-> small_exact F a k) /\
    (small_exact F a k -> computes_small F "mul" a k o /\ value F o = value F a * k).
Proof. exact small_mul_any. Qed.
Print Assumptions C52_small_multiple.
Example C52_case : any_rep e521_1 [9; 8; 7; 6; 5; 4; 3; 2; 1; 0] /\ is_i32 3 /\ small_exact e521_1 [9; 8; 7; 6; 5; 4; 3; 2; 1; 0] 3 /\
  any_rep e521_1 [9; 8; 7; 6; 5; 4; 3; 2; 1; 2 ^ 63 - 1] /\ ~ small_exact e521_1 [9; 8; 7; 6; 5; 4; 3; 2; 1; 2 ^ 63 - 1] 3.
Proof.
  split; [show_rep|]. split; [vm_compute; split; discriminate|]. split.
  - split; [reflexivity|]. split; [vm_compute; split; [discriminate|reflexivity]|]. intros _. vm_compute. repeat split.
  - split; [show_rep|]. intros (E & _). discriminate E.
Qed.
(** ... and outside e521_1 what comes back, right or wrong, is the product plus C
    times the pending carry, as a two's complement number of 64 bits more than the
    words below the top one *)
Theorem C52_small_word : forall F a k, In F all_fields -> F <> e521_1 -> any_rep F a -> is_i32 k ->
  exists o, small_or_panics F "mul" a k o /\ any_rep F o /\
    (2 ^ (64 + fl_w F * Z.of_nat (fl_n F - 1)) | value F a * k + fl_C F * carry F a - value F o).
Proof. exact small_mul_word. Qed.
Print Assumptions C52_small_word.
Example C52_word_case : any_rep e255_19 [1; 0; 0; 0; 2 ^ 62] /\ is_i32 6 /\ carry e255_19 [1; 0; 0; 0; 2 ^ 62] = 2 ^ 31 /\
  rust_call Release (fl_tbl e255_19) "F::small_mul" [VArr [1; 0; 0; 0; 2 ^ 62]; VInt 6] =
    Ok ([VArr [6 + 19 * 2 ^ 31; 0; 0; 0; - 2 ^ 63]], [VArr [1; 0; 0; 0; 2 ^ 62]; VInt 6]).
Proof. split; [show_rep|]. split; [vm_compute; split; discriminate|]. split; vm_compute; reflexivity. Qed.
(** ... which a reduced value meets for every power of two up to 2^27 that fits
    the top word, in e521_1 too *)
Theorem C52_powers_of_two : forall F a j, In F all_fields -> tight F a -> 0 <= j <= 27 -> 2 ^ fl_tb F * 2 ^ j <= 2 ^ 63 ->
  exists o, computes_small F "mul" a (2 ^ j) o /\ value F o = value F a * 2 ^ j /\ any_rep F o.
Proof. exact power_multiple. Qed.
Print Assumptions C52_powers_of_two.
Example C52_powers_case : tight e521_1 [9; 8; 7; 6; 5; 2 ^ 53; 3; 2 ^ 54 - 1; 1; 2 ^ 34] /\ 2 ^ fl_tb e521_1 * 2 ^ 27 <= 2 ^ 63 /\
  ~ small_exact e521_1 [9; 8; 7; 6; 5; 44739243 * 2 ^ 27 - 1; 3; 2 ^ 54 - 1; 1; 2 ^ 34] 3.
Proof. exact power_case. Qed.

(** C53.  normalize_bitand with filled(true) keeps those bits of the residue
    that are set in the modulus minus one in every word, so that it keeps the
    residue exactly if it has no other bits; with filled(false) it clears it. *)
Theorem C53_normalize_bitand_mask : forall F x, In F all_fields -> normal F x ->
  (exists m o m', runs F "F::filled" [VInt 1] [VArr m] [VInt 1] /\
     runs F "F::normalize_bitand" [VArr x; VArr m] [] [VArr o; VArr m'] /\ tight F o /\
     value F o = Z.land (value F x mod modulus F) (modulus F - value F (repeat 1 (fl_n F))) /\
     (eqmod F (value F o) (value F x) <->
      Z.land (value F x mod modulus F) (modulus F - value F (repeat 1 (fl_n F))) = value F x mod modulus F)) /\
  (exists m o m', runs F "F::filled" [VInt 0] [VArr m] [VInt 0] /\
     runs F "F::normalize_bitand" [VArr x; VArr m] [] [VArr o; VArr m'] /\ tight F o /\ value F o = 0).
Proof. exact nband_claim. Qed.
Print Assumptions C53_normalize_bitand_mask.
Example C53_case : normal e255_19 [7; 6; 5; 4; 3] /\
  runs e255_19 "F::normalize_bitand" [VArr [7; 6; 5; 4; 3]; VArr [-1; -1; -1; -1; -1]] []
    [VArr [4; 6; 4; 4; 2]; VArr [2 ^ 56 - 20; 2 ^ 56 - 2; 2 ^ 56 - 2; 2 ^ 56 - 2; 2 ^ 31 - 2]].
Proof. split; [split; [show_rep|vm_compute; discriminate]|show_runs]. Qed.

(** C54.  rand() returns exactly the arrays that are below the modulus word by
    word. *)
Theorem C54_random_image : forall F l, In F all_fields -> List.length l = fl_n F ->
  (exists (ds : list Z) os, (fl_n F <= List.length ds)%nat /\ runs F "F::rand" [VArr ds] [VArr l] os) <->
  (forall p i, runs F "F::modulus" [] [VArr p] [] -> (i < fl_n F)%nat -> 0 <= nth i l 0 < nth i p 0).
Proof. exact rand_range. Qed.
Print Assumptions C54_random_image.
Example C54_case : runs e221_3 "F::rand" [VArr [7; 8; 9; 10]] [VArr [7; 8; 9; 10]] [VArr []].
Proof. show_runs. Qed.

(** C55.  Inversion, Legendre symbol and square root in the eight fields other
    than e251_9: right on every non-zero value the library produces, except
    that in e222_117 a negative value is handled wrongly. *)
Theorem C55_inverse : forall F a, In F all_fields -> F <> e251_9 -> produced F a -> ~ eqmod F (value F a) 0 ->
  exists i, computes_unary F "F::invert" "F::inverted" a i /\ produced F i /\
    (eqmod F (value F i * value F a) 1 <-> (F = e222_117 -> 0 <= value F a)).
Proof. exact invert_domain. Qed.
Print Assumptions C55_inverse.
Theorem C55_legendre : forall F a, In F all_fields -> F <> e251_9 -> produced F a -> ~ eqmod F (value F a) 0 ->
  exists r, runs F "F::legendre" [VArr a] [VArr r] [VArr a] /\ produced F r /\
    (is_square F (value F a) -> (eqmod F (value F r) 1 <-> (F = e222_117 -> 0 <= value F a))) /\
    (~ is_square F (value F a) -> (eqmod F (value F r) (-1) <-> (F = e222_117 -> 0 <= value F a))).
Proof. exact legendre_domain. Qed.
Print Assumptions C55_legendre.
Theorem C55_sqrt : forall F a, In F all_fields -> F <> e251_9 -> produced F a -> is_square F (value F a) -> ~ eqmod F (value F a) 0 ->
  exists r, runs F "F::sqrt" [VArr a] [VArr r] [VArr a] /\ produced F r /\
    (F <> e222_117 \/ 0 <= value F a -> eqmod F (value F r * value F r) (value F a)) /\
    (F = e222_117 -> (eqmod F (value F r * value F r) (value F a) /\ is_square F (value F r) <-> 0 <= value F a)).
Proof. exact sqrt_domain. Qed.
Print Assumptions C55_sqrt.
Example C55_case : e255_19 <> e251_9 /\ produced e255_19 [9; 0; 0; 0; 0] /\ is_square e255_19 (value e255_19 [9; 0; 0; 0; 0]) /\
  ~ eqmod e255_19 (value e255_19 [9; 0; 0; 0; 0]) 0 /\ produced e222_117 [3; 0; 0; -5] /\ value e222_117 [3; 0; 0; -5] < 0 /\
  ~ eqmod e222_117 (value e222_117 [3; 0; 0; -5]) 0.
Proof.
  split; [intros E; apply (f_equal fl_C) in E; discriminate E|]. split; [show_rep|]. split; [exists 3; reflexivity|].
  split; [vm_compute; discriminate|]. split; [show_rep|]. split; [reflexivity|]. vm_compute; discriminate.
Qed.

(** C56.  The point operations compute the formulas in the code (quad_sum,
    quad_double, quad_triple, quad_ladder of EdwardsSpec.v) on any coordinates,
    on the curve or not. *)
Theorem C56_formulas : forall p d nbits ok canon den mask base, prime p -> lawful p d nbits ok canon den mask base ->
  forall P Q n, all_ok ok P -> all_ok ok Q -> ok n ->
  (exists R, sum_calls base P Q R /\ all_ok ok R /\ residues p den R = quad_sum p d (residues p den P) (residues p den Q)) /\
  (exists R, double_calls base P R /\ all_ok ok R /\ residues p den R = quad_double p (residues p den P)) /\
  (exists R, triple_calls base P R /\ all_ok ok R /\ residues p den R = quad_triple p (residues p den P)) /\
  (exists R n', scalar_mult_calls base P n R n' /\ all_ok ok R /\ ok n' /\ canon n' /\ eqp p (den n') (den n) /\
    residues p den R = quad_ladder p d (Z.testbit (den n mod p)) (Z.to_nat nbits) (0 mod p, 1 mod p, 1 mod p, 1 mod p) (residues p den P)).
Proof.
  intros p d nbits ok canon den mask base PR L P Q n HP HQ Hn.
  exact (formulas_claim p d nbits ok canon den mask base PR L P Q n HP HQ Hn).
Qed.
Print Assumptions C56_formulas.
Example C56_case : (prime 13 /\ lawful 13 2 4 (ideal_ok 13) (fun _ => True) ideal_den ideal_mask small_field) /\ all_ok (ideal_ok 13) small_point.
Proof. split; [exact small_lawful|apply small_point_ok]. Qed.

(** C57.  On every shipped curve, addition of two points whose products come out
    right gives a representation of their sum if and only if [sum_condition]. *)
Theorem C57_add : forall C, In C all_curves -> forall P Q A B S, produced_point C P -> produced_point C Q ->
  represents C P A -> represents C Q B -> edwards_sum (cv_p C) (cv_d C) A B S -> sum_products_right C P Q ->
  exists R, curve_sum C P Q R /\ produced_point C R /\ (represents C R S <-> sum_condition C P Q).
Proof. exact add_exact. Qed.
Print Assumptions C57_add.
(** ... and doubling likewise *)
Theorem C57_double : forall C, In C all_curves -> forall P A S, produced_point C P ->
  represents C P A -> on_curve (cv_p C) (cv_d C) A -> edwards_sum (cv_p C) (cv_d C) A A S -> double_products_right C P ->
  exists R, curve_double C P R /\ produced_point C R /\ (represents C R S <-> double_condition C P).
Proof. exact double_exact. Qed.
Print Assumptions C57_double.
(** ... the products always come out right on three of the curves *)
Theorem C57_products : forall C, In C [E_382; Curve41417; E_521] -> forall P Q, produced_point C P -> produced_point C Q ->
  sum_products_right C P Q /\ double_products_right C P.
Proof. exact products_right. Qed.
Print Assumptions C57_products.
(** ... and for points with canonical coordinates the condition says that x1 x2
    and y1 y2 have no pending carry, that d t1 t2 has none or the two products
    are equal, and that the factor z1 z2 - d t1 t2, with its error, is not 0 *)
Theorem C57_canonical : forall C, In C all_curves -> forall P Q, canonical_point C P -> canonical_point C Q ->
  let F := cv_fld C in
  (sum_condition C P Q <->
   exists x1 y1 z1 t1 x2 y2 z2 t2 dv td a b c zz,
    P = Ext (VArr x1) (VArr y1) (VArr z1) (VArr t1) /\ Q = Ext (VArr x2) (VArr y2) (VArr z2) (VArr t2) /\
    point_runs C "C::d_val" [] [VArr dv] [] /\
    computes F "mul" x1 x2 a /\ computes F "mul" y1 y2 b /\ computes F "mul" t1 dv td /\ computes F "mul" td t2 c /\ computes F "mul" z1 z2 zz /\
    carry F a = 0 /\ carry F b = 0 /\ (carry F c = 0 \/ eqmod F (value F a) (value F b)) /\
    ~ eqmod F (value F zz - value F c + 2 * fl_C F * carry F c) 0).
Proof. exact condition_canonical. Qed.
Print Assumptions C57_canonical.
(** points that meet the hypotheses: on E-382 with the right result, on E-222
    with right products, both with canonical coordinates *)
Example C57_case :
  (exists S R, produced_point E_382 (scaled E_382 wa1 1) /\ produced_point E_382 (scaled E_382 wa2 1) /\
    represents E_382 (scaled E_382 wa1 1) wa1 /\ represents E_382 (scaled E_382 wa2 1) wa2 /\
    edwards_sum (cv_p E_382) (cv_d E_382) wa1 wa2 S /\ curve_sum E_382 (scaled E_382 wa1 1) (scaled E_382 wa2 1) R /\ represents E_382 R S) /\
  (canonical_point E_222 (scaled E_222 wb1 lb1) /\ canonical_point E_222 (scaled E_222 wb2 lb2) /\
    sum_products_right E_222 (scaled E_222 wb1 lb1) (scaled E_222 wb2 lb2)) /\
  (produced_point E_222 (scaled E_222 we le) /\ on_curve (cv_p E_222) (cv_d E_222) we /\ double_products_right E_222 (scaled E_222 we le)).
Proof.
  split; [|destruct two_cases as (T1 & T2); destruct add_two_case as (C1 & C2 & _); destruct double_two_case as (C3 & _ & O & _);
    split; [split; [exact C1|split; [exact C2|exact T1]]|split; [exact C3|split; [exact O|exact T2]]]].
  destruct add_case as (P1 & P2 & R1 & R2 & (S & E) & K).
  destruct (add_guarded E_382 (or_introl eq_refl) _ _ _ _ S P1 P2 R1 R2 E K) as (R & CS & RR & _).
  exists S, R. repeat (split; [assumption|]). exact RR.
Qed.
