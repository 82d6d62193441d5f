(** Properties C31-C37: the point formulas of src/curve/edwards.rs over any
    field implementation that computes correctly ([lawful] in EdwardsSpec.v).
    Nothing but the statements; the proofs are in Lawful.v and Ladder.v. *)
From Coq Require Import ZArith Znumtheory List String.
From Verif Require Import Lang EdwardsSpec Lawful Ladder.
Import ListNotations.
Local Open Scope Z_scope.

(** C31.  Whenever the Edwards sum C of A and B is defined, all four spellings
    of addition compute extended coordinates of C and leave the other operands
    alone, in both builds. *)
Theorem C31_add : forall p d nbits ok canon den mask base, prime p -> lawful p d nbits ok canon den mask base ->
  forall P Q A B C, all_ok ok P -> all_ok ok Q -> stands_for p den P A -> stands_for p den Q B -> edwards_sum p d A B C ->
  exists R, sum_calls base P Q R /\ all_ok ok R /\ stands_for p den R C.
Proof. intros p d nbits ok canon den mask base PR L. exact (add_correct p d nbits ok canon den mask base PR L). Qed.
Print Assumptions C31_add.
(** ... and on any four field elements, points of the curve or not, addition is
    the published formula *)
Theorem C31_add_formula : forall p d nbits ok canon den mask base, prime p -> lawful p d nbits ok canon den mask base ->
  forall P Q, all_ok ok P -> all_ok ok Q -> exists R, sum_calls base P Q R /\ all_ok ok R /\
    residues p den R = quad_sum p d (residues p den P) (residues p den Q).
Proof. intros p d nbits ok canon den mask base PR L. exact (sum_residues p d nbits ok canon den mask base PR L). Qed.
Print Assumptions C31_add_formula.
Example C31_case : (prime 13 /\ lawful 13 2 4 (ideal_ok 13) (fun _ => True) ideal_den ideal_mask small_field) /\
  (all_ok (ideal_ok 13) small_point /\ stands_for 13 ideal_den small_point (4, 4) /\ on_curve 13 2 (4, 4)) /\
  edwards_sum 13 2 (4, 4) (4, 4) (1, 0) /\ edwards_sum 13 2 (1, 0) (4, 4) (4, 9).
Proof. split; [exact small_lawful|split; [exact small_point_ok|]]. split; repeat split; vm_compute; congruence. Qed.

(** C32.  Doubling, which reads no T. *)
Theorem C32_double : forall p d nbits ok canon den mask base, prime p -> lawful p d nbits ok canon den mask base ->
  forall P A C, ok (eX P) -> ok (eY P) -> ok (eZ P) -> stands_for_xyz p den P A -> on_curve p d A -> edwards_sum p d A A C ->
  exists R, double_calls base P R /\ all_ok ok R /\ stands_for p den R C.
Proof. intros p d nbits ok canon den mask base PR L. exact (double_correct p d nbits ok canon den mask base PR L). Qed.
Print Assumptions C32_double.
(** ... and it gives the same projective point as adding P to itself *)
Theorem C32_double_is_add : forall p d nbits ok canon den mask base, prime p -> lawful p d nbits ok canon den mask base ->
  forall P A, non_square p d -> all_ok ok P -> on_curve p d A -> stands_for p den P A ->
  exists R S, double_calls base P R /\ sum_calls base P P S /\
    eqp p (den (eX R) * den (eZ S)) (den (eX S) * den (eZ R)) /\ eqp p (den (eY R) * den (eZ S)) (den (eY S) * den (eZ R)).
Proof. intros p d nbits ok canon den mask base PR L. exact (double_agrees p d nbits ok canon den mask base PR L). Qed.
Print Assumptions C32_double_is_add.
(** ... and on any field elements it is the published formula *)
Theorem C32_double_formula : forall p d nbits ok canon den mask base, prime p -> lawful p d nbits ok canon den mask base ->
  forall P, ok (eX P) -> ok (eY P) -> ok (eZ P) -> exists R, double_calls base P R /\ all_ok ok R /\
    residues p den R = quad_double p (residues p den P).
Proof. intros p d nbits ok canon den mask base PR L. exact (double_residues p d nbits ok canon den mask base PR L). Qed.
Print Assumptions C32_double_formula.
Example C32_case : (prime 13 /\ lawful 13 2 4 (ideal_ok 13) (fun _ => True) ideal_den ideal_mask small_field) /\
  (all_ok (ideal_ok 13) small_point /\ stands_for 13 ideal_den small_point (4, 4) /\ on_curve 13 2 (4, 4)) /\ non_square 13 2 /\
  edwards_sum 13 2 (4, 4) (4, 4) (1, 0).
Proof. split; [exact small_lawful|split; [exact small_point_ok|split; [exact small_non_square|]]]. repeat split; vm_compute; congruence. Qed.

(** C33.  The full claim: triple() gives extended coordinates of (P+P)+P. *)
Definition C33_claim : Prop := forall p d nbits ok canon den mask base, prime p -> lawful p d nbits ok canon den mask base ->
  forall P A B C, p <> 2 -> all_ok ok P -> stands_for p den P A -> on_curve p d A -> edwards_sum p d A A B -> edwards_sum p d B A C ->
  exists R, triple_calls base P R /\ stands_for p den R C.
(** It is false: the code computes `aa - xb` where the formula needs `aa + xb`. *)
Theorem C33_triple_refuted : ~ C33_claim.
Proof. exact triple_refuted. Qed.
Print Assumptions C33_triple_refuted.
(** What the code does: y is right, T is consistent, and x is right exactly for
    the tripled points with x = 0. *)
Theorem C33_triple_partial : forall p d nbits ok canon den mask base, prime p -> lawful p d nbits ok canon den mask base ->
  forall P A B C, p <> 2 -> ok (eX P) -> ok (eY P) -> ok (eZ P) -> stands_for_xyz p den P A -> on_curve p d A ->
  edwards_sum p d A A B -> edwards_sum p d B A C ->
  exists R, triple_calls base P R /\ all_ok ok R /\
    eqp p (snd C * den (eZ R)) (den (eY R)) /\ eqp p (den (eT R) * den (eZ R)) (den (eX R) * den (eY R)) /\
    (stands_for p den R C <-> eqp p (fst C) 0).
Proof. intros p d nbits ok canon den mask base PR L. exact (triple_exact p d nbits ok canon den mask base PR L). Qed.
Print Assumptions C33_triple_partial.
(** ... on any field elements it is the formula as written in the code *)
Theorem C33_triple_formula_partial : forall p d nbits ok canon den mask base, prime p -> lawful p d nbits ok canon den mask base ->
  forall P, ok (eX P) -> ok (eY P) -> ok (eZ P) -> exists R, triple_calls base P R /\ all_ok ok R /\
    residues p den R = quad_triple p (residues p den P).
Proof. intros p d nbits ok canon den mask base PR L. exact (triple_residues p d nbits ok canon den mask base PR L). Qed.
Print Assumptions C33_triple_formula_partial.
Example C33_case : stands_for_xyz 13 ideal_den small_point (4, 4) /\ on_curve 13 2 (4, 4) /\
  edwards_sum 13 2 (4, 4) (4, 4) (1, 0) /\ edwards_sum 13 2 (1, 0) (4, 4) (4, 9).
Proof. repeat split; vm_compute; congruence. Qed.

(** C34.  When d is not a square no two points of the curve are exceptional. *)
Theorem C34_complete : forall p d nbits ok canon den mask base, prime p -> lawful p d nbits ok canon den mask base ->
  forall P Q A B, non_square p d -> all_ok ok P -> all_ok ok Q -> on_curve p d A -> on_curve p d B ->
  stands_for p den P A -> stands_for p den Q B ->
  exists R C, sum_calls base P Q R /\ all_ok ok R /\ stands_for p den R C /\ edwards_sum p d A B C /\ on_curve p d C.
Proof. intros p d nbits ok canon den mask base PR L. exact (add_complete p d nbits ok canon den mask base PR L). Qed.
Print Assumptions C34_complete.
(** ... likewise for doubling *)
Theorem C34_double_complete : forall p d nbits ok canon den mask base, prime p -> lawful p d nbits ok canon den mask base ->
  forall P A, non_square p d -> ok (eX P) -> ok (eY P) -> ok (eZ P) -> on_curve p d A -> stands_for_xyz p den P A ->
  exists R C, double_calls base P R /\ all_ok ok R /\ stands_for p den R C /\ edwards_sum p d A A C /\ on_curve p d C.
Proof. intros p d nbits ok canon den mask base PR L. exact (double_complete p d nbits ok canon den mask base PR L). Qed.
Print Assumptions C34_double_complete.
(** The sum is determined by its operands (so the results above are unique). *)
Theorem C34_unique : forall p, prime p -> forall d A B C C', edwards_sum p d A B C -> edwards_sum p d A B C' -> same_point p C C'.
Proof. exact EdwardsAlg.sum_unique. Qed.
Print Assumptions C34_unique.
Example C34_case : (prime 13 /\ lawful 13 2 4 (ideal_ok 13) (fun _ => True) ideal_den ideal_mask small_field) /\ non_square 13 2 /\
  (all_ok (ideal_ok 13) small_point /\ stands_for 13 ideal_den small_point (4, 4) /\ on_curve 13 2 (4, 4)).
Proof. split; [exact small_lawful|split; [exact small_non_square|exact small_point_ok]]. Qed.

(** C35.  The full claim: P + zero() stands for P. *)
Definition C35_claim : Prop := forall p d nbits ok canon den mask base, prime p -> lawful p d nbits ok canon den mask base ->
  forall P A, p <> 2 -> ~ eqp p d 0 -> all_ok ok P -> stands_for p den P A -> on_curve p d A ->
  exists O R, zero_calls base O /\ sum_calls base P O R /\ stands_for p den R A.
(** It is false: zero() sets T = 1 where 0 * 1 / 1 = 0 is needed. *)
Theorem C35_zero_refuted : ~ C35_claim.
Proof. exact zero_refuted. Qed.
Print Assumptions C35_zero_refuted.
(** x and y of zero() are those of the neutral point, but adding it is right
    only for points with x = 0 or y = 0 *)
Theorem C35_zero_partial : forall p d nbits ok canon den mask base, prime p -> lawful p d nbits ok canon den mask base ->
  forall P A, ~ eqp p d 0 -> p <> 2 -> all_ok ok P -> stands_for p den P A -> on_curve p d A ->
  exists O R, zero_calls base O /\ stands_for_xyz p den O neutral /\ sum_calls base P O R /\
    (stands_for p den R A <-> eqp p (fst A * snd A) 0).
Proof. intros p d nbits ok canon den mask base PR L. exact (zero_exact p d nbits ok canon den mask base PR L). Qed.
Print Assumptions C35_zero_partial.
Example C35_case : ~ eqp 13 2 0 /\ all_ok (ideal_ok 13) small_point /\ stands_for 13 ideal_den small_point (4, 4) /\ on_curve 13 2 (4, 4).
Proof. split; [discriminate|exact small_point_ok]. Qed.

(** C36.  The full claim: after init(x, y) the point stands for (x, y), T included. *)
Definition C36_claim : Prop := forall p d nbits ok canon den mask base, prime p -> lawful p d nbits ok canon den mask base ->
  forall P x y, ok x -> ok y -> on_curve p d (den x, den y) ->
  exists R, init_calls base P x y R /\ stands_for p den R (den x, den y).
(** It is false: init sets T = 1 instead of x*y. *)
Theorem C36_init_refuted : ~ C36_claim.
Proof. exact init_refuted. Qed.
Print Assumptions C36_init_refuted.
Theorem C36_init_partial : forall p d nbits ok canon den mask base, prime p -> lawful p d nbits ok canon den mask base ->
  forall P x y, ok x -> ok y ->
  exists R, init_calls base P x y R /\ all_ok ok R /\ stands_for_xyz p den R (den x, den y) /\
    (stands_for p den R (den x, den y) <-> eqp p (den x * den y) 1).
Proof. intros p d nbits ok canon den mask base PR L. exact (init_sharp p d nbits ok canon den mask base PR L). Qed.
Print Assumptions C36_init_partial.
(** ... doubling right after init is right all the same *)
Theorem C36_init_double_partial : forall p d nbits ok canon den mask base, prime p -> lawful p d nbits ok canon den mask base ->
  forall P x y C, ok x -> ok y -> on_curve p d (den x, den y) -> edwards_sum p d (den x, den y) (den x, den y) C ->
  exists R S, init_calls base P x y R /\ double_calls base R S /\ all_ok ok S /\ stands_for p den S C.
Proof. intros p d nbits ok canon den mask base PR L. exact (init_double p d nbits ok canon den mask base PR L). Qed.
Print Assumptions C36_init_double_partial.
Example C36_case : ideal_ok 13 (VInt 4) /\ on_curve 13 2 (4, 4) /\ edwards_sum 13 2 (4, 4) (4, 4) (1, 0).
Proof. split; [exists 4; split; [reflexivity|split; [discriminate|reflexivity]]|]. repeat split; vm_compute; congruence. Qed.

(** C37.  The full claim: scalar_mult(n) gives the n-fold sum of P. *)
Definition C37_claim : Prop := forall p d nbits ok canon den mask base, prime p -> lawful p d nbits ok canon den mask base ->
  forall P A n C, p <> 2 -> non_square p d -> all_ok ok P -> stands_for p den P A -> on_curve p d A -> ok n ->
  multiple p d A (Z.to_nat (den n mod p)) C ->
  exists R n', scalar_mult_calls base P n R n' /\ stands_for p den R C.
(** It is false: the ladder doubles and adds the wrong way round, starting
    from the wrong zero(). *)
Theorem C37_scalar_mult_refuted : ~ C37_claim.
Proof. exact scalar_mult_refuted. Qed.
Print Assumptions C37_scalar_mult_refuted.
(** What the code does, for every point and every scalar: in both builds it
    finishes with the residues that a ladder with the two cases exchanged
    gives from (0 : 1 : 1) with T = 1, and only normalises the scalar. *)
Theorem C37_scalar_mult_partial : forall p d nbits ok canon den mask base, prime p -> lawful p d nbits ok canon den mask base ->
  forall P n, all_ok ok P -> ok n -> exists R n', scalar_mult_calls base P n R n' /\ all_ok ok R /\
    ok n' /\ canon n' /\ eqp p (den n') (den n) /\
    residues p den R = quad_ladder p d (Z.testbit (den n mod p)) (Z.to_nat nbits) (0 mod p, 1 mod p, 1 mod p, 1 mod p) (residues p den P).
Proof. intros p d nbits ok canon den mask base PR L. exact (scalar_mult_exact p d nbits ok canon den mask base PR L). Qed.
Print Assumptions C37_scalar_mult_partial.
Theorem C37_ladder_partial : forall p d nbits ok canon den mask base, prime p -> lawful p d nbits ok canon den mask base ->
  forall P n, all_ok ok P -> ok n -> canon n -> exists R, ladder_calls base P n R /\ all_ok ok R /\
    residues p den R = quad_ladder p d (Z.testbit (den n mod p)) (Z.to_nat nbits) (0 mod p, 1 mod p, 1 mod p, 1 mod p) (residues p den P).
Proof. intros p d nbits ok canon den mask base PR L. exact (ladder_exact p d nbits ok canon den mask base PR L). Qed.
Print Assumptions C37_ladder_partial.
(** ... which, for the points of the curve with x*y = 0, is a multiple of the
    point: the one for the complement of n in nbits bits. *)
Theorem C37_flat_partial : forall p d nbits ok canon den mask base, prime p -> lawful p d nbits ok canon den mask base ->
  non_square p d -> forall P n A, on_curve p d A -> eqp p (fst A * snd A) 0 -> all_ok ok P -> ok n -> stands_for p den P A ->
  exists R n' C, scalar_mult_calls base P n R n' /\ stands_for p den R C /\
    multiple p d A (Z.to_nat (2 ^ nbits - 1 - den n mod p)) C.
Proof. intros p d nbits ok canon den mask base PR L. exact (scalar_mult_flat p d nbits ok canon den mask base PR L). Qed.
Print Assumptions C37_flat_partial.
(** (1, 0) has order 4, so 5 * (1, 0) = (1, 0); the code finds 10 * (1, 0) = (0, -1) *)
Example C37_flat_case : (prime 13 /\ lawful 13 2 4 (ideal_ok 13) (fun _ => True) ideal_den ideal_mask small_field) /\ non_square 13 2 /\
  on_curve 13 2 (1, 0) /\ all_ok (ideal_ok 13) (Ext (VInt 5) (VInt 0) (VInt 5) (VInt 0)) /\
  stands_for 13 ideal_den (Ext (VInt 5) (VInt 0) (VInt 5) (VInt 0)) (1, 0) /\
  (forall md, exists R n', curve_call md small_field "P::scalar_mult"%string [VInt 5; VInt 0; VInt 5; VInt 0; VInt 5] = Ok ([], coords R ++ [n']) /\
    stands_for 13 ideal_den R (0, 12)).
Proof. exact flat_small. Qed.
Example C37_case : all_ok (ideal_ok 13) small_point /\ stands_for 13 ideal_den small_point (4, 4) /\ on_curve 13 2 (4, 4).
Proof. exact small_point_ok. Qed.
