(** Properties C44 and C45: the group laws as seen through point addition and
    doubling over a correct field, and the published base points and orders.
    Nothing but the statements; the proofs are in GroupLaw.v and Group.v. *)
From Coq Require Import ZArith Znumtheory List String.
From Verif Require Import Lang Fields EdwardsSpec GroupLaw Lawful CurveSpec GroupSpec Group.
Import ListNotations.
Local Open Scope Z_scope.

(** C44.  Points of a curve with non-square d form a commutative group under
    the library's addition.  P + Q and Q + P are the same point ... *)
Theorem C44_commutative : forall p d nbits ok canon den mask base, prime p -> lawful p d nbits ok canon den mask base -> non_square p d ->
  forall P Q A B, all_ok ok P -> all_ok ok Q -> on_curve p d A -> on_curve p d B -> stands_for p den P A -> stands_for p den Q B ->
  exists R S, sum_calls base P Q R /\ sum_calls base Q P S /\ same_stored p den R S.
Proof. intros p d nbits ok canon den mask base PR L N. exact (add_commutes p d nbits ok canon den mask base PR L N). Qed.
Print Assumptions C44_commutative.
(** ... (P + Q) + R and P + (Q + R) are the same point ... *)
Theorem C44_associative : forall p d nbits ok canon den mask base, prime p -> lawful p d nbits ok canon den mask base -> non_square p d ->
  forall P Q R A B C, all_ok ok P -> all_ok ok Q -> all_ok ok R -> on_curve p d A -> on_curve p d B -> on_curve p d C ->
  stands_for p den P A -> stands_for p den Q B -> stands_for p den R C ->
  exists PQ PQ_R QR P_QR, sum_calls base P Q PQ /\ sum_calls base PQ R PQ_R /\ sum_calls base Q R QR /\ sum_calls base P QR P_QR /\
    same_stored p den PQ_R P_QR.
Proof. intros p d nbits ok canon den mask base PR L N. exact (add_associates p d nbits ok canon den mask base PR L N). Qed.
Print Assumptions C44_associative.
(** ... adding any valid representation of (0, 1) changes nothing (the one
    zero() returns is not valid: C35) ... *)
Theorem C44_neutral : forall p d nbits ok canon den mask base, prime p -> lawful p d nbits ok canon den mask base ->
  forall P O A, all_ok ok P -> all_ok ok O -> on_curve p d A -> stands_for p den P A -> stands_for p den O neutral ->
  exists R, sum_calls base P O R /\ stands_for p den R A.
Proof. intros p d nbits ok canon den mask base PR L. exact (add_neutral p d nbits ok canon den mask base PR L). Qed.
Print Assumptions C44_neutral.
(** ... and adding (-x, y) to (x, y) gives (0, 1). *)
Theorem C44_inverse : forall p d nbits ok canon den mask base, prime p -> lawful p d nbits ok canon den mask base -> non_square p d ->
  forall P Q x y, all_ok ok P -> all_ok ok Q -> on_curve p d (x, y) -> stands_for p den P (x, y) -> stands_for p den Q (- x, y) ->
  exists R, sum_calls base P Q R /\ stands_for p den R neutral.
Proof. intros p d nbits ok canon den mask base PR L N. exact (add_inverse p d nbits ok canon den mask base PR L N). Qed.
Print Assumptions C44_inverse.
(** However additions and doublings are combined to build n times P, no call
    fails ... *)
Theorem C44_chain_runs : forall p d nbits ok canon den mask base, prime p -> lawful p d nbits ok canon den mask base -> non_square p d ->
  forall P A n R m S, all_ok ok P -> on_curve p d A -> stands_for p den P A -> built base P n R -> built base P m S ->
  (exists T, sum_calls base R S T) /\ exists T, double_calls base R T.
Proof. intros p d nbits ok canon den mask base PR L N. exact (built_go p d nbits ok canon den mask base PR L N). Qed.
Print Assumptions C44_chain_runs.
(** ... and what is built is n times the point: the textbook sum of n copies *)
Theorem C44_chain : forall p d nbits ok canon den mask base, prime p -> lawful p d nbits ok canon den mask base -> non_square p d ->
  forall P A n R, all_ok ok P -> on_curve p d A -> stands_for p den P A -> built base P n R ->
  all_ok ok R /\ exists C, multiple p d A n C /\ stands_for p den R C.
Proof. intros p d nbits ok canon den mask base PR L N. exact (built_right p d nbits ok canon den mask base PR L N). Qed.
Print Assumptions C44_chain.
(** ... two ways of building n times P agree, and every n > 0 can be built *)
Theorem C44_chains_agree : forall p d nbits ok canon den mask base, prime p -> lawful p d nbits ok canon den mask base -> non_square p d ->
  forall P A n R S, all_ok ok P -> on_curve p d A -> stands_for p den P A -> built base P n R -> built base P n S -> same_stored p den R S.
Proof. intros p d nbits ok canon den mask base PR L N. exact (built_agree p d nbits ok canon den mask base PR L N). Qed.
Print Assumptions C44_chains_agree.
Theorem C44_chain_exists : forall p d nbits ok canon den mask base, prime p -> lawful p d nbits ok canon den mask base -> non_square p d ->
  forall P A n, (0 < n)%nat -> all_ok ok P -> on_curve p d A -> stands_for p den P A -> exists R, built base P n R.
Proof. intros p d nbits ok canon den mask base PR L N. exact (built_every p d nbits ok canon den mask base PR L N). Qed.
Print Assumptions C44_chain_exists.
(** The mathematical group law itself, for the five curves' equations among
    others. *)
Theorem C44_group : forall p d, prime p -> non_square p d ->
  (forall A B, on_curve p d A -> on_curve p d B -> exists C, edwards_sum p d A B C /\ on_curve p d C) /\
  (forall A B C, edwards_sum p d A B C -> edwards_sum p d B A C) /\
  (forall A, on_curve p d A -> edwards_sum p d A neutral A) /\
  (forall x y, on_curve p d (x, y) -> edwards_sum p d (x, y) (- x, y) neutral) /\
  (forall A B C AB BC L R, on_curve p d A -> on_curve p d B -> on_curve p d C ->
     edwards_sum p d A B AB -> edwards_sum p d AB C L -> edwards_sum p d B C BC -> edwards_sum p d A BC R -> same_point p L R).
Proof. exact group_law. Qed.
Print Assumptions C44_group.
Example C44_case : (prime 13 /\ lawful 13 2 4 (ideal_ok 13) (fun _ => True) ideal_den ideal_mask small_field) /\ non_square 13 2 /\
  (all_ok (ideal_ok 13) small_point /\ stands_for 13 ideal_den small_point (4, 4) /\ on_curve 13 2 (4, 4)) /\
  (exists R, built small_field small_point 5 R /\ stands_for 13 ideal_den R (9, 9)) /\
  stands_for 13 ideal_den (Ext (VInt 0) (VInt 3) (VInt 3) (VInt 0)) neutral /\ stands_for 13 ideal_den (Ext (VInt 5) (VInt 8) (VInt 2) (VInt 7)) (- 4, 4).
Proof. exact small_group. Qed.

(** C45.  The base points the field files publish for the five curves: reduced
    words, the documented coordinates, a point of the curve other than the
    neutral one; the order constant is the published one.  (For E-222 the
    comment on the order is M-221's; the constant is E-222's.) *)
Theorem C45_edwards : forall c, In c edwards_published -> let F := cv_fld (ec_curve c) in
  canonical F (ec_x c) /\ canonical F (ec_y c) /\ canonical F (ec_order c) /\
  value F (ec_x c) = ec_x_doc c /\ value F (ec_y c) = ec_y_doc c /\ value F (ec_order c) = ec_order_doc c /\
  on_curve (cv_p (ec_curve c)) (cv_d (ec_curve c)) (ec_point c) /\ ~ same_point (cv_p (ec_curve c)) (ec_point c) neutral.
Proof. exact edwards_constants_right. Qed.
Print Assumptions C45_edwards.
(** The same for the Montgomery curves, for which the library has constants
    only. *)
Theorem C45_montgomery : forall c, In c montgomery_published -> let F := mc_fld c in
  canonical F (mc_x c) /\ canonical F (mc_y c) /\ canonical F (mc_order c) /\
  value F (mc_x c) = mc_x_doc c /\ value F (mc_y c) = mc_y_doc c /\ value F (mc_order c) = mc_order_doc c /\
  on_montgomery (modulus F) (mc_A c) (value F (mc_x c)) (value F (mc_y c)).
Proof. exact montgomery_constants_right. Qed.
Print Assumptions C45_montgomery.
(** ... not what the comment on E-222's order says *)
Theorem C45_e222_comment_refuted : value e222_117 (ec_order E222_constants) <> 2 ^ 218 + 438651314700378199859927091142747.
Proof. exact e222_comment. Qed.
Print Assumptions C45_e222_comment_refuted.
Example C45_case : List.length edwards_published = 5%nat /\ List.length montgomery_published = 5%nat /\
  In E521_constants edwards_published /\ In Curve25519_constants montgomery_published.
Proof. repeat split; cbn; auto 10. Qed.
