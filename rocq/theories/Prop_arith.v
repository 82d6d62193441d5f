(** C01-C07: field arithmetic.  The vocabulary is in Fields.v. *)
From Coq Require Import ZArith List String.
From Verif Require Import Lang Fields Arith Encoding Refute Exact SmallMul SmallAny.
Import ListNotations.
Local Open Scope string_scope.
Local Open Scope Z_scope.

(** C01.  Addition is addition mod p, whatever the two top words hold. *)
Theorem C01_add : forall F a b, In F all_fields -> any_rep F a -> any_rep F b ->
  exists o, computes F "add" a b o /\ eqmod F (value F o) (value F a + value F b) /\
    rep F (-1) (2 * 2 ^ fl_tb F) o.
Proof. exact add_claim. Qed.
Print Assumptions C01_add.
Example C01_case : any_rep e255_19 [5; 0; 0; 0; 2 ^ 40] /\ any_rep e255_19 [1; 2; 3; 4; -7] /\
  computes e255_19 "add" [5; 0; 0; 0; 2 ^ 40] [1; 2; 3; 4; -7] [9715; 2; 3; 4; 2147483641].
Proof. split; [show_rep|]. split; [show_rep|]. split; show_runs. Qed.

(** C02.  Multiplication is multiplication mod p.  Partial: the full statement
    is for all [produced] operands; it is false in e222_117 and e251_9 (below).
    [mul_safe] includes all pairs of [produced] values in the other seven. *)
Theorem C02_mul_partial : forall F a b, In F all_fields -> mul_safe F a b ->
  exists o, computes F "mul" a b o /\ eqmod F (value F o) (value F a * value F b) /\
    rep F (-1) (2 * 2 ^ fl_tb F + (fl_C F - 1)) o /\ (loose F a -> loose F b -> loose F o).
Proof. exact mul_claim. Qed.
Print Assumptions C02_mul_partial.
Example C02_case : mul_safe e222_117 [1; 2; 3; 2 ^ 49] [7; 0; 0; 2 ^ 48] /\
  computes e222_117 "mul" [3; 0; 0; 0] [5; 0; 0; 0] [15; 0; 0; 0].
Proof.
  split; [apply safe_loose; [intros E; apply (f_equal fl_C) in E; discriminate E|show_rep|show_rep]|].
  split; show_runs.
Qed.
(** for the seven other fields the full statement holds *)
Theorem C02_mul_seven : forall F a b, In F all_fields -> F <> e222_117 -> F <> e251_9 -> produced F a -> produced F b ->
  exists o, computes F "mul" a b o /\ eqmod F (value F o) (value F a * value F b) /\ produced F o.
Proof. exact mul_produced. Qed.
Print Assumptions C02_mul_seven.
Example C02_seven_case : produced e255_19 [1; 2; 3; 4; -7] /\ produced e255_19 [1; 0; 0; 0; 2 ^ 32].
Proof. split; show_rep. Qed.
(** (0 - 1) * 1 is wrong in e222_117 and e251_9 *)
Theorem C02_mul_refuted : forall F, F = e222_117 \/ F = e251_9 ->
  exists zero one d o, runs F "F::zero" [] [VArr zero] [] /\ runs F "F::one" [] [VArr one] [] /\
    computes F "sub" zero one d /\ computes F "mul" d one o /\
    value F d = -1 /\ value F one = 1 /\ ~ eqmod F (value F o) (value F d * value F one).
Proof. exact mul_refuted. Qed.
Print Assumptions C02_mul_refuted.
(** and in e251_9 so is t * t for a non-negative t = (u + u) + (u + u) *)
Theorem C02_mul_251_refuted : forall F, F = e251_9 ->
  exists u s t o, runs F "F::unpacked" [VArr (repeat 255 (fl_nb F))] [VArr u] [VArr (repeat 255 (fl_nb F))] /\
    computes F "add" u u s /\ computes F "add" s s t /\ computes F "mul" t t o /\
    loose F t /\ ~ eqmod F (value F o) (value F t * value F t).
Proof. exact mul_refuted_251. Qed.
Print Assumptions C02_mul_251_refuted.

(** In these two fields a product of signed values is right exactly when it is
    not negative and not too large.  [wide] includes everything the library
    produces. *)
Theorem C02_mul_251_partial : forall a b, wide e251_9 a -> wide e251_9 b ->
  exists o, computes e251_9 "mul" a b o /\ rep e251_9 (-1) (2 * 2 ^ fl_tb e251_9 + (fl_C e251_9 - 1)) o /\
    (eqmod e251_9 (value e251_9 o) (value e251_9 a * value e251_9 b) <-> 0 <= value e251_9 a * value e251_9 b < 2 ^ 504).
Proof. exact mul_251_exact. Qed.
Print Assumptions C02_mul_251_partial.
Theorem C02_mul_222_partial : forall a b, wide e222_117 a -> wide e222_117 b ->
  exists o, computes e222_117 "mul" a b o /\ rep e222_117 (-1) (2 * 2 ^ fl_tb e222_117 + (fl_C e222_117 - 1)) o /\
    (eqmod e222_117 (value e222_117 o) (value e222_117 a * value e222_117 b) <->
     0 <= value e222_117 a * value e222_117 b < 4588641 * 2 ^ 425).
Proof. exact mul_222_exact. Qed.
Print Assumptions C02_mul_222_partial.
Example C02_exact_case : wide e251_9 [1; 2; 3; 4; - 2 ^ 28] /\ wide e222_117 [1; 0; 0; 2 ^ 50] /\
  4588641 * 2 ^ 425 <= value e222_117 [1; 0; 0; 2 ^ 50] * value e222_117 [1; 0; 0; 2 ^ 50] /\
  0 <= value e251_9 [1; 2; 3; 4; - 2 ^ 28] * value e251_9 [0; 0; 0; 0; -1] < 2 ^ 504.
Proof. split; [show_rep|]. split; [show_rep|]. vm_compute. repeat split; discriminate. Qed.

(** C03.  Squaring is right on everything the library produces. *)
Theorem C03_square : forall F a, In F all_fields -> produced F a ->
  exists o, computes_unary F "F::square" "F::squared" a o /\ eqmod F (value F o) (value F a * value F a) /\ produced F o.
Proof. exact square_produced. Qed.
Print Assumptions C03_square.
Example C03_case : produced e251_9 [1; 0; 0; 0; -1] /\ computes_unary e255_19 "F::square" "F::squared" [7; 0; 0; 0; 0] [49; 0; 0; 0; 0].
Proof. split; [show_rep|]. split; show_runs. Qed.

(** C04.  Subtraction is right exactly when the subtrahend has no pending carry.
    Partial: the full statement has no such condition, and is false. *)
Theorem C04_sub_partial : forall F a b, In F all_fields -> any_rep F a -> any_rep F b ->
  exists o, computes F "sub" a b o /\
    (eqmod F (value F o) (value F a - value F b) <-> carry F b = 0) /\
    rep F (- 2 ^ fl_tb F - 1) (2 ^ fl_tb F) o.
Proof. exact sub_sharp. Qed.
Print Assumptions C04_sub_partial.
Example C04_case : any_rep e255_19 [5; 0; 0; 0; 0] /\ carry e255_19 [7; 0; 0; 0; 0] = 0 /\
  computes e255_19 "sub" [9; 0; 0; 0; 0] [7; 0; 0; 0; 0] [2; 0; 0; 0; 0].
Proof. split; [show_rep|]. split; [reflexivity|]. split; show_runs. Qed.
(** 0 - (m_one + m_one) is wrong in every field *)
Theorem C04_sub_refuted : forall F, In F all_fields ->
  exists zero m b o, runs F "F::zero" [] [VArr zero] [] /\ runs F "F::m_one" [] [VArr m] [] /\
    computes F "add" m m b /\ computes F "sub" zero b o /\ ~ eqmod F (value F o) (value F zero - value F b).
Proof. exact sub_refuted. Qed.
Print Assumptions C04_sub_refuted.

(** C05.  Negation: false for every non-zero value.  -a is congruent to a. *)
Theorem C05_neg_refuted : forall F a, In F all_fields -> any_rep F a -> ~ eqmod F (value F a) 0 ->
  exists o, runs F "F::neg" [VArr a] [VArr o] [VArr a] /\ eqmod F (value F o) (value F a) /\
    ~ eqmod F (value F o + value F a) 0.
Proof. exact neg_refuted. Qed.
Print Assumptions C05_neg_refuted.
Example C05_case : any_rep e255_19 [1; 0; 0; 0; 0] /\ ~ eqmod e255_19 (value e255_19 [1; 0; 0; 0; 0]) 0.
Proof. split; [show_rep|]. vm_compute. discriminate. Qed.
(** what remains true: it does not panic, and -0 is 0 *)
Theorem C05_neg_partial : forall F a, In F all_fields -> any_rep F a ->
  exists o, runs F "F::neg" [VArr a] [VArr o] [VArr a] /\ rep F (-1) (2 * 2 ^ fl_tb F) o /\
    (eqmod F (value F a) 0 -> eqmod F (value F o + value F a) 0).
Proof. exact neg_zero. Qed.
Print Assumptions C05_neg_partial.
Example C05_partial_case : any_rep e255_19 [0; 0; 0; 0; 0] /\ eqmod e255_19 (value e255_19 [0; 0; 0; 0; 0]) 0.
Proof. split; [show_rep|reflexivity]. Qed.

(** C06.  Small additions and subtractions, any i32, any top word. *)
Theorem C06_small_add_sub : forall F a k, In F all_fields -> any_rep F a -> is_i32 k ->
  (exists o, computes_small F "add" a k o /\ eqmod F (value F o) (value F a + k) /\ rep F (-1) (2 ^ fl_tb F) o) /\
  (exists o, computes_small F "sub" a k o /\ eqmod F (value F o) (value F a - k) /\ rep F (-1) (2 ^ fl_tb F) o).
Proof. exact small_claim. Qed.
Print Assumptions C06_small_add_sub.
Example C06_case : any_rep e255_19 [5; 0; 0; 0; 2 ^ 40] /\ is_i32 (- 2 ^ 31) /\
  computes_small e255_19 "sub" [9; 0; 0; 0; 0] 7 [2; 0; 0; 0; 0].
Proof. split; [show_rep|]. split; [vm_compute; split; discriminate|]. split; show_runs. Qed.

(** C07.  Small multiplication.  Partial: eight fields, no pending carry, and a
    multiplier whose product with the top word fits.  The full statement (every
    produced value, every i32) is false in each respect. *)
Theorem C07_small_mul_partial : forall F a k, In F all_fields -> F <> e521_1 -> tight F a -> smallmul_ok F k ->
  exists o, computes_small F "mul" a k o /\ value F o = value F a * k /\ any_rep F o.
Proof. exact small_mul_claim. Qed.
Print Assumptions C07_small_mul_partial.
Example C07_case : tight e221_3 [9; 0; 0; 5] /\ smallmul_ok e221_3 (-1000) /\
  computes_small e255_19 "mul" [9; 0; 0; 0; 0] 7 [63; 0; 0; 0; 0].
Proof. split; [show_rep|]. split; [vm_compute; repeat split; discriminate|]. split; show_runs. Qed.
(** in four fields every i32 multiplier is in range *)
Theorem C07_small_mul_i32_partial : forall F a k, In F [e251_9; e255_19; e414_17; e511_187] -> tight F a -> is_i32 k ->
  exists o, computes_small F "mul" a k o /\ value F o = value F a * k /\ any_rep F o.
Proof. exact small_mul_narrow. Qed.
Print Assumptions C07_small_mul_i32_partial.
Example C07_i32_case : tight e255_19 [9; 0; 0; 0; 5] /\ is_i32 (- 2 ^ 31).
Proof. split; [show_rep|]. vm_compute; split; discriminate. Qed.
(** a pending carry gives a wrong product even by 1, in every field *)
Theorem C07_small_mul_refuted : forall F, In F all_fields ->
  exists m b o, runs F "F::m_one" [] [VArr m] [] /\ computes F "add" m m b /\ computes_small F "mul" b 1 o /\
    ~ eqmod F (value F o) (value F b * 1).
Proof. exact small_mul_refuted. Qed.
Print Assumptions C07_small_mul_refuted.
(** a large multiplier gives a wrong product of a canonical value in five fields *)
Theorem C07_small_mul_large_refuted : forall F, In F [e221_3; e222_117; e382_105; e383_187; e521_1] ->
  exists m o, runs F "F::m_one" [] [VArr m] [] /\ computes_small F "mul" m (2 ^ 31 - 1) o /\
      ~ eqmod F (value F o) (value F m * (2 ^ 31 - 1)).
Proof. exact small_mul_overflows. Qed.
Print Assumptions C07_small_mul_large_refuted.
(** in e521_1 even 3 times a canonical value can be wrong *)
Theorem C07_small_mul_521_refuted : forall F, F = e521_1 ->
  exists bs u o, runs F "F::unpacked" [VArr bs] [VArr u] [VArr bs] /\ canonical F u /\
    value F u = 12009599095799807 * 2 ^ 270 /\
    computes_small F "mul" u 3 o /\ ~ eqmod F (value F o) (value F u * 3).
Proof. exact small_mul_refuted_521. Qed.
Print Assumptions C07_small_mul_521_refuted.
(** Exactly when it is right, for every value of any top word and every i32: see
    [small_exact].  A build without overflow checks returns the same wrong product
    as one with them, if the latter does not panic; a right product is returned by
    both. *)
Theorem C07_small_mul_exact_partial : forall F a k, In F all_fields -> any_rep F a -> is_i32 k ->
  exists o, small_or_panics F "mul" a k o /\ any_rep F o /\
    (eqmod F (value F o) (value F a * k) <-> small_exact F a k) /\
    (small_exact F a k -> computes_small F "mul" a k o /\ value F o = value F a * k).
Proof. exact small_mul_any. Qed.
Print Assumptions C07_small_mul_exact_partial.
Example C07_exact_case : any_rep e383_187 [1; 2; 3; 4; 5; 6; 2 ^ 46] /\ is_i32 (- 2 ^ 17) /\
  small_exact e383_187 [1; 2; 3; 4; 5; 6; 2 ^ 46] (- 2 ^ 16) /\ ~ small_exact e383_187 [1; 2; 3; 4; 5; 6; 2 ^ 46] (2 ^ 17) /\
  ~ small_exact e383_187 [1; 2; 3; 4; 5; 6; 2 ^ 47] 1.
Proof.
  split; [show_rep|]. split; [vm_compute; split; discriminate|]. split; [|split].
  - split; [reflexivity|]. split; [vm_compute; split; [discriminate|reflexivity]|]. intros E. apply (f_equal fl_C) in E. discriminate E.
  - intros (_ & (_ & H) & _). vm_compute in H. discriminate H.
  - intros (H & _). discriminate H.
Qed.
Example C07_521_case : tight e521_1 [9; 8; 7; 6; 5; 4; 3; 2; 1; 0] /\ smallmul_ok e521_1 3 /\
  map (column_carry 3 [9; 8; 7; 6; 5; 4; 3; 2; 1; 0]) [5; 6; 7; 8]%nat = [0; 0; 0; 0] /\
  map (column_carry 3 [0; 0; 0; 0; 0; 12009599095799807; 0; 0; 0; 0]) [5; 6; 7; 8]%nat = [1; 0; 0; 0].
Proof. split; [show_rep|]. split; [vm_compute; repeat split; discriminate|]. split; vm_compute; reflexivity. Qed.
(** in particular it is wrong for every value with a pending carry *)
Theorem C07_small_mul_pending_refuted : forall F a k, In F all_fields -> any_rep F a -> is_i32 k -> carry F a <> 0 ->
  exists o, small_or_panics F "mul" a k o /\ any_rep F o /\ ~ eqmod F (value F o) (value F a * k).
Proof. exact carry_spoils. Qed.
Print Assumptions C07_small_mul_pending_refuted.
Example C07_pending_case : any_rep e383_187 [1; 2; 3; 4; 5; 6; 2 ^ 47] /\ any_rep e383_187 [1; 2; 3; 4; 5; 6; - 2 ^ 63] /\ is_i32 (- 2 ^ 31) /\
  carry e383_187 [1; 2; 3; 4; 5; 6; 2 ^ 47] = 1.
Proof. split; [show_rep|]. split; [show_rep|]. vm_compute. repeat split; discriminate. Qed.
