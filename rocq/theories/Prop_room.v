(** C65: the head room of multiplication and squaring. *)
From Coq Require Import ZArith List String.
From Verif Require Import Lang Fields Arith SmallMul Refute Observe Domain Room RoomEnd.
Import ListNotations.
Local Open Scope string_scope.
Local Open Scope Z_scope.

(** Operands whose top word is up to 2^r times its nominal size, r being the
    field's head room [room] (this is [wide]): the product is always returned, in both builds, has the
    shape of a produced value, and is right under the conditions of C49. *)
Theorem C65_product : forall F a b, In F all_fields -> wide F a -> wide F b ->
  exists o, computes F "mul" a b o /\ produced F o /\
    (eqmod F (value F o) (value F a * value F b) <->
     (F = e222_117 -> 0 <= value F a * value F b < 4588641 * 2 ^ 425) /\
     (F = e251_9 -> 0 <= value F a * value F b < 2 ^ 504)).
Proof. exact mul_room. Qed.
Print Assumptions C65_product.
Example C65_product_case : map room all_fields = [7; 12; 4; 13; 5; 4; 9; 6; 13] /\
  wide e255_19 [1; 2; 3; 4; 2 ^ 44] /\ wide e255_19 [5; 0; 0; 0; - 2 ^ 43].
Proof. split; [reflexivity|]. split; show_rep. Qed.

Theorem C65_square : forall F a, In F all_fields -> wide F a ->
  exists o, computes_unary F "F::square" "F::squared" a o /\ produced F o /\
    (eqmod F (value F o) (value F a * value F a) <-> (F = e222_117 -> value F a * value F a < 4588641 * 2 ^ 425)).
Proof. exact square_room. Qed.
Print Assumptions C65_square.
Example C65_square_case : wide e222_117 [7; 0; 0; - 2 ^ 59] /\ wide e251_9 [7; 0; 0; 0; 2 ^ 31].
Proof. split; show_rep. Qed.

(** Inversion, too, takes such operands (and so do division, symbols and roots:
    C21-C24 and C64 are stated for [pow_safe], which is [wide] in these fields). *)
Theorem C65_inverse : forall F a, In F all_fields -> F <> e222_117 -> F <> e251_9 -> wide F a ->
  exists i o, computes_unary F "F::invert" "F::inverted" a i /\ produced F i /\ computes F "mul" i a o /\ produced F o /\
    (eqmod F (value F a) 0 -> eqmod F (value F i) 0) /\ (~ eqmod F (value F a) 0 -> eqmod F (value F o) 1).
Proof. exact inverse_room. Qed.
Print Assumptions C65_inverse.
Example C65_inverse_case : wide e521_1 [7; 0; 0; 0; 0; 0; 0; 0; 0; - 2 ^ 48] /\ ~ eqmod e521_1 (value e521_1 [7; 0; 0; 0; 0; 0; 0; 0; 0; - 2 ^ 48]) 0 /\
  e521_1 <> e222_117 /\ e521_1 <> e251_9.
Proof. split; [show_rep|]. split; [vm_compute; discriminate|]. split; intros E; apply (f_equal fl_C) in E; discriminate E. Qed.

(** Small multiples by integers of at most 2^r in size that are right (C52
    says when: [small_exact]) may be multiplied together without normalizing. *)
Theorem C65_multiples : forall F a b k l, In F all_fields -> any_rep F a -> any_rep F b -> is_i32 k -> is_i32 l ->
  Z.abs k <= 2 ^ room F -> Z.abs l <= 2 ^ room F -> small_exact F a k -> small_exact F b l ->
  exists x y o, computes_small F "mul" a k x /\ computes_small F "mul" b l y /\ computes F "mul" x y o /\ produced F o /\
    (eqmod F (value F o) (k * l * (value F a * value F b)) <->
     (F = e222_117 -> 0 <= k * l * (value F a * value F b) < 4588641 * 2 ^ 425) /\
     (F = e251_9 -> 0 <= k * l * (value F a * value F b) < 2 ^ 504)).
Proof. exact multiples_room. Qed.
Print Assumptions C65_multiples.
Example C65_multiples_case : any_rep e414_17 [5; 0; 0; 0; 0; 0; 0; 2 ^ 21] /\ is_i32 (-512) /\ Z.abs (-512) <= 2 ^ room e414_17 /\
  small_exact e414_17 [5; 0; 0; 0; 0; 0; 0; 2 ^ 21] (-512).
Proof. split; [show_rep|]. split; [split; discriminate|]. split; [discriminate|]. split; [reflexivity|].
  split; [vm_compute; split; [discriminate|reflexivity]|]. intros E. apply (f_equal fl_C) in E. discriminate E. Qed.

(** Twice that room is too much: in every field some value [x] within it, a
    small multiple of a canonical value, has a wrong product with itself and a
    wrong square.  The build with overflow checks panics in seven fields; in
    e383_187 and e521_1 both builds may return the wrong value. *)
Theorem C65_limit : forall F, In F all_fields ->
  exists c k x, canonical F c /\ is_i32 k /\ computes_small F "mul" c k x /\ value F x = value F c * k /\ within F (room F + 1) x /\
    (exists o, or_panics F "F::mul_assign(&F)" [VArr x; VArr x] [] [VArr o; VArr x] /\ ~ eqmod F (value F o) (value F x * value F x)) /\
    (exists o, or_panics F "F::square" [VArr x] [] [VArr o] /\ ~ eqmod F (value F o) (value F x * value F x)) /\
    (F <> e383_187 -> F <> e521_1 ->
       rust_call Debug (fl_tbl F) "F::mul_assign(&F)" [VArr x; VArr x] = Panic /\ rust_call Debug (fl_tbl F) "F::square" [VArr x] = Panic).
Proof. exact room_limit. Qed.
Print Assumptions C65_limit.
Example C65_limit_case : In e521_1 all_fields /\ In e382_105 all_fields.
Proof. split; cbn; tauto. Qed.
