(** C20 (primality), C21-C24: inverses, quotients, Legendre symbols and square
    roots.  The vocabulary is in Fields.v.  [prime] is the standard library's:
    greater than one, and coprime to every smaller positive integer. *)
From Coq Require Import ZArith Znumtheory List String.
From Verif Require Import Lang Fields Arith Roots Chain251 Symbols Signed.
Import ListNotations.
Local Open Scope string_scope.
Local Open Scope Z_scope.

(** C20.  The nine moduli are prime. *)
Theorem C20_prime : forall F, In F all_fields -> prime (modulus F).
Proof. exact prime_modulus. Qed.
Print Assumptions C20_prime.

(** C21.  Inversion, in all fields but e251_9 ([pow_safe] excludes it): the
    inverse of zero is zero and the product with any other value is one.  Partial: e251_9 is treated separately below. *)
Theorem C21_invert_partial : forall F a, In F all_fields -> pow_safe F a ->
  exists i, computes_unary F "F::invert" "F::inverted" a i /\ pow_safe F i /\ produced F i /\
    (eqmod F (value F a) 0 -> eqmod F (value F i) 0) /\
    exists o, computes F "mul" i a o /\ produced F o /\ (~ eqmod F (value F a) 0 -> eqmod F (value F o) 1).
Proof. exact invert_claim. Qed.
Print Assumptions C21_invert_partial.
Example C21_case : pow_safe e255_19 [3; 0; 0; 0; -1] /\ ~ eqmod e255_19 (value e255_19 [3; 0; 0; 0; -1]) 0 /\
  pow_safe e222_117 [3; 0; 0; 2 ^ 48].
Proof.
  split; [right; split; [|split]; [intros E; apply (f_equal fl_C) in E; discriminate E..|show_rep]|]. split; [vm_compute; discriminate|].
  left; split; [reflexivity|show_rep].
Qed.

(** In e251_9 the claim is false: there are two decoded values whose sum is
    inverted wrongly (a product inside the inversion exceeds 2^504). *)
Theorem C21_invert_251_refuted : forall F, F = e251_9 -> exists bu bv u v a i o,
  runs F "F::unpacked" [VArr bu] [VArr u] [VArr bu] /\ runs F "F::unpacked" [VArr bv] [VArr v] [VArr bv] /\ computes F "add" u v a /\
  computes_unary F "F::invert" "F::inverted" a i /\ computes F "mul" i a o /\ eqmod F (value F o) (value F i * value F a) /\
  ~ eqmod F (value F a) 0 /\ ~ eqmod F (value F o) 1.
Proof. exact invert_wrong. Qed.
Print Assumptions C21_invert_251_refuted.
(** It holds for every non-negative value unless two values within 2^228 of a
    multiple of the modulus are multiplied on the way ([powers_apart]). *)
Theorem C21_invert_251_partial : forall F a, F = e251_9 -> loose F a -> powers_apart F (value F a) (modulus F - 2) ->
  exists i, computes_unary F "F::invert" "F::inverted" a i /\ loose F i /\
    (eqmod F (value F a) 0 -> eqmod F (value F i) 0) /\
    (~ eqmod F (value F a) 0 -> eqmod F (value F i * value F a) 1) /\
    (apart F (value F i) (value F a) -> ~ eqmod F (value F a) 0 -> exists o, computes F "mul" i a o /\ loose F o /\ eqmod F (value F o) 1).
Proof. exact invert_claim_251. Qed.
Print Assumptions C21_invert_251_partial.
Example C21_251_case : exists a, loose e251_9 a /\ 2 ^ 248 < value e251_9 a /\ is_square e251_9 (value e251_9 a) /\ ~ eqmod e251_9 (value e251_9 a) 0 /\
  powers_apart e251_9 (value e251_9 a) (modulus e251_9 - 2).
Proof. apply case_251. discriminate. Qed.

(** Negative values (what subtraction can return) in the two fields whose
    products are wrong when negative.  e222_117: of everything that the library
    returns and that is not zero modulo the prime, exactly the non-negative
    values are inverted rightly.  e251_9: minus one is not. *)
Theorem C21_invert_222_exact : forall F a, F = e222_117 -> produced F a -> ~ eqmod F (value F a) 0 ->
  exists i, computes_unary F "F::invert" "F::inverted" a i /\ loose F i /\ (eqmod F (value F i * value F a) 1 <-> 0 <= value F a).
Proof. exact invert_claim_222. Qed.
Print Assumptions C21_invert_222_exact.
Example C21_222_case : exists a, produced e222_117 a /\ value e222_117 a = -2 /\ ~ eqmod e222_117 (value e222_117 a) 0.
Proof. destruct case_222_negative as (P & V & _ & N). eexists. split; [exact P|]. split; [exact V|]. now rewrite V. Qed.
Theorem C21_invert_minus_one_251_refuted : forall F, F = e251_9 -> exists zero one d i,
  runs F "F::zero" [] [VArr zero] [] /\ runs F "F::one" [] [VArr one] [] /\ computes F "sub" zero one d /\ value F d = -1 /\
  computes_unary F "F::invert" "F::inverted" d i /\ ~ eqmod F (value F i * value F d) 1.
Proof. exact invert_wrong_251. Qed.
Print Assumptions C21_invert_minus_one_251_refuted.

(** C22.  Division undoes multiplication (same fields). *)
Theorem C22_div_partial : forall F a b, In F all_fields -> pow_safe F a -> pow_safe F b ->
  exists q, computes F "div" a b q /\ pow_safe F q /\ produced F q /\
    exists o, computes F "mul" q b o /\ produced F o /\ (~ eqmod F (value F b) 0 -> eqmod F (value F o) (value F a)).
Proof. exact div_claim. Qed.
Print Assumptions C22_div_partial.
Example C22_case : pow_safe e521_1 [3; 0; 0; 0; 0; 0; 0; 0; 0; 2 ^ 36] /\ ~ eqmod e521_1 (value e521_1 [3; 0; 0; 0; 0; 0; 0; 0; 0; 2 ^ 36]) 0.
Proof. split; [right; split; [|split]; [intros E; apply (f_equal fl_C) in E; discriminate E..|show_rep]|vm_compute; discriminate]. Qed.

(** e251_9: false again, and true if no such pair is multiplied *)
Theorem C22_div_251_refuted : forall F, F = e251_9 -> exists bu bv u v a one q o,
  runs F "F::unpacked" [VArr bu] [VArr u] [VArr bu] /\ runs F "F::unpacked" [VArr bv] [VArr v] [VArr bv] /\ computes F "add" u v a /\
  runs F "F::one" [] [VArr one] [] /\ computes F "div" one a q /\ computes F "mul" q a o /\ eqmod F (value F o) (value F q * value F a) /\
  ~ eqmod F (value F a) 0 /\ ~ eqmod F (value F o) (value F one).
Proof. exact div_wrong. Qed.
Print Assumptions C22_div_251_refuted.
Theorem C22_div_251_partial : forall F a b, F = e251_9 -> loose F a -> loose F b -> powers_apart F (value F b) (modulus F - 2) ->
  (forall i, eqmod F (i * value F b) 1 -> apart F (value F a) i) -> ~ eqmod F (value F b) 0 ->
  exists q, computes F "div" a b q /\ loose F q /\ eqmod F (value F q * value F b) (value F a) /\
    (apart F (value F q) (value F b) -> exists o, computes F "mul" q b o /\ loose F o /\ eqmod F (value F o) (value F a)).
Proof. exact div_claim_251. Qed.
Print Assumptions C22_div_251_partial.
Example C22_251_case : exists a b, loose e251_9 a /\ loose e251_9 b /\ powers_apart e251_9 (value e251_9 b) (modulus e251_9 - 2) /\
  (forall i, eqmod e251_9 (i * value e251_9 b) 1 -> apart e251_9 (value e251_9 a) i) /\ ~ eqmod e251_9 (value e251_9 b) 0 /\ ~ eqmod e251_9 (value e251_9 a) (value e251_9 b).
Proof. exact case_div_251. Qed.

(** e222_117, negative operands: if the divisor is not negative, the quotient
    is right exactly if the dividend is not negative either; a negative divisor
    makes it wrong. *)
Theorem C22_div_222_exact : forall F a b, F = e222_117 -> produced F a -> produced F b -> ~ eqmod F (value F b) 0 ->
  exists q, computes F "div" a b q /\ loose F q /\
    (0 <= value F b -> (eqmod F (value F q * value F b) (value F a) <-> 0 <= value F a)) /\
    (value F b < 0 -> 0 <= value F a -> ~ eqmod F (value F a) 0 -> ~ eqmod F (value F q * value F b) (value F a)).
Proof. exact div_claim_222. Qed.
Print Assumptions C22_div_222_exact.
Example C22_222_case : exists a b, produced e222_117 a /\ produced e222_117 b /\ ~ eqmod e222_117 (value e222_117 b) 0 /\ value e222_117 a = -2 /\ value e222_117 b = 7.
Proof.
  destruct case_222_negative as (P & V & _ & N). eexists _, [7; 0; 0; 0]. split; [exact P|]. split; [show_rep|].
  split; [vm_compute; discriminate|]. split; [exact V|reflexivity].
Qed.

(** C23.  The Legendre symbol (same fields). *)
Theorem C23_legendre_partial : forall F a, In F all_fields -> pow_safe F a ->
  exists r, runs F "F::legendre" [VArr a] [VArr r] [VArr a] /\ produced F r /\
    (eqmod F (value F r) 1 <-> is_square F (value F a) /\ ~ eqmod F (value F a) 0) /\
    (eqmod F (value F r) (-1) <-> ~ is_square F (value F a)) /\
    (eqmod F (value F r) 0 <-> eqmod F (value F a) 0).
Proof. exact legendre_claim. Qed.
Print Assumptions C23_legendre_partial.
Example C23_case : pow_safe e414_17 [4; 0; 0; 0; 0; 0; 0; -5] /\ is_square e414_17 (value e414_17 [4; 0; 0; 0; 0; 0; 0; 0]).
Proof. split; [right; split; [|split]; [intros E; apply (f_equal fl_C) in E; discriminate E..|show_rep]|exists 2; vm_compute; reflexivity]. Qed.

(** e251_9, likewise; whether it fails for some non-negative argument is
    open *)
Theorem C23_legendre_251_partial : forall F a, F = e251_9 -> loose F a -> powers_apart F (value F a) ((modulus F - 1) / 2) ->
  exists r, runs F "F::legendre" [VArr a] [VArr r] [VArr a] /\ loose F r /\
    (eqmod F (value F r) 1 <-> is_square F (value F a) /\ ~ eqmod F (value F a) 0) /\
    (eqmod F (value F r) (-1) <-> ~ is_square F (value F a)) /\
    (eqmod F (value F r) 0 <-> eqmod F (value F a) 0).
Proof. exact legendre_claim_251. Qed.
Print Assumptions C23_legendre_251_partial.
Example C23_251_case : exists a, loose e251_9 a /\ 2 ^ 248 < value e251_9 a /\ is_square e251_9 (value e251_9 a) /\ ~ eqmod e251_9 (value e251_9 a) 0 /\
  powers_apart e251_9 (value e251_9 a) ((modulus e251_9 - 1) / 2).
Proof. apply case_251. discriminate. Qed.

(** Negative values: in e222_117 exactly the non-negative values have the
    right symbol; in e251_9 the symbol of minus one is neither 1, -1 nor 0. *)
Theorem C23_legendre_222_exact : forall F a, F = e222_117 -> produced F a -> ~ eqmod F (value F a) 0 ->
  exists r, runs F "F::legendre" [VArr a] [VArr r] [VArr a] /\ loose F r /\
    (is_square F (value F a) -> (eqmod F (value F r) 1 <-> 0 <= value F a)) /\
    (~ is_square F (value F a) -> (eqmod F (value F r) (-1) <-> 0 <= value F a)).
Proof. exact legendre_claim_222. Qed.
Print Assumptions C23_legendre_222_exact.
Example C23_222_case : exists a, produced e222_117 a /\ value e222_117 a < 0 /\ is_square e222_117 (value e222_117 a) /\ ~ eqmod e222_117 (value e222_117 a) 0.
Proof. destruct case_222_negative as (P & V & S & N). eexists. split; [exact P|]. rewrite V. split; [reflexivity|]. now split. Qed.
Theorem C23_legendre_251_refuted : forall F, F = e251_9 -> exists zero one d r,
  runs F "F::zero" [] [VArr zero] [] /\ runs F "F::one" [] [VArr one] [] /\ computes F "sub" zero one d /\ value F d = -1 /\
  runs F "F::legendre" [VArr d] [VArr r] [VArr d] /\ ~ eqmod F (value F r) 1 /\ ~ eqmod F (value F r) (-1) /\ ~ eqmod F (value F r) 0.
Proof. exact legendre_wrong_251. Qed.
Print Assumptions C23_legendre_251_refuted.

(** C24.  Square roots (same fields). *)
Theorem C24_sqrt_partial : forall F a, In F all_fields -> pow_safe F a -> is_square F (value F a) ->
  exists r, runs F "F::sqrt" [VArr a] [VArr r] [VArr a] /\ produced F r /\ eqmod F (value F r * value F r) (value F a).
Proof. exact sqrt_claim. Qed.
Print Assumptions C24_sqrt_partial.
Example C24_case : pow_safe e383_187 [9; 0; 0; 0; 0; 0; 0] /\ is_square e383_187 (value e383_187 [9; 0; 0; 0; 0; 0; 0]).
Proof. split; [right; split; [|split]; [intros E; apply (f_equal fl_C) in E; discriminate E..|show_rep]|exists 3; vm_compute; reflexivity]. Qed.
(** Of the two roots, a modulus that is 3 mod 4 gives the one that is itself a
    square, and there is only one such. *)
Theorem C24_which_root : forall F a, In F all_fields -> modulus F mod 4 = 3 -> pow_safe F a -> is_square F (value F a) ->
  exists r, runs F "F::sqrt" [VArr a] [VArr r] [VArr a] /\ produced F r /\ eqmod F (value F r * value F r) (value F a) /\ is_square F (value F r) /\
    forall s, eqmod F (s * s) (value F a) -> is_square F s -> eqmod F s (value F r).
Proof. exact principal_claim. Qed.
Print Assumptions C24_which_root.
Example C24_which_case : In e382_105 all_fields /\ modulus e382_105 mod 4 = 3 /\ pow_safe e382_105 [9; 0; 0; 0; 0; 0; 0] /\ is_square e382_105 (value e382_105 [9; 0; 0; 0; 0; 0; 0]).
Proof.
  split; [cbn; tauto|]. split; [reflexivity|]. split; [right; split; [|split]; [intros E; apply (f_equal fl_C) in E; discriminate E..|show_rep]|exists 3; vm_compute; reflexivity].
Qed.
(** On every argument: the result is a root exactly when there is one, and
    otherwise its square is minus the argument, or (moduli that are 5 mod 8)
    minus twice the argument or zero.  So squaring the result is the only way
    to tell a square from a non-square by this function: it never panics. *)
Theorem C24_sqrt_any_partial : forall F a, In F all_fields -> pow_safe F a ->
  exists r, runs F "F::sqrt" [VArr a] [VArr r] [VArr a] /\ produced F r /\
    (eqmod F (value F r * value F r) (value F a) <-> is_square F (value F a)) /\
    (~ is_square F (value F a) -> modulus F mod 4 = 3 -> eqmod F (value F r * value F r) (- value F a)) /\
    (~ is_square F (value F a) -> modulus F mod 8 = 5 -> eqmod F (value F r) 0 \/ eqmod F (value F r * value F r) (-2 * value F a)).
Proof. exact sqrt_any. Qed.
Print Assumptions C24_sqrt_any_partial.
(** Both kinds of modulus occur, and so do non-squares. *)
Example C24_any_case : pow_safe e383_187 [2; 0; 0; 0; 0; 0; 0] /\ modulus e383_187 mod 8 = 5 /\ ~ is_square e383_187 (value e383_187 [2; 0; 0; 0; 0; 0; 0]) /\
  pow_safe e382_105 [2 ^ 56 - 106; 2 ^ 56 - 1; 2 ^ 56 - 1; 2 ^ 56 - 1; 2 ^ 56 - 1; 2 ^ 56 - 1; 2 ^ 46 - 1] /\ modulus e382_105 mod 4 = 3 /\ ~ is_square e382_105 (value e382_105 [2 ^ 56 - 106; 2 ^ 56 - 1; 2 ^ 56 - 1; 2 ^ 56 - 1; 2 ^ 56 - 1; 2 ^ 56 - 1; 2 ^ 46 - 1]).
Proof. exact nonsquares. Qed.
(** The symbol by which these roots choose a factor (moduli that are 5 mod 8):
    1 for fourth powers, -1 for the other squares, a root of -1 for
    non-squares. *)
Theorem C24_fourth_power_symbol : forall F a, In F all_fields -> modulus F mod 8 = 5 -> pow_safe F a ->
  exists r, runs F "F::quartic_legendre" [VArr a] [VArr r] [VArr a] /\ produced F r /\
    (eqmod F (value F r) 0 <-> eqmod F (value F a) 0) /\
    (eqmod F (value F r) 1 <-> ~ eqmod F (value F a) 0 /\ exists z, eqmod F (z * z * (z * z)) (value F a)) /\
    (eqmod F (value F r) (-1) <-> is_square F (value F a) /\ ~ exists z, eqmod F (z * z * (z * z)) (value F a)) /\
    (eqmod F (value F r * value F r) (-1) <-> ~ is_square F (value F a)).
Proof. exact quartic_claim. Qed.
Print Assumptions C24_fourth_power_symbol.
Example C24_symbol_case : pow_safe e255_19 [16; 0; 0; 0; 0] /\ modulus e255_19 mod 8 = 5 /\ exists z, eqmod e255_19 (z * z * (z * z)) (value e255_19 [16; 0; 0; 0; 0]).
Proof. split; [right; split; [|split]; [intros E; apply (f_equal fl_C) in E; discriminate E..|show_rep]|]. split; [reflexivity|]. exists 2. vm_compute. reflexivity. Qed.
(** e251_9: for everything that the library returns, negative values included
    (the first step is a square, and squares are right in this field whatever
    the sign), unless two values near a multiple of the modulus are multiplied
    on the way. *)
Theorem C24_sqrt_251_partial : forall F a, F = e251_9 -> produced F a -> powers_apart F (value F a) ((modulus F + 1) / 4) ->
  exists r, runs F "F::sqrt" [VArr a] [VArr r] [VArr a] /\ loose F r /\
    (is_square F (value F a) -> eqmod F (value F r * value F r) (value F a) /\ is_square F (value F r)) /\
    (~ is_square F (value F a) -> eqmod F (value F r * value F r) (- value F a)).
Proof. exact sqrt_claim_251'. Qed.
Print Assumptions C24_sqrt_251_partial.
Example C24_251_case : exists a, produced e251_9 a /\ value e251_9 a < 0 /\ is_square e251_9 (value e251_9 a) /\ ~ eqmod e251_9 (value e251_9 a) 0 /\
  powers_apart e251_9 (value e251_9 a) ((modulus e251_9 + 1) / 4).
Proof. apply case_251_negative. discriminate. Qed.
(** e222_117, negative values: the result is the root that is a square exactly
    for the non-negative values, and for minus two it is no root at all. *)
Theorem C24_sqrt_222_exact : forall F a, F = e222_117 -> produced F a -> is_square F (value F a) -> ~ eqmod F (value F a) 0 ->
  exists r, runs F "F::sqrt" [VArr a] [VArr r] [VArr a] /\ loose F r /\
    (eqmod F (value F r * value F r) (value F a) /\ is_square F (value F r) <-> 0 <= value F a).
Proof. exact sqrt_claim_222. Qed.
Print Assumptions C24_sqrt_222_exact.
Example C24_222_case : exists a, produced e222_117 a /\ value e222_117 a < 0 /\ is_square e222_117 (value e222_117 a) /\ ~ eqmod e222_117 (value e222_117 a) 0.
Proof. destruct case_222_negative as (P & V & S & N). eexists. split; [exact P|]. rewrite V. split; [reflexivity|]. now split. Qed.
Theorem C24_sqrt_222_refuted : forall F, F = e222_117 -> exists zero one two d r,
  runs F "F::zero" [] [VArr zero] [] /\ runs F "F::one" [] [VArr one] [] /\ computes F "add" one one two /\ computes F "sub" zero two d /\
  runs F "F::sqrt" [VArr d] [VArr r] [VArr d] /\ is_square F (value F d) /\ ~ eqmod F (value F r * value F r) (value F d).
Proof. exact sqrt_wrong_222. Qed.
Print Assumptions C24_sqrt_222_refuted.
