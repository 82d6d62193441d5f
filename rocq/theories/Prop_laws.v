(** C64: the laws of inversion, division, the Legendre symbol and square roots,
    observed through encodings, without normalising in between.  The vocabulary
    is in Fields.v and Machine.v: [computes] and [computes_unary] say what every
    operator form returns in both builds, [encodes] what `packed` returns, and
    [pow_safe] covers everything the library produces in seven fields and every
    value that is not negative in e222_117 (e251_9 is excluded, see C21). *)
From Coq Require Import ZArith List String.
From Verif Require Import Lang Fields Arith Machine FieldLaws.
Import ListNotations.
Local Open Scope string_scope.
Local Open Scope Z_scope.

(** Inverting twice gives the value back (zero included). *)
Theorem C64_invert_twice : forall F, In F all_fields -> forall a, pow_safe F a -> normal F a -> exists i j bs,
  computes_unary F "F::invert" "F::inverted" a i /\ computes_unary F "F::invert" "F::inverted" i j /\ encodes F a bs /\ encodes F j bs.
Proof. exact fl_invert_twice. Qed.
Print Assumptions C64_invert_twice.
(** The inverse of a product is the product of the inverses. *)
Theorem C64_invert_mul : forall F, In F all_fields -> forall a b, pow_safe F a -> pow_safe F b -> exists ab l i j r bs,
  computes F "mul" a b ab /\ computes_unary F "F::invert" "F::inverted" ab l /\
  computes_unary F "F::invert" "F::inverted" a i /\ computes_unary F "F::invert" "F::inverted" b j /\ computes F "mul" i j r /\ encodes F l bs /\ encodes F r bs.
Proof. exact fl_invert_mul. Qed.
Print Assumptions C64_invert_mul.
(** Dividing is multiplying by the inverse. *)
Theorem C64_div_invert : forall F, In F all_fields -> forall a b, pow_safe F a -> pow_safe F b -> exists q i r bs,
  computes F "div" a b q /\ computes_unary F "F::invert" "F::inverted" b i /\ computes F "mul" a i r /\ encodes F q bs /\ encodes F r bs.
Proof. exact fl_div_invert. Qed.
Print Assumptions C64_div_invert.
(** Dividing twice is dividing by the product. *)
Theorem C64_div_div : forall F, In F all_fields -> forall a b c, pow_safe F a -> pow_safe F b -> pow_safe F c -> exists q l bc r bs,
  computes F "div" a b q /\ computes F "div" q c l /\ computes F "mul" b c bc /\ computes F "div" a bc r /\ encodes F l bs /\ encodes F r bs.
Proof. exact fl_div_div. Qed.
Print Assumptions C64_div_div.
(** Division distributes over sums ... *)
Theorem C64_div_sum : forall F, In F all_fields -> forall a b c, pow_safe F a -> pow_safe F b -> pow_safe F c -> exists s l q r t bs,
  computes F "add" a b s /\ computes F "div" s c l /\ computes F "div" a c q /\ computes F "div" b c r /\ computes F "add" q r t /\ encodes F l bs /\ encodes F t bs.
Proof. exact fl_div_sum. Qed.
Print Assumptions C64_div_sum.
(** ... and fractions are added by cross-multiplication. *)
Theorem C64_fractions : forall F, In F all_fields -> forall a b c d, pow_safe F a -> pow_safe F b -> pow_safe F c -> pow_safe F d -> ~ eqmod F (value F b) 0 -> ~ eqmod F (value F d) 0 ->
  exists q r l ad cb n bd t bs,
  computes F "div" a b q /\ computes F "div" c d r /\ computes F "add" q r l /\
  computes F "mul" a d ad /\ computes F "mul" c b cb /\ computes F "add" ad cb n /\ computes F "mul" b d bd /\ computes F "div" n bd t /\ encodes F l bs /\ encodes F t bs.
Proof. exact fl_fractions. Qed.
Print Assumptions C64_fractions.
(** The Legendre symbol is multiplicative, ... *)
Theorem C64_legendre_mul : forall F, In F all_fields -> forall a b, pow_safe F a -> pow_safe F b -> exists ab l la lb r bs,
  computes F "mul" a b ab /\ runs F "F::legendre" [VArr ab] [VArr l] [VArr ab] /\
  runs F "F::legendre" [VArr a] [VArr la] [VArr a] /\ runs F "F::legendre" [VArr b] [VArr lb] [VArr b] /\ computes F "mul" la lb r /\ encodes F l bs /\ encodes F r bs.
Proof. exact fl_legendre_mul. Qed.
Print Assumptions C64_legendre_mul.
(** ... is one on the square of every value that is not zero, ... *)
Theorem C64_legendre_square : forall F, In F all_fields -> forall a, pow_safe F a -> ~ eqmod F (value F a) 0 -> exists s l one bs,
  computes_unary F "F::square" "F::squared" a s /\ runs F "F::legendre" [VArr s] [VArr l] [VArr s] /\ runs F "F::one" [] [VArr one] [] /\ encodes F l bs /\ encodes F one bs.
Proof. exact fl_legendre_square. Qed.
Print Assumptions C64_legendre_square.
(** ... and the same for a value and its inverse. *)
Theorem C64_legendre_invert : forall F, In F all_fields -> forall a, pow_safe F a -> exists i l r bs,
  computes_unary F "F::invert" "F::inverted" a i /\ runs F "F::legendre" [VArr i] [VArr l] [VArr i] /\ runs F "F::legendre" [VArr a] [VArr r] [VArr a] /\
  encodes F l bs /\ encodes F r bs.
Proof. exact fl_legendre_invert. Qed.
Print Assumptions C64_legendre_invert.
(** The root of a square is the value squared or its opposite. *)
Theorem C64_sqrt_square : forall F, In F all_fields -> forall a, pow_safe F a -> exists s r, computes_unary F "F::square" "F::squared" a s /\ runs F "F::sqrt" [VArr s] [VArr r] [VArr s] /\ produced F r /\
  (eqmod F (value F r) (value F a) \/ eqmod F (value F r) (- value F a)).
Proof. exact fl_sqrt_square. Qed.
Print Assumptions C64_sqrt_square.
(** Negative values, values with a pending carry and zero meet the hypotheses. *)
Example C64_case : pow_safe e255_19 [3; 0; 0; 0; -1] /\ pow_safe e255_19 [3; 0; 0; 0; 2 ^ 32] /\ normal e255_19 [3; 0; 0; 0; 2 ^ 32] /\
  ~ eqmod e255_19 (value e255_19 [3; 0; 0; 0; -1]) 0 /\ pow_safe e222_117 [3; 0; 0; 2 ^ 48] /\ pow_safe e222_117 [0; 0; 0; 0].
Proof.
  split; [right; split; [|split]; [intros E; apply (f_equal fl_C) in E; discriminate E..|show_rep]|].
  split; [right; split; [|split]; [intros E; apply (f_equal fl_C) in E; discriminate E..|show_rep]|].
  split; [split; [show_rep|vm_compute; discriminate]|]. split; [vm_compute; discriminate|].
  split; left; split; try reflexivity; show_rep.
Qed.
