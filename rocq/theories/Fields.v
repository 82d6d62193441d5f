(** The nine shipped fields and the vocabulary of the field properties: what an
    array of words means, which arrays the library produces, and what the
    encoding of an integer is.  Nothing here refers to how the code works;
    the programs themselves are the generated Src_*.v files. *)
From Coq Require Import ZArith List String Bool.
From Verif Require Import Lang.
From Verif Require Src_e221_3 Src_e222_117 Src_e251_9 Src_e255_19 Src_e382_105
  Src_e383_187 Src_e414_17 Src_e511_187 Src_e521_1.
Import ListNotations.
Local Open Scope string_scope.
Local Open Scope Z_scope.

Record fld := mkfld {
  fl_tbl : list (string * func);   (* the translated source file *)
  fl_n : nat;                      (* words *)
  fl_w : Z;                        (* bits per word *)
  fl_tb : Z;                       (* bits of a reduced top word = carry position *)
  fl_C : Z;                        (* p = 2^bits - C *)
  fl_nb : nat }.                   (* bytes of an encoding *)

(* src/field/mod_e221_3.rs:36-57 (struct, C_VAL, MODULUS), carry_out, nbytes; likewise for the others *)
Definition e221_3   := mkfld Src_e221_3.table   4 58 47 3 28.
Definition e222_117 := mkfld Src_e222_117.table 4 58 48 117 28.
Definition e251_9   := mkfld Src_e251_9.table   5 56 27 9 32.
Definition e255_19  := mkfld Src_e255_19.table  5 56 31 19 32.
Definition e382_105 := mkfld Src_e382_105.table 7 56 46 105 48.
Definition e383_187 := mkfld Src_e383_187.table 7 56 47 187 48.
Definition e414_17  := mkfld Src_e414_17.table  8 56 22 17 52.
Definition e511_187 := mkfld Src_e511_187.table 10 54 25 187 64.
Definition e521_1   := mkfld Src_e521_1.table   10 54 35 1 66.

Definition all_fields : list fld :=
  [e221_3; e222_117; e251_9; e255_19; e382_105; e383_187; e414_17; e511_187; e521_1].

(** ** Integers *)

(** the integer written in base 2^w with least significant word first *)
Fixpoint words_value (w : Z) (l : list Z) : Z :=
  match l with [] => 0 | x :: t => x + 2 ^ w * words_value w t end.

Definition nbits (F : fld) : Z := fl_w F * Z.of_nat (fl_n F - 1) + fl_tb F.
(** the prime 2^bits - C *)
Definition modulus (F : fld) : Z := 2 ^ nbits F - fl_C F.
(** the integer denoted by a field value; the field element is its residue *)
Definition value (F : fld) (l : list Z) : Z := words_value (fl_w F) l.
(** congruence modulo the prime *)
Definition eqmod (F : fld) (a b : Z) : Prop := a mod modulus F = b mod modulus F.

(** ** Representations *)

(** the top word and its carry, i.e. what exceeds the reduced width *)
Definition top (F : fld) (l : list Z) : Z := nth (fl_n F - 1) l 0.
Definition carry (F : fld) (l : list Z) : Z := top F l / 2 ^ fl_tb F.

(** the right number of words, every word but the last within its width, and
    the last (signed) word between [lo] and [hi] *)
Definition rep (F : fld) (lo hi : Z) (l : list Z) : Prop :=
  List.length l = fl_n F /\
  (forall i, (i < fl_n F - 1)%nat -> 0 <= nth i l 0 < 2 ^ fl_w F) /\
  lo <= top F l <= hi.

(** any i64 top word at all *)
Definition any_rep F := rep F (- 2 ^ 63) (2 ^ 63 - 1).
(** no pending carry: the value lies in [0, 2^bits) *)
Definition tight F := rep F 0 (2 ^ fl_tb F - 1).
(** a non-negative pending carry of at most two, as sums and products leave it *)
Definition loose F := rep F 0 (2 * 2 ^ fl_tb F + (fl_C F - 1)).
(** signed, with a top word of up to 2^r times the reduced range *)
Definition within F r := rep F (- 2 ^ (fl_tb F + r)) (2 ^ (fl_tb F + r)).
(** the head room of each field, in bits: how far above the reduced range the
    operands of multiplication and squaring may be (C65_limit: not one bit more) *)
Definition room (F : fld) : Z :=
  match fl_C F with
  | 3 => 7 | 117 => 12 | 9 => 4 | 19 => 13 | 105 => 5 | 17 => 9 | 1 => 13
  | _ => match fl_n F with 7%nat => 4 | _ => 6 end    (* e383_187, e511_187 *)
  end.
Definition wide F := within F (room F).
(** non-negative with a pending carry of at most one: what adding two [tight]
    values leaves *)
Definition summand F := rep F 0 (2 * 2 ^ fl_tb F - 1).
(** at most one unit above [tight], as small additions leave it *)
Definition near F := rep F 0 (2 ^ fl_tb F).
(** the negative results of subtraction *)
Definition negative F := rep F (- 2 ^ fl_tb F - 1) (-1).
(** everything that addition, subtraction, multiplication, squaring, negation,
    small additions, normalisation and decoding produce *)
Definition produced F := rep F (- 2 ^ fl_tb F - 1) (2 * 2 ^ fl_tb F + (fl_C F - 1)).
(** the unique reduced representation of a residue *)
Definition canonical F l := tight F l /\ value F l < modulus F.

(** the value once the pending carry has been folded in: congruent to [value] *)
Definition folded (F : fld) (l : list Z) : Z := value F l - modulus F * carry F l.
(** the representations that normalisation handles: the folded value is not
    negative (in particular all [loose] values) *)
Definition normal (F : fld) (a : list Z) : Prop := any_rep F a /\ 0 <= folded F a.
(** the right number of i64 words, nothing else known *)
Definition is_i64s (F : fld) (l : list Z) : Prop :=
  List.length l = fl_n F /\ Forall (fun z => - 2 ^ 63 <= z < 2 ^ 63) l.
(** an i32 value *)
Definition is_i32 (b : Z) : Prop := - 2 ^ 31 <= b <= 2 ^ 31 - 1.
(** an i32 multiplier whose product with a reduced top word fits an i64 *)
Definition smallmul_ok (F : fld) (b : Z) : Prop := is_i32 b /\ Z.abs b < 2 ^ (63 - fl_tb F).

(** In e521_1 small multiplication works on halves of 27 bits.  What the words up
    to i of k * a carry into word i + 1 comes in two parts: the upper half of k
    times the upper half of word i, and this. *)
Definition column_carry (k : Z) (a : list Z) (i : nat) : Z :=
  k * (value e521_1 a mod 2 ^ (54 * (Z.of_nat i + 1))) / 2 ^ (54 * (Z.of_nat i + 1)) - k * (nth i a 0 / 2 ^ 27) / 2 ^ 27.
(** When k times a is right: a has no pending carry, the product fits the words
    with an i64 at the top, and in e521_1 the carries out of words 5 to 8 agree
    (those out of words 5, 6 and 7 are added one word too high, the first also
    where it belongs, and that out of word 8 is lost). *)
Definition small_exact (F : fld) (a : list Z) (k : Z) : Prop :=
  carry F a = 0 /\ - 2 ^ 63 <= value F a * k / 2 ^ (fl_w F * Z.of_nat (fl_n F - 1)) < 2 ^ 63 /\
  (F = e521_1 -> column_carry k a 5 = column_carry k a 6 /\ column_carry k a 6 = column_carry k a 7 /\ column_carry k a 7 = column_carry k a 8).

(** operand pairs on which multiplication is claimed to be correct.  Seven of
    the fields take signed operands; in e222_117 and e251_9 the product must not
    be negative, and in e251_9 it must also stay below 2^504. *)
Inductive mul_safe (F : fld) (a b : list Z) : Prop :=
| safe_wide : F <> e251_9 -> F <> e222_117 -> wide F a -> wide F b -> mul_safe F a b
| safe_loose : F <> e251_9 -> loose F a -> loose F b -> mul_safe F a b
| safe_negative : negative F a -> negative F b -> mul_safe F a b
| safe_sums : summand F a -> summand F b -> mul_safe F a b
| safe_left : loose F a -> near F b -> mul_safe F a b
| safe_right : near F a -> loose F b -> mul_safe F a b.

(** operands on which squaring is claimed to be correct *)
Definition square_safe (F : fld) (a : list Z) : Prop :=
  loose F a \/ negative F a \/ (F <> e222_117 /\ wide F a).

(** operands on which inversion, division, the Legendre symbol and square roots
    are claimed to be correct: not in e251_9, whose products can leave the
    domain of its own multiplication *)
Definition pow_safe (F : fld) (a : list Z) : Prop :=
  (F = e222_117 /\ loose F a) \/ (F <> e222_117 /\ F <> e251_9 /\ wide F a).

(** In e251_9 products are right up to 2^504, and a product can itself be
    slightly above 2^252; then its residue is at least 18 and below 2^228.
    Inversion, division, the Legendre symbol and square roots are claimed there
    for arguments such that no two values multiplied on the way to x^e are both
    within 2^228 of a multiple of the modulus, unless neither can be above
    2^252.  Square-and-multiply multiplies x^(e mod 2^k) by x^(2^k) for the
    binary digits k of e that are one, but for the first. *)
Definition ordinary (F : fld) (x : Z) : Prop := x mod modulus F < 18 \/ 2 ^ 228 <= x mod modulus F.
Definition clear (F : fld) (x : Z) : Prop := 2 ^ 228 <= x mod modulus F <= modulus F - 2 ^ 228.
Definition apart (F : fld) (x y : Z) : Prop := clear F x \/ clear F y \/ (ordinary F x /\ ordinary F y).
Definition powers_apart (F : fld) (x e : Z) : Prop :=
  forall k, 0 <= k -> Z.testbit e k = true -> 0 < e mod 2 ^ k -> apart F (x ^ (e mod 2 ^ k)) (x ^ (2 ^ k)).

(** [x] is the square of some integer modulo the prime *)
Definition is_square (F : fld) (x : Z) : Prop := exists y, eqmod F (y * y) x.

(** ** Bytes *)
Definition is_bytes (bs : list Z) : Prop := Forall (fun b => 0 <= b < 256) bs.
(** the integer encoded by little-endian bytes *)
Definition le_value (bs : list Z) : Z := words_value 8 bs.
(** the [n] little-endian bytes of an integer *)
Fixpoint le_bytes (n : nat) (z : Z) : list Z :=
  match n with O => [] | S k => z mod 256 :: le_bytes k (z / 256) end.
(** the canonical encoding of the residue of [z] *)
Definition encode (F : fld) (z : Z) : list Z := le_bytes (fl_nb F) (z mod modulus F).

(** ** Hexadecimal text (character codes) *)

(** a digit, lower or upper case *)
Definition digit_value (upper : bool) (c : Z) : option Z :=
  if (48 <=? c) && (c <=? 57) then Some (c - 48)
  else let a := if upper then 65 else 97 in
       if (a <=? c) && (c <=? a + 5) then Some (c - a + 10) else None.
(** the number written by hexadecimal digits, most significant first *)
Definition hex_value (upper : bool) (s : list Z) : option Z :=
  fold_left (fun acc c => match acc, digit_value upper c with
                          | Some n, Some d => Some (16 * n + d) | _, _ => None end) s (Some 0).

(** ** Running the library *)

(** [runs F f args rets outs]: in both build modes, calling method [f] of field
    [F] on [args] returns normally with results [rets] and leaves the
    arguments as [outs] (only `&mut` arguments can change). *)
Definition runs (F : fld) (f : string) (args rets outs : list val) : Prop :=
  forall md, rust_call md (fl_tbl F) f args = Ok (rets, outs).
(** the call panics, in both build modes *)
Definition panics (F : fld) (f : string) (args : list val) : Prop :=
  forall md, rust_call md (fl_tbl F) f args = Panic.

(** a bool as the model represents it, and a result that decides [P] *)
Definition b2z (b : bool) : Z := if b then 1 else 0.
Definition truth (P : Prop) (v : val) : Prop := (P /\ v = VInt 1) \/ (~ P /\ v = VInt 0).

(** the outcome of a call seen through what it assigns to its first argument,
    or through its result *)
Definition assigned (md : mode) (F : fld) (f : string) (args : list val) : res val :=
  match rust_call md (fl_tbl F) f args with
  | Ok (_, v :: _) => Ok v | Ok (_, []) => Stuck | Panic => Panic | Stuck => Stuck
  end.
Definition returned (md : mode) (F : fld) (f : string) (args : list val) : res val :=
  match rust_call md (fl_tbl F) f args with
  | Ok (v :: _, _) => Ok v | Ok ([], _) => Stuck | Panic => Panic | Stuck => Stuck
  end.

(** ** Operators *)

(** In both builds `a op= &b` leaves [o] in `a` and does not touch `b`, and
    `&a op &b` returns [o] and touches neither (op is add, sub, mul or div). *)
Definition computes (F : fld) (op : string) (a b o : list Z) : Prop :=
  runs F ("F::" ++ op ++ "_assign(&F)")%string [VArr a; VArr b] [] [VArr o; VArr b] /\
  runs F ("(&F)::" ++ op ++ "(&F)")%string [VArr a; VArr b] [VArr o] [VArr a; VArr b].
(** the same for the small-integer methods (op is add, sub or mul) *)
Definition computes_small (F : fld) (op : string) (a : list Z) (k : Z) (o : list Z) : Prop :=
  runs F ("F::small_" ++ op ++ "_assign") [VArr a; VInt k] [] [VArr o; VInt k] /\
  runs F ("F::small_" ++ op)%string [VArr a; VInt k] [VArr o] [VArr a; VInt k].
(** the same, except that a build with overflow checks may panic instead *)
Definition or_panics (F : fld) (f : string) (args rets outs : list val) : Prop :=
  rust_call Release (fl_tbl F) f args = Ok (rets, outs) /\
  (rust_call Debug (fl_tbl F) f args = Ok (rets, outs) \/ rust_call Debug (fl_tbl F) f args = Panic).
Definition small_or_panics (F : fld) (op : string) (a : list Z) (k : Z) (o : list Z) : Prop :=
  or_panics F ("F::small_" ++ op ++ "_assign") [VArr a; VInt k] [] [VArr o; VInt k] /\
  or_panics F ("F::small_" ++ op)%string [VArr a; VInt k] [VArr o] [VArr a; VInt k].
(** the same for a pair of an in-place method and a method returning a new
    value (square/squared, invert/inverted) *)
Definition computes_unary (F : fld) (inplace fresh : string) (a o : list Z) : Prop :=
  runs F inplace [VArr a] [] [VArr o] /\ runs F fresh [VArr a] [VArr o] [VArr a].
