(** C61-C63: what the observers do with every value; which draws give which
    random element; normalising twice.  The vocabulary is in Fields.v and EverySpec.v. *)
From Coq Require Import ZArith List String.
From Verif Require Import Lang Fields Arith Refute EverySpec Every.
Import ListNotations.
Local Open Scope string_scope.
Local Open Scope Z_scope.

(** C61.  normalize() returns the settled value, which is congruent to the
    argument exactly if the folded value is not below -C. *)
Theorem C61_normalize : forall F a, In F all_fields -> any_rep F a ->
  exists o, runs F "F::normalize" [VArr a] [] [VArr o] /\ rep F (- 2 ^ fl_tb F - 1) (2 ^ fl_tb F) o /\ value F o = settled F a /\
    (eqmod F (value F o) (value F a) <-> - fl_C F <= folded F a).
Proof. exact normalize_every. Qed.
Print Assumptions C61_normalize.
(** what addition, subtraction, products, squares, negation, small additions and
    decoding return is never below -C *)
Theorem C61_produced : forall F a, In F all_fields -> produced F a -> any_rep F a /\ - fl_C F <= folded F a.
Proof. exact produced_low. Qed.
Print Assumptions C61_produced.
(** pack_normalized() writes the low bits of the value, in two's complement *)
Theorem C61_pack_normalized : forall F a bs, In F all_fields -> any_rep F a -> is_bytes bs ->
  if (List.length bs <? fl_nb F)%nat then panics F "F::pack_normalized" [VArr a; VArr bs]
  else exists ws, runs F "F::pack_normalized" [VArr a; VArr bs] [] [VArr a; VArr (ws ++ skipn (fl_nb F) bs)%list] /\
    is_bytes ws /\ List.length ws = fl_nb F /\ le_value ws = value F a mod 2 ^ written_bits F.
Proof. exact pack_normalized_every. Qed.
Print Assumptions C61_pack_normalized.
(** pack() and packed() write the residue if the folded value is not negative,
    and 2^k plus a negative number otherwise *)
Theorem C61_pack : forall F a bs, In F all_fields -> any_rep F a -> is_bytes bs -> (fl_nb F <= List.length bs)%nat ->
  exists a' ws, runs F "F::pack" [VArr a; VArr bs] [] [VArr a'; VArr (ws ++ skipn (fl_nb F) bs)%list] /\
    runs F "F::packed" [VArr a] [VArr ws] [VArr a'] /\ runs F "F::normalize" [VArr a] [] [VArr a'] /\
    is_bytes ws /\ List.length ws = fl_nb F /\
    (0 <= folded F a -> le_value ws = value F a mod modulus F) /\
    (- fl_C F <= folded F a < 0 -> le_value ws = 2 ^ written_bits F + folded F a) /\
    (folded F a < - fl_C F -> le_value ws = 2 ^ written_bits F + folded F a - 2 * fl_C F).
Proof. exact pack_every. Qed.
Print Assumptions C61_pack.
(** the encodings of two such results are equal exactly if the results are
    congruent and both or neither of the folded values is negative *)
Theorem C61_encodings : forall F a b wa wb a' b', In F all_fields -> produced F a -> produced F b ->
  runs F "F::packed" [VArr a] [VArr wa] [VArr a'] -> runs F "F::packed" [VArr b] [VArr wb] [VArr b'] ->
  (wa = wb <-> eqmod F (value F a) (value F b) /\ (folded F a < 0 <-> folded F b < 0)).
Proof. exact packed_identifies. Qed.
Print Assumptions C61_encodings.
(** after a small multiplication that is itself right, the encoding can be the
    one of a different residue *)
Theorem C61_encodings_refuted : forall F, In F all_fields -> F <> e383_187 ->
  exists x a y ws a', tight F x /\ computes_small F "mul" x (-4) a /\ value F a = value F x * -4 /\ any_rep F a /\ canonical F y /\
    ~ eqmod F (value F a) (value F y) /\
    runs F "F::packed" [VArr a] [VArr ws] [VArr a'] /\ runs F "F::packed" [VArr y] [VArr ws] [VArr y].
Proof. exact encoding_collides. Qed.
Print Assumptions C61_encodings_refuted.
(** equality never holds of values that are not congruent, and fails for
    congruent values exactly if one folded value is negative and the other not *)
Theorem C61_equality : forall F a b, In F all_fields -> any_rep F a -> any_rep F b ->
  exists r a' b', runs F "F::normalize_eq" [VArr a; VArr b] [r] [VArr a'; VArr b'] /\
    runs F "F::normalize" [VArr a] [] [VArr a'] /\ runs F "F::normalize" [VArr b] [] [VArr b'] /\
    truth (eqmod F (value F a) (value F b) /\ (folded F a < 0 <-> folded F b < 0)) r.
Proof. exact eq_every. Qed.
Print Assumptions C61_equality.
Theorem C61_self_equality : forall F a b, In F all_fields -> any_rep F a -> canonical F b ->
  exists r a', runs F "F::normalize_self_eq" [VArr a; VArr b] [r] [VArr a'; VArr b] /\ runs F "F::normalize" [VArr a] [] [VArr a'] /\
    truth (eqmod F (value F a) (value F b) /\ 0 <= folded F a) r.
Proof. exact self_eq_every. Qed.
Print Assumptions C61_self_equality.
(** bit() reads the digits of the settled value, bit_normalized() those of the
    value itself, in two's complement *)
Theorem C61_bit : forall F a i, In F all_fields -> any_rep F a -> 0 <= i ->
  if i <? fl_w F * Z.of_nat (fl_n F)
  then exists a', runs F "F::bit" [VArr a; VInt i] [VInt (b2z (Z.testbit (settled F a) i))] [VArr a'; VInt i] /\
         runs F "F::normalize" [VArr a] [] [VArr a']
  else panics F "F::bit" [VArr a; VInt i].
Proof. exact bit_every. Qed.
Print Assumptions C61_bit.
Theorem C61_bit_normalized : forall F a i, In F all_fields -> any_rep F a -> 0 <= i ->
  if i <? fl_w F * Z.of_nat (fl_n F)
  then runs F "F::bit_normalized" [VArr a; VInt i] [VInt (b2z (Z.testbit (value F a) i))] [VArr a; VInt i]
  else panics F "F::bit_normalized" [VArr a; VInt i].
Proof. exact bit_normalized_every. Qed.
Print Assumptions C61_bit_normalized.
(** {:x} and {:X} print what packed() writes *)
Theorem C61_hex : forall F (up : bool) a out, In F all_fields -> any_rep F a ->
  exists s, runs F (if up then "F::UpperHex::fmt" else "F::LowerHex::fmt") [VArr a; VArr out] [] [VArr a; VArr (out ++ s)%list] /\
    List.length s = (2 * fl_nb F)%nat /\ hex_value up s = Some (settled F a mod 2 ^ written_bits F).
Proof. exact hex_every. Qed.
Print Assumptions C61_hex.

(** and / or act on the values in two's complement, of the settled values where
    they normalise *)
Theorem C61_bitwise : forall F a b, In F all_fields -> any_rep F a -> any_rep F b ->
  (exists o, runs F "F::normalized_bitand" [VArr a; VArr b] [] [VArr o; VArr b] /\ any_rep F o /\ value F o = Z.land (value F a) (value F b)) /\
  (exists o, runs F "F::normalized_bitor" [VArr a; VArr b] [] [VArr o; VArr b] /\ any_rep F o /\ value F o = Z.lor (value F a) (value F b)) /\
  (exists o, runs F "F::normalize_self_bitand" [VArr a; VArr b] [] [VArr o; VArr b] /\ any_rep F o /\ value F o = Z.land (settled F a) (value F b)) /\
  (exists o, runs F "F::normalize_self_bitor" [VArr a; VArr b] [] [VArr o; VArr b] /\ any_rep F o /\ value F o = Z.lor (settled F a) (value F b)) /\
  exists b', runs F "F::normalize" [VArr b] [] [VArr b'] /\
  (exists o, runs F "F::normalize_bitand" [VArr a; VArr b] [] [VArr o; VArr b'] /\ any_rep F o /\ value F o = Z.land (settled F a) (settled F b)) /\
  (exists o, runs F "F::normalize_bitor" [VArr a; VArr b] [] [VArr o; VArr b'] /\ any_rep F o /\ value F o = Z.lor (settled F a) (settled F b)).
Proof. exact bitwise_every. Qed.
Print Assumptions C61_bitwise.

(** 5 - 2^255 folds to 5 - 19, and -2^256 to -38, which is below -C *)
Example C61_case : produced e255_19 [5; 0; 0; 0; - 2 ^ 31] /\ folded e255_19 [5; 0; 0; 0; - 2 ^ 31] = -14 /\
  settled e255_19 [5; 0; 0; 0; - 2 ^ 31] = -14 /\
  any_rep e255_19 [0; 0; 0; 0; - 2 ^ 32] /\ folded e255_19 [0; 0; 0; 0; - 2 ^ 32] = -38 /\ settled e255_19 [0; 0; 0; 0; - 2 ^ 32] = -76 /\
  written_bits e255_19 = 255 /\ written_bits e383_187 = 384.
Proof. split; [show_rep|]. split; [reflexivity|]. split; [reflexivity|]. split; [show_rep|]. repeat split. Qed.
(** 5 - 2^255 and p - 14 are congruent, but not equal *)
Example C61_equality_case : let m := 2 ^ 56 - 1 in
  any_rep e255_19 [5; 0; 0; 0; - 2 ^ 31] /\ canonical e255_19 [m - 32; m; m; m; 2 ^ 31 - 1] /\
  eqmod e255_19 (value e255_19 [5; 0; 0; 0; - 2 ^ 31]) (value e255_19 [m - 32; m; m; m; 2 ^ 31 - 1]) /\
  runs e255_19 "F::normalize_eq" [VArr [5; 0; 0; 0; - 2 ^ 31]; VArr [m - 32; m; m; m; 2 ^ 31 - 1]] [VInt 0]
    [VArr [m - 13; m; m; m; -1]; VArr [m - 32; m; m; m; 2 ^ 31 - 1]].
Proof.
  intros m. split; [show_rep|]. split; [split; [show_rep|reflexivity]|]. split; [vm_compute; reflexivity|]. show_runs.
Qed.

(** C62.  When the generator's draws are in the range asked for, rand() returns
    them unchanged, one word each, and takes no others; ... *)
Theorem C62_draws : forall F ds p, In F all_fields -> runs F "F::modulus" [] [VArr p] [] -> (fl_n F <= List.length ds)%nat ->
  (forall i, (i < fl_n F)%nat -> 0 <= nth i ds 0 < nth i p 0) ->
  runs F "F::rand" [VArr ds] [VArr (firstn (fl_n F) ds)] [VArr (skipn (fl_n F) ds)].
Proof. exact rand_draws. Qed.
Print Assumptions C62_draws.
(** ... so that two sequences of draws give the same residue only if they are
    the same. *)
Theorem C62_distinct : forall F ds ds' p a b os os', In F all_fields -> runs F "F::modulus" [] [VArr p] [] ->
  (fl_n F <= List.length ds)%nat -> (fl_n F <= List.length ds')%nat ->
  (forall i, (i < fl_n F)%nat -> 0 <= nth i ds 0 < nth i p 0 /\ 0 <= nth i ds' 0 < nth i p 0) ->
  runs F "F::rand" [VArr ds] [VArr a] os -> runs F "F::rand" [VArr ds'] [VArr b] os' ->
  (eqmod F (value F a) (value F b) <-> firstn (fl_n F) ds = firstn (fl_n F) ds').
Proof. exact rand_distinct. Qed.
Print Assumptions C62_distinct.
(** Exactly as many residues are returned as the product of the modulus's words
    says; at least one in 2^t is not, t being the width of the top word. *)
Theorem C62_count : forall F p, In F all_fields -> runs F "F::modulus" [] [VArr p] [] ->
  (exists f : Z -> list Z,
    (forall l, (exists (ds : list Z) os, (fl_n F <= List.length ds)%nat /\ runs F "F::rand" [VArr ds] [VArr l] os) <->
       exists k, 0 <= k < fold_right Z.mul 1 p /\ f k = l) /\
    (forall k k', 0 <= k < fold_right Z.mul 1 p -> 0 <= k' < fold_right Z.mul 1 p ->
       eqmod F (value F (f k)) (value F (f k')) -> k = k')) /\
  modulus F <= 2 ^ fl_tb F * (modulus F - fold_right Z.mul 1 p).
Proof. exact rand_count. Qed.
Print Assumptions C62_count.
Example C62_case : let p := [2 ^ 58 - 3; 2 ^ 58 - 1; 2 ^ 58 - 1; 2 ^ 47 - 1] in
  runs e221_3 "F::modulus" [] [VArr p] [] /\
  (forall i, (i < fl_n e221_3)%nat -> 0 <= nth i [2 ^ 58 - 4; 0; 5; 2 ^ 47 - 2; 9] 0 < nth i p 0) /\
  runs e221_3 "F::rand" [VArr [2 ^ 58 - 4; 0; 5; 2 ^ 47 - 2; 9]] [VArr [2 ^ 58 - 4; 0; 5; 2 ^ 47 - 2]] [VArr [9]].
Proof.
  intros p. split; [show_runs|]. split; [|show_runs]. intros i Hi. do 4 (destruct i as [|i]; [split; [discriminate|reflexivity]|]).
  do 4 apply le_S_n in Hi. inversion Hi.
Qed.

(** C63.  Normalising twice always reaches reduced words, with the right residue
    unless the folded value was below -C; ... *)
Theorem C63_twice : forall F a, In F all_fields -> any_rep F a ->
  exists a1 a2, runs F "F::normalize" [VArr a] [] [VArr a1] /\ runs F "F::normalize" [VArr a1] [] [VArr a2] /\
    canonical F a2 /\ value F a2 = settled F a mod modulus F /\
    (eqmod F (value F a2) (value F a) <-> - fl_C F <= folded F a).
Proof. exact normalize_twice. Qed.
Print Assumptions C63_twice.
(** ... so that after one call of normalize() every observer is right on every
    value that the library produces (other than by small multiplication). *)
Theorem C63_observers : forall F a a1, In F all_fields -> produced F a -> runs F "F::normalize" [VArr a] [] [VArr a1] ->
  normal F a1 /\ eqmod F (value F a1) (value F a) /\
  (exists ws a', runs F "F::packed" [VArr a1] [VArr ws] [VArr a'] /\ is_bytes ws /\ List.length ws = fl_nb F /\ le_value ws = value F a mod modulus F) /\
  (forall i, 0 <= i < fl_w F * Z.of_nat (fl_n F) -> exists a', runs F "F::bit" [VArr a1; VInt i] [VInt (b2z (Z.testbit (value F a mod modulus F) i))] [VArr a'; VInt i]) /\
  (forall b b1, produced F b -> runs F "F::normalize" [VArr b] [] [VArr b1] ->
     exists r a' b', runs F "F::normalize_eq" [VArr a1; VArr b1] [r] [VArr a'; VArr b'] /\ truth (eqmod F (value F a) (value F b)) r) /\
  (forall (up : bool) out, exists s, runs F (if up then "F::UpperHex::fmt" else "F::LowerHex::fmt") [VArr a1; VArr out] [] [VArr a1; VArr (out ++ s)%list] /\
     List.length s = (2 * fl_nb F)%nat /\ hex_value up s = Some (value F a mod modulus F)).
Proof. exact normalized_observers. Qed.
Print Assumptions C63_observers.
(** 5 - 2^255 needs the second call: the first leaves -14, the second p - 14 *)
Example C63_case : let m := 2 ^ 56 - 1 in produced e255_19 [5; 0; 0; 0; - 2 ^ 31] /\
  runs e255_19 "F::normalize" [VArr [5; 0; 0; 0; - 2 ^ 31]] [] [VArr [m - 13; m; m; m; -1]] /\
  runs e255_19 "F::normalize" [VArr [m - 13; m; m; m; -1]] [] [VArr [m - 32; m; m; m; 2 ^ 31 - 1]] /\
  value e255_19 [m - 32; m; m; m; 2 ^ 31 - 1] = modulus e255_19 - 14.
Proof. intros m. split; [show_rep|]. split; [show_runs|]. split; [show_runs|]. vm_compute. reflexivity. Qed.
